(** PropMx.v -- the Model Exchange interface: C49 (states and derivatives), C50 (setting states), C51 (event indicators
    and nominal values), C52 (event update), C53 (output derivatives, completed integrator steps, status functions). *)
From Coq Require Import List NArith ZArith Bool Arith.
From Verif Require Import Base Instance ModelIface Core Fmi3 Fmi2 Api Fmus NumB64 Samples SpecModes SpecCreate SpecState SpecVars SpecSteps SpecMx Mx Mx2.
Import ListNotations.
Set Implicit Arguments.

(** C49: GetContinuousStates succeeds exactly for the number of states that GetNumberOfContinuousStates reports
    and then gives the values of the state variables. *)
Theorem C49_fmi3_states :
  forall (F : Type) (NF : Num F) szof (f : FMU) env fuel s b n,
    reach3 (model_of (F := F) FMI3 f) szof s ->
    In (mode_of s) [InitializationMode; EventMode; ContinuousTimeMode; Terminated] -> n <= length b ->
    answers (exec3 (model_of FMI3 f) szof fuel env (O3GetContinuousStates (Some b) n) s) b n
      (states3 f szof env s) (reads3 f szof env s (state_vrs f)).
Proof. exact @states_3. Qed.
(** The same for the derivatives. *)
Theorem C49_fmi3_derivatives :
  forall (F : Type) (NF : Num F) szof (f : FMU) env fuel s b n,
    reach3 (model_of (F := F) FMI3 f) szof s ->
    In (mode_of s) [InitializationMode; EventMode; ContinuousTimeMode; Terminated] -> n <= length b ->
    answers (exec3 (model_of FMI3 f) szof fuel env (O3GetContinuousStateDerivatives (Some b) n) s) b n
      (states3 f szof env s) (reads3 f szof env s (derivative_vrs f)).
Proof. exact @derivatives_3. Qed.
(** FMI 2: the number is that of ModelStructure. *)
Theorem C49_fmi2_states :
  forall (F : Type) (NF : Num F) szof (f : FMU) env fuel s b n, built2 f = true ->
    reach2 (model_of (F := F) FMI2 f) szof s ->
    In (mode_of s) [InitializationMode; EventMode; ContinuousTimeMode; Terminated] -> n <= length b ->
    answers (exec2 (model_of FMI2 f) szof fuel env (O2GetContinuousStates (Some b) n) s) b n
      (eq (length (state_vrs f))) (reads2 f szof env s (state_vrs f)).
Proof. exact @states_2. Qed.
Theorem C49_fmi2_derivatives :
  forall (F : Type) (NF : Num F) szof (f : FMU) env fuel s b n, built2 f = true ->
    reach2 (model_of (F := F) FMI2 f) szof s ->
    In (mode_of s) [EventMode; ContinuousTimeMode; Terminated] -> n <= length b ->
    answers (exec2 (model_of FMI2 f) szof fuel env (O2GetDerivatives (Some b) n) s) b n
      (eq (length (state_vrs f))) (reads2 f szof env s (derivative_vrs f)).
Proof. exact @derivatives_2. Qed.
(** VanDerPol in Continuous-Time Mode has two states and gives their values, 2 and 0. *)
Definition continuous f : list (Op3 B64 (md (m3' f))) :=
  [O3EnterInitializationMode (lit 0) true (lit 10); O3ExitInitializationMode; O3EnterContinuousTimeMode].
Definition continuous2 f : list (Op2 B64 (md (m2' f))) :=
  [O2EnterInitializationMode; O2ExitInitializationMode; O2EnterContinuousTimeMode].
Definition floats_of {D} (r : res (Status * Out B64 D * Sys B64 D * list (Event B64))) : option (Status * option (list B64)) :=
  match r with Done (st, OFloats b, _, _) => Some (st, b) | _ => None end.
Example C49_case : exists s, reach3 (m3' VanDerPol) szof0 s /\
  mode_of s = ContinuousTimeMode /\
  floats_of (exec3 (m3' VanDerPol) szof0 fuel0 env0 (O3GetContinuousStates (Some [lit 9; lit 9; lit 9]) 2) s) = Some (OK, Some [lit 2; lit 0; lit 9]) /\
  floats_of (exec3 (m3' VanDerPol) szof0 fuel0 env0 (O3GetContinuousStates (Some [lit 9; lit 9; lit 9]) 3) s) = Some (Error, Some [lit 9; lit 9; lit 9]).
Proof. case3 (newME VanDerPol) (continuous VanDerPol). auto. Qed.
Example C49_case2 : exists s, reach2 (m2' VanDerPol) szof0 s /\
  mode_of s = ContinuousTimeMode /\
  floats_of (exec2 (m2' VanDerPol) szof0 fuel0 env0 (O2GetContinuousStates (Some [lit 9; lit 9; lit 9]) 2) s) = Some (OK, Some [lit 2; lit 0; lit 9]).
Proof. case2 ModelExchange (continuous2 VanDerPol). auto. Qed.

(** C50: SetContinuousStates succeeds exactly for the number of states; then the state variables have the given
    values, and the variables which are neither states nor computed from them keep theirs. *)
Theorem C50_fmi3_set :
  forall (F : Type) (NF : Num F) szof (f : FMU) env fuel s x n,
    reach3 (model_of (F := F) FMI3 f) szof s -> mode_of s = ContinuousTimeMode -> n <= length x ->
    exists st s' tr, exec3 (model_of FMI3 f) szof fuel env (O3SetContinuousStates (Some x) n) s = Done (st, ONone, s', tr) /\
      (st = OK \/ st = Error) /\ (st = OK <-> states3 f szof env s n) /\
      (st = OK -> reads3 f szof env s' (state_vrs f) (firstn n x) /\
        forall t vr vs, declared FMI3 f t vr -> beside_states f vr ->
          get3 (model_of FMI3 f) szof env s t vr vs -> get3 (model_of FMI3 f) szof env s' t vr vs).
Proof. exact @set_states_3. Qed.
Theorem C50_fmi2_set :
  forall (F : Type) (NF : Num F) szof (f : FMU) env fuel s x n, built2 f = true ->
    reach2 (model_of (F := F) FMI2 f) szof s -> mode_of s = ContinuousTimeMode -> n <= length x ->
    exists st s' tr, exec2 (model_of FMI2 f) szof fuel env (O2SetContinuousStates (Some x) n) s = Done (st, ONone, s', tr) /\
      (st = OK \/ st = Error) /\ (st = OK <-> length (state_vrs f) = n) /\
      (st = OK -> reads2 f szof env s' (state_vrs f) (firstn n x) /\
        forall t vr y, declared FMI2 f t vr -> beside_states f vr ->
          get2 (model_of FMI2 f) szof env s t vr y -> get2 (model_of FMI2 f) szof env s' t vr y).
Proof. exact @set_states_2. Qed.
Example C50_case : exists s, reach3 (m3' BouncingBall) szof0 s /\ mode_of s = ContinuousTimeMode /\
  match exec3 (m3' BouncingBall) szof0 fuel0 env0 (O3SetContinuousStates (Some [lit 3; lit 4]) 2) s with
  | Done (OK, _, s', _) => vals_of (match exec3 (m3' BouncingBall) szof0 fuel0 env0 (O3Get TFloat64 (Some [1; 3; 2]%N) 3 (Some [lit 0; lit 0; lit 0]) 3) s' with
                                  | Done (_, o, _, _) => o | _ => ONone end) = Some [lit 3; lit 4; lit 4]
  | _ => False end.
Proof. case3 (newME BouncingBall) (continuous BouncingBall). auto. Qed.
Example C50_case_beside : beside_states BouncingBall 6 /\ declared FMI3 BouncingBall TFloat64 6.
Proof. split; [split; [intros [H|[H|[]]]; discriminate|intros w []]|exists []; cbn; tauto]. Qed.

(** C51: the event indicators: their number is the one reported, their values follow from the variables. *)
Theorem C51_fmi3_indicators :
  forall (F : Type) (NF : Num F) szof (f : FMU) env fuel s b n,
    reach3 (model_of (F := F) FMI3 f) szof s ->
    In (mode_of s) [InitializationMode; EventMode; ContinuousTimeMode; Terminated] -> n <= length b ->
    answers (exec3 (model_of FMI3 f) szof fuel env (O3GetEventIndicators (Some b) n) s) b n
      (indicators3 f szof env s) (indicator_values f (fun vr x => get3 (model_of FMI3 f) szof env s TFloat64 vr [x])).
Proof. exact @indicators_3. Qed.
Theorem C51_fmi2_indicators :
  forall (F : Type) (NF : Num F) szof (f : FMU) env fuel s b n, built2 f = true ->
    reach2 (model_of (F := F) FMI2 f) szof s ->
    In (mode_of s) [InitializationMode; EventMode; ContinuousTimeMode; Terminated] -> n <= length b ->
    answers (exec2 (model_of FMI2 f) szof fuel env (O2GetEventIndicators (Some b) n) s) b n
      (eq (length (indicator_vrs f))) (indicator_values f (fun vr x => get2 (model_of FMI2 f) szof env s TFloat64 vr x)).
Proof. exact @indicators_2. Qed.
(** The nominal values are those of the model description. *)
Theorem C51_fmi3_nominals :
  forall (F : Type) (NF : Num F) szof (f : FMU) env fuel s b n,
    reach3 (model_of (F := F) FMI3 f) szof s ->
    In (mode_of s) [InitializationMode; EventMode; ContinuousTimeMode; Terminated] -> n <= length b ->
    answers (exec3 (model_of FMI3 f) szof fuel env (O3GetNominalsOfContinuousStates (Some b) n) s) b n
      (states3 f szof env s) (eq (nominal_values f n)).
Proof. exact @nominals_3. Qed.
Theorem C51_fmi2_nominals :
  forall (F : Type) (NF : Num F) szof (f : FMU) env fuel s b n, built2 f = true ->
    reach2 (model_of (F := F) FMI2 f) szof s ->
    In (mode_of s) [Instantiated; EventMode; ContinuousTimeMode; Terminated] -> n <= length b ->
    answers (exec2 (model_of FMI2 f) szof fuel env (O2GetNominals (Some b) n) s) b n
      (eq (length (state_vrs f))) (eq (nominal_values f n)).
Proof. exact @nominals_2. Qed.
Example C51_case : exists s, reach3 (m3' BouncingBall) szof0 s /\ mode_of s = ContinuousTimeMode /\
  floats_of (exec3 (m3' BouncingBall) szof0 fuel0 env0 (O3GetEventIndicators (Some [lit 9; lit 9]) 1) s) = Some (OK, Some [lit 1; lit 9]).
Proof. case3 (newME BouncingBall) (continuous BouncingBall). auto. Qed.
(** The event indicators of Roberts are not the variables g1 and g2 (value references 9 and 10) that FMI3.xml
    declares as event indicators: those are never computed. *)
Theorem C51_declared_indicators_refuted : exists s z1 z2 g1 g2,
  reach3 (m3' Roberts) szof0 s /\
  floats_of (exec3 (m3' Roberts) szof0 fuel0 env0 (O3GetEventIndicators (Some [lit 9; lit 9]) 2) s) = Some (OK, Some [z1; z2]) /\
  get3 (m3' Roberts) szof0 env0 s TFloat64 9%N [g1] /\ get3 (m3' Roberts) szof0 env0 s TFloat64 10%N [g2] /\
  z1 <> g1.
Proof.
  do 5 eexists. split.
  { apply (@sample3 _ (newME Roberts) (continuous Roberts)); [left; reflexivity|repeat constructor|vm_compute; reflexivity]. }
  split; [vm_compute; reflexivity|].
  split; [exists [lit 0]; do 2 eexists; split; [reflexivity|vm_compute; reflexivity]|].
  split; [exists [lit 0]; do 2 eexists; split; [reflexivity|vm_compute; reflexivity]|].
  vm_compute. discriminate.
Qed.
(** Nor is that of BouncingBall always its height (value reference 1), as FMI3.xml says. *)
Theorem C51_height_indicator_refuted : exists s z h,
  reach3 (m3' BouncingBall) szof0 s /\
  floats_of (exec3 (m3' BouncingBall) szof0 fuel0 env0 (O3GetEventIndicators (Some [lit 9]) 1) s) = Some (OK, Some [z]) /\
  get3 (m3' BouncingBall) szof0 env0 s TFloat64 1%N [h] /\ z <> h.
Proof.
  do 3 eexists. split.
  { apply (@sample3 _ (newME BouncingBall) (continuous BouncingBall ++ [O3SetContinuousStates (Some [lit 0; lit 1]) 2]));
      [left; reflexivity|repeat constructor|vm_compute; reflexivity]. }
  split; [vm_compute; reflexivity|].
  split; [exists [lit 0]; do 2 eexists; split; [reflexivity|vm_compute; reflexivity]|].
  vm_compute. discriminate.
Qed.

(** C52: UpdateDiscreteStates (FMI 2: NewDiscreteStates).  FMUs without events report that nothing happened, and no
    variable changes. *)
Theorem C52_fmi3_eventless :
  forall (F : Type) (NF : Num F) szof (f : FMU) env fuel s, f <> BouncingBall /\ f <> Stair ->
    reach3 (model_of (F := F) FMI3 f) szof s ->
    exists s', exec3 (model_of FMI3 f) szof fuel env O3UpdateDiscreteStates s = Done (OK, OEventInfo (Some (only_values false)), s', []) /\
      mode_of s' = mode_of s /\ forall e, reads_same (model_of FMI3 f) szof e s s'.
Proof. exact @update_eventless_3. Qed.
Theorem C52_fmi2_eventless :
  forall (F : Type) (NF : Num F) szof (f : FMU) env fuel s, f <> BouncingBall /\ f <> Stair -> built2 f = true ->
    reach2 (model_of (F := F) FMI2 f) szof s -> mode_of s = EventMode ->
    exists s', exec2 (model_of FMI2 f) szof fuel env (O2NewDiscreteStates true) s = Done (OK, OEventInfo (Some (only_values false)), s', []) /\
      mode_of s' = mode_of s /\ forall e t vr x, get2 (model_of FMI2 f) szof e s t vr x -> get2 (model_of FMI2 f) szof e s' t vr x.
Proof. exact @update_eventless_2. Qed.
(** BouncingBall: the ball bounces if its height is at most 0 and it falls, and exactly then the call reports that
    the values of the states changed. *)
Theorem C52_fmi3_bounce :
  forall (F : Type) (NF : Num F) szof env fuel s,
    reach3 (model_of (F := F) FMI3 BouncingBall) szof s ->
    exists changed s', exec3 (model_of FMI3 BouncingBall) szof fuel env O3UpdateDiscreteStates s = Done (OK, OEventInfo (Some (only_values changed)), s', []) /\
      mode_of s' = mode_of s /\
      forall e, ball_event (fun vr x => get3 (model_of FMI3 BouncingBall) szof e s TFloat64 vr [x])
        (fun vr x => get3 (model_of FMI3 BouncingBall) szof e s' TFloat64 vr [x]) changed.
Proof. exact @update_ball_3. Qed.
Theorem C52_fmi2_bounce :
  forall (F : Type) (NF : Num F) szof env fuel s,
    reach2 (model_of (F := F) FMI2 BouncingBall) szof s -> mode_of s = EventMode ->
    exists changed s', exec2 (model_of FMI2 BouncingBall) szof fuel env (O2NewDiscreteStates true) s = Done (OK, OEventInfo (Some (only_values changed)), s', []) /\
      mode_of s' = mode_of s /\
      forall e, ball_event (fun vr x => get2 (model_of FMI2 BouncingBall) szof e s TFloat64 vr x)
        (fun vr x => get2 (model_of FMI2 BouncingBall) szof e s' TFloat64 vr x) changed.
Proof. exact @update_ball_2. Qed.
(** Stair: if a time event is due the counter grows by one and the next event is one second later; the simulation
    shall end when the counter has reached ten; above ten the call fails. *)
Theorem C52_fmi3_stair :
  forall (F : Type) (NF : Num F) szof env fuel s c,
    reach3 (model_of (F := F) FMI3 Stair) szof s ->
    get3 (model_of FMI3 Stair) szof env s TInt32 1 [c] -> (- 2147483648 <= c < 2147483647)%Z ->
    exists c' info s', stair_event s c c' info /\
      (if Z.leb c' 10
       then exec3 (model_of FMI3 Stair) szof fuel env O3UpdateDiscreteStates s = Done (OK, OEventInfo (Some info), s', []) /\ mode_of s' = mode_of s
       else exists tr, exec3 (model_of FMI3 Stair) szof fuel env O3UpdateDiscreteStates s = Done (Error, OEventInfo None, s', tr) /\ mode_of s' = Terminated) /\
      get3 (model_of FMI3 Stair) szof env s' TInt32 1 [c'].
Proof. exact @update_stair_3. Qed.
Theorem C52_fmi2_stair :
  forall (F : Type) (NF : Num F) szof env fuel s c,
    reach2 (model_of (F := F) FMI2 Stair) szof s -> mode_of s = EventMode ->
    get2 (model_of FMI2 Stair) szof env s TInt32 1 c -> (- 2147483648 <= c < 2147483647)%Z ->
    exists c' info s', stair_event s c c' info /\
      (if Z.leb c' 10
       then exec2 (model_of FMI2 Stair) szof fuel env (O2NewDiscreteStates true) s = Done (OK, OEventInfo (Some info), s', []) /\ mode_of s' = mode_of s
       else exists tr, exec2 (model_of FMI2 Stair) szof fuel env (O2NewDiscreteStates true) s = Done (Error, OEventInfo None, s', tr) /\ mode_of s' = Terminated) /\
      get2 (model_of FMI2 Stair) szof env s' TInt32 1 c'.
Proof. exact @update_stair_2. Qed.
(** A ball on the ground that falls: reported; Stair at time 1: the counter becomes 2, the next event is at 2. *)
Definition info_in {D} (r : res (Status * Out B64 D * Sys B64 D * list (Event B64))) : option (Status * option (EventInfo B64)) :=
  match r with Done (st, OEventInfo b, _, _) => Some (st, b) | _ => None end.
Example C52_case_ball : exists s, reach3 (m3' BouncingBall) szof0 s /\ mode_of s = EventMode /\
  info_in (exec3 (m3' BouncingBall) szof0 fuel0 env0 O3UpdateDiscreteStates s) = Some (OK, Some (only_values true)).
Proof. case3 (newME BouncingBall) (continuous BouncingBall ++ [O3SetContinuousStates (Some [lit 0; lit (-1)]) 2; O3EnterEventMode]). auto. Qed.
Example C52_case_stair : exists s, reach3 (m3' Stair) szof0 s /\ mode_of s = EventMode /\ due s = true /\
  info_in (exec3 (m3' Stair) szof0 fuel0 env0 O3UpdateDiscreteStates s) = Some (OK, Some (mkEventInfo false false false false true (lit 2))).
Proof. case3 (newME Stair) (continuous Stair ++ [O3SetTime (lit 1); O3EnterEventMode]). auto. Qed.
Example C52_case_stair2 : exists s, reach2 (m2' Stair) szof0 s /\ mode_of s = EventMode /\ due s = true /\
  info_in (exec2 (m2' Stair) szof0 fuel0 env0 (O2NewDiscreteStates true) s) = Some (OK, Some (mkEventInfo false false false false true (lit 2))).
Proof. case2 ModelExchange (continuous2 Stair ++ [O2SetTime (lit 1); O2EnterEventMode]). auto. Qed.

(** C53: the derivatives of the height and the velocity of the ball, of order 1, are the variables der(h) and der(v),
    whose value references are the next ones; for other variables and orders the call fails ... *)
Theorem C53_fmi3_output_derivatives :
  forall (F : Type) (NF : Num F) szof env fuel s vrs os b,
    reach3 (model_of (F := F) FMI3 BouncingBall) szof s ->
    mode_of s = StepMode \/ mode_of s = Terminated -> length os = length vrs -> length vrs <= length b ->
    answers (exec3 (model_of FMI3 BouncingBall) szof fuel env (O3GetOutputDerivatives (Some vrs) (length vrs) (Some os) (Some b)) s) b (length vrs)
      (fun _ => Forall2 offered vrs os) (Forall2 (fun vr x => get3 (model_of FMI3 BouncingBall) szof env s TFloat64 (vr + 1) [x]) vrs).
Proof. exact @out_ders_3. Qed.
Theorem C53_fmi2_output_derivatives :
  forall (F : Type) (NF : Num F) szof env fuel s vrs os b,
    reach2 (model_of (F := F) FMI2 BouncingBall) szof s ->
    mode_of s = StepComplete \/ mode_of s = Terminated -> length os = length vrs -> length vrs <= length b ->
    answers (exec2 (model_of FMI2 BouncingBall) szof fuel env (O2GetRealOutputDerivatives (Some vrs) (length vrs) (Some os) (Some b)) s) b (length vrs)
      (fun _ => Forall2 offered vrs os) (Forall2 (fun vr x => get2 (model_of FMI2 BouncingBall) szof env s TFloat64 (vr + 1) x) vrs).
Proof. exact @out_ders_2. Qed.
(** ... as it always does for the other FMUs. *)
Theorem C53_fmi3_no_output_derivatives :
  forall (F : Type) (NF : Num F) szof (f : FMU) env fuel (s : Sys F (md (model_of FMI3 f))) vrs n os b,
    f <> BouncingBall -> mode_of s = StepMode \/ mode_of s = Terminated ->
    exists t s', exec3 (model_of FMI3 f) szof fuel env (O3GetOutputDerivatives vrs n os b) s = Done (Error, OFloats b, s', t).
Proof. exact @no_out_ders_3. Qed.
Theorem C53_fmi2_no_output_derivatives :
  forall (F : Type) (NF : Num F) szof (f : FMU) env fuel (s : Sys F (md (model_of FMI2 f))) vrs n os b,
    f <> BouncingBall -> mode_of s = StepComplete \/ mode_of s = Terminated ->
    exists t s', exec2 (model_of FMI2 f) szof fuel env (O2GetRealOutputDerivatives vrs n os b) s = Done (Error, OFloats b, s', t).
Proof. exact @no_out_ders_2. Qed.
(** A completed integrator step never asks for an event or the end of the simulation and changes nothing. *)
Theorem C53_fmi3_completed :
  forall (F : Type) (NF : Num F) szof (f : FMU) env fuel (s : Sys F (md (model_of FMI3 f))),
    mode_of s = ContinuousTimeMode ->
    exec3 (model_of FMI3 f) szof fuel env (O3CompletedIntegratorStep (Some tt) (Some tt)) s = Done (OK, OFlags (Some (false, false)), s, []).
Proof. exact @completed_3. Qed.
Theorem C53_fmi2_completed :
  forall (F : Type) (NF : Num F) szof (f : FMU) env fuel (s : Sys F (md (model_of FMI2 f))),
    mode_of s = ContinuousTimeMode ->
    exec2 (model_of FMI2 f) szof fuel env (O2CompletedIntegratorStep (Some tt) (Some tt)) s = Done (OK, OFlags (Some (false, false)), s, []).
Proof. exact @completed_2. Qed.
(** After a DoStep of FMI 2 that returned Discard, the status functions say that the FMU wants to end the simulation
    and which time it has reached. *)
Theorem C53_fmi2_discard_explained :
  forall (F : Type) (NF : Num F) szof (f : FMU) env fuel ccp h s out s' t,
    built2 f = true -> reach2 (model_of (F := F) FMI2 f) szof s ->
    exec2 (model_of FMI2 f) szof fuel env (O2DoStep ccp h) s = Done (Discard, out, s', t) ->
    (forall e k, exec2 (model_of FMI2 f) szof k e (O2GetBooleanStatus KTerminated true) s' = Done (OK, OBool (Some true), s', [])) /\
    (forall e k, exec2 (model_of FMI2 f) szof k e (O2GetRealStatus LastSuccessfulTime true) s' = Done (OK, OReal (Some (time_of s')), s', [])).
Proof. exact @explained_2. Qed.
Theorem C53_fmi2_last_successful_time :
  forall (F : Type) (NF : Num F) szof (f : FMU) env fuel (s : Sys F (md (model_of FMI2 f))),
    mode_of s = StepComplete \/ mode_of s = Terminated ->
    exec2 (model_of FMI2 f) szof fuel env (O2GetRealStatus LastSuccessfulTime true) s = Done (OK, OReal (Some (time_of s)), s, []).
Proof. exact @last_time_2. Qed.
Example C53_case : exists s, reach3 (m3' BouncingBall) szof0 s /\ mode_of s = StepMode /\
  floats_of (exec3 (m3' BouncingBall) szof0 fuel0 env0 (O3GetOutputDerivatives (Some [3; 1]%N) 2 (Some [1; 1]%Z) (Some [lit 9; lit 9; lit 9])) s)
    = Some (OK, Some [nlit (-981) (-2); lit 0; lit 9]).
Proof. case3 (newCS false false BouncingBall) [O3EnterInitializationMode (F := B64) (D := md (m3' BouncingBall)) (lit 0) true (lit 10); O3ExitInitializationMode]. auto. Qed.
(** Stair reaches ten. *)
Example C53_case_discard : exists s, reach2 (m2' Stair) szof0 s /\
  match exec2 (m2' Stair) szof0 fuel0 env0 (O2DoStep (lit 0) (lit 20)) s with Done (Discard, _, _, _) => True | _ => False end.
Proof.
  case2 CoSimulation [O2SetupExperiment (F := B64) (D := md (m2' Stair)) (lit 0) true (lit 30); O2EnterInitializationMode; O2ExitInitializationMode].
  exact I.
Qed.

Definition PropMx_all := (@C49_fmi3_states, @C49_fmi3_derivatives, @C49_fmi2_states, @C49_fmi2_derivatives, @C50_fmi3_set, @C50_fmi2_set,
  @C51_fmi3_indicators, @C51_fmi2_indicators, @C51_fmi3_nominals, @C51_fmi2_nominals, @C51_declared_indicators_refuted, @C51_height_indicator_refuted,
  @C52_fmi3_eventless, @C52_fmi2_eventless, @C52_fmi3_bounce, @C52_fmi2_bounce, @C52_fmi3_stair, @C52_fmi2_stair,
  @C53_fmi3_output_derivatives, @C53_fmi2_output_derivatives, @C53_fmi3_no_output_derivatives, @C53_fmi2_no_output_derivatives,
  @C53_fmi3_completed, @C53_fmi2_completed, @C53_fmi2_discard_explained, @C53_fmi2_last_successful_time).
Print Assumptions PropMx_all.
