(** PropModes.v -- properties C01-C06: which calls are allowed when, what failures do, the mode
    graphs, the statuses. *)
From Coq Require Import List NArith ZArith Bool.
From Verif Require Import Base Instance ModelIface Core Fmi3 Fmi2 Api Fmus NumB64 LawsFmus SpecModes SpecHist
  SpecCreate Gate Reach Histories Modes Samples.
Import ListNotations.
Set Implicit Arguments.

(** C01: an fmi3 call in a mode that forbids it returns Error, leaves the output arguments as they
    were and only puts the instance into Terminated (and sends one error message if enabled). *)
Theorem C01_forbidden_calls_have_no_effect :
  forall (F : Type) (NF : Num F) (f : FMU) szof fuel env (o : Op3 F (md (model_of FMI3 f))) s,
    In (mode_of s) modes3 -> ~ In (mode_of s) (when3 o) ->
    exec3 (model_of FMI3 f) szof fuel env o s =
    Done (Error, untouched3 (model_of FMI3 f) o, with_mode Terminated s, refusal s).
Proof. intros F NF f. exact (gate3_all (model_of FMI3 f)). Qed.
Print Assumptions C01_forbidden_calls_have_no_effect.
Example C01_applies : exists s, reach3 (m3' BouncingBall) szof0 s /\
  mode_of s = StepMode /\ ~ In (mode_of s) (when3 (D := md (m3' BouncingBall)) (O3SetTime (lit 1))).
Proof.
  case3 (newCS false false BouncingBall)
    [O3EnterInitializationMode (D := md (m3' BouncingBall)) (lit 0) false (lit 0);
     O3ExitInitializationMode; O3DoStep (lit 0) (nlit 1 (-1)) true true true true].
  split; [reflexivity|]. intros [H|[H|[]]]; discriminate.
Qed.

(** C02: the same for FMI 2.0. *)
Theorem C02_forbidden_calls_have_no_effect :
  forall (F : Type) (NF : Num F) (f : FMU) szof fuel env (o : Op2 F (md (model_of FMI2 f))) s,
    ~ In (mode_of s) (when2 o) ->
    exec2 (model_of FMI2 f) szof fuel env o s =
    Done (Error, untouched2 (model_of FMI2 f) o, with_mode Terminated s, refusal s).
Proof. intros F NF f. exact (@gate2 F NF (model_of FMI2 f)). Qed.
Print Assumptions C02_forbidden_calls_have_no_effect.
Example C02_applies : exists s, reach2 (m2' VanDerPol) szof0 s /\
  mode_of s = StepComplete /\ ~ In (mode_of s) (when2 (D := md (m2' VanDerPol)) (O2SetTime (lit 1))).
Proof.
  case2 CoSimulation
    [O2SetupExperiment (D := md (m2' VanDerPol)) (lit 0) false (lit 0); O2EnterInitializationMode;
     O2ExitInitializationMode; O2DoStep (lit 0) (nlit 1 (-1))].
  split; [reflexivity|]. intros [H|[H|[]]]; discriminate.
Qed.

(** C03: failure terminates; success does not. *)
Theorem C03_errors_terminate :
  forall (F : Type) (NF : Num F) (f : FMU) szof fuel env (o : Op3 F (md (model_of FMI3 f))) s out s' t,
    reach3 (model_of FMI3 f) szof s ->
    exec3 (model_of FMI3 f) szof fuel env o s = Done (Error, out, s', t) ->
    terminating (has_output_derivatives f) o = true ->
    mode_of s' = Terminated.
Proof. exact @errors_terminate. Qed.
Print Assumptions C03_errors_terminate.
Theorem C03_success_does_not_terminate :
  forall (F : Type) (NF : Num F) (f : FMU) szof fuel env (o : Op3 F (md (model_of FMI3 f))) s out s' t,
    reach3 (model_of FMI3 f) szof s -> mode_of s <> Terminated ->
    exec3 (model_of FMI3 f) szof fuel env o s = Done (OK, out, s', t) ->
    mode_of s' = Terminated ->
    o = O3Terminate \/
    exists h i, o = O3SetFMUState (Some h) /\ saved s h = Some i /\ mode (ctl i) = Terminated.
Proof. exact @success_does_not_terminate. Qed.
Print Assumptions C03_success_does_not_terminate.
(** a failure at the second of three elements *)
Example C03_applies : exists s, reach3 (m3' Feedthrough) szof0 s /\
  exists out s' t, exec3 (m3' Feedthrough) szof0 fuel0 env0
    (O3Get TFloat64 (Some [7; 99; 8]%N) 3 (Some [lit 5; lit 6; lit 7]) 3) s = Done (Error, out, s', t) /\
    mode_of s' = Terminated.
Proof.
  case3 (newCS false false Feedthrough)
    [O3EnterInitializationMode (D := md (m3' Feedthrough)) (lit 0) false (lit 0); O3ExitInitializationMode].
  do 3 eexists. split; reflexivity.
Qed.
Example C03_success_applies : exists s, reach3 (m3' Stair) szof0 s /\
  exists out s' t, exec3 (m3' Stair) szof0 fuel0 env0 (O3SetFMUState (Some 0)) s = Done (OK, out, s', t) /\
    mode_of s = Instantiated /\ mode_of s' = Terminated.
Proof.
  case3 (newCS false false Stair)
    [O3EnterInitializationMode (D := md (m3' Stair)) (lit 0) false (lit 0); O3ExitInitializationMode;
     O3Terminate; O3GetFMUState true None; O3Reset].
  do 3 eexists. repeat split.
Qed.

(** C04: the mode moves only along [edges3]; OK means it is [next3]; an error terminates or (not
    implemented functions) leaves it; Terminated is left by Reset and SetFMUState only. *)
Theorem C04_mode_graph :
  forall (F : Type) (NF : Num F) (f : FMU) szof s,
    reach3 (model_of FMI3 f) szof s ->
    In (mode_of s) observable3 /\
    forall fuel env (o : Op3 F (md (model_of FMI3 f))) st out s' t,
      exec3 (model_of FMI3 f) szof fuel env o s = Done (st, out, s', t) ->
      (mode_of s' = mode_of s \/ mode_of s' = Terminated \/ In (mode_of s, mode_of s') edges3 \/
       restarts3 o = true) /\
      (st = OK -> mode_of s' = next3 o s /\ In (mode_of s) (when3 o)).
Proof. exact @mode_graph3. Qed.
Print Assumptions C04_mode_graph.
Theorem C04_terminated_until_reset :
  forall (F : Type) (NF : Num F) (f : FMU) szof fuel l s obs s',
    mode_of s = Terminated -> Forall (fun p => restarts3 (snd p) = false) l ->
    run3 (model_of FMI3 f) szof fuel l s = Done (obs, s') -> mode_of s' = Terminated.
Proof. intros F NF f szof fuel. exact (run3_terminated szof (model_laws FMI3 f) fuel). Qed.
Print Assumptions C04_terminated_until_reset.
Example C04_applies : exists s, reach3 (m3' StateSpace) szof0 s /\ mode_of s = ReconfigurationMode.
Proof.
  case3 (newME StateSpace)
    [O3EnterConfigurationMode (D := md (m3' StateSpace)); O3ExitConfigurationMode;
     O3EnterInitializationMode (lit 0) false (lit 0); O3ExitInitializationMode;
     O3EnterContinuousTimeMode; O3EnterEventMode; O3EnterConfigurationMode].
  reflexivity.
Qed.

(** C05: the same for FMI 2.0. *)
Theorem C05_mode_graph :
  forall (F : Type) (NF : Num F) (f : FMU) szof s,
    reach2 (model_of FMI2 f) szof s ->
    In (mode_of s) observable2 /\
    forall fuel env (o : Op2 F (md (model_of FMI2 f))) st out s' t,
      exec2 (model_of FMI2 f) szof fuel env o s = Done (st, out, s', t) ->
      (mode_of s' = mode_of s \/ mode_of s' = Terminated \/ In (mode_of s, mode_of s') edges2 \/
       restarts2 o = true) /\
      (st = OK -> mode_of s' = next2 o s /\ In (mode_of s) (when2 o)) /\
      (st = Error -> mode_of s' = Terminated) /\
      (st = Discard -> mode_of s' = mode_of s).
Proof. exact @mode_graph2. Qed.
Print Assumptions C05_mode_graph.
Theorem C05_terminated_until_reset :
  forall (F : Type) (NF : Num F) (f : FMU) szof fuel l s obs s',
    mode_of s = Terminated -> Forall (fun p => restarts2 (snd p) = false) l ->
    run2 (model_of FMI2 f) szof fuel l s = Done (obs, s') -> mode_of s' = Terminated.
Proof. intros F NF f szof fuel. exact (run2_terminated szof (model_laws FMI2 f) fuel). Qed.
Print Assumptions C05_terminated_until_reset.
Example C05_applies : exists s, reach2 (m2' BouncingBall) szof0 s /\ mode_of s = ContinuousTimeMode.
Proof.
  case2 ModelExchange
    [O2SetupExperiment (D := md (m2' BouncingBall)) (lit 0) false (lit 0); O2EnterInitializationMode;
     O2ExitInitializationMode; O2NewDiscreteStates true; O2EnterContinuousTimeMode].
  reflexivity.
Qed.

(** C06: statuses. *)
Theorem C06_fmi3_statuses :
  forall (F : Type) (NF : Num F) (f : FMU) szof fuel env (o : Op3 F (md (model_of FMI3 f))) s st out s' t,
    reach3 (model_of FMI3 f) szof s ->
    exec3 (model_of FMI3 f) szof fuel env o s = Done (st, out, s', t) -> st = OK \/ st = Error.
Proof. exact @statuses3. Qed.
Print Assumptions C06_fmi3_statuses.
Theorem C06_fmi2_statuses :
  forall (F : Type) (NF : Num F) (f : FMU) szof fuel env (o : Op2 F (md (model_of FMI2 f))) s st out s' t,
    exec2 (model_of FMI2 f) szof fuel env o s = Done (st, out, s', t) ->
    st = OK \/ st = Error \/ (st = Discard /\
      match o with
      | O2DoStep _ _ => terminateSimulation (mut (sinst s')) = true
      | O2GetStatus _ | O2GetRealStatus _ _ | O2GetBooleanStatus _ _ => True
      | _ => False
      end).
Proof. exact @statuses2. Qed.
Print Assumptions C06_fmi2_statuses.
(** Discard happens: Stair reaches its end within a step. *)
Example C06_discard_occurs : exists s, reach2 (m2' Stair) szof0 s /\
  exists out s' t, exec2 (m2' Stair) szof0 fuel0 env0 (O2DoStep (lit 0) (lit 20)) s = Done (Discard, out, s', t).
Proof.
  case2 CoSimulation
    [O2SetupExperiment (D := md (m2' Stair)) (lit 0) false (lit 0); O2EnterInitializationMode;
     O2ExitInitializationMode].
  do 3 eexists. reflexivity.
Qed.
