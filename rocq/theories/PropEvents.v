(** PropEvents.v -- properties of the trajectory and of the events: C21, C45, C46; C19 in FMI 2.0. *)
From Coq Require Import List NArith ZArith Bool Arith Reals.
From Verif Require Import Base Instance ModelIface Core Fmi3 Fmi2 Api Fmus NumB64 NumR SpecModes SpecCreate SpecState SpecVars SpecEqs SpecSteps SpecOde
  StepReal Cut CutReal Ode Crossing Samples PropSteps.
Import ListNotations.
Set Implicit Arguments.

(** C21: two sequences of DoStep calls from the same instance, cut in any way, that run the same number
    of solver steps lead to the same time and to the same values of all variables.  No event mode. *)
Theorem C21_fmi3_trajectory :
  forall (F : Type) (NF : Num F) szof (f : FMU) fuel env l1 l2 s obs1 obs2 s1 s2,
    let m := model_of (F := F) FMI3 f in
    reach3 m szof s -> eventModeUsed (ctl (sinst s)) = false ->
    Forall (fun o => is_DoStep3 o = true) l1 -> Forall (fun o => is_DoStep3 o = true) l2 ->
    run3 m szof fuel (map (fun o => (env, o)) l1) s = Done (obs1, s1) -> Forall (fun x => fst (fst x) = OK) obs1 ->
    run3 m szof fuel (map (fun o => (env, o)) l2) s = Done (obs2, s2) -> Forall (fun x => fst (fst x) = OK) obs2 ->
    (steps_of s + N.of_nat (fuel * length l1) < two64)%N -> (steps_of s + N.of_nat (fuel * length l2) < two64)%N ->
    steps_of s1 = steps_of s2 ->
    time_of s1 = time_of s2 /\ forall e, reads_same m szof e s1 s2.
Proof. exact @trajectory3. Qed.
Theorem C21_fmi2_trajectory :
  forall (F : Type) (NF : Num F) szof (f : FMU), built2 f = true ->
    forall fuel env l1 l2 s obs1 obs2 s1 s2,
    let m := model_of (F := F) FMI2 f in
    reach2 m szof s ->
    Forall (fun o => is_DoStep2 o = true) l1 -> Forall (fun o => is_DoStep2 o = true) l2 ->
    run2 m szof fuel (map (fun o => (env, o)) l1) s = Done (obs1, s1) -> Forall (fun x => fst (fst x) <> Error) obs1 ->
    run2 m szof fuel (map (fun o => (env, o)) l2) s = Done (obs2, s2) -> Forall (fun x => fst (fst x) <> Error) obs2 ->
    (steps_of s + N.of_nat (fuel * length l1) < two64)%N -> (steps_of s + N.of_nat (fuel * length l2) < two64)%N ->
    steps_of s1 = steps_of s2 ->
    time_of s1 = time_of s2 /\ forall e, reads_same2 m szof e s1 s2.
Proof. exact @trajectory2. Qed.
(** In exact arithmetic two chains of steps with the same end, none of them returning early, run the
    same number of solver steps, hence lead to the same time and values: the sizes of the steps do not
    matter. *)
Theorem C21_fmi3_exact :
  forall (inf : R) szof (f : FMU) fuel env hs1 hs2 a s obs1 obs2 s1 s2,
    let NF := NumR inf in
    let m := model_of (F := R) FMI3 f in
    reach3 m szof s -> on_grid (m_step m) (ctl (sinst s)) -> eventModeUsed (ctl (sinst s)) = false ->
    (steps_of s + N.of_nat (fuel * length hs1) + 1 < two64)%N -> (steps_of s + N.of_nat (fuel * length hs2) + 1 < two64)%N ->
    run3 m szof fuel (map (fun o => (env, o)) (chain3 a hs1)) s = Done (obs1, s1) -> Forall whole3 obs1 ->
    run3 m szof fuel (map (fun o => (env, o)) (chain3 a hs2)) s = Done (obs2, s2) -> Forall whole3 obs2 ->
    hs1 <> [] -> hs2 <> [] -> upto a hs1 = upto a hs2 ->
    time_of s1 = time_of s2 /\ forall e, reads_same m szof e s1 s2.
Proof. exact cuts3. Qed.
Theorem C21_fmi2_exact :
  forall (inf : R) szof (f : FMU), built2 f = true ->
    forall fuel env hs1 hs2 a s obs1 obs2 s1 s2,
    let NF := NumR inf in
    let m := model_of (F := R) FMI2 f in
    reach2 m szof s -> on_grid (m_step m) (ctl (sinst s)) ->
    (steps_of s + N.of_nat (fuel * length hs1) + 1 < two64)%N -> (steps_of s + N.of_nat (fuel * length hs2) + 1 < two64)%N ->
    run2 m szof fuel (map (fun o => (env, o)) (chain2 a hs1)) s = Done (obs1, s1) -> Forall whole2 obs1 ->
    run2 m szof fuel (map (fun o => (env, o)) (chain2 a hs2)) s = Done (obs2, s2) -> Forall whole2 obs2 ->
    hs1 <> [] -> hs2 <> [] -> upto a hs1 = upto a hs2 ->
    time_of s1 = time_of s2 /\ forall e, reads_same2 m szof e s1 s2.
Proof. exact cuts2. Qed.
(** Two cuttings of the first 0.3 s of VanDerPol: 30 solver steps each. *)
Definition cut_a f : list (Op3 B64 (md (m3' f))) := [step3 f (lit 0) (nlit 3 (-1))].
Definition cut_b f : list (Op3 B64 (md (m3' f))) := [step3 f (lit 0) (nlit 1 (-1)); step3 f (nlit 1 (-1)) (nlit 5 (-2)); step3 f (nlit 15 (-2)) (nlit 15 (-2))].
Definition run_cut f l s := match run3 (m3' f) szof0 fuel0 (map (fun o => (env0, o)) l) s with
  | Done (obs, s') => Some (forallb (fun x => match fst (fst x) with OK => true | _ => false end) obs, steps_of s') | _ => None end.
Example C21_fmi3_case : exists s, reach3 (m3' VanDerPol) szof0 s /\
  eventModeUsed (ctl (sinst s)) = false /\ run_cut VanDerPol (cut_a VanDerPol) s = Some (true, 30%N) /\ run_cut VanDerPol (cut_b VanDerPol) s = Some (true, 30%N).
Proof. case3 (newCS false false VanDerPol) (start3 VanDerPol). auto. Qed.
Definition run_cut2 f l s := match run2 (m2' f) szof0 fuel0 (map (fun o => (env0, o)) l) s with
  | Done (obs, s') => Some (forallb (fun x => match fst (fst x) with OK => true | _ => false end) obs, steps_of s') | _ => None end.
Example C21_fmi2_case : exists s, reach2 (m2' VanDerPol) szof0 s /\
  run_cut2 VanDerPol [step2 VanDerPol (lit 0) (nlit 3 (-1))] s = Some (true, 30%N) /\
  run_cut2 VanDerPol [step2 VanDerPol (lit 0) (nlit 1 (-1)); step2 VanDerPol (nlit 1 (-1)) (nlit 2 (-1))] s = Some (true, 30%N).
Proof. case2 CoSimulation (start2 VanDerPol). auto. Qed.

(** C19 in FMI 2.0: the time after a step is the last point of the grid that is not beyond its end (up to
    the tolerance). *)
Theorem C19_fmi2_reached_exact :
  forall (inf : R) szof (f : FMU), built2 f = true ->
    forall fuel env ccp h s out s' t,
    let NF := NumR inf in
    let m := model_of (F := R) FMI2 f in
    let a := start_of s in
    let p := (ccp + h)%R in
    let n' := steps_of s' in
    reach2 m szof s -> on_grid (m_step m) (ctl (sinst s)) -> (steps_of s + N.of_nat fuel + 1 < two64)%N ->
    exec2 m szof fuel env (O2DoStep ccp h) s = Done (OK, out, s', t) ->
    time_of s' = gridR a (m_step m) n' /\ (steps_of s <= n')%N /\
    (forall q, (steps_of s < q <= n')%N -> (gridR a (m_step m) q <= p + tol (gridR a (m_step m) q) p)%R) /\
    (forall q, (n' < q)%N -> (p + tol (gridR a (m_step m) q) p < gridR a (m_step m) q)%R).
Proof. exact reaches2_R. Qed.

(** C45: with early return, DoStep stops at the first event.  [quiet_steps], [eventful], [handled]: SpecOde.v.
    Three outcomes: no event and the end is reached; the last solver step is the first with an event, which
    is reported (event mode) or handled; the simulation ends without an event. *)
Theorem C45_C46_fmi3_early :
  forall (F : Type) (NF : Num F) szof (f : FMU) fuel env ccp h p1 p2 p3 p4 s out s' t,
    let m := model_of (F := F) FMI3 f in
    reach3 m szof s -> earlyReturnAllowed (ctl (sinst s)) = true ->
    exec3 m szof fuel env (O3DoStep ccp h p1 p2 p3 p4) s = Done (OK, out, s', t) ->
    exists e term early, out = ODoStep (mkDoStepOut (Some e) (Some term) (Some early) (Some (time_of s'))) /\
      term = terminateSimulation (mut (sinst s')) /\
      exists i', sinst s' = set_ctl (set_nextCommunicationPoint (end_of s') (ctl i')) i' /\
      ( (early = false /\ e = false /\ end_of s' = nadd ccp h /\ beyond (nadd (time_of s') (m_step m)) (nadd ccp h) = true /\
         exists k, quiet_steps FMI3 f k (sinst s) i')
        \/ (early = true /\ e = eventModeUsed (ctl (sinst s)) /\ end_of s' = time_of s' /\
            exists k j j', quiet_steps FMI3 f k (sinst s) j /\ solver_step FMI3 f j j' /\ eventful FMI3 f j j' /\
              if eventModeUsed (ctl (sinst s)) then i' = j' else handled FMI3 f env j' i')
        \/ (early = true /\ e = false /\ term = true /\ end_of s' = time_of s' /\ exists k, quiet_steps FMI3 f (S k) (sinst s) i') ).
Proof. exact @early3. Qed.
(** Without event mode no event is reported; all of them are handled on the way. *)
Theorem C45_C46_fmi3_inside :
  forall (F : Type) (NF : Num F) szof (f : FMU) fuel env ccp h p1 p2 p3 p4 s out s' t,
    let m := model_of (F := F) FMI3 f in
    reach3 m szof s -> eventModeUsed (ctl (sinst s)) = false ->
    exec3 m szof fuel env (O3DoStep ccp h p1 p2 p3 p4) s = Done (OK, out, s', t) ->
    exists term early, out = ODoStep (mkDoStepOut (Some false) (Some term) (Some early) (Some (time_of s'))) /\
      term = terminateSimulation (mut (sinst s')) /\
      (earlyReturnAllowed (ctl (sinst s)) = false -> early = false) /\
      exists k i', sinst s' = set_ctl (set_nextCommunicationPoint (end_of s') (ctl i')) i' /\
        steps_with FMI3 f (handled FMI3 f env) k (sinst s) i' /\
        (end_of s' = nadd ccp h /\ beyond (nadd (time_of s') (m_step m)) (nadd ccp h) = true \/ end_of s' = time_of s' /\ (early = true \/ term = true)).
Proof. exact @inside3. Qed.
Theorem C45_fmi2_inside :
  forall (F : Type) (NF : Num F) szof (f : FMU), built2 f = true ->
    forall fuel env ccp h s st out s' t,
    let m := model_of (F := F) FMI2 f in
    reach2 m szof s -> st <> Error ->
    exec2 m szof fuel env (O2DoStep ccp h) s = Done (st, out, s', t) ->
    exists k i', sinst s' = set_ctl (set_nextCommunicationPoint (end_of s') (ctl i')) i' /\
        steps_with FMI2 f (handled2 FMI2 f env) k (sinst s) i' /\
        (st = OK /\ end_of s' = nadd ccp h /\ beyond (nadd (time_of s') (m_step m)) (nadd ccp h) = true /\ (k = 0 \/ terminateSimulation (mut (sinst s')) = false) \/
         st = Discard /\ end_of s' = end_of s /\ terminateSimulation (mut (sinst s')) = true).
Proof. exact @inside2. Qed.
(** BouncingBall hits the ground at 0.453 s. *)
Definition tenths f (n : nat) : list (Op3 B64 (md (m3' f))) := map (fun k => step3 f (nlit (Z.of_nat k) (-1)) (nlit 1 (-1))) (seq 0 n).
Definition doStep_of f (a h : B64) s :=
  match exec3 (m3' f) szof0 fuel0 env0 (step3 f a h) s with
  | Done (OK, ODoStep (mkDoStepOut e term early _), s', _) => Some (e, term, early, steps_of s') | _ => None end.
Example C45_fmi3_event_mode_case : exists s, reach3 (m3' BouncingBall) szof0 s /\
  earlyReturnAllowed (ctl (sinst s)) = true /\ doStep_of BouncingBall (nlit 4 (-1)) (nlit 1 (-1)) s = Some (Some true, Some false, Some true, 453%N).
Proof. case3 (newCS true true BouncingBall) (start3 BouncingBall ++ [O3EnterStepMode] ++ tenths BouncingBall 4). auto. Qed.
Example C45_fmi3_early_case : exists s, reach3 (m3' BouncingBall) szof0 s /\
  earlyReturnAllowed (ctl (sinst s)) = true /\ eventModeUsed (ctl (sinst s)) = false /\
  doStep_of BouncingBall (nlit 4 (-1)) (nlit 1 (-1)) s = Some (Some false, Some false, Some true, 453%N).
Proof. case3 (newCS false true BouncingBall) (start3 BouncingBall ++ tenths BouncingBall 4). auto. Qed.
Example C45_fmi3_inside_case : exists s, reach3 (m3' BouncingBall) szof0 s /\
  eventModeUsed (ctl (sinst s)) = false /\ doStep_of BouncingBall (nlit 4 (-1)) (nlit 1 (-1)) s = Some (Some false, Some false, Some false, 500%N).
Proof. case3 (newCS false false BouncingBall) (start3 BouncingBall ++ tenths BouncingBall 4). auto. Qed.
Example C45_fmi2_case : exists s, reach2 (m2' BouncingBall) szof0 s /\
  match exec2 (m2' BouncingBall) szof0 fuel0 env0 (step2 BouncingBall (nlit 4 (-1)) (nlit 1 (-1))) s with
  | Done (OK, _, s', _) => steps_of s' = 500%N | _ => False end.
Proof.
  case2 CoSimulation (start2 BouncingBall ++ map (fun k => step2 BouncingBall (nlit (Z.of_nat k) (-1)) (nlit 1 (-1))) (seq 0 4)). reflexivity.
Qed.

(** C46: [eventful] above compares the indicators after a step with those stored at the end of the previous
    step ([sv_stored] in SpecOde.v) or after the event handling ([handled]).  Between two DoStep calls:
    the indicators are stored when the solver is configured, ... *)
Theorem C46_fmi3_configured :
  forall (F : Type) (NF : Num F) szof (f : FMU) fuel env o s out s' t,
    let m := model_of (F := F) FMI3 f in
    reach3 m szof s -> o = O3ExitInitializationMode \/ o = O3ExitConfigurationMode ->
    exec3 m szof fuel env o s = Done (OK, out, s', t) -> set_up FMI3 f (sinst s') /\ current FMI3 f (sinst s').
Proof. exact @conf3. Qed.
(** ... at the end of DoStep, with or without event mode, they are those of the end of the step, ... *)
Theorem C46_fmi3_current :
  forall (F : Type) (NF : Num F) szof (f : FMU) fuel env ccp h p1 p2 p3 p4 s out s' t,
    let m := model_of (F := F) FMI3 f in
    reach3 m szof s -> set_up FMI3 f (sinst s) ->
    exec3 m szof fuel env (O3DoStep ccp h p1 p2 p3 p4) s = Done (OK, out, s', t) ->
    set_up FMI3 f (sinst s') /\
    (current FMI3 f (sinst s) \/ steps_of s' <> steps_of s -> current FMI3 f (sinst s')).
Proof. exact @current3. Qed.
(** ... and no other call changes them, except restoring a state. *)
Theorem C46_fmi3_kept :
  forall (F : Type) (NF : Num F) szof (f : FMU) fuel env o s st out s' t,
    let m := model_of (F := F) FMI3 f in
    ~ solves3 o -> exec3 m szof fuel env o s = Done (st, out, s', t) ->
    stored FMI3 f (sinst s') = stored FMI3 f (sinst s) /\ nx (sol (sinst s')) = nx (sol (sinst s)) /\ nz (sol (sinst s')) = nz (sol (sinst s)).
Proof. exact @untouched_stored3. Qed.
Example C46_fmi3_case : exists s, reach3 (m3' BouncingBall) szof0 s /\ set_up FMI3 BouncingBall (sinst s) /\ current FMI3 BouncingBall (sinst s) /\ steps_of s = 500%N.
Proof. case3 (newCS false false BouncingBall) (start3 BouncingBall ++ tenths BouncingBall 5). auto. Qed.
(** So they are not renewed by the event handling in Event Mode: with event mode, a bounce is followed by a
    second event, one step later, although the height was positive before and after that step. *)
Definition after_bounce : list (Op3 B64 (md (m3' BouncingBall))) :=
  start3 BouncingBall ++ [O3EnterStepMode] ++ tenths BouncingBall 5 ++ [O3EnterEventMode; O3UpdateDiscreteStates; O3EnterStepMode].
Theorem C46_fmi3_event_mode_refuted : exists s, reach3 (m3' BouncingBall) szof0 s /\
  match exec3 (m3' BouncingBall) szof0 fuel0 env0 (step3 BouncingBall (nlit 453 (-3)) (nlit 1 (-1))) s with
  | Done (OK, ODoStep (mkDoStepOut (Some true) _ (Some true) _), s', _) => steps_of s' = (steps_of s + 1)%N /\
      nlt nzero (FmuBouncingBall.bb_h (data (mut (sinst s)))) = true /\ nlt nzero (FmuBouncingBall.bb_h (data (mut (sinst s')))) = true
  | _ => False end.
Proof. case3 (newCS true true BouncingBall) after_bounce. auto. Qed.
(** In FMI 2.0 the event handling inside DoStep does not renew them either: the solver reports an event in
    the step after the bounce. *)
Theorem C46_fmi2_refuted : exists s, reach2 (m2' BouncingBall) szof0 s /\
  match doFixedStep (m2' BouncingBall) env0 (sinst s) with
  | Done ((OK, Some true, _), i', _) =>
      nlt nzero (FmuBouncingBall.bb_h (data (mut (sinst s)))) = true /\ nlt nzero (FmuBouncingBall.bb_h (data (mut i'))) = true
  | _ => False end.
Proof.
  case2 CoSimulation (start2 BouncingBall ++ map (fun k => step2 BouncingBall (nlit (Z.of_nat k) (-1)) (nlit 1 (-1))) (seq 0 4)
    ++ [step2 BouncingBall (nlit 4 (-1)) (nlit 53 (-3))]). auto.
Qed.

Definition PropEvents_all :=
  (@C21_fmi3_trajectory, @C21_fmi2_trajectory, @C45_C46_fmi3_early, @C45_C46_fmi3_inside, @C45_fmi2_inside, @C46_fmi3_configured,
   @C46_fmi3_current, @C46_fmi3_kept, C46_fmi3_event_mode_refuted, C46_fmi2_refuted).
Print Assumptions PropEvents_all.
Definition PropEvents_exact := (@C21_fmi3_exact, @C21_fmi2_exact, @C19_fmi2_reached_exact).
Print Assumptions PropEvents_exact.
