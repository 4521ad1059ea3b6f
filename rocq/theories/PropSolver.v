(** PropSolver.v -- the solver as an integrator and the trajectories of three FMUs: C22, C30, C31, C32. *)
From Coq Require Import List NArith ZArith Bool Arith Reals Lra.
From Verif Require Import Base Instance ModelIface Core Fmi3 Fmi2 Api Fmus NumB64 NumR SpecModes SpecCreate SpecState SpecVars SpecEqs SpecSteps SpecOde
  SpecEuler EulerMe SpecNumeric Course Numeric Samples SamplesR PropSteps PropEvents.
Import ListNotations.
Set Implicit Arguments.

(** C22: a co-simulation instance after any sequence of DoStep calls has the states, parameters and indicators
    of a model-exchange instance, started from the same values, that an importer has integrated with as many
    steps of the forward Euler method of the size of the solver step, handling the events as the standard
    says; for any times [tm] the importer sets. *)
Theorem C22_fmi3_importer :
  forall (F : Type) (NF : Num F) szof (f : FMU) fuel env l s obs s' sm tm,
    let m := model_of (F := F) FMI3 f in
    continuous f = true ->
    reach3 m szof s -> eventModeUsed (ctl (sinst s)) = false -> set_up FMI3 f (sinst s) -> current FMI3 f (sinst s) ->
    nextEventTimeDefined (mut (sinst s)) = false ->
    Forall (fun o => is_DoStep3 o = true) l ->
    run3 m szof fuel (map (fun o => (env, o)) l) s = Done (obs, s') -> Forall (fun x => fst (fst x) = OK) obs ->
    reach3 m szof sm -> mode_of sm = ContinuousTimeMode ->
    states FMI3 f (data (mut (sinst sm))) = states FMI3 f (data (mut (sinst s))) ->
    frozen FMI3 f (data (mut (sinst sm))) = frozen FMI3 f (data (mut (sinst s))) ->
    exists k z sm', clock (m_step m) k s s' /\
      importer m szof env (length (states FMI3 f (data (mut (sinst s))))) (length (indicators FMI3 f (data (mut (sinst s)))))
        (m_step m) k tm (indicators FMI3 f (data (mut (sinst s)))) sm = Some (z, sm') /\
      states FMI3 f (data (mut (sinst sm'))) = states FMI3 f (data (mut (sinst s'))) /\
      frozen FMI3 f (data (mut (sinst sm'))) = frozen FMI3 f (data (mut (sinst s'))) /\
      z = indicators FMI3 f (data (mut (sinst s'))) /\
      (0 < k -> time_of sm' = tm k).
Proof. exact @same_as_importer. Qed.
(** BouncingBall after 0.4 s, and the next 0.1 s with the first bounce; a model-exchange instance with the
    same states. *)
Definition me_calls f : list (Op3 B64 (md (m3' f))) := [O3EnterInitializationMode (lit 0) true (lit 10); O3ExitInitializationMode; O3EnterContinuousTimeMode].
Example C22_fmi3_case : exists s, reach3 (m3' BouncingBall) szof0 s /\
  eventModeUsed (ctl (sinst s)) = false /\ set_up FMI3 BouncingBall (sinst s) /\ current FMI3 BouncingBall (sinst s) /\
  nextEventTimeDefined (mut (sinst s)) = false /\
  run_cut BouncingBall [step3 BouncingBall (nlit 4 (-1)) (nlit 1 (-1))] s = Some (true, 500%N).
Proof. case3 (newCS false false BouncingBall) (start3 BouncingBall ++ tenths BouncingBall 4). repeat split. Qed.
Example C22_fmi3_importer_case : exists s, reach3 (m3' BouncingBall) szof0 s /\
  mode_of s = ContinuousTimeMode /\ states FMI3 BouncingBall (data (mut (sinst s))) = [nlit 1 0; nlit 0 0].
Proof. case3 (newME BouncingBall) (me_calls BouncingBall). auto. Qed.

(** C30: the ball moves as the recurrence [ball_next] says and stays above the ground. *)
Theorem C30_fmi3_height :
  forall (inf : R) szof fuel env e l s obs s' b,
    let NF := NumR inf in
    let m := model_of (F := R) FMI3 BouncingBall in
    reach3 m szof s -> eventModeUsed (ctl (sinst s)) = false ->
    set_up FMI3 BouncingBall (sinst s) -> current FMI3 BouncingBall (sinst s) ->
    Forall (fun o => is_DoStep3 o = true) l ->
    run3 m szof fuel (map (fun o => (env, o)) l) s = Done (obs, s') -> Forall (fun x => fst (fst x) = OK) obs ->
    ball3 inf szof e s b -> (0 < height b)%R -> (gravity b <= 0)%R ->
    exists n, clock (/ 1000)%R n s s' /\ ball3 inf szof e s' (ball_after n b) /\ (0 < height (ball_after n b))%R.
Proof. exact bounce3. Qed.
Theorem C30_fmi2_height :
  forall (inf : R) szof fuel env e l s obs s' b,
    let NF := NumR inf in
    let m := model_of (F := R) FMI2 BouncingBall in
    reach2 m szof s ->
    set_up FMI2 BouncingBall (sinst s) -> current FMI2 BouncingBall (sinst s) ->
    Forall (fun o => is_DoStep2 o = true) l ->
    run2 m szof fuel (map (fun o => (env, o)) l) s = Done (obs, s') -> Forall (fun x => fst (fst x) <> Error) obs ->
    ball2 inf szof e s b -> (0 < height b)%R -> (gravity b <= 0)%R ->
    exists n, clock (/ 1000)%R n s s' /\ ball2 inf szof e s' (ball_after n b) /\ (0 < height (ball_after n b))%R.
Proof. exact bounce2. Qed.
Theorem C30_fmi2_configured :
  forall (F : Type) (NF : Num F) szof (f : FMU), built2 f = true ->
    forall fuel env s out s' t,
    let m := model_of (F := F) FMI2 f in
    reach2 m szof s -> exec2 m szof fuel env O2ExitInitializationMode s = Done (OK, out, s', t) ->
    set_up FMI2 f (sinst s') /\ current FMI2 f (sinst s').
Proof. exact @conf2. Qed.
(** With event mode DoStep returns at the event: the ball is seen below the ground before the importer
    handles the event. *)
Definition height_of f s : option B64 :=
  match exec3 (m3' f) szof0 0 env0 (O3Get TFloat64 (Some [1%N]) 1 (Some [lit 0]) 1) s with
  | Done (OK, out, _, _) => match vals_of out with Some [x] => Some x | _ => None end | _ => None end.
Theorem C30_event_mode_refuted : exists s, reach3 (m3' BouncingBall) szof0 s /\
  mode_of s = StepMode /\ match height_of BouncingBall s with Some h => nlt h (lit 0) = true | _ => False end.
Proof. case3 (newCS true true BouncingBall) (start3 BouncingBall ++ [O3EnterStepMode] ++ tenths BouncingBall 5). auto. Qed.
Example C30_fmi3_case : forall inf e, let NF := NumR inf in exists s, reach3 (model_of (F := R) FMI3 BouncingBall) szof0 s /\
  eventModeUsed (ctl (sinst s)) = false /\ set_up FMI3 BouncingBall (sinst s) /\ current FMI3 BouncingBall (sinst s) /\
  mode_of s = StepMode /\ ball3 inf szof0 e s (mkBall (nlit 1 0) (nlit 0 0) (nopp (nlit 981 (-2))) (nlit 7 (-1))) /\
  (0 < nlit (F := R) 1 0)%R /\ (nopp (nlit (F := R) 981 (-2)) <= 0)%R.
Proof.
  intros inf e NF. eexists. split; [apply (@readyR3_reach inf); rnorm; reflexivity|]. 
  split; [reflexivity|]. split; [split; reflexivity|]. split; [reflexivity|]. split; [reflexivity|].
  split.
  - unfold ball3, get3. repeat split; exists [0%R]; do 2 eexists; (split; [reflexivity|]); rnorm; reflexivity.
  - cbn. change (Pos.to_nat 1) with 1%nat. change (Pos.to_nat 2) with 2%nat. cbn [pow]. lra.
Qed.

(** C31: the counter of Stair is its start value plus the number of full seconds (five solver steps each); it
    never exceeds 10 without an error; the simulation is terminated when it is 10.  In exact arithmetic and in
    binary64. *)
Theorem C31_fmi3_exact :
  forall (inf : R) szof fuel env e l ccp h p1 p2 p3 p4 s obs s1 out s' t c0,
    let NF := NumR inf in
    let m := model_of (F := R) FMI3 Stair in
    reach3 m szof s -> eventModeUsed (ctl (sinst s)) = false ->
    stair_starts s -> get3 m szof e s TInt32 1 [c0] -> (c0 <= 9)%Z -> (- 2 ^ 31 <= c0)%Z ->
    Forall (fun o => is_DoStep3 o = true) l ->
    run3 m szof fuel (map (fun o => (env, o)) l) s = Done (obs, s1) -> Forall (fun x => fst (fst x) = OK) obs ->
    exec3 m szof fuel env (O3DoStep ccp h p1 p2 p3 p4) s1 = Done (OK, out, s', t) ->
    exists n c early, clock (nlit 2 (-1)) n s s' /\ c = (c0 + Z.of_nat (n / 5))%Z /\ (c <= 10)%Z /\ get3 m szof e s' TInt32 1 [c] /\
      out = ODoStep (mkDoStepOut (Some false) (Some (10 <=? c)%Z) (Some early) (Some (time_of s'))).
Proof. exact stair3_R. Qed.
Theorem C31_fmi3_binary64 :
  forall szof fuel env e l ccp h p1 p2 p3 p4 s obs s1 out s' t c0,
    let m := model_of (F := B64) FMI3 Stair in
    reach3 m szof s -> eventModeUsed (ctl (sinst s)) = false ->
    stair_starts s -> get3 m szof e s TInt32 1 [c0] -> (c0 <= 9)%Z -> (0 <= c0)%Z ->
    Forall (fun o => is_DoStep3 o = true) l ->
    run3 m szof fuel (map (fun o => (env, o)) l) s = Done (obs, s1) -> Forall (fun x => fst (fst x) = OK) obs ->
    exec3 m szof fuel env (O3DoStep ccp h p1 p2 p3 p4) s1 = Done (OK, out, s', t) ->
    exists n c early, clock (nlit 2 (-1)) n s s' /\ c = (c0 + Z.of_nat (n / 5))%Z /\ (c <= 10)%Z /\ get3 m szof e s' TInt32 1 [c] /\
      out = ODoStep (mkDoStepOut (Some false) (Some (10 <=? c)%Z) (Some early) (Some (time_of s'))).
Proof. exact stair3_B64. Qed.
Theorem C31_fmi2_exact :
  forall (inf : R) szof fuel env e l ccp h s obs s1 st out s' t c0,
    let NF := NumR inf in
    let m := model_of (F := R) FMI2 Stair in
    reach2 m szof s ->
    stair_starts s -> get2 m szof e s TInt32 1 c0 -> (c0 <= 9)%Z -> (- 2 ^ 31 <= c0)%Z ->
    Forall (fun o => is_DoStep2 o = true) l ->
    run2 m szof fuel (map (fun o => (env, o)) l) s = Done (obs, s1) -> Forall (fun x => fst (fst x) <> Error) obs ->
    exec2 m szof fuel env (O2DoStep ccp h) s1 = Done (st, out, s', t) -> st <> Error ->
    exists n n1 c, clock (nlit 2 (-1)) n s s1 /\ clock (nlit 2 (-1)) n1 s1 s' /\ c = (c0 + Z.of_nat ((n + n1) / 5))%Z /\ (c <= 10)%Z /\ get2 m szof e s' TInt32 1 c /\
      (st = OK -> n1 = 0 \/ (c < 10)%Z) /\ (st <> OK -> st = Discard /\ c = 10%Z).
Proof. exact stair2_R. Qed.
Theorem C31_fmi2_binary64 :
  forall szof fuel env e l ccp h s obs s1 st out s' t c0,
    let m := model_of (F := B64) FMI2 Stair in
    reach2 m szof s ->
    stair_starts s -> get2 m szof e s TInt32 1 c0 -> (c0 <= 9)%Z -> (0 <= c0)%Z ->
    Forall (fun o => is_DoStep2 o = true) l ->
    run2 m szof fuel (map (fun o => (env, o)) l) s = Done (obs, s1) -> Forall (fun x => fst (fst x) <> Error) obs ->
    exec2 m szof fuel env (O2DoStep ccp h) s1 = Done (st, out, s', t) -> st <> Error ->
    exists n n1 c, clock (nlit 2 (-1)) n s s1 /\ clock (nlit 2 (-1)) n1 s1 s' /\ c = (c0 + Z.of_nat ((n + n1) / 5))%Z /\ (c <= 10)%Z /\ get2 m szof e s' TInt32 1 c /\
      (st = OK -> n1 = 0 \/ (c < 10)%Z) /\ (st <> OK -> st = Discard /\ c = 10%Z).
Proof. exact stair2_B64. Qed.
(** Nine DoStep calls of 1 s: the last one returns terminateSimulation. *)
Definition seconds f (a n : nat) : list (Op3 B64 (md (m3' f))) := map (fun k => step3 f (lit (Z.of_nat k)) (lit 1)) (seq a n).
Example C31_fmi3_case : exists s, reach3 (m3' Stair) szof0 s /\
  eventModeUsed (ctl (sinst s)) = false /\ stair_starts s /\ run_cut Stair (seconds Stair 0 8) s = Some (true, 40%N) /\
  run_cut Stair (seconds Stair 0 9) s = Some (true, 45%N).
Proof. case3 (newCS false false Stair) (start3 Stair). repeat split. Qed.
Example C31_fmi2_case : exists s, reach2 (m2' Stair) szof0 s /\ stair_starts s /\
  run_cut2 Stair [step2 Stair (lit 0) (lit 8)] s = Some (true, 40%N) /\
  match run2 (m2' Stair) szof0 fuel0 [(env0, step2 Stair (lit 0) (lit 9))] s with Done ([(Discard, _, _)], s') => steps_of s' = 45%N | _ => False end.
Proof. case2 CoSimulation (start2 Stair). repeat split. Qed.
(** If the time grid does not hit the seconds, nothing is counted: with start time 0.1 the counter stays 1. *)
Definition off_grid : list (Op3 B64 (md (m3' Stair))) :=
  [O3EnterInitializationMode (nlit 1 (-1)) true (lit 10); O3ExitInitializationMode; O3DoStep (nlit 1 (-1)) (lit 5) true true true true].
Theorem C31_other_start_refuted : exists s, reach3 (m3' Stair) szof0 s /\
  steps_of s = 25%N /\ data (mut (sinst s)) = FmuStair.mkST 1.
Proof. case3 (newCS false false Stair) off_grid. auto. Qed.

(** C32: Dahlquist's equation after n solver steps. *)
Theorem C32_fmi3_solution :
  forall (inf : R) szof fuel env e l s obs s' x k,
    let NF := NumR inf in
    let m := model_of (F := R) FMI3 Dahlquist in
    reach3 m szof s -> eventModeUsed (ctl (sinst s)) = false -> set_up FMI3 Dahlquist (sinst s) ->
    Forall (fun o => is_DoStep3 o = true) l ->
    run3 m szof fuel (map (fun o => (env, o)) l) s = Done (obs, s') -> Forall (fun x => fst (fst x) = OK) obs ->
    get3 m szof e s TFloat64 1 [x] -> get3 m szof e s TFloat64 3 [k] ->
    exists n, clock (/ 10)%R n s s' /\ get3 m szof e s' TFloat64 1 [dahlquist_after n k x] /\ get3 m szof e s' TFloat64 3 [k].
Proof. exact dahlquist3. Qed.
Theorem C32_fmi2_solution :
  forall (inf : R) szof fuel env e l s obs s' x k,
    let NF := NumR inf in
    let m := model_of (F := R) FMI2 Dahlquist in
    reach2 m szof s -> set_up FMI2 Dahlquist (sinst s) ->
    Forall (fun o => is_DoStep2 o = true) l ->
    run2 m szof fuel (map (fun o => (env, o)) l) s = Done (obs, s') -> Forall (fun x => fst (fst x) <> Error) obs ->
    get2 m szof e s TFloat64 1 x -> get2 m szof e s TFloat64 3 k ->
    exists n, clock (/ 10)%R n s s' /\ get2 m szof e s' TFloat64 1 (dahlquist_after n k x) /\ get2 m szof e s' TFloat64 3 k.
Proof. exact dahlquist2. Qed.
Theorem C32_decay : forall n k x, (0 <= k * / 10 <= 1)%R ->
  (Rabs (dahlquist_after n k x) <= Rabs x /\ 0 <= x * dahlquist_after n k x /\
   Rabs (dahlquist_after (S n) k x) <= Rabs (dahlquist_after n k x))%R.
Proof. exact dahlquist_decay. Qed.
Example C32_fmi3_case : forall inf, let NF := NumR inf in exists s, reach3 (model_of (F := R) FMI3 Dahlquist) szof0 s /\
  eventModeUsed (ctl (sinst s)) = false /\ set_up FMI3 Dahlquist (sinst s) /\ mode_of s = StepMode.
Proof.
  intros inf NF. eexists. split; [apply (@readyR3_reach inf); rnorm; reflexivity|]. repeat split.
Qed.

Definition PropSolver_all := (@C22_fmi3_importer, @C30_fmi2_configured, @C30_event_mode_refuted, @C31_fmi3_binary64, @C31_fmi2_binary64, @C31_other_start_refuted).
Print Assumptions PropSolver_all.
Definition PropSolver_exact := (@C30_fmi3_height, @C30_fmi2_height, @C31_fmi3_exact, @C31_fmi2_exact, @C32_fmi3_solution, @C32_fmi2_solution, @C32_decay).
Print Assumptions PropSolver_exact.
