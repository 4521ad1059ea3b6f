(** PropSteps.v -- properties of DoStep: C17, C18, C19, C20. *)
From Coq Require Import List NArith ZArith Bool Arith Reals.
From Verif Require Import Base Instance ModelIface Core Fmi3 Fmi2 Api Fmus NumB64 NumR SpecModes SpecCreate SpecState SpecVars SpecEqs SpecSteps
  StepProps StepReal StepCases Samples.
Import ListNotations.
Set Implicit Arguments.

(** C17: in every history without SetTime (which belongs to model exchange) the internal time is the
    start time plus the number of solver steps times the step size, by one multiplication and one
    addition, so no rounding errors accumulate.  States of other instances may be restored if they
    lie on a grid as well. *)
Theorem C17_fmi3_grid :
  forall (F : Type) (NF : Num F) szof (f : FMU) fuel l i0 obs s',
    let m := model_of (F := F) FMI3 f in
    made3 m i0 ->
    (forall e o, In (e, o) l -> (forall x, o <> O3SetTime x) /\
                                forall i, image3 o = Some i -> saved3 m szof i /\ on_grid (m_step m) (ctl i)) ->
    run3 m szof fuel l (mkSys i0 []) = Done (obs, s') ->
    steps_of s' = 0%N /\ time_of s' = start_of s' \/ time_of s' = grid (m_step m) (start_of s') (steps_of s').
Proof. exact @grid3. Qed.
Theorem C17_fmi2_grid :
  forall (F : Type) (NF : Num F) szof (f : FMU), built2 f = true ->
    forall fuel l i0 obs s',
    let m := model_of (F := F) FMI2 f in
    made2 m i0 ->
    (forall e o, In (e, o) l -> (forall x, o <> O2SetTime x) /\
                                forall i, image2 o = Some i -> saved2 m szof i /\ on_grid (m_step m) (ctl i)) ->
    run2 m szof fuel l (mkSys i0 []) = Done (obs, s') ->
    steps_of s' = 0%N /\ time_of s' = start_of s' \/ time_of s' = grid (m_step m) (start_of s') (steps_of s').
Proof. exact @grid2. Qed.
(** However many DoStep calls, and whatever other calls between them: the clock after them is a
    function of the total number [k] of solver steps.  The intermediate updates of a sequence of
    DoStep calls are exactly the [k] points. *)
Theorem C17_fmi3_calls :
  forall (F : Type) (NF : Num F) szof (f : FMU) fuel l s obs s',
    let m := model_of (F := F) FMI3 f in
    reach3 m szof s ->
    (forall e o, In (e, o) l -> sets_clock3 o = false /\ forall i, image3 o = Some i -> saved3 m szof i) ->
    run3 m szof fuel l s = Done (obs, s') -> exists k, clock (m_step m) k s s'.
Proof. exact @clock_run3. Qed.
Theorem C17_fmi3_updates :
  forall (F : Type) (NF : Num F) szof (f : FMU) fuel l s obs s',
    let m := model_of (F := F) FMI3 f in
    reach3 m szof s -> (forall e o, In (e, o) l -> is_DoStep3 o = true) ->
    run3 m szof fuel l s = Done (obs, s') ->
    exists k, clock (m_step m) k s s' /\
      flat_map (fun x => reported (snd x)) obs =
      if hasIntermediateUpdate (ctl (sinst s)) then map (fun j => after (m_step m) j (ctl (sinst s))) (seq 1 k) else [].
Proof. exact @dosteps_run3. Qed.
Theorem C17_fmi2_calls :
  forall (F : Type) (NF : Num F) szof (f : FMU), built2 f = true ->
    forall fuel l s obs s',
    let m := model_of (F := F) FMI2 f in
    reach2 m szof s ->
    (forall e o, In (e, o) l -> sets_clock2 o = false /\ forall i, image2 o = Some i -> saved2 m szof i) ->
    run2 m szof fuel l s = Done (obs, s') -> exists k, clock (m_step m) k s s'.
Proof. exact @clock_run2. Qed.
(** Entering Initialization Mode starts the clock. *)
Theorem C17_C18_fmi3_start :
  forall (F : Type) (NF : Num F) szof (f : FMU) fuel env a b e s out s' t,
    reach3 (model_of (F := F) FMI3 f) szof s ->
    exec3 (model_of FMI3 f) szof fuel env (O3EnterInitializationMode a b e) s = Done (OK, out, s', t) ->
    end_of s' = a /\ time_of s' = a /\ start_of s' = a /\ steps_of s' = 0%N /\ stop_of s' = if b then e else ninf.
Proof. exact @init_end3. Qed.
Theorem C17_C18_fmi2_start :
  forall (F : Type) (NF : Num F) szof (f : FMU), built2 f = true ->
    forall fuel env a b e s out s' t,
    reach2 (model_of (F := F) FMI2 f) szof s ->
    exec2 (model_of FMI2 f) szof fuel env (O2SetupExperiment a b e) s = Done (OK, out, s', t) ->
    end_of s' = a /\ time_of s' = a /\ start_of s' = a /\ steps_of s' = 0%N /\ stop_of s' = if b then e else ninf.
Proof. exact @setup_end2. Qed.
(** A simulation of VanDerPol with two DoStep calls makes 30 solver steps. *)
Definition start3 f : list (Op3 B64 (md (m3' f))) := [O3EnterInitializationMode (lit 0) true (lit 10); O3ExitInitializationMode].
Definition start2 f : list (Op2 B64 (md (m2' f))) := [O2SetupExperiment (lit 0) true (lit 10); O2EnterInitializationMode; O2ExitInitializationMode].
Definition step3 f (a h : B64) : Op3 B64 (md (m3' f)) := O3DoStep a h true true true true.
Definition step2 f (a h : B64) : Op2 B64 (md (m2' f)) := O2DoStep a h.
Example C17_fmi3_case : exists s, reach3 (m3' VanDerPol) szof0 s /\ steps_of s = 30%N /\ mode_of s = StepMode.
Proof. case3 (newCS false false VanDerPol) (start3 VanDerPol ++ [step3 VanDerPol (lit 0) (nlit 1 (-1)); step3 VanDerPol (nlit 1 (-1)) (nlit 2 (-1))]). auto. Qed.
Example C17_fmi2_case : exists s, reach2 (m2' VanDerPol) szof0 s /\ steps_of s = 30%N /\ mode_of s = StepComplete.
Proof. case2 CoSimulation (start2 VanDerPol ++ [step2 VanDerPol (lit 0) (nlit 1 (-1)); step2 VanDerPol (nlit 1 (-1)) (nlit 2 (-1))]). auto. Qed.

(** C18: a step with a wrong communication point, a step size that is not positive, or an end beyond
    the stop time is rejected and nothing happens but the transition to Terminated ... *)
Theorem C18_fmi3_rejected :
  forall (F : Type) (NF : Num F) szof (f : FMU) fuel env ccp h p1 p2 p3 p4 s,
    let m := model_of (F := F) FMI3 f in
    reach3 m szof s -> mode_of s = StepMode -> ~ acceptable s ccp h ->
    exists out s' t, exec3 m szof fuel env (O3DoStep ccp h p1 p2 p3 p4) s = Done (Error, out, s', t) /\
      s' = with_mode Terminated s /\ t = refusal s /\ time_of s' = time_of s /\ steps_of s' = steps_of s /\
      forall e, reads_same m szof e s s'.
Proof. exact @refused3. Qed.
Theorem C18_fmi2_rejected :
  forall (F : Type) (NF : Num F) szof (f : FMU), built2 f = true ->
    forall fuel env ccp h s,
    let m := model_of (F := F) FMI2 f in
    reach2 m szof s -> mode_of s = StepComplete -> ~ acceptable s ccp h ->
    exists s' t, exec2 m szof fuel env (O2DoStep ccp h) s = Done (Error, ONone, s', t) /\
      s' = with_mode Terminated s /\ t = refusal s /\ time_of s' = time_of s /\ steps_of s' = steps_of s /\
      forall e, reads_same2 m szof e s s'.
Proof. exact @refused2. Qed.
(** ... hence OK is only returned for acceptable arguments. *)
Theorem C18_fmi3_accepted :
  forall (F : Type) (NF : Num F) szof (f : FMU) fuel env ccp h p1 p2 p3 p4 s out s' t,
    reach3 (model_of (F := F) FMI3 f) szof s ->
    exec3 (model_of FMI3 f) szof fuel env (O3DoStep ccp h p1 p2 p3 p4) s = Done (OK, out, s', t) ->
    mode_of s = StepMode /\ acceptable s ccp h.
Proof. exact @accepted3. Qed.
Theorem C18_fmi2_accepted :
  forall (F : Type) (NF : Num F) szof (f : FMU), built2 f = true ->
    forall fuel env ccp h s st out s' t,
    reach2 (model_of (F := F) FMI2 f) szof s -> st <> Error ->
    exec2 (model_of FMI2 f) szof fuel env (O2DoStep ccp h) s = Done (st, out, s', t) ->
    mode_of s = StepComplete /\ acceptable s ccp h.
Proof. exact @accepted2. Qed.
(** [end_of] is the end of the previous step: the end point asked for, or the time reached if the
    step returned early or ended the simulation; no other call changes it (but those that set the clock). *)
Theorem C18_C45_fmi3_end :
  forall (F : Type) (NF : Num F) szof (f : FMU) fuel env ccp h p1 p2 p3 p4 s out s' t,
    reach3 (model_of (F := F) FMI3 f) szof s ->
    exec3 (model_of FMI3 f) szof fuel env (O3DoStep ccp h p1 p2 p3 p4) s = Done (OK, out, s', t) ->
    exists e term early, out = ODoStep (mkDoStepOut (Some e) (Some term) (Some early) (Some (time_of s'))) /\
      (end_of s' = nadd ccp h \/ end_of s' = time_of s' /\ (early = true \/ term = true)) /\
      (early = true -> end_of s' = time_of s').
Proof. exact @ended3. Qed.
Theorem C18_fmi3_end_kept :
  forall (F : Type) (NF : Num F) szof (f : FMU) fuel env o s st out s' t,
    reach3 (model_of (F := F) FMI3 f) szof s -> sets_clock3 o = false -> is_DoStep3 o = false ->
    exec3 (model_of FMI3 f) szof fuel env o s = Done (st, out, s', t) -> end_of s' = end_of s.
Proof. exact @other_end3. Qed.
Theorem C18_fmi2_end_kept :
  forall (F : Type) (NF : Num F) szof (f : FMU) fuel env o s st out s' t,
    reach2 (model_of (F := F) FMI2 f) szof s -> sets_clock2 o = false -> is_DoStep2 o = false ->
    exec2 (model_of FMI2 f) szof fuel env o s = Done (st, out, s', t) ->
    clock (m_step (model_of (F := F) FMI2 f)) 0 s s' /\ end_of s' = end_of s.
Proof. exact @keeps2. Qed.
Example C18_fmi3_case : exists s, reach3 (m3' BouncingBall) szof0 s /\ mode_of s = StepMode /\ end_of s = nlit 1 (-1) /\
  isClose (nlit 2 (-1)) (nlit 1 (-1) : B64) = false.
Proof. case3 (newCS false false BouncingBall) (start3 BouncingBall ++ [step3 BouncingBall (lit 0) (nlit 1 (-1))]). auto. Qed.

(** C19: without early return and termination the internal time is the last point of the solver grid
    not beyond the end of the step, as far as the tests [beyond] of the code can tell: no
    point passed was beyond, and the next point is; lastSuccessfulTime is the internal time. *)
Theorem C19_fmi3_reached :
  forall (F : Type) (NF : Num F) szof (f : FMU) fuel env ccp h p1 p2 p3 p4 s e term early last s' t,
    let m := model_of (F := F) FMI3 f in
    reach3 m szof s ->
    exec3 m szof fuel env (O3DoStep ccp h p1 p2 p3 p4) s = Done (OK, ODoStep (mkDoStepOut e term early last), s', t) ->
    last = Some (time_of s') /\
    (early = Some false -> term = Some false ->
     end_of s' = nadd ccp h /\ exists k, clock (m_step m) k s s' /\
       (forall j, 1 <= j <= k -> beyond (nadd (after (m_step m) (j - 1) (ctl (sinst s))) (m_step m)) (nadd ccp h) = false) /\
       beyond (nadd (time_of s') (m_step m)) (nadd ccp h) = true).
Proof. exact @reaches3. Qed.
Theorem C19_fmi2_reached :
  forall (F : Type) (NF : Num F) szof (f : FMU), built2 f = true ->
    forall fuel env ccp h s st out s' t,
    let m := model_of (F := F) FMI2 f in
    reach2 m szof s ->
    exec2 m szof fuel env (O2DoStep ccp h) s = Done (st, out, s', t) ->
    (st = OK -> end_of s' = nadd ccp h /\ exists k, clock (m_step m) k s s' /\
       (forall j, 1 <= j <= k -> beyond (nadd (after (m_step m) (j - 1) (ctl (sinst s))) (m_step m)) (nadd ccp h) = false) /\
       beyond (nadd (time_of s') (m_step m)) (nadd ccp h) = true) /\
    (st <> OK -> end_of s' = end_of s) /\
    (st = Discard -> terminateSimulation (mut (sinst s')) = true).
Proof. exact @reaches2. Qed.
(** In exact arithmetic: the points [n] (before) .. [n'] (after) and the end [p] of the step: all points
    up to [n'] are at most the tolerance after [p], all later points are further away. *)
Theorem C19_fmi3_reached_exact :
  forall (inf : R) szof (f : FMU) fuel env ccp h p1 p2 p3 p4 s e last s' t,
    let NF := NumR inf in
    let m := model_of (F := R) FMI3 f in
    let a := start_of s in
    let p := (ccp + h)%R in
    let n' := steps_of s' in
    reach3 m szof s -> on_grid (m_step m) (ctl (sinst s)) -> (steps_of s + N.of_nat fuel + 1 < two64)%N ->
    exec3 m szof fuel env (O3DoStep ccp h p1 p2 p3 p4) s =
      Done (OK, ODoStep (mkDoStepOut e (Some false) (Some false) last), s', t) ->
    last = Some (time_of s') /\ time_of s' = gridR a (m_step m) n' /\ (steps_of s <= n')%N /\
    (forall q, (steps_of s < q <= n')%N -> (gridR a (m_step m) q <= p + tol (gridR a (m_step m) q) p)%R) /\
    (forall q, (n' < q)%N -> (p + tol (gridR a (m_step m) q) p < gridR a (m_step m) q)%R).
Proof. exact reaches3_R. Qed.
Example C19_fmi3_case : exists s, reach3 (m3' VanDerPol) szof0 s /\ on_grid (m_step (m3' VanDerPol)) (ctl (sinst s)) /\
  match exec3 (m3' VanDerPol) szof0 fuel0 env0 (step3 VanDerPol (nlit 1 (-1)) (nlit 3 (-1))) s with
  | Done (OK, ODoStep (mkDoStepOut _ (Some false) (Some false) _), s', _) => steps_of s' = 40%N
  | _ => False end.
Proof. case3 (newCS false false VanDerPol) (start3 VanDerPol ++ [step3 VanDerPol (lit 0) (nlit 1 (-1))]). auto. Qed.
(** The tolerance (1e-5) exceeds the solver step of Roberts (1e-6): a communication step of 1e-6 runs
    past its end by more than one solver step. *)
Theorem C19_one_step_refuted :
  exists s, reach3 (m3' Roberts) szof0 s /\
  match exec3 (m3' Roberts) szof0 fuel0 env0 (step3 Roberts (lit 0) (nlit 1 (-6))) s with
  | Done (OK, ODoStep (mkDoStepOut _ (Some false) (Some false) _), s', _) =>
      steps_of s' = 11%N /\ nlt (nadd (nlit 1 (-6)) (nmul (nofN 9) (m_step (m3' Roberts)))) (time_of s') = true
  | _ => False end.
Proof. case3 (newCS false false Roberts) (start3 Roberts). auto. Qed.

(** C20, if a point of the grid is beyond the end of the step.  The full statement is refuted below. *)
Theorem C20_fmi3_returns_partial :
  forall (F : Type) (NF : Num F) szof (f : FMU) fuel env ccp h p1 p2 p3 p4 s K,
    let m := model_of (F := F) FMI3 f in
    reach3 m szof s -> K < fuel ->
    beyond (nadd (after (m_step m) K (ctl (sinst s))) (m_step m)) (nadd ccp h) = true ->
    exec3 m szof fuel env (O3DoStep ccp h p1 p2 p3 p4) s <> NoFuel.
Proof. exact @returns3. Qed.
Theorem C20_fmi2_returns_partial :
  forall (F : Type) (NF : Num F) szof (f : FMU), built2 f = true ->
    forall fuel env ccp h s K,
    let m := model_of (F := F) FMI2 f in
    reach2 m szof s -> K < fuel ->
    beyond (nadd (after (m_step m) K (ctl (sinst s))) (m_step m)) (nadd ccp h) = true ->
    exec2 m szof fuel env (O2DoStep ccp h) s <> NoFuel.
Proof. exact @returns2. Qed.
(** In exact arithmetic there is such a point as long as the step counter does not wrap around. *)
Theorem C20_fmi3_exact :
  forall (inf : R) szof (f : FMU) env ccp h p1 p2 p3 p4 s,
    let NF := NumR inf in
    let m := model_of (F := R) FMI3 f in
    reach3 m szof s -> on_grid (m_step m) (ctl (sinst s)) -> (steps_of s < 2 ^ 62)%N ->
    (Rabs (start_of s) + Rabs (ccp + h) + 1 <= m_step m * IZR (2 ^ 60))%R ->
    exists K, forall fuel, K < fuel -> exec3 m szof fuel env (O3DoStep ccp h p1 p2 p3 p4) s <> NoFuel.
Proof. exact returns3_R. Qed.
Theorem C20_fmi2_exact :
  forall (inf : R) szof (f : FMU) env ccp h s, built2 f = true ->
    let NF := NumR inf in
    let m := model_of (F := R) FMI2 f in
    reach2 m szof s -> on_grid (m_step m) (ctl (sinst s)) -> (steps_of s < 2 ^ 62)%N ->
    (Rabs (start_of s) + Rabs (ccp + h) + 1 <= m_step m * IZR (2 ^ 60))%R ->
    exists K, forall fuel, K < fuel -> exec2 m szof fuel env (O2DoStep ccp h) s <> NoFuel.
Proof. exact returns2_R. Qed.
(** With a NaN as step size the checks pass and the loop never ends. *)
Theorem C20_nan_refuted :
  exists s, reach3 (m3' Feedthrough) szof0 s /\ forall fuel, exec3 (m3' Feedthrough) szof0 fuel env0 nan_step3 s = NoFuel.
Proof.
  eexists. split.
  - apply (@sample3 _ (newCS false false Feedthrough) (start3 Feedthrough)); [right; left; eexists; eexists; reflexivity|repeat constructor|vm_compute; reflexivity].
  - intro fuel. apply nan_never_returns; [repeat split|reflexivity|reflexivity].
Qed.

Definition PropSteps_all :=
  (@C17_fmi3_grid, @C17_fmi2_grid, @C17_fmi3_calls, @C17_fmi3_updates, @C17_fmi2_calls, @C17_C18_fmi3_start, @C17_C18_fmi2_start,
   @C18_fmi3_rejected, @C18_fmi2_rejected, @C18_fmi3_accepted, @C18_fmi2_accepted, @C18_C45_fmi3_end, @C18_fmi3_end_kept, @C18_fmi2_end_kept,
   @C19_fmi3_reached, @C19_fmi2_reached, @C19_one_step_refuted, @C20_fmi3_returns_partial, @C20_fmi2_returns_partial, @C20_nan_refuted).
Print Assumptions PropSteps_all.
Definition PropSteps_exact := (@C19_fmi3_reached_exact, @C20_fmi3_exact, @C20_fmi2_exact).
Print Assumptions PropSteps_exact.
