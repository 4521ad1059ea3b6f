(** PropProgress.v -- C55: DoStep with acceptable arguments succeeds. *)
From Coq Require Import List NArith ZArith Bool Arith Reals Lra.
From Verif Require Import Base Instance ModelIface Core Fmi3 Fmi2 Api Fmus NumB64 NumR SpecModes SpecCreate SpecState SpecSteps SpecOde SpecSafe
  StepReal Progress Samples SamplesR PropSteps.
Import ListNotations.
Set Implicit Arguments.

(** C55: in Step Mode, with a communication point that is the end of the last step, a positive step size and an end that
    is not beyond the stop time ([acceptable]), DoStep returns OK, if the solver is set up (ExitInitializationMode) and a
    point of the solver grid lies beyond the end of the step.  Stair is excluded: it fails on purpose, see below. *)
Theorem C55_fmi3_succeeds :
  forall (F : Type) (NF : Num F) szof (f : FMU) fuel env ccp h s K,
    let m := model_of (F := F) FMI3 f in
    f <> Stair -> reach3 m szof s -> location_fits FMI3 f (resourceLocation (ctl (sinst s))) ->
    mode_of s = StepMode -> set_up FMI3 f (sinst s) -> acceptable s ccp h ->
    K < fuel -> beyond (nadd (after (m_step m) K (ctl (sinst s))) (m_step m)) (nadd ccp h) = true ->
    exists out s' t, exec3 m szof fuel env (O3DoStep ccp h true true true true) s = Done (OK, out, s', t).
Proof. exact @progress3. Qed.
(** If it returns at all, the condition on the grid is not needed. *)
Theorem C55_fmi3_status :
  forall (F : Type) (NF : Num F) szof (f : FMU) fuel env ccp h p1 p2 p3 p4 s st out s' t,
    let m := model_of (F := F) FMI3 f in
    f <> Stair -> reach3 m szof s -> mode_of s = StepMode -> set_up FMI3 f (sinst s) -> acceptable s ccp h ->
    exec3 m szof fuel env (O3DoStep ccp h p1 p2 p3 p4) s = Done (st, out, s', t) -> st = OK.
Proof. exact @succeeds3. Qed.
(** FMI 2.0: OK, or Discard with the request to end the simulation. *)
Theorem C55_fmi2_succeeds :
  forall (F : Type) (NF : Num F) szof (f : FMU) fuel env ccp h s K, built2 f = true ->
    let m := model_of (F := F) FMI2 f in
    f <> Stair -> reach2 m szof s -> mode_of s = StepComplete -> acceptable s ccp h ->
    K < fuel -> beyond (nadd (after (m_step m) K (ctl (sinst s))) (m_step m)) (nadd ccp h) = true ->
    exists st out s' t, exec2 m szof fuel env (O2DoStep ccp h) s = Done (st, out, s', t) /\
      (st = OK \/ st = Discard /\ terminateSimulation (mut (sinst s')) = true).
Proof. exact @progress2. Qed.
(** In exact arithmetic there is such a point: every acceptable step succeeds. *)
Theorem C55_fmi3_exact :
  forall (inf : R) szof (f : FMU) env ccp h s,
    let NF := NumR inf in
    let m := model_of (F := R) FMI3 f in
    f <> Stair -> reach3 m szof s -> location_fits FMI3 f (resourceLocation (ctl (sinst s))) ->
    mode_of s = StepMode -> set_up FMI3 f (sinst s) -> acceptable s ccp h ->
    on_grid (m_step m) (ctl (sinst s)) -> (steps_of s < 2 ^ 62)%N -> (Rabs (start_of s) + Rabs (ccp + h) + 1 <= m_step m * IZR (2 ^ 60))%R ->
    exists K, forall fuel, K < fuel ->
      exists out s' t, exec3 m szof fuel env (O3DoStep ccp h true true true true) s = Done (OK, out, s', t).
Proof. exact progress3_R. Qed.
Theorem C55_fmi2_exact :
  forall (inf : R) szof (f : FMU) env ccp h s, built2 f = true ->
    let NF := NumR inf in
    let m := model_of (F := R) FMI2 f in
    f <> Stair -> reach2 m szof s -> mode_of s = StepComplete -> acceptable s ccp h ->
    on_grid (m_step m) (ctl (sinst s)) -> (steps_of s < 2 ^ 62)%N -> (Rabs (start_of s) + Rabs (ccp + h) + 1 <= m_step m * IZR (2 ^ 60))%R ->
    exists K, forall fuel, K < fuel ->
      exists st out s' t, exec2 m szof fuel env (O2DoStep ccp h) s = Done (st, out, s', t) /\
        (st = OK \/ st = Discard /\ terminateSimulation (mut (sinst s')) = true).
Proof. exact progress2_R. Qed.

(** The ball after 0.1 s, a step of 0.5 s with the first bounce: 500 solver steps, the 500th beyond the end. *)
Example C55_fmi3_case : exists s, reach3 (m3' BouncingBall) szof0 s /\ mode_of s = StepMode /\ set_up FMI3 BouncingBall (sinst s) /\
  acceptable s (nlit 1 (-1)) (nlit 5 (-1)) /\
  beyond (nadd (after (m_step (m3' BouncingBall)) 500 (ctl (sinst s))) (m_step (m3' BouncingBall))) (nadd (nlit 1 (-1)) (nlit 5 (-1))) = true.
Proof.
  case3 (newCS false false BouncingBall) (start3 BouncingBall ++ [step3 BouncingBall (lit 0) (nlit 1 (-1))]). repeat split; reflexivity.
Qed.
Example C55_fmi2_case : exists s, reach2 (m2' BouncingBall) szof0 s /\ mode_of s = StepComplete /\
  acceptable s (nlit 1 (-1)) (nlit 5 (-1)) /\
  beyond (nadd (after (m_step (m2' BouncingBall)) 500 (ctl (sinst s))) (m_step (m2' BouncingBall))) (nadd (nlit 1 (-1)) (nlit 5 (-1))) = true.
Proof.
  case2 CoSimulation (start2 BouncingBall ++ [step2 BouncingBall (lit 0) (nlit 1 (-1))]). repeat split; reflexivity.
Qed.

(** Stair after its request to end the simulation: if the importer goes on, the step with the event that would count
    beyond 10 fails although its arguments are acceptable. *)
Theorem C55_stair_refuted : exists s, reach3 (m3' Stair) szof0 s /\ mode_of s = StepMode /\ set_up FMI3 Stair (sinst s) /\
  acceptable s (nlit 98 (-1)) (nlit 2 (-1)) /\
  match exec3 (m3' Stair) szof0 fuel0 env0 (step3 Stair (nlit 98 (-1)) (nlit 2 (-1))) s with
  | Done (Error, _, s', _) => mode_of s' = Terminated
  | _ => False end.
Proof.
  case3 (newCS false false Stair) (start3 Stair ++ [step3 Stair (lit 0) (lit 9); step3 Stair (lit 9) (nlit 2 (-1)); step3 Stair (nlit 92 (-1)) (nlit 2 (-1));
     step3 Stair (nlit 94 (-1)) (nlit 2 (-1)); step3 Stair (nlit 96 (-1)) (nlit 2 (-1))]). repeat split; reflexivity.
Qed.

Definition PropProgress_all := (@C55_fmi3_succeeds, @C55_fmi3_status, @C55_fmi2_succeeds, @C55_stair_refuted).
Print Assumptions PropProgress_all.
Definition PropProgress_exact := (@C55_fmi3_exact, @C55_fmi2_exact).
Print Assumptions PropProgress_exact.
