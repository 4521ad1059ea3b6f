(** PropLinear.v -- the trajectory of StateSpace: C78. *)
From Coq Require Import List NArith ZArith Bool Arith Reals Lra.
From Verif Require Import Base Instance ModelIface Core Fmi3 Fmi2 Api Fmus NumB64 NumR SpecModes SpecCreate SpecState SpecVars SpecEqs SpecSteps SpecOde
  SpecSpace SpecLinear Linear Samples PropSteps PropSpace.
Import ListNotations.
Set Implicit Arguments.

(** C78: after any sequence of DoStep calls the state is that of the Euler method with a step of 0.001 for x' = A x + B u, in
    every arithmetic, however the steps were distributed over the calls; the output is C x + D u; matrices and
    input are kept. *)
Theorem C78_fmi3_linear :
  forall (F : Type) (NF : Num F) szof fuel env e l s obs s' m n r A B C D u x,
    let mo := model_of (F := F) FMI3 StateSpace in
    reach3 mo szof s -> eventModeUsed (ctl (sinst s)) = false -> set_up FMI3 StateSpace (sinst s) -> mode_of s <> Terminated ->
    Forall (fun o => is_DoStep3 o = true) l ->
    run3 mo szof fuel (map (fun o => (env, o)) l) s = Done (obs, s') -> Forall (fun x => fst (fst x) = OK) obs ->
    let get t := get3 mo szof e s t in
    get TUInt64 1%N [m] -> get TUInt64 2%N [n] -> get TUInt64 3%N [r] ->
    get TFloat64 4%N A -> get TFloat64 5%N B -> get TFloat64 6%N C -> get TFloat64 7%N D -> get TFloat64 9%N u -> get TFloat64 11%N x ->
    exists k, clock (nlit 1 (-3)) k s s' /\
      let get t := get3 mo szof e s' t in
      let x' := linear_after (F := F) k (N.to_nat n) (N.to_nat m) A B u x in
      get TFloat64 11%N x' /\ get TFloat64 10%N (affine (N.to_nat r) (N.to_nat n) (N.to_nat m) C D x' u) /\
      get TFloat64 4%N A /\ get TFloat64 5%N B /\ get TFloat64 6%N C /\ get TFloat64 7%N D /\ get TFloat64 9%N u.
Proof. exact @linear3. Qed.
(** Exact arithmetic: the trajectory of a combination of start values and inputs is the combination of the
    trajectories, and the same for the outputs. *)
Theorem C78_superposition : forall (inf : R) a b k n m r A B C D u u' x x',
  let NF := NumR inf in
  length u = length u' -> length x = n -> length x' = n ->
  let xs := linear_after k n m A B u x in let xs' := linear_after k n m A B u' x' in
  linear_after k n m A B (mix a b u u') (mix a b x x') = mix a b xs xs' /\
  affine r n m C D (mix a b xs xs') (mix a b u u') = mix a b (affine r n m C D xs u) (affine r n m C D xs' u').
Proof. exact superposed. Qed.
(** The state of C37_case, with a matrix B and an input that were set; two calls of three steps. *)
Example C78_fmi3_case : exists s, reach3 (m3' StateSpace) szof0 s /\
  eventModeUsed (ctl (sinst s)) = false /\ set_up FMI3 StateSpace (sinst s) /\ mode_of s = StepMode /\
  match space_at 3 9 s with
  | (Some a, Some b, Some x, Some u, Some _) =>
      match run3 (m3' StateSpace) szof0 fuel0 (map (fun o => (env0, o)) [step3 StateSpace (nlit 2 (-3)) (nlit 3 (-3)); step3 StateSpace (nlit 5 (-3)) (nlit 3 (-3))]) s with
      | Done (obs, s') => map (fun x => fst (fst x)) obs = [OK; OK] /\ steps_of s' = 8%N /\
          floats_at 11 3 s' = Some (linear_after 6 3 3 a b u x) /\ nlt (nth 0 x nzero) (nth 0 (linear_after 6 3 3 a b u x) nzero) = true
      | _ => False end
  | _ => False end.
Proof. case3 (newCS false false StateSpace) space_ops. repeat split. Qed.
Example C78_superposition_case : forall inf : R, let NF := NumR inf in
  linear_after 1 1 1 [1%R] [1%R] [0%R] [1%R] <> [1%R].
Proof. intros inf NF. unfold linear_after. cbn. change (Pos.to_nat 3) with 3%nat. cbn [pow]. intros H. injection H as H. lra. Qed.

Print Assumptions C78_fmi3_linear.
Print Assumptions C78_superposition.
