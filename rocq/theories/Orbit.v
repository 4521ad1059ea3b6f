(** Orbit.v -- proofs of C77. *)
From Coq Require Import List NArith ZArith Bool Arith Reals Lia Lra.
From Verif Require Import Base Instance ModelIface Core Fmi3 Fmi2 Api Fmus NumB64 NumR Logic Calls LawsFmus SpecModes SpecCreate SpecState Gate Effect Reach Histories
  FmuBouncingBall FmuDahlquist FmuStair FmuVanDerPol FmuRoberts FmuClocks FmuResource FmuStateSpace FmuFeedthrough
  Sim SimSS SpecVars SpecEqs SpecSteps Vars VarsFmus DataFmus Data Vars2 Data2 Dyn Solver Fits Steps StepsFmus StepProps SpecOde Ode KeepArrays Crossing Course SpecNumeric Numeric SpecOrbit.
Import ListNotations.
Set Implicit Arguments.

Section VanDerPol.
  Context {F : Type} {NF : Num F}.
  Definition vp_pair (d : VPData F) : F * F := (vp_x0 d, vp_x1 d).
  Lemma vp_course v env k (i i' : Inst F (md (model_of v VanDerPol))) : (0 < nx (sol i))%nat -> course v VanDerPol env k i i' ->
    vp_mu (data (mut i') : VPData F) = vp_mu (data (mut i) : VPData F) /\
    vp_pair (data (mut i') : VPData F) = orbit_after k (vp_mu (data (mut i) : VPData F)) (vp_pair (data (mut i) : VPData F)).
  Proof.
    intros N C. revert N. induction C as [i|k i i' p C IH|k i i' i1 C IH S _|k i i' i1 i2 C IH S E _]; intro N.
    - split; reflexivity.
    - exact (IH N).
    - destruct (IH N) as (A & B). destruct (course_ctl C) as (_ & _ & X & _).
      assert (So : solving v VanDerPol i') by (red; rewrite X; exact N).
      pose proof (sv_euler S So) as Eu. pose proof (sv_frozen S) as Fr.
      pose proof (f_equal (fun l => nth 0 l nzero) Eu) as E0. pose proof (f_equal (fun l => nth 1 l nzero) Eu) as E1.
      assert (Fr' : vp_mu (data (mut i1) : VPData F) = vp_mu (data (mut i') : VPData F)) by (destruct v; apply (f_equal (@vp_mu F)) in Fr; exact Fr).
      assert (P : vp_pair (data (mut i1) : VPData F) = orbit_next (vp_mu (data (mut i') : VPData F)) (vp_pair (data (mut i') : VPData F))).
      { unfold vp_pair, orbit_next. cbn [fst snd]. f_equal; destruct v; [exact E0|exact E0|exact E1|exact E1]. }
      split; [congruence|]. rewrite P, B, A. reflexivity.
    - destruct E as (E & _). discriminate.
  Qed.
  Notation m3 := (model_of (F := F) FMI3 VanDerPol).
  Notation m2 := (model_of (F := F) FMI2 VanDerPol).
  Theorem orbit3 szof fuel env e l s obs s' (x0 x1 mu : F) : reach3 m3 szof s -> eventModeUsed (ctl (sinst s)) = false ->
    set_up FMI3 VanDerPol (sinst s) ->
    Forall (fun o => is_DoStep3 o = true) l ->
    run3 m3 szof fuel (map (fun o => (env, o)) l) s = Done (obs, s') -> Forall (fun x => fst (fst x) = OK) obs ->
    get3 m3 szof e s TFloat64 1 [x0] -> get3 m3 szof e s TFloat64 3 [x1] -> get3 m3 szof e s TFloat64 5 [mu] ->
    exists n, clock (nlit 1 (-2)) n s s' /\ get3 m3 szof e s' TFloat64 1 [fst (orbit_after n mu (x0, x1))] /\
      get3 m3 szof e s' TFloat64 3 [snd (orbit_after n mu (x0, x1))] /\ get3 m3 szof e s' TFloat64 5 [mu].
  Proof.
    intros Re Em (Su & _) Fl E Ok G0 G1 Gm. destruct (@course3 _ NF szof VanDerPol fuel env l s obs s' Re Em Fl E Ok) as (n & C & K).
    assert (Re' : reach3 m3 szof s').
    { apply (@run3_reach F NF m3 szof fuel (map (fun o => (env, o)) l) s obs s' Re); [|exact E]. intros e0 o i I Im. apply in_map_iff in I as (o' & Q & I). injection Q as _ ->. rewrite Forall_forall in Fl. apply Fl in I. destruct o; discriminate. }
    assert (Nx : (0 < nx (sol (sinst s)))%nat) by (rewrite Su; cbn; lia).
    destruct (vp_course Nx K) as (A & B).
    apply (@get3_peek F NF szof VanDerPol eq_refl e s TFloat64 _ _ Re) in G0, G1, Gm.
    injection G0 as G0. injection G1 as G1. injection Gm as Gm.
    assert (P : vp_pair (data (mut (sinst s)) : VPData F) = (x0, x1)) by (unfold vp_pair; rewrite <- G0, <- G1; reflexivity).
    assert (Q : vp_mu (data (mut (sinst s)) : VPData F) = mu) by exact Gm. rewrite P in B. rewrite Q in A, B.
    exists n. split; [exact C|]. rewrite <- B.
    split; [|split]; apply (@get3_peek F NF szof VanDerPol eq_refl e s' TFloat64 _ _ Re').
    - reflexivity.
    - reflexivity.
    - refine (f_equal (fun y : F => Some [y]) A).
  Qed.
  Theorem orbit2 szof fuel env e l s obs s' (x0 x1 mu : F) : reach2 m2 szof s ->
    set_up FMI2 VanDerPol (sinst s) ->
    Forall (fun o => is_DoStep2 o = true) l ->
    run2 m2 szof fuel (map (fun o => (env, o)) l) s = Done (obs, s') -> Forall (fun x => fst (fst x) <> Error) obs ->
    get2 m2 szof e s TFloat64 1 x0 -> get2 m2 szof e s TFloat64 3 x1 -> get2 m2 szof e s TFloat64 5 mu ->
    exists n, clock (nlit 1 (-2)) n s s' /\ get2 m2 szof e s' TFloat64 1 (fst (orbit_after n mu (x0, x1))) /\
      get2 m2 szof e s' TFloat64 3 (snd (orbit_after n mu (x0, x1))) /\ get2 m2 szof e s' TFloat64 5 mu.
  Proof.
    intros Re (Su & _) Fl E Ok G0 G1 Gm. destruct (@course2 _ NF szof VanDerPol eq_refl fuel env l s obs s' Re Fl E Ok) as (n & C & K).
    assert (Re' : reach2 m2 szof s').
    { apply (@run2_reach F NF m2 szof fuel (map (fun o => (env, o)) l) s obs s' Re); [|exact E]. intros e0 o i I Im. apply in_map_iff in I as (o' & Q & I). injection Q as _ ->. rewrite Forall_forall in Fl. apply Fl in I. destruct o; discriminate. }
    assert (Nx : (0 < nx (sol (sinst s)))%nat) by (rewrite Su; cbn; lia).
    destruct (vp_course Nx K) as (A & B). destruct (course_ctl K) as (Md & _).
    apply (@get2_peek F NF szof VanDerPol eq_refl eq_refl e s TFloat64 _ _ Re) in G0 as (M & G0).
    apply (@get2_peek F NF szof VanDerPol eq_refl eq_refl e s TFloat64 _ _ Re) in G1 as (_ & G1).
    apply (@get2_peek F NF szof VanDerPol eq_refl eq_refl e s TFloat64 _ _ Re) in Gm as (_ & Gm).
    injection G0 as G0. injection G1 as G1. injection Gm as Gm.
    assert (P : vp_pair (data (mut (sinst s)) : VPData F) = (x0, x1)) by (unfold vp_pair; rewrite <- G0, <- G1; reflexivity).
    assert (Q : vp_mu (data (mut (sinst s)) : VPData F) = mu) by exact Gm. rewrite P in B. rewrite Q in A, B.
    exists n. split; [exact C|]. rewrite <- B.
    assert (Mo : mode_of s' = mode_of s) by exact Md. apply (eq_ind_r (fun x => N.land (bit2 x) MASK2_GetReal <> 0%N) M) in Mo as M'.
    split; [|split]; apply (@get2_peek F NF szof VanDerPol eq_refl eq_refl e s' TFloat64 _ _ Re'); (split; [exact M'|]).
    - reflexivity.
    - reflexivity.
    - refine (f_equal (fun y : F => Some [y]) A).
  Qed.
End VanDerPol.

Section Exact.
  Variable inf : R.
  Local Instance NRo : Num R := NumR inf.
  Local Open Scope R_scope.
  Lemma orbit_S n mu x : orbit_after (S n) mu x = orbit_next mu (orbit_after n mu x).
  Proof. reflexivity. Qed.
  Lemma centi : nlit (F := R) 1 (-2) = / 100.
  Proof. change (IZR 1 * powerRZ 10 (-2) = / 100). cbn [powerRZ]. change (Pos.to_nat 2) with 2%nat. cbn [pow]. lra. Qed.
  Lemma unit : nlit (F := R) 1 0 = 1.
  Proof. change (IZR 1 * powerRZ 10 0 = 1). cbn [powerRZ]. lra. Qed.
  Lemma orbit_next_R mu a b : orbit_next mu (a, b) = (a + / 100 * b, b + / 100 * (mu * ((1 - a * a) * b) - a)).
  Proof. unfold orbit_next, vanderpol, arg. rewrite centi, unit. reflexivity. Qed.
  Lemma mirror n mu a b : orbit_after n mu (- a, - b) = (- fst (orbit_after n mu (a, b)), - snd (orbit_after n mu (a, b))).
  Proof.
    induction n as [|n IH]; [reflexivity|]. rewrite !orbit_S, IH. destruct (orbit_after n mu (a, b)) as [c d]. cbn [fst snd].
    rewrite !orbit_next_R. cbn [fst snd]. f_equal; field.
  Qed.
  Lemma energy n a b : let x := orbit_after n 0 (a, b) in fst x * fst x + snd x * snd x = (1 + / 10000) ^ n * (a * a + b * b).
  Proof.
    induction n as [|n IH]; [cbn; lra|]. cbv zeta in *. rewrite !orbit_S. destruct (orbit_after n 0 (a, b)) as [c d]. cbn [fst snd] in IH.
    rewrite !orbit_next_R. cbn [fst snd pow]. rewrite Rmult_assoc, <- IH. field.
  Qed.
  Lemma still n mu : orbit_after n mu (0, 0) = (0, 0).
  Proof. induction n as [|n IH]; [reflexivity|]. rewrite orbit_S, IH, orbit_next_R. f_equal; field. Qed.
End Exact.
