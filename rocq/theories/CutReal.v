(** CutReal.v -- in exact arithmetic the end of the communication steps determines the solver steps (C21). *)
From Coq Require Import List NArith ZArith Bool Arith Lia Reals Lra.
From Verif Require Import Base Instance ModelIface Core Fmi3 Fmi2 Api Fmus NumR Logic LawsFmus SpecModes SpecCreate SpecState Reach Histories
  SpecVars SpecEqs SpecSteps Steps StepsFmus StepProps StepReal Cut.
Import ListNotations.
Set Implicit Arguments.
Local Open Scope R_scope.

Section Exact.
  Variable inf : R.
  Local Instance NR : Num R := NumR inf.

  Lemma tol_mono t p p' : p <= p' -> p + tol t p <= p' + tol t p'.
  Proof.
    intro L. unfold tol.
    assert (Rmax 1 (Rmax (Rabs t) (Rabs p)) <= Rmax 1 (Rmax (Rabs t) (Rabs p')) + (p' - p)).
    { assert (Rabs p <= Rabs p' + (p' - p)) by (unfold Rabs; destruct (Rcase_abs p'), (Rcase_abs p); lra).
      unfold Rmax. repeat (destruct (Rle_dec _ _)); lra. }
    lra.
  Qed.

  (** [n'] is the last point of the grid not beyond [p], of those after [n]. *)
  Definition ends (g : N -> R) (n : N) (p : R) (n' : N) : Prop :=
    (n <= n')%N /\ (forall q, (n < q <= n')%N -> g q <= p + tol (g q) p) /\ (forall q, (n' < q)%N -> p + tol (g q) p < g q).
  Lemma ends_trans g n p n1 p' n' : p <= p' -> ends g n p n1 -> ends g n1 p' n' -> ends g n p' n'.
  Proof.
    intros L (A & B & _) (A' & B' & C'). split; [lia|]. split; [|exact C']. intros q Hq. destruct (N.le_gt_cases q n1) as [X|X].
    - eapply Rle_trans; [apply B; lia|]. now apply tol_mono.
    - apply B'. lia.
  Qed.
  Lemma ends_fun g n p n1 n2 : ends g n p n1 -> ends g n p n2 -> n1 = n2.
  Proof.
    intros (A & B & C) (A' & B' & C'). destruct (N.lt_trichotomy n1 n2) as [X|[X|X]]; [|exact X|].
    - specialize (B' n2 ltac:(lia)). specialize (C n2 X). lra.
    - specialize (B n1 ltac:(lia)). specialize (C' n1 X). lra.
  Qed.

  Lemma clock_grid D h k (s s' : Sys R D) : clock h k s s' -> on_grid h (ctl (sinst s)) -> on_grid h (ctl (sinst s')).
  Proof.
    unfold clock, time_of, start_of, stop_of, steps_of, on_grid. intros (A & B & _ & C) G. rewrite A, B, C. destruct k; cbn [after]; [exact G|]. right. reflexivity.
  Qed.
  Lemma clock_steps D h k (s s' : Sys R D) : clock h k s s' -> (steps_of s + N.of_nat k < two64)%N -> steps_of s' = (steps_of s + N.of_nat k)%N.
  Proof. intros (_ & _ & _ & ->) L. destruct k; [lia|]. now apply later_small. Qed.
  Lemma clock_start D h k (s s' : Sys R D) : clock h k s s' -> start_of s' = start_of s.
  Proof. now intros (_ & A & _). Qed.

  Section FMI3.
    Variable (szof : N) (f : FMU).
    Notation m := (model_of (F := R) FMI3 f).
    Lemma chain_doStep3 D : forall hs a, Forall (fun o => is_DoStep3 (F := R) (D := D) o = true) (chain3 a hs).
    Proof. induction hs; intros; cbn; constructor; auto. Qed.
    Lemma chain_length3 D : forall hs a, length (chain3 (F := R) (D := D) a hs) = length hs.
    Proof. induction hs; intros; cbn; auto. Qed.
    Lemma chain_ends3 fuel env : forall hs a s obs s', hs <> [] -> reach3 m szof s -> on_grid (m_step m) (ctl (sinst s)) ->
      (steps_of s + N.of_nat (fuel * length hs) + 1 < two64)%N ->
      run3 m szof fuel (map (fun o => (env, o)) (chain3 a hs)) s = Done (obs, s') -> Forall whole3 obs ->
      a < upto a hs /\ ends (gridR (start_of s) (m_step m)) (steps_of s) (upto a hs) (steps_of s').
    Proof.
      induction hs as [|h hs IH]; intros a s obs s' Ne Rs G L E W; [congruence|]. cbn [chain3 map] in E.
      apply run_cons in E as (st & out & s1 & t & obs' & E1 & E2 & ->). inversion W as [|? ? W1 W2]; subst.
      destruct W1 as (e & last & t' & W1). injection W1 as -> -> ->.
      destruct (@accepted3 R NR szof f fuel env a h true true true true s _ s1 t' Rs E1) as (_ & _ & Ah & _).
      assert (Hp : 0 < h). { cbn [nle NR NumR] in Ah. apply Rleb_false in Ah. unfold nzero in Ah. cbn [nlit NR NumR] in Ah. rewrite Rmult_0_l in Ah. exact Ah. }
      assert (L1 : (steps_of s + N.of_nat fuel + 1 < two64)%N) by (cbn [length] in L; lia).
      destruct (@reaches3_R inf szof f fuel env a h true true true true s e last s1 t' Rs G L1 E1) as (_ & _ & A1 & A2 & A3).
      assert (Q : ends (gridR (start_of s) (m_step m)) (steps_of s) (a + h) (steps_of s1)) by (split; [exact A1|]; split; assumption).
      destruct (@steps3 R NR szof f fuel env a h true true true true s OK _ s1 t' Rs E1) as (k & Hk & C & _).
      unfold upto in *. cbn [fold_left nadd NR NumR] in *.
      destruct hs as [|h2 hs].
      - cbn in E2. injection E2 as <- <-. cbn [fold_left]. split; [lra|exact Q].
      - assert (R1 : reach3 m szof s1) by (eapply reach3_call; [exact Rs| |exact E1]; discriminate).
        assert (S1 : (steps_of s1 = steps_of s + N.of_nat k)%N) by (eapply clock_steps; [exact C|lia]).
        specialize (IH (a + h) s1 obs' s' ltac:(discriminate) R1 (clock_grid C G) ltac:(cbn [length] in *; lia) E2 W2) as (I1 & I2).
        split; [lra|]. rewrite (clock_start C) in I2. eapply ends_trans; [|exact Q|exact I2]. lra.
    Qed.
    Theorem cuts3 fuel env hs1 hs2 a s obs1 obs2 s1 s2 : reach3 m szof s -> on_grid (m_step m) (ctl (sinst s)) ->
      eventModeUsed (ctl (sinst s)) = false ->
      (steps_of s + N.of_nat (fuel * length hs1) + 1 < two64)%N -> (steps_of s + N.of_nat (fuel * length hs2) + 1 < two64)%N ->
      run3 m szof fuel (map (fun o => (env, o)) (chain3 a hs1)) s = Done (obs1, s1) -> Forall whole3 obs1 ->
      run3 m szof fuel (map (fun o => (env, o)) (chain3 a hs2)) s = Done (obs2, s2) -> Forall whole3 obs2 ->
      hs1 <> [] -> hs2 <> [] -> upto a hs1 = upto a hs2 ->
      time_of s1 = time_of s2 /\ forall e, reads_same m szof e s1 s2.
    Proof.
      intros Rs G Em L1 L2 E1 W1 E2 W2 N1 N2 Eq.
      destruct (@chain_ends3 fuel env hs1 a s obs1 s1 N1 Rs G L1 E1 W1) as (_ & X1).
      destruct (@chain_ends3 fuel env hs2 a s obs2 s2 N2 Rs G L2 E2 W2) as (_ & X2).
      rewrite Eq in X1. pose proof (ends_fun X1 X2) as Es.
      assert (Ok : forall obs : list (Obs m), Forall whole3 obs -> Forall (fun x => fst (fst x) = OK) obs).
      { intros obs W. eapply Forall_impl; [|exact W]. intros x (? & ? & ? & ->). reflexivity. }
      eapply (@trajectory3 R NR szof f fuel env (chain3 a hs1) (chain3 a hs2)); eauto using chain_doStep3; rewrite ?chain_length3; lia.
    Qed.
  End FMI3.

  Section FMI2.
    Variable (szof : N) (f : FMU).
    Hypothesis Bf : built2 f = true.
    Notation m := (model_of (F := R) FMI2 f).
    Lemma reaches2_R fuel env ccp h s out s' t : reach2 m szof s -> on_grid (m_step m) (ctl (sinst s)) -> (steps_of s + N.of_nat fuel + 1 < two64)%N ->
      exec2 m szof fuel env (O2DoStep ccp h) s = Done (OK, out, s', t) ->
      time_of s' = gridR (start_of s) (m_step m) (steps_of s') /\ ends (gridR (start_of s) (m_step m)) (steps_of s) (ccp + h) (steps_of s').
    Proof.
      intros Rs G L E. destruct (@steps2 R NR szof f Bf fuel env ccp h s OK out s' t Rs E) as (k0 & Hk0 & C0).
      destruct (@reaches2 R NR szof f Bf fuel env ccp h s OK out s' t Rs E) as (H2 & _).
      destruct (H2 eq_refl) as (_ & k & C & A & B).
      assert (Hk : (k <= fuel)%nat).
      { destruct (le_lt_dec k fuel) as [|X]; [assumption|]. exfalso. destruct C as (C & _), C0 as (C0 & _).
        specialize (A (S k0) ltac:(lia)). cbn [Nat.sub] in A. rewrite Nat.sub_0_r in A. rewrite <- C0 in A. congruence. }
      pose proof C as (Ct & Cs & _ & Cn). rewrite Ct in B.
      assert (N' : steps_of s' = (steps_of s + N.of_nat k)%N) by (eapply clock_steps; [exact C|lia]).
      split.
      { etransitivity; [exact Ct|]. etransitivity; [apply (@after_R inf (m_step m) k (ctl (sinst s)) G); unfold steps_of in *; lia|]. rewrite N'. reflexivity. }
      rewrite N'. split; [lia|]. apply (@last_point inf (m_step m) (ccp + h) k (ctl (sinst s))); auto; [apply step_pos|unfold steps_of in *; lia].
    Qed.
    Lemma chain_doStep2 D : forall hs a, Forall (fun o => is_DoStep2 (F := R) (D := D) o = true) (chain2 a hs).
    Proof. induction hs; intros; cbn; constructor; auto. Qed.
    Lemma chain_length2 D : forall hs a, length (chain2 (F := R) (D := D) a hs) = length hs.
    Proof. induction hs; intros; cbn; auto. Qed.
    Lemma chain_ends2 fuel env : forall hs a s obs s', hs <> [] -> reach2 m szof s -> on_grid (m_step m) (ctl (sinst s)) ->
      (steps_of s + N.of_nat (fuel * length hs) + 1 < two64)%N ->
      run2 m szof fuel (map (fun o => (env, o)) (chain2 a hs)) s = Done (obs, s') -> Forall whole2 obs ->
      a < upto a hs /\ ends (gridR (start_of s) (m_step m)) (steps_of s) (upto a hs) (steps_of s').
    Proof.
      induction hs as [|h hs IH]; intros a s obs s' Ne Rs G L E W; [congruence|]. cbn [chain2 map] in E.
      apply run_cons in E as (st & out & s1 & t & obs' & E1 & E2 & ->). inversion W as [|? ? W1 W2]; subst.
      unfold whole2 in W1. cbn in W1. subst st.
      assert (Ne1 : OK <> Error) by discriminate.
      destruct (@accepted2 R NR szof f Bf fuel env a h s OK out s1 t Rs Ne1 E1) as (_ & _ & Ah & _).
      assert (Hp : 0 < h). { cbn [nle NR NumR] in Ah. apply Rleb_false in Ah. unfold nzero in Ah. cbn [nlit NR NumR] in Ah. rewrite Rmult_0_l in Ah. exact Ah. }
      assert (L1 : (steps_of s + N.of_nat fuel + 1 < two64)%N) by (cbn [length] in L; lia).
      destruct (@reaches2_R fuel env a h s out s1 t Rs G L1 E1) as (_ & Q).
      destruct (@steps2 R NR szof f Bf fuel env a h s OK out s1 t Rs E1) as (k & Hk & C).
      unfold upto in *. cbn [fold_left nadd NR NumR] in *.
      destruct hs as [|h2 hs].
      - cbn in E2. injection E2 as <- <-. cbn [fold_left]. split; [lra|exact Q].
      - assert (R1 : reach2 m szof s1) by (eapply reach2_call; [exact Rs| |exact E1]; discriminate).
        assert (S1 : (steps_of s1 = steps_of s + N.of_nat k)%N) by (eapply clock_steps; [exact C|lia]).
        specialize (IH (a + h) s1 obs' s' ltac:(discriminate) R1 (clock_grid C G) ltac:(cbn [length] in *; lia) E2 W2) as (I1 & I2).
        split; [lra|]. rewrite (clock_start C) in I2. eapply ends_trans; [|exact Q|exact I2]. lra.
    Qed.
    Theorem cuts2 fuel env hs1 hs2 a s obs1 obs2 s1 s2 : reach2 m szof s -> on_grid (m_step m) (ctl (sinst s)) ->
      (steps_of s + N.of_nat (fuel * length hs1) + 1 < two64)%N -> (steps_of s + N.of_nat (fuel * length hs2) + 1 < two64)%N ->
      run2 m szof fuel (map (fun o => (env, o)) (chain2 a hs1)) s = Done (obs1, s1) -> Forall whole2 obs1 ->
      run2 m szof fuel (map (fun o => (env, o)) (chain2 a hs2)) s = Done (obs2, s2) -> Forall whole2 obs2 ->
      hs1 <> [] -> hs2 <> [] -> upto a hs1 = upto a hs2 ->
      time_of s1 = time_of s2 /\ forall e, reads_same2 m szof e s1 s2.
    Proof.
      intros Rs G L1 L2 E1 W1 E2 W2 N1 N2 Eq.
      destruct (@chain_ends2 fuel env hs1 a s obs1 s1 N1 Rs G L1 E1 W1) as (_ & X1).
      destruct (@chain_ends2 fuel env hs2 a s obs2 s2 N2 Rs G L2 E2 W2) as (_ & X2).
      rewrite Eq in X1. pose proof (ends_fun X1 X2) as Es.
      assert (Ok : forall obs : list (Obs m), Forall whole2 obs -> Forall (fun x => fst (fst x) <> Error) obs).
      { intros obs W. eapply Forall_impl; [|exact W]. unfold whole2. intros x ->. discriminate. }
      eapply (@trajectory2 R NR szof f Bf fuel env (chain2 a hs1) (chain2 a hs2)); eauto using chain_doStep2; rewrite ?chain_length2; lia.
    Qed.
  End FMI2.
End Exact.
