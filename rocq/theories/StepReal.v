(** StepReal.v -- DoStep in exact real arithmetic (C19, C20): the points of the solver grid beyond
    the end of a step form an upper segment. *)
From Coq Require Import List NArith ZArith Bool Arith Lia Reals Lra.
From Verif Require Import Base Instance ModelIface Core Fmi3 Fmi2 Api Fmus NumR SpecModes SpecCreate Reach SpecSteps StepProps.
Import ListNotations.
Set Implicit Arguments.
Local Open Scope R_scope.

Lemma Rleb_spec a b : Rleb a b = true <-> a <= b.
Proof. unfold Rleb. destruct (Rle_dec a b); split; auto; discriminate. Qed.
Lemma Rltb_spec a b : Rltb a b = true <-> a < b.
Proof. unfold Rltb. destruct (Rlt_dec a b); split; auto; discriminate. Qed.
Lemma Rleb_false a b : Rleb a b = false <-> b < a.
Proof. unfold Rleb. destruct (Rle_dec a b); split; try discriminate; intros; lra. Qed.
Lemma Rltb_false a b : Rltb a b = false <-> b <= a.
Proof. unfold Rltb. destruct (Rlt_dec a b); split; try discriminate; intros; lra. Qed.

(** The tolerance at [t] and [p], and the points of the grid. *)
Definition tol (t p : R) : R := 1 / 100000 * Rmax 1 (Rmax (Rabs t) (Rabs p)).
Definition gridR (a h : R) (n : N) : R := a + IZR (Z.of_N n) * h.

Section Real.
  Variable inf : R.
  Local Instance NR : Num R := NumR inf.

  Lemma eps_R : EPSILON (F := R) = 1 / 100000.
  Proof. unfold EPSILON. cbn. change (Pos.to_nat 5) with 5%nat. cbn [pow]. lra. Qed.
  Lemma abs_R a : fmiAbs (F := R) a = Rabs a.
  Proof.
    unfold fmiAbs, nzero. cbn -[Rleb]. unfold Rabs. destruct (Rcase_abs a) as [H|H].
    - destruct (Rleb (0 * 1) a) eqn:E; [|reflexivity]. apply Rleb_spec in E. lra.
    - destruct (Rleb (0 * 1) a) eqn:E; [reflexivity|]. apply Rleb_false in E. lra.
  Qed.
  Lemma max_R a b : fmiMax (F := R) a b = Rmax a b.
  Proof.
    unfold fmiMax. cbn -[Rltb]. unfold Rmax. destruct (Rle_dec a b) as [H|H].
    - destruct (Rltb a b) eqn:E; auto. apply Rltb_false in E. lra.
    - destruct (Rltb a b) eqn:E; auto. apply Rltb_spec in E. lra.
  Qed.

  Lemma beyond_R t p : beyond (F := R) t p = true <-> p + tol t p < t.
  Proof.
    unfold beyond, isClose. cbn -[Rltb Rleb EPSILON fmiAbs fmiMax]. rewrite eps_R, !abs_R, max_R. unfold tol.
    assert (M : forall x y z, x * Rmax y z = x * y /\ z <= y \/ x * Rmax y z = x * z /\ y <= z).
    { intros. unfold Rmax. destruct (Rle_dec y z); [right|left]; split; auto; lra. }
    rewrite andb_true_iff, Rltb_spec.
    assert (A : p < t -> Rabs (t - p) = t - p) by (intro; apply Rabs_pos_eq; lra).
    destruct (M (1/100000) 1 (Rmax (Rabs t) (Rabs p))) as [(E & L)|(E & L)]; rewrite E; split.
    - intros (H & B). rewrite A in B by auto. destruct (Rleb (t - p) (1/100000)) eqn:X; [discriminate|]. apply Rleb_false in X. lra.
    - intro H. split; [lra|]. rewrite A by lra. destruct (Rleb (t - p) (1/100000)) eqn:X; [apply Rleb_spec in X; lra|].
      destruct (Rleb (t - p) (1 / 100000 * Rmax (Rabs t) (Rabs p))) eqn:Y; [|reflexivity]. apply Rleb_spec in Y. lra.
    - intros (H & B). rewrite A in B by auto. destruct (Rleb (t - p) (1/100000)) eqn:X; [discriminate|].
      destruct (Rleb (t - p) (1 / 100000 * Rmax (Rabs t) (Rabs p))) eqn:Y; [discriminate|]. apply Rleb_false in Y. lra.
    - intro H. assert (0 <= Rmax (Rabs t) (Rabs p)) by lra. split; [lra|]. rewrite A by lra. destruct (Rleb (t - p) (1/100000)) eqn:X; [apply Rleb_spec in X; lra|].
      destruct (Rleb (t - p) (1 / 100000 * Rmax (Rabs t) (Rabs p))) eqn:Y; [|reflexivity]. apply Rleb_spec in Y. lra.
  Qed.
  Lemma beyond_mono t t' p : t <= t' -> beyond (F := R) t p = true -> beyond (F := R) t' p = true.
  Proof.
    intros L H. apply beyond_R in H. apply beyond_R. unfold tol in *.
    assert (Rmax 1 (Rmax (Rabs t') (Rabs p)) <= Rmax 1 (Rmax (Rabs t) (Rabs p)) + (t' - t)).
    { assert (Rabs t' <= Rabs t + (t' - t)) by (unfold Rabs; destruct (Rcase_abs t'), (Rcase_abs t); lra).
      unfold Rmax. repeat (destruct (Rle_dec _ _)); lra. }
    lra.
  Qed.

  Lemma step_pos v f : 0 < m_step (model_of (F := R) v f).
  Proof. destruct f; cbn [m_step model_of]; unfold nlit; cbn [NumR NR]; apply Rmult_lt_0_compat; try lra; apply powerRZ_lt; lra. Qed.

  (** The grid without the wrap-around of the step counter. *)
  Lemma later_small n k : (n + N.of_nat k < two64)%N -> later n k = (n + N.of_nat k)%N.
  Proof. intro. now apply N.mod_small. Qed.
  Lemma after_R h k (c : Ctl R) : on_grid h c -> (nSteps c + N.of_nat k < two64)%N -> after h k c = gridR (startTime c) h (nSteps c + N.of_nat k).
  Proof.
    intros G L. unfold gridR. destruct k; cbn [after].
    - rewrite N.add_0_r. destruct G as [(N0 & ->)| -> ]; [rewrite N0; cbn; lra|reflexivity].
    - rewrite later_small by exact L. reflexivity.
  Qed.
  Lemma grid_next a h n : gridR a h (n + 1) = gridR a h n + h.
  Proof. unfold gridR. rewrite N2Z.inj_add, plus_IZR. cbn. lra. Qed.
  Lemma grid_le a h n n' : 0 < h -> (n <= n')%N -> gridR a h n <= gridR a h n'.
  Proof. intros H L. unfold gridR. apply Rplus_le_compat_l, Rmult_le_compat_r; [lra|]. apply IZR_le. lia. Qed.

  (** C19, the last point of the grid *)
  Lemma last_point h p k (c : Ctl R) : 0 < h -> on_grid h c -> (nSteps c + N.of_nat k + 1 < two64)%N ->
    (forall j, (1 <= j <= k)%nat -> beyond (F := R) (nadd (after h (j - 1) c) h) p = false) ->
    beyond (F := R) (nadd (after h k c) h) p = true ->
    let n' := (nSteps c + N.of_nat k)%N in
    (forall q, (nSteps c < q <= n')%N -> gridR (startTime c) h q <= p + tol (gridR (startTime c) h q) p) /\
    (forall q, (n' < q)%N -> p + tol (gridR (startTime c) h q) p < gridR (startTime c) h q).
  Proof.
    intros Hh G L A B n'. split.
    - intros q Hq. pose (j := N.to_nat (q - nSteps c)). specialize (A j ltac:(unfold j, n' in *; lia)).
      assert (X : beyond (F := R) (gridR (startTime c) h q) p = false).
      { rewrite <- A. f_equal. cbn [nadd NR NumR]. rewrite after_R by (auto; unfold j, n' in *; lia).
        rewrite <- grid_next. f_equal. unfold j, n' in *. lia. }
      destruct (Rle_or_lt (gridR (startTime c) h q) (p + tol (gridR (startTime c) h q) p)) as [|Y]; [assumption|].
      apply beyond_R in Y. congruence.
    - intros q Hq. apply beyond_R. eapply beyond_mono; [|exact B]. cbn [nadd NR NumR]. rewrite after_R by (auto; lia).
      rewrite <- grid_next. apply grid_le; [exact Hh|]. unfold n' in *. lia.
  Qed.

  Lemma reaches3_R szof f fuel env ccp h p1 p2 p3 p4 s e last s' t :
    let m := model_of (F := R) FMI3 f in
    let a := start_of s in
    let p := ccp + h in
    let n' := steps_of s' in
    reach3 m szof s -> on_grid (m_step m) (ctl (sinst s)) -> (steps_of s + N.of_nat fuel + 1 < two64)%N ->
    exec3 m szof fuel env (O3DoStep ccp h p1 p2 p3 p4) s = Done (OK, ODoStep (mkDoStepOut e (Some false) (Some false) last), s', t) ->
    last = Some (time_of s') /\ time_of s' = gridR a (m_step m) n' /\ (steps_of s <= n')%N /\
    (forall q, (steps_of s < q <= n')%N -> gridR a (m_step m) q <= p + tol (gridR a (m_step m) q) p) /\
    (forall q, (n' < q)%N -> p + tol (gridR a (m_step m) q) p < gridR a (m_step m) q).
  Proof.
    cbv zeta. intros Rs G L E.
    destruct (@steps3 R NR szof f fuel env ccp h p1 p2 p3 p4 s OK _ s' t Rs E) as (k0 & Hk0 & C0 & _).
    destruct (@reaches3 R NR szof f fuel env ccp h p1 p2 p3 p4 s e (Some false) (Some false) last s' t Rs E) as (H1 & H2).
    destruct (H2 eq_refl eq_refl) as (_ & k & C & A & B).
    assert (Hk : (k <= fuel)%nat).
    { destruct (le_lt_dec k fuel) as [|X]; [assumption|]. exfalso.
      destruct C as (C & _), C0 as (C0 & _).
      specialize (A (S k0) ltac:(lia)). cbn [Nat.sub] in A. rewrite Nat.sub_0_r in A. rewrite <- C0 in A. congruence. }
    destruct C as (Ct & Cs & _ & Cn). rewrite Ct in B.
    assert (N' : steps_of s' = (steps_of s + N.of_nat k)%N).
    { rewrite Cn. destruct k; [lia|]. apply later_small. unfold steps_of in *. lia. }
    split; [exact H1|]. split; [rewrite Ct, after_R; [f_equal; symmetry; exact N'|exact G|unfold steps_of in *; lia]|].
    split; [lia|]. rewrite N'. apply (@last_point (m_step (model_of (F := R) FMI3 f)) (ccp + h) k (ctl (sinst s))); auto; [apply step_pos|unfold steps_of in *; lia].
  Qed.

  Lemma returns_R h a n p : 0 < h -> (n < 2 ^ 62)%N -> Rabs a + Rabs p + 1 <= h * IZR (2 ^ 60) ->
    forall c : Ctl R, on_grid h c -> startTime c = a -> nSteps c = n ->
    exists K, beyond (F := R) (nadd (after h K c) h) p = true.
  Proof.
    intros Hh Hn Hp c G Ha Hs. pose (q := (2 ^ 62)%N). exists (N.to_nat q).
    assert (L : (nSteps c + N.of_nat (N.to_nat q) < two64)%N) by (rewrite N2Nat.id, Hs; unfold q, two64; lia).
    rewrite after_R by auto. rewrite N2Nat.id, Ha, Hs. cbn [nadd NR NumR]. apply beyond_R. unfold gridR, tol.
    assert (E : IZR (Z.of_N (n + q)) = IZR (Z.of_N n) + 4 * IZR (2 ^ 60)).
    { rewrite N2Z.inj_add, plus_IZR. f_equal. rewrite <- mult_IZR. f_equal. }
    rewrite E. assert (0 <= IZR (Z.of_N n) <= 4 * IZR (2 ^ 60)).
    { split; [apply IZR_le; lia|]. rewrite <- mult_IZR. apply IZR_le. lia. }
    set (T := IZR (2 ^ 60)) in *. assert (0 < T) by (apply IZR_lt; reflexivity).
    set (x := IZR (Z.of_N n)) in *. assert (0 <= h * x <= 4 * (h * T)) by nra. assert (0 < h * T) by nra.
    replace (a + (x + 4 * T) * h + h) with (a + h * x + 4 * (h * T) + h) by ring.
    assert (h <= h * T). { assert (1 <= T) by (apply IZR_le; discriminate). nra. }
    assert (Rmax 1 (Rmax (Rabs (a + h * x + 4 * (h * T) + h)) (Rabs p)) <= 10 * (h * T)).
    { assert (Rabs (a + h * x + 4 * (h * T) + h) <= 10 * (h * T)).
      { apply Rabs_le. pose proof (Rle_abs a). pose proof (Rle_abs (- a)). rewrite Rabs_Ropp in *. pose proof (Rabs_pos p). lra. }
      pose proof (Rabs_pos a). pose proof (Rabs_pos p). unfold Rmax. repeat (destruct (Rle_dec _ _)); lra. }
    pose proof (Rle_abs (- a)). pose proof (Rle_abs p). rewrite Rabs_Ropp in *. lra.
  Qed.
  Lemma returns3_R szof f env ccp h p1 p2 p3 p4 s :
    let m := model_of (F := R) FMI3 f in
    reach3 m szof s -> on_grid (m_step m) (ctl (sinst s)) -> (steps_of s < 2 ^ 62)%N ->
    Rabs (start_of s) + Rabs (ccp + h) + 1 <= m_step m * IZR (2 ^ 60) ->
    exists K, forall fuel, (K < fuel)%nat -> exec3 m szof fuel env (O3DoStep ccp h p1 p2 p3 p4) s <> NoFuel.
  Proof.
    intros m Rs G L Hp. destruct (@returns_R (m_step m) (start_of s) (steps_of s) (ccp + h) (step_pos FMI3 f) L Hp (ctl (sinst s)) G eq_refl eq_refl) as (K & B).
    exists K. intros fuel Hf. apply (@returns3 R NR szof f fuel env ccp h p1 p2 p3 p4 s K Rs Hf). exact B.
  Qed.
  Lemma returns2_R szof f env ccp h s : built2 f = true ->
    let m := model_of (F := R) FMI2 f in
    reach2 m szof s -> on_grid (m_step m) (ctl (sinst s)) -> (steps_of s < 2 ^ 62)%N ->
    Rabs (start_of s) + Rabs (ccp + h) + 1 <= m_step m * IZR (2 ^ 60) ->
    exists K, forall fuel, (K < fuel)%nat -> exec2 m szof fuel env (O2DoStep ccp h) s <> NoFuel.
  Proof.
    intros Bf m Rs G L Hp. destruct (@returns_R (m_step m) (start_of s) (steps_of s) (ccp + h) (step_pos FMI2 f) L Hp (ctl (sinst s)) G eq_refl eq_refl) as (K & B).
    exists K. intros fuel Hf. apply (@returns2 R NR szof f Bf fuel env ccp h s K Rs Hf). exact B.
  Qed.
End Real.
