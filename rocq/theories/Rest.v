(** Rest.v -- proofs of C75 and C76. *)
From Coq Require Import List NArith ZArith Bool Arith Reals Lia Lra Psatz.
From Verif Require Import Base Instance ModelIface Core Fmi3 Fmi2 Api Fmus NumB64 NumR Logic Calls LawsFmus SpecModes SpecCreate SpecState Gate Effect Reach Histories
  FmuBouncingBall FmuDahlquist FmuStair FmuVanDerPol FmuRoberts FmuClocks FmuResource FmuStateSpace FmuFeedthrough
  Sim SimSS SpecVars SpecEqs SpecSteps Vars VarsFmus DataFmus Data Vars2 Data2 Dyn Solver Fits Steps StepsFmus StepProps SpecOde Ode KeepArrays Crossing Course SpecNumeric Numeric SpecRest.
Import ListNotations.
Set Implicit Arguments.
Local Open Scope R_scope.

(** ** The recurrence of Roberts *)
Lemma mixture_next y1 y2 : mixture y1 y2 (third (y1, y2)) ->
  let y := roberts_next (y1, y2) in mixture (fst y) (snd y) (third y) /\ third (y1, y2) <= third y.
Proof.
  unfold mixture, third. cbn [fst snd roberts_next]. intros (A & (B & C) & D & _).
  assert (P : 0 <= y2 * (1 - y1 - y2)) by (apply Rmult_le_pos; lra).
  assert (Q : 0 <= y2 * y2) by (apply Rmult_le_pos; lra).
  assert (K : 0 <= y2 * (1 - / 100 * (1 - y1 - y2) - 30 * y2)) by (apply Rmult_le_pos; lra).
  assert (Sq : 0 <= (y2 - / 60) * (y2 - / 60)) by (apply Rle_0_sqr).
  repeat split; lra.
Qed.
Lemma mixture_after n y1 y2 : mixture y1 y2 (third (y1, y2)) ->
  let y := roberts_after n (y1, y2) in mixture (fst y) (snd y) (third y) /\ third (y1, y2) <= third y.
Proof.
  intros M. induction n as [|n IH]; [split; [exact M|apply Rle_refl]|].
  change (roberts_after (S n) (y1, y2)) with (roberts_next (roberts_after n (y1, y2))). destruct (roberts_after n (y1, y2)) as [a b].
  cbn zeta in *. cbn [fst snd] in IH. destruct IH as (IH & L). destruct (mixture_next IH) as (N & L').
  split; [exact N|]. lra.
Qed.
Lemma roberts_after_plus n m y : roberts_after (n + m) y = roberts_after n (roberts_after m y).
Proof. unfold roberts_after. induction n as [|n IH]; [reflexivity|]. cbn [Nat.add Nat.iter nat_rect]. f_equal. exact IH. Qed.

(** ** Roberts *)
Section Roberts.
  Variable inf : R.
  Local Instance NR : Num R := NumR inf.
  Local Open Scope R_scope.
  Notation m3 := (model_of (F := R) FMI3 Roberts).
  Definition ro_d (i : Inst R (md m3)) : ROData R := data (mut i).
  Definition ro_pair (d : ROData R) : R * R := (ro_y1 d, ro_y2 d).
  Lemma ro_course env k (i i' : Inst R (md m3)) : (0 < nx (sol i))%nat -> ro_dae (ro_d i) = false -> course FMI3 Roberts env k i i' ->
    ro_dae (ro_d i') = false /\ ro_pair (ro_d i') = roberts_after k (ro_pair (ro_d i)).
  Proof.
    intros N D C. revert N D. induction C as [i|k i i' p C IH|k i i' i1 C IH S _|k i i' i1 i2 C IH S E _]; intros N D.
    - split; [exact D | reflexivity].
    - exact (IH N D).
    - destruct (IH N D) as (A & B). destruct (course_ctl C) as (_ & _ & X & _).
      assert (So : solving FMI3 Roberts i') by (red; rewrite X; exact N).
      pose proof (sv_euler S So) as Eu. pose proof (sv_frozen S) as Fr.
      pose proof (f_equal (fun l => nth 0 l 0) Eu) as E0. pose proof (f_equal (fun l => nth 1 l 0) Eu) as E1.
      assert (Fr' : ro_dae (ro_d i1) = ro_dae (ro_d i')) by (apply (f_equal (@ro_dae R)) in Fr; exact Fr).
      set (h := IZR 1 * powerRZ 10 (-6)) in *.
      assert (E0' : ro_y1 (ro_d i1) = ro_y1 (ro_d i') + h * ((- (IZR 4 * powerRZ 10 (-2))) * ro_y1 (ro_d i') + (IZR 1 * powerRZ 10 4) * ro_y2 (ro_d i') * ro_third (ro_d i'))) by exact E0.
      assert (E1' : ro_y2 (ro_d i1) = ro_y2 (ro_d i') + h * ((IZR 4 * powerRZ 10 (-2)) * ro_y1 (ro_d i') - (IZR 1 * powerRZ 10 4) * ro_y2 (ro_d i') * ro_third (ro_d i')
        - (IZR 3 * powerRZ 10 7) * ro_y2 (ro_d i') * ro_y2 (ro_d i'))) by exact E1.
      assert (T : ro_third (ro_d i') = IZR 1 * powerRZ 10 0 - ro_y1 (ro_d i') - ro_y2 (ro_d i')) by (unfold ro_third; rewrite A; reflexivity).
      rewrite T in E0', E1'. unfold h in E0', E1'. clear Eu Fr E0 E1 T h.
      assert (P2 : powerRZ 10 (-2) = / 100) by (cbn [powerRZ]; change (Pos.to_nat 2) with 2%nat; cbn [pow]; lra).
      assert (P6 : powerRZ 10 (-6) = / 1000000) by (cbn [powerRZ]; change (Pos.to_nat 6) with 6%nat; cbn [pow]; lra).
      assert (P4 : powerRZ 10 4 = 10000) by (cbn [powerRZ]; change (Pos.to_nat 4) with 4%nat; cbn [pow]; lra).
      assert (P7 : powerRZ 10 7 = 10000000) by (cbn [powerRZ]; change (Pos.to_nat 7) with 7%nat; cbn [pow]; lra).
      rewrite P2, P6, P4 in E0'. rewrite P2, P6, P4, P7 in E1'. change (powerRZ 10 0) with 1 in *.
      split; [congruence|]. change (roberts_after (Datatypes.S k) (ro_pair (ro_d i))) with (roberts_next (roberts_after k (ro_pair (ro_d i)))). rewrite <- B.
      unfold ro_pair. rewrite E0', E1'. unfold roberts_next. f_equal; field.
    - destruct E as (E & _). discriminate.
  Qed.
  Theorem roberts3 szof fuel env e l s obs s' y1 y2 : reach3 m3 szof s -> eventModeUsed (ctl (sinst s)) = false ->
    set_up FMI3 Roberts (sinst s) ->
    Forall (fun o => is_DoStep3 o = true) l ->
    run3 m3 szof fuel (map (fun o => (env, o)) l) s = Done (obs, s') -> Forall (fun x => fst (fst x) = OK) obs ->
    get3 m3 szof e s TBoolean 1 [false] -> get3 m3 szof e s TFloat64 2 [y1] -> get3 m3 szof e s TFloat64 4 [y2] ->
    exists n, clock (/ 1000000) n s s' /\ let y := roberts_after n (y1, y2) in
      get3 m3 szof e s' TFloat64 2 [fst y] /\ get3 m3 szof e s' TFloat64 4 [snd y] /\
      get3 m3 szof e s' TFloat64 6 [third y] /\ get3 m3 szof e s' TFloat64 8 [0].
  Proof.
    intros Re Em (Su & _) Fl E Ok Gd G1 G2. destruct (@course3 _ NR szof Roberts fuel env l s obs s' Re Em Fl E Ok) as (n & C & K).
    assert (Re' : reach3 m3 szof s').
    { apply (@run3_reach R NR m3 szof fuel (map (fun o => (env, o)) l) s obs s' Re); [|exact E]. intros e0 o i I Im. apply in_map_iff in I as (o' & Q & I). injection Q as _ ->. rewrite Forall_forall in Fl. apply Fl in I. destruct o; discriminate. }
    assert (Nx : (0 < nx (sol (sinst s)))%nat) by (rewrite Su; cbn; lia).
    apply (@get3_peek R NR szof Roberts eq_refl e s TBoolean _ _ Re) in Gd.
    apply (@get3_peek R NR szof Roberts eq_refl e s TFloat64 _ _ Re) in G1. apply (@get3_peek R NR szof Roberts eq_refl e s TFloat64 _ _ Re) in G2.
    assert (Calc : forall d : ROData R, ro_dae (ro_calc d) = ro_dae d /\ ro_y1 (ro_calc d) = ro_y1 d /\ ro_y2 (ro_calc d) = ro_y2 d /\
      (ro_dae d = false -> ro_y3 (ro_calc d) = IZR 1 * powerRZ 10 0 - ro_y1 d - ro_y2 d /\
        ro_r (ro_calc d) = ro_y1 d + ro_y2 d + (IZR 1 * powerRZ 10 0 - ro_y1 d - ro_y2 d) - IZR 1 * powerRZ 10 0)).
    { intros d. unfold ro_calc, ro_ders, ro_alg. destruct (ro_dae d) eqn:X; cbn; auto; (split; [auto|split; [auto|split; [auto|]]]); try discriminate; auto. }
    assert (D0 : ro_dae (ro_d (sinst s)) = false).
    { rewrite <- (proj1 (Calc _)). injection Gd as Gd. exact Gd. }
    assert (Y1 : ro_y1 (ro_d (sinst s)) = y1). { rewrite <- (proj1 (proj2 (Calc _))). injection G1 as G1. exact G1. }
    assert (Y2 : ro_y2 (ro_d (sinst s)) = y2). { rewrite <- (proj1 (proj2 (proj2 (Calc _)))). injection G2 as G2. exact G2. }
    destruct (ro_course Nx D0 K) as (D1 & B).
    assert (Y : ro_pair (ro_d (sinst s)) = (y1, y2)) by (unfold ro_pair; rewrite Y1, Y2; reflexivity). rewrite Y in B.
    exists n. split.
    { revert C. change (m_step m3) with (IZR 1 * powerRZ 10 (-6)). replace (IZR 1 * powerRZ 10 (-6)) with (/ 1000000) by (cbn [powerRZ]; change (Pos.to_nat 6) with 6%nat; cbn [pow]; lra). auto. }
    rewrite <- B. unfold third. cbv zeta. cbn [fst snd ro_pair]. destruct (Calc (ro_d (sinst s'))) as (_ & C1 & C2 & C3). destruct (C3 D1) as (C4 & C5).
    change (powerRZ 10 0) with 1 in *.
    repeat split; apply (@get3_peek R NR szof Roberts eq_refl e s' TFloat64 _ _ Re').
    - refine (f_equal (fun y : R => Some [y]) C1).
    - refine (f_equal (fun y : R => Some [y]) C2).
    - refine (f_equal (fun y : R => Some [y]) _). refine (eq_trans C4 _). lra.
    - refine (f_equal (fun y : R => Some [y]) _). refine (eq_trans C5 _). lra.
  Qed.
  Theorem roberts_mixture3 szof fuel env e l s obs s' y1 y2 : reach3 m3 szof s -> eventModeUsed (ctl (sinst s)) = false ->
    set_up FMI3 Roberts (sinst s) ->
    Forall (fun o => is_DoStep3 o = true) l ->
    run3 m3 szof fuel (map (fun o => (env, o)) l) s = Done (obs, s') -> Forall (fun x => fst (fst x) = OK) obs ->
    get3 m3 szof e s TBoolean 1 [false] -> get3 m3 szof e s TFloat64 2 [y1] -> get3 m3 szof e s TFloat64 4 [y2] ->
    mixture y1 y2 (1 - y1 - y2) ->
    exists n z1 z2 z3, clock (/ 1000000) n s s' /\ (z1, z2) = roberts_after n (y1, y2) /\
      get3 m3 szof e s' TFloat64 2 [z1] /\ get3 m3 szof e s' TFloat64 4 [z2] /\ get3 m3 szof e s' TFloat64 6 [z3] /\
      get3 m3 szof e s' TFloat64 8 [0] /\ mixture z1 z2 z3 /\ 1 - y1 - y2 <= z3.
  Proof.
    intros Re Em Su Fl E Ok Gd G1 G2 M. destruct (@roberts3 szof fuel env e l s obs s' y1 y2 Re Em Su Fl E Ok Gd G1 G2) as (n & C & A1 & A2 & A3 & A4).
    destruct (mixture_after n M) as (M' & L). exists n, (fst (roberts_after n (y1, y2))), (snd (roberts_after n (y1, y2))), (third (roberts_after n (y1, y2))).
    rewrite <- surjective_pairing. auto 10.
  Qed.
End Roberts.

(** ** The end of the bouncing *)
Lemma unbounded r : exists n, r <= INR n.
Proof.
  exists (Z.to_nat (up r)). destruct (Z_le_gt_dec 0 (up r)) as [P|P].
  - rewrite INR_IZR_INZ, Z2Nat.id by exact P. destruct (archimed r). lra.
  - assert (IZR (up r) <= 0) by (apply IZR_le; lia). destruct (archimed r). pose proof (pos_INR (Z.to_nat (up r))). lra.
Qed.
Lemma first (P : nat -> Prop) (dec : forall n, {P n} + {~ P n}) n : P n -> exists k, P k /\ forall j, (j < k)%nat -> ~ P j.
Proof.
  induction n as [n IH] using lt_wf_ind. intros H.
  destruct (in_dec Bool.bool_dec true (map (fun j => if dec j then true else false) (seq 0 n))) as [I|I].
  - apply in_map_iff in I as (j & E & I). apply in_seq in I. destruct (dec j) as [J|J]; [|discriminate]. apply (IH j); [lia|exact J].
  - exists n. split; [exact H|]. intros j L J. apply I, in_map_iff. exists j. split; [destruct (dec j); [reflexivity|contradiction]|apply in_seq; lia].
Qed.
Lemma above_small : above <= / 1000000000000.
Proof.
  unfold above. change (powerRZ 2 (-1022)) with (/ 2 ^ Pos.to_nat 1022). apply Rinv_le_contravar; [lra|].
  apply Rle_trans with (2 ^ 40); [cbn [pow]; lra|]. apply Rle_pow; [lra|lia].
Qed.
Lemma above_positive : 0 < above.
Proof. unfold above. apply powerRZ_lt. lra. Qed.

(** The free flight, and the end of it. *)
Definition free (h v g : R) (n : nat) : R := h + / 1000 * (INR n * v) + / 1000 * / 1000 * g * (INR n * (INR n - 1) / 2).
Lemma ball_after_S n b : ball_after (S n) b = ball_next (ball_after n b).
Proof. reflexivity. Qed.
Lemma ball_after_plus n m b : ball_after (n + m) b = ball_after n (ball_after m b).
Proof. induction n as [|n IH]; [reflexivity|]. cbn [Nat.add]. rewrite !ball_after_S, IH. reflexivity. Qed.
Lemma flight h v g e n : (forall j, (0 < j <= n)%nat -> 0 < free h v g j) -> ball_after n (mkBall h v g e) = mkBall (free h v g n) (v + / 1000 * INR n * g) g e.
Proof.
  induction n as [|n IH]; intros A.
  - change (mkBall h v g e = mkBall (free h v g 0) (v + / 1000 * INR 0 * g) g e). unfold free. cbn [INR]. f_equal; lra.
  - rewrite ball_after_S, IH by (intros; apply A; lia). unfold ball_next. cbn [height speed gravity restitution].
    assert (E : free h v g n + / 1000 * (v + / 1000 * INR n * g) = free h v g (S n)) by (unfold free; rewrite S_INR; field).
    rewrite E. destruct (Rle_dec (free h v g (S n)) 0) as [L|_]; [exfalso; specialize (A (S n) ltac:(lia)); lra|].
    f_equal. rewrite S_INR. field.
Qed.
Lemma landing h v g e : 0 < h -> g < 0 -> exists k, 0 < free h v g k /\ free h v g (S k) <= 0 /\ ((0 < k)%nat \/ h + / 1000 * v <= 0) /\
  let w := - (v + / 1000 * INR (S k) * g) * e in
  ball_after (S k) (mkBall h v g e) = if Rlt_dec w (/ 10) then resting e else mkBall above w g e.
Proof.
  intros Hh Hg.
  assert (X : exists n, free h v g n <= 0).
  { destruct (unbounded (1 + 2000 * ((Rabs v + 1000 * h) / - g))) as (n & L).
    assert (P : 0 <= (Rabs v + 1000 * h) / - g). { apply Rmult_le_pos; [pose proof (Rabs_pos v); lra|]. left. apply Rinv_0_lt_compat. lra. }
    assert (N1 : 1 <= INR n) by lra. exists n. unfold free.
    assert (Q : (Rabs v + 1000 * h) <= - g * (INR n - 1) / 2000).
    { apply Rle_trans with (- g * ((Rabs v + 1000 * h) / - g)); [right; field; lra|]. unfold Rdiv at 2. rewrite Rmult_assoc. apply Rmult_le_compat_l; lra. }
    pose proof (Rle_abs v) as V.
    assert (Z : v - - g * (INR n - 1) / 2000 <= - 1000 * h) by lra.
    assert (W : INR n * (v - - g * (INR n - 1) / 2000) <= INR n * (- 1000 * h)) by (apply Rmult_le_compat_l; lra).
    assert (U : INR n * h >= 1 * h) by (apply Rmult_ge_compat_r; lra). lra. }
  destruct X as (n & X). destruct (@first (fun n => free h v g n <= 0) (fun n => Rle_dec _ _) n X) as (k & Lk & Fk).
  destruct k as [|k]; [unfold free in Lk; cbn in Lk; lra|]. exists k.
  assert (Fl : forall j, (j <= k)%nat -> 0 < free h v g j) by (intros j J; apply Rnot_le_lt, Fk; lia).
  split; [apply Fl; lia|]. split; [exact Lk|]. split.
  { destruct k; [|left; lia]. right. unfold free in Lk. cbn in Lk. lra. }
  cbv zeta. rewrite ball_after_S, flight by (intros; apply Fl; lia). unfold ball_next. cbn [height speed gravity restitution].
  assert (E : free h v g k + / 1000 * (v + / 1000 * INR k * g) = free h v g (S k)) by (unfold free; rewrite S_INR; field).
  rewrite E. destruct (Rle_dec (free h v g (S k)) 0) as [_|N]; [|contradiction].
  replace (v + / 1000 * INR k * g + / 1000 * g) with (v + / 1000 * INR (S k) * g) by (rewrite S_INR; field). reflexivity.
Qed.
Lemma rebound v g e : / 10 <= v -> g <= - / 1000 -> 0 <= e -> e * (/ 10 + 3 / 1000 * - g) < / 10 ->
  exists k, ball_after (S k) (mkBall above v g e) = resting e \/
    exists w, / 10 <= w /\ w <= v - (/ 10 - e * (/ 10 + 3 / 1000 * - g)) /\ ball_after (S k) (mkBall above v g e) = mkBall above w g e.
Proof.
  intros V G He D. pose proof above_positive as Ap. pose proof above_small as As.
  destruct (@landing above v g e Ap ltac:(lra)) as (k & Fk & _ & K & B). exists k. cbv zeta in B.
  destruct (Rlt_dec (- (v + / 1000 * INR (S k) * g) * e) (/ 10)) as [L|L]; [left; exact B|right].
  eexists. split; [apply Rnot_lt_le, L|]. split; [|exact B].
  destruct K as [K|K]; [|lra].
  assert (K1 : 1 <= INR k) by (change 1 with (INR 1); apply le_INR; lia).
  assert (Q : - 1000 * above < v - - g * (INR k - 1) / 2000).
  { apply Rnot_le_lt. intros N. unfold free in Fk.
    assert (W : INR k * (v - - g * (INR k - 1) / 2000) <= INR k * (- 1000 * above)) by (apply Rmult_le_compat_l; lra).
    assert (U : INR k * above >= 1 * above) by (apply Rmult_ge_compat_r; lra). lra. }
  rewrite S_INR.
  assert (Up : - (v + / 1000 * (INR k + 1) * g) <= v + 3 / 1000 * - g) by lra.
  assert (E1 : e < 1). { apply Rnot_le_lt. intros N. assert (1 * (/ 10 + 3 / 1000 * - g) <= e * (/ 10 + 3 / 1000 * - g)) by (apply Rmult_le_compat_r; lra). lra. }
  apply Rle_trans with ((v + 3 / 1000 * - g) * e); [apply Rmult_le_compat_r; lra|].
  assert (0 <= (1 - e) * (v - / 10)) by (apply Rmult_le_pos; lra). lra.
Qed.
Lemma rest_stays n e : ball_after n (resting e) = resting e.
Proof.
  induction n as [|n IH]; [reflexivity|]. rewrite ball_after_S, IH. unfold ball_next, resting. cbn [height speed gravity restitution]. pose proof above_positive.
  destruct (Rle_dec (above + / 1000 * 0) 0); [lra|]. f_equal; lra.
Qed.
Lemma bounces m : forall v g e, / 10 <= v -> g <= - / 1000 -> 0 <= e -> e * (/ 10 + 3 / 1000 * - g) < / 10 ->
  v <= INR m * (/ 10 - e * (/ 10 + 3 / 1000 * - g)) -> exists n, ball_after n (mkBall above v g e) = resting e.
Proof.
  induction m as [|m IH]; intros v g e V G He D L; [cbn in L; lra|].
  destruct (rebound V G He D) as (k & [B|(w & W & Wv & B)]); [exists (S k); exact B|].
  destruct (IH w g e W G He D) as (n & N); [rewrite S_INR in L; lra|].
  exists (n + S k)%nat. rewrite ball_after_plus, B. exact N.
Qed.
Theorem comes_to_rest b : damped b -> exists N, forall n, (N <= n)%nat -> ball_after n b = resting (restitution b).
Proof.
  intros (Hh & G & He & D). destruct b as [h v g e]. cbn [height speed gravity restitution] in *.
  assert (X : exists N, ball_after N (mkBall h v g e) = resting e).
  { destruct (@landing h v g e Hh ltac:(lra)) as (k & _ & _ & _ & B). cbv zeta in B.
    destruct (Rlt_dec (- (v + / 1000 * INR (S k) * g) * e) (/ 10)) as [L|L]; [exists (S k); exact B|].
    apply Rnot_lt_le in L. revert B L. generalize (- (v + / 1000 * INR (S k) * g) * e). intros w B L.
    set (d := / 10 - e * (/ 10 + 3 / 1000 * - g)). assert (Dp : 0 < d) by (unfold d; lra).
    destruct (unbounded (w / d)) as (m & M). destruct (@bounces m w g e L G He D) as (n & N).
    { fold d. apply (Rmult_le_compat_r d) in M; [|lra]. unfold Rdiv in M. rewrite Rmult_assoc, Rinv_l in M; lra. }
    exists (n + S k)%nat. rewrite ball_after_plus, B. exact N. }
  destruct X as (N & X). exists N. intros n L. replace n with (n - N + N)%nat by lia. rewrite ball_after_plus, X. apply rest_stays.
Qed.

(** ** Restitution 1 *)
Lemma elastic_bounce v g : / 10 <= v -> g < 0 ->
  exists k w, v + / 1000 * - g <= w /\ ball_after (S k) (mkBall above v g 1) = mkBall above w g 1.
Proof.
  intros V G. pose proof above_positive as Ap. destruct (@landing above v g 1 Ap G) as (k & _ & Fk & _ & B). cbv zeta in B.
  assert (Q : v < - g * INR k / 2000).
  { apply Rnot_le_lt. intros N. unfold free in Fk. rewrite S_INR in Fk. pose proof (pos_INR k) as K0.
    assert (0 <= (INR k + 1) * (v - - g * INR k / 2000)) by (apply Rmult_le_pos; lra). lra. }
  assert (W : v + / 1000 * - g <= - (v + / 1000 * INR (S k) * g) * 1) by (rewrite S_INR; lra).
  exists k. eexists. split; [exact W|]. destruct (Rlt_dec (- (v + / 1000 * INR (S k) * g) * 1) (/ 10)); [lra|exact B].
Qed.
Lemma elastic_bounces b : elastic b -> forall m, exists n w, (m <= n)%nat /\ / 10 + INR m * (/ 1000 * - gravity b) <= w /\
  ball_after n b = mkBall above w (gravity b) 1.
Proof.
  destruct b as [h v g e]. intros (Hh & G & V & He & D). cbn [height speed gravity restitution] in *. subst v e.
  induction m as [|m (n & w & L & W & B)].
  - destruct (@landing h 0 g 1 Hh G) as (k & _ & Fk & _ & B). cbv zeta in B. exists (S k). eexists. split; [lia|].
    set (u := / 1000 * - g * INR (S k)).
    assert (U0 : 0 <= u) by (unfold u; apply Rmult_le_pos; [lra|apply pos_INR]).
    assert (U : / 100 <= u * u).
    { unfold free in Fk. rewrite S_INR in Fk. pose proof (pos_INR k) as K0.
      assert (A : 2 * h <= / 1000 * / 1000 * - g * ((INR k + 1) * INR k)) by lra.
      assert (A1 : 2 * h * - g <= / 1000 * / 1000 * - g * ((INR k + 1) * INR k) * - g) by (apply Rmult_le_compat_r; lra).
      assert (A2 : / 1000 * - g * (/ 1000 * - g) * ((INR k + 1) * INR k) <= / 1000 * - g * (/ 1000 * - g) * ((INR k + 1) * (INR k + 1))).
      { apply Rmult_le_compat_l; [apply Rmult_le_pos; lra|]. apply Rmult_le_compat_l; lra. }
      unfold u. rewrite S_INR. lra. }
    assert (U1 : / 10 <= u).
    { apply Rnot_lt_le. intros N. assert (u * u <= / 10 * / 10) by (apply Rmult_le_compat; lra). assert (u * u <= u * / 10) by (apply Rmult_le_compat_l; lra). lra. }
    assert (W : / 10 + INR 0 * (/ 1000 * - g) <= - (0 + / 1000 * INR (S k) * g) * 1) by (change (INR 0) with 0; unfold u in U1; lra).
    split; [exact W|]. change (INR 0) with 0 in W. destruct (Rlt_dec (- (0 + / 1000 * INR (S k) * g) * 1) (/ 10)); [lra|exact B].
  - assert (P : 0 <= INR m * (/ 1000 * - g)) by (apply Rmult_le_pos; [apply pos_INR|lra]).
    destruct (@elastic_bounce w g ltac:(lra) G) as (k & w' & W' & B'). exists (S k + n)%nat, w'.
    split; [lia|]. split; [rewrite S_INR; lra|]. rewrite ball_after_plus, B. exact B'.
Qed.
Lemma gravity_next b : gravity (ball_next b) = gravity b \/ ball_next b = resting (restitution b).
Proof. unfold ball_next. destruct (Rle_dec _ _); [destruct (Rlt_dec _ _)|]; auto. Qed.
Theorem never_rests b : elastic b -> (forall n, gravity (ball_after n b) = gravity b) /\ forall v, exists n, v <= speed (ball_after n b).
Proof.
  intros El. split.
  - induction n as [|n IH]; [reflexivity|]. rewrite ball_after_S. destruct (gravity_next (ball_after n b)) as [E|E]; [congruence|].
    destruct (elastic_bounces El (S n)) as (n' & w & L & W & B). exfalso.
    replace n' with (n' - S n + S n)%nat in B by lia. rewrite ball_after_plus, ball_after_S, E, rest_stays in B. unfold resting in B. pose proof (f_equal gravity B) as X. cbn [gravity] in X. destruct El as (_ & G & _). lra.
  - intros v. assert (G : 0 < / 1000 * - gravity b) by (destruct El as (_ & G & _); lra).
    destruct (unbounded (v / (/ 1000 * - gravity b))) as (m & M). destruct (elastic_bounces El m) as (n & w & _ & W & B).
    exists n. rewrite B. cbn [speed]. apply (Rmult_le_compat_r (/ 1000 * - gravity b)) in M; [|lra]. unfold Rdiv in M. rewrite Rmult_assoc, Rinv_l in M; lra.
Qed.

(** ** Through the API *)
Section Settle.
  Variable inf : R.
  Local Instance NRs : Num R := NumR inf.
  Notation m3 := (model_of (F := R) FMI3 BouncingBall).
  Notation m2 := (model_of (F := R) FMI2 BouncingBall).
  Theorem settles3 szof e s b : reach3 m3 szof s -> eventModeUsed (ctl (sinst s)) = false ->
    set_up FMI3 BouncingBall (sinst s) -> current FMI3 BouncingBall (sinst s) -> ball3 inf szof e s b -> damped b ->
    exists N, forall fuel env l obs s', Forall (fun o => is_DoStep3 o = true) l ->
      run3 m3 szof fuel (map (fun o => (env, o)) l) s = Done (obs, s') -> Forall (fun x => fst (fst x) = OK) obs ->
      exists n, clock (/ 1000) n s s' /\ ((N <= n)%nat -> ball3 inf szof e s' (resting (restitution b))).
  Proof.
    intros Re Em Su Cu Ba D. destruct (comes_to_rest D) as (N & Q). exists N. intros fuel env l obs s' Fl E Ok.
    destruct D as (Hh & G & _). destruct (@bounce3 inf szof fuel env e l s obs s' b Re Em Su Cu Fl E Ok Ba Hh ltac:(lra)) as (n & C & B & _).
    exists n. split; [exact C|]. intros L. rewrite <- (Q n L). exact B.
  Qed.
  Theorem elastic3 szof e s b : reach3 m3 szof s -> eventModeUsed (ctl (sinst s)) = false ->
    set_up FMI3 BouncingBall (sinst s) -> current FMI3 BouncingBall (sinst s) -> ball3 inf szof e s b -> elastic b ->
    forall w, exists N, forall fuel env l obs s', Forall (fun o => is_DoStep3 o = true) l ->
      run3 m3 szof fuel (map (fun o => (env, o)) l) s = Done (obs, s') -> Forall (fun x => fst (fst x) = OK) obs ->
      exists n, clock (/ 1000) n s s' /\ get3 m3 szof e s' TFloat64 5 [gravity b] /\
        (n = N -> exists v, w <= v /\ get3 m3 szof e s' TFloat64 3 [v]).
  Proof.
    intros Re Em Su Cu Ba D w. destruct (never_rests D) as (Gr & Un). destruct (Un w) as (N & Q). exists N. intros fuel env l obs s' Fl E Ok.
    destruct D as (Hh & G & _). destruct (@bounce3 inf szof fuel env e l s obs s' b Re Em Su Cu Fl E Ok Ba Hh ltac:(lra)) as (n & C & (B1 & B2 & B3 & B4) & _).
    exists n. split; [exact C|]. rewrite Gr in B3. split; [exact B3|]. intros ->. exists (speed (ball_after N b)). split; [exact Q|exact B2].
  Qed.
  Theorem settles2 szof e s b : reach2 m2 szof s ->
    set_up FMI2 BouncingBall (sinst s) -> current FMI2 BouncingBall (sinst s) -> ball2 inf szof e s b -> damped b ->
    exists N, forall fuel env l obs s', Forall (fun o => is_DoStep2 o = true) l ->
      run2 m2 szof fuel (map (fun o => (env, o)) l) s = Done (obs, s') -> Forall (fun x => fst (fst x) <> Error) obs ->
      exists n, clock (/ 1000) n s s' /\ ((N <= n)%nat -> ball2 inf szof e s' (resting (restitution b))).
  Proof.
    intros Re Su Cu Ba D. destruct (comes_to_rest D) as (N & Q). exists N. intros fuel env l obs s' Fl E Ok.
    destruct D as (Hh & G & _). destruct (@bounce2 inf szof fuel env e l s obs s' b Re Su Cu Fl E Ok Ba Hh ltac:(lra)) as (n & C & B & _).
    exists n. split; [exact C|]. intros L. rewrite <- (Q n L). exact B.
  Qed.
  Theorem elastic2 szof e s b : reach2 m2 szof s ->
    set_up FMI2 BouncingBall (sinst s) -> current FMI2 BouncingBall (sinst s) -> ball2 inf szof e s b -> elastic b ->
    forall w, exists N, forall fuel env l obs s', Forall (fun o => is_DoStep2 o = true) l ->
      run2 m2 szof fuel (map (fun o => (env, o)) l) s = Done (obs, s') -> Forall (fun x => fst (fst x) <> Error) obs ->
      exists n, clock (/ 1000) n s s' /\ get2 m2 szof e s' TFloat64 5 (gravity b) /\
        (n = N -> exists v, w <= v /\ get2 m2 szof e s' TFloat64 3 v).
  Proof.
    intros Re Su Cu Ba D w. destruct (never_rests D) as (Gr & Un). destruct (Un w) as (N & Q). exists N. intros fuel env l obs s' Fl E Ok.
    destruct D as (Hh & G & _). destruct (@bounce2 inf szof fuel env e l s obs s' b Re Su Cu Fl E Ok Ba Hh ltac:(lra)) as (n & C & (B1 & B2 & B3 & B4) & _).
    exists n. split; [exact C|]. rewrite Gr in B3. split; [exact B3|]. intros ->. exists (speed (ball_after N b)). split; [exact Q|exact B2].
  Qed.
End Settle.
