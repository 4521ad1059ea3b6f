(** Numeric.v -- proofs of C30, C31, C32. *)
From Coq Require Import List NArith ZArith Bool Arith Reals Lia Lra.
From Verif Require Import Base Instance ModelIface Core Fmi3 Fmi2 Api Fmus NumB64 NumR Logic Calls LawsFmus SpecModes SpecCreate SpecState Gate Effect Reach Histories
  FmuBouncingBall FmuDahlquist FmuStair FmuVanDerPol FmuRoberts FmuClocks FmuResource FmuStateSpace FmuFeedthrough
  Sim SimSS SpecVars SpecEqs SpecSteps Vars VarsFmus DataFmus Data Vars2 Data2 Dyn Solver Fits Steps StepsFmus StepProps SpecOde Ode KeepArrays Crossing Course SpecNumeric.
Import ListNotations.
Set Implicit Arguments.

(** Reading the variables of the FMUs that can always calculate them. *)
Definition plain (f : FMU) : bool := match f with BouncingBall | Dahlquist | Stair | VanDerPol | Roberts => true | _ => false end.
Section Get.
  Context {F : Type} {NF : Num F} (szof : N) (f : FMU) (P : plain f = true).
  Lemma get3_peek env s t vr vs : reach3 (model_of (F := F) FMI3 f) szof s ->
    get3 (model_of (F := F) FMI3 f) szof env s t vr vs <-> peek (vars_all FMI3 f) env (sinst s) t vr = Some vs.
  Proof.
    intro R. rewrite (get1_iff (vars_all FMI3 f) szof env s t vr vs (wf_reach _ _ R)). split; [intros (_ & Q); exact Q|].
    intro Q. split; [|exact Q]. split.
    - pose proof (proj1 (reach3_observable (model_laws FMI3 f) R)) as H. unfold mode_of in H. revert H. generalize (mode (ctl (sinst s))). intros md0 H.
      destruct t; cbn in H; repeat (destruct H as [<-|H]; [discriminate|]); destruct H.
    - destruct (dirty (mut (sinst s))).
      + exists []. clear -P. destruct f; try discriminate P; reflexivity.
      + intros _. clear -P. destruct f; try discriminate P; discriminate.
  Qed.
  Context (Bf : built2 f = true).
  Lemma get2_peek env s t vr x : reach2 (model_of (F := F) FMI2 f) szof s ->
    get2 (model_of (F := F) FMI2 f) szof env s t vr x <->
    N.land (bit2 (mode_of s)) MASK2_GetReal <> 0%N /\ peek (vars_all FMI2 f) env (sinst s) t vr = Some [x].
  Proof.
    intro R. rewrite (@get_iff F NF szof f Bf env s t vr x R). split.
    - intros ((M & _) & Q). auto.
    - intros (M & Q). split; [|exact Q]. split; [exact M|]. destruct (dirty (mut (sinst s))).
      + exists []. clear -P. destruct f; try discriminate P; reflexivity.
      + intros _. clear -P. destruct f; try discriminate P; discriminate.
  Qed.
End Get.

Section Kept.
  Context {F : Type} {NF : Num F} (v : Version) (f : FMU) (env : Env).
  Notation m := (model_of (F := F) v f).
  Lemma course_ctl k i i' : course v f env k i i' ->
    mode (ctl i') = mode (ctl i) /\ startTime (ctl i') = startTime (ctl i) /\
    nx (sol i') = nx (sol i) /\ nz (sol i') = nz (sol i).
  Proof.
    assert (Q : forall i i1, solver_step v f i i1 -> mode (ctl i1) = mode (ctl i) /\ startTime (ctl i1) = startTime (ctl i) /\
      nx (sol i1) = nx (sol i) /\ nz (sol i1) = nz (sol i)).
    { intros a b S. rewrite (sv_nx S), (sv_nz S). rewrite (sv_ctl S). cbn. auto. }
    induction 1 as [i|k i i' p C IH|k i i' i1 C IH S _|k i i' i1 i2 C IH S _ U]; [auto|exact IH| |].
    - destruct (Q _ _ S) as (-> & -> & -> & ->). exact IH.
    - destruct U as ((u & t & _ & Uc & _ & Un & Uz) & _). rewrite Uc, Un, Uz. destruct (Q _ _ S) as (-> & -> & -> & ->). exact IH.
  Qed.
End Kept.

(** ** Dahlquist *)
Section Dahlquist.
  Variable inf : R.
  Local Instance NR : Num R := NumR inf.
  Local Open Scope R_scope.
  Lemma da_course v env k (i i' : Inst R (md (model_of v Dahlquist))) : (0 < nx (sol i))%nat -> course v Dahlquist env k i i' ->
    da_k (data (mut i') : DAData R) = da_k (data (mut i) : DAData R) /\
    da_x (data (mut i') : DAData R) = dahlquist_after k (da_k (data (mut i) : DAData R)) (da_x (data (mut i) : DAData R)).
  Proof.
    intros N C. revert N. induction C as [i|k i i' p C IH|k i i' i1 C IH S _|k i i' i1 i2 C IH S E _]; intro N.
    - unfold dahlquist_after. cbn [pow]. split; [reflexivity|lra].
    - exact (IH N).
    - destruct (IH N) as (A & B). destruct (course_ctl C) as (_ & _ & X & _).
      assert (So : solving v Dahlquist i') by (red; rewrite X; exact N).
      pose proof (sv_euler S So) as Eu. pose proof (sv_frozen S) as Fr.
      apply (f_equal (fun l => nth 0 l 0)) in Eu.
      assert (Fr' : da_k (data (mut i1) : DAData R) = da_k (data (mut i') : DAData R)) by (destruct v; apply (f_equal (@da_k R)) in Fr; exact Fr).
      assert (Eu' : da_x (data (mut i1) : DAData R) = da_x (data (mut i') : DAData R) + (IZR 1 * powerRZ 10 (-1)) * (- da_k (data (mut i') : DAData R) * da_x (data (mut i') : DAData R)))
        by (destruct v; exact Eu).
      clear Eu Fr. split; [rewrite Fr'; exact A|]. rewrite Eu', B, A. unfold dahlquist_after. cbn [pow powerRZ]. change (Pos.to_nat 1) with 1%nat. cbn [pow]. lra.
    - destruct E as (E & _). discriminate.
  Qed.
  Lemma dahlquist_decay n k x : 0 <= k * / 10 <= 1 -> Rabs (dahlquist_after n k x) <= Rabs x /\ 0 <= x * dahlquist_after n k x /\
    Rabs (dahlquist_after (S n) k x) <= Rabs (dahlquist_after n k x).
  Proof.
    intros H. assert (Q : 0 <= (1 - k * / 10) ^ n <= 1).
    { induction n as [|n IH]; cbn [pow]; [lra|]. nra. }
    unfold dahlquist_after. split; [|split].
    - rewrite Rabs_mult. rewrite (Rabs_pos_eq ((1 - k * / 10) ^ n)) by lra. pose proof (Rabs_pos x). nra.
    - replace (x * (x * (1 - k * / 10) ^ n)) with (x * x * (1 - k * / 10) ^ n) by ring. apply Rmult_le_pos; [apply Rle_0_sqr|lra].
    - cbn [pow]. rewrite !Rabs_mult. rewrite (Rabs_pos_eq ((1 - k * / 10) ^ n)) by lra. rewrite (Rabs_pos_eq (1 - k * / 10)) by lra.
      pose proof (Rabs_pos x). assert (0 <= Rabs x * (1 - k * / 10) ^ n) by (apply Rmult_le_pos; lra). nra.
  Qed.
  Notation m3 := (model_of (F := R) FMI3 Dahlquist).
  Notation m2 := (model_of (F := R) FMI2 Dahlquist).
  Theorem dahlquist3 szof fuel env e l s obs s' x k : reach3 m3 szof s -> eventModeUsed (ctl (sinst s)) = false ->
    set_up FMI3 Dahlquist (sinst s) ->
    Forall (fun o => is_DoStep3 o = true) l ->
    run3 m3 szof fuel (map (fun o => (env, o)) l) s = Done (obs, s') -> Forall (fun x => fst (fst x) = OK) obs ->
    get3 m3 szof e s TFloat64 1 [x] -> get3 m3 szof e s TFloat64 3 [k] ->
    exists n, clock (/ 10) n s s' /\ get3 m3 szof e s' TFloat64 1 [dahlquist_after n k x] /\ get3 m3 szof e s' TFloat64 3 [k].
  Proof.
    intros Re Em (Su & _) Fl E Ok Gx Gk. destruct (@course3 _ NR szof Dahlquist fuel env l s obs s' Re Em Fl E Ok) as (n & C & K).
    assert (Re' : reach3 m3 szof s').
    { apply (@run3_reach R NR m3 szof fuel (map (fun o => (env, o)) l) s obs s' Re); [|exact E]. intros e0 o i I Im. apply in_map_iff in I as (o' & Q & I). injection Q as _ ->. rewrite Forall_forall in Fl. apply Fl in I. destruct o; discriminate. }
    assert (Nx : (0 < nx (sol (sinst s)))%nat) by (rewrite Su; cbn; lia).
    destruct (da_course Nx K) as (A & B).
    apply (@get3_peek R NR szof Dahlquist eq_refl e s TFloat64 _ _ Re) in Gx. apply (@get3_peek R NR szof Dahlquist eq_refl e s TFloat64 _ _ Re) in Gk.
    injection Gx as Gx. injection Gk as Gk.
    exists n. split.
    { revert C. change (m_step m3) with (IZR 1 * powerRZ 10 (-1)). replace (IZR 1 * powerRZ 10 (-1)) with (/ 10) by (cbn [powerRZ]; change (Pos.to_nat 1) with 1%nat; cbn [pow]; lra). auto. }
    split; apply (@get3_peek R NR szof Dahlquist eq_refl e s' TFloat64 _ _ Re').
    - subst x k. refine (f_equal (fun y : R => Some [y]) B).
    - subst k. refine (f_equal (fun y : R => Some [y]) A).
  Qed.
  Theorem dahlquist2 szof fuel env e l s obs s' x k : reach2 m2 szof s ->
    set_up FMI2 Dahlquist (sinst s) ->
    Forall (fun o => is_DoStep2 o = true) l ->
    run2 m2 szof fuel (map (fun o => (env, o)) l) s = Done (obs, s') -> Forall (fun x => fst (fst x) <> Error) obs ->
    get2 m2 szof e s TFloat64 1 x -> get2 m2 szof e s TFloat64 3 k ->
    exists n, clock (/ 10) n s s' /\ get2 m2 szof e s' TFloat64 1 (dahlquist_after n k x) /\ get2 m2 szof e s' TFloat64 3 k.
  Proof.
    intros Re (Su & _) Fl E Ok Gx Gk. destruct (@course2 _ NR szof Dahlquist eq_refl fuel env l s obs s' Re Fl E Ok) as (n & C & K).
    assert (Re' : reach2 m2 szof s').
    { apply (@run2_reach R NR m2 szof fuel (map (fun o => (env, o)) l) s obs s' Re); [|exact E]. intros e0 o i I Im. apply in_map_iff in I as (o' & Q & I). injection Q as _ ->. rewrite Forall_forall in Fl. apply Fl in I. destruct o; discriminate. }
    assert (Nx : (0 < nx (sol (sinst s)))%nat) by (rewrite Su; cbn; lia).
    destruct (da_course Nx K) as (A & B). destruct (course_ctl K) as (Md & _).
    apply (@get2_peek R NR szof Dahlquist eq_refl eq_refl e s TFloat64 _ _ Re) in Gx as (M & Gx). apply (@get2_peek R NR szof Dahlquist eq_refl eq_refl e s TFloat64 _ _ Re) in Gk as (_ & Gk).
    injection Gx as Gx. injection Gk as Gk.
    exists n. split.
    { revert C. change (m_step m2) with (IZR 1 * powerRZ 10 (-1)). replace (IZR 1 * powerRZ 10 (-1)) with (/ 10) by (cbn [powerRZ]; change (Pos.to_nat 1) with 1%nat; cbn [pow]; lra). auto. }
    split; apply (@get2_peek R NR szof Dahlquist eq_refl eq_refl e s' TFloat64 _ _ Re').
    - unfold mode_of in *. rewrite Md. split; [exact M|]. subst x k. refine (f_equal (fun y : R => Some [y]) B).
    - unfold mode_of in *. rewrite Md. split; [exact M|]. subst k. refine (f_equal (fun y : R => Some [y]) A).
  Qed.
End Dahlquist.

(** ** BouncingBall *)
Section BouncingBall.
  Variable inf : R.
  Local Instance NRb : Num R := NumR inf.
  Local Open Scope R_scope.
  Notation B := (BBData R).
  Definition ball_of (d : B) : Ball := mkBall (bb_h d) (bb_v d) (bb_g d) (bb_e d).
  (** The stored indicator is positive unless the ball moves upwards. *)
  Definition aloft v (i : Inst R (md (model_of v BouncingBall))) : Prop :=
    let d : B := data (mut i) in
    0 < bb_h d /\ bb_g d <= 0 /\ (0 <= bb_v d \/ exists a, stored v BouncingBall i = [a] /\ 0 < a).

  Lemma milli : IZR 1 * powerRZ 10 (-3) = / 1000.
  Proof. cbn [powerRZ]. change (Pos.to_nat 3) with 3%nat. cbn [pow]. lra. Qed.
  Lemma tenth : IZR 1 * powerRZ 10 (-1) = / 10.
  Proof. cbn [powerRZ]. change (Pos.to_nat 1) with 1%nat. cbn [pow]. lra. Qed.
  Lemma lit0 : IZR 0 * powerRZ 10 0 = 0.
  Proof. lra. Qed.
  Lemma above_pos : 0 < above.
  Proof. unfold above. apply powerRZ_lt. lra. Qed.
  Lemma bb_bounce_eq (d : B) : bb_bounce d =
    if Rltb (- bb_v d * bb_e d) (/ 10) then mkBB above 0 0 (bb_e d) else mkBB above (- bb_v d * bb_e d) (bb_g d) (bb_e d).
  Proof.
    unfold bb_bounce. change (nlt ?a ?b) with (Rltb a b). unfold V_MIN, nzero. cbn [nlit nmul nopp ndblmin NRb NumR]. rewrite tenth, lit0. reflexivity.
  Qed.
  Definition bb_d v (i : Inst R (md (model_of v BouncingBall))) : B := data (mut i).
  Arguments bb_d v i : clear implicits.
  Arguments aloft v i : clear implicits.
  Lemma bb_stepped v (i i1 : Inst R (md (model_of v BouncingBall))) : (0 < nx (sol i))%nat -> (0 < nz (sol i))%nat -> solver_step v BouncingBall i i1 ->
    bb_d v i1 = mkBB (bb_h (bb_d v i) + / 1000 * bb_v (bb_d v i)) (bb_v (bb_d v i) + / 1000 * bb_g (bb_d v i)) (bb_g (bb_d v i)) (bb_e (bb_d v i)) /\
    (0 < bb_h (bb_d v i1) \/ bb_v (bb_d v i1) < 0 -> stored v BouncingBall i1 = [bb_h (bb_d v i1)]).
  Proof.
    intros N Z S. pose proof (sv_euler S N) as Eu. pose proof (sv_frozen S) as Fr. split.
    - pose proof (f_equal (fun l => nth 0 l 0) Eu) as E0. pose proof (f_equal (fun l => nth 1 l 0) Eu) as E1.
      assert (H0 : bb_h (bb_d v i1) = bb_h (bb_d v i) + (IZR 1 * powerRZ 10 (-3)) * bb_v (bb_d v i)) by (destruct v; exact E0).
      assert (H1 : bb_v (bb_d v i1) = bb_v (bb_d v i) + (IZR 1 * powerRZ 10 (-3)) * bb_g (bb_d v i)) by (destruct v; exact E1).
      assert (H2 : bb_g (bb_d v i1) = bb_g (bb_d v i)) by (destruct v; apply (f_equal (@bb_g R)) in Fr; exact Fr).
      assert (H3 : bb_e (bb_d v i1) = bb_e (bb_d v i)) by (destruct v; apply (f_equal (@bb_e R)) in Fr; exact Fr).
      rewrite milli in H0, H1. rewrite <- H0, <- H1, <- H2, <- H3. destruct (bb_d v i1); reflexivity.
    - intros Hp. rewrite (sv_stored S Z).
      assert (G : indicators v BouncingBall (data (mut i1)) =
        [if Rltb (- (IZR 1 * powerRZ 10 (-10))) (bb_h (bb_d v i1)) && Rleb (bb_h (bb_d v i1)) (IZR 0 * powerRZ 10 0) && Rltb (IZR 0 * powerRZ 10 0) (bb_v (bb_d v i1))
         then - (IZR 1 * powerRZ 10 (-10)) else bb_h (bb_d v i1)]) by (destruct v; reflexivity).
      rewrite G, lit0. unfold Rltb at 2, Rleb. destruct (Rle_dec (bb_h (bb_d v i1)) 0), (Rlt_dec 0 (bb_v (bb_d v i1))); try (rewrite ?andb_false_r; reflexivity). lra.
  Qed.
  Lemma bb_indicator_at v (i : Inst R (md (model_of v BouncingBall))) : 0 < bb_h (bb_d v i) \/ bb_v (bb_d v i) < 0 -> indicators v BouncingBall (data (mut i)) = [bb_h (bb_d v i)].
  Proof.
    intros Hp.
    assert (G : indicators v BouncingBall (data (mut i)) =
        [if Rltb (- (IZR 1 * powerRZ 10 (-10))) (bb_h (bb_d v i)) && Rleb (bb_h (bb_d v i)) (IZR 0 * powerRZ 10 0) && Rltb (IZR 0 * powerRZ 10 0) (bb_v (bb_d v i))
         then - (IZR 1 * powerRZ 10 (-10)) else bb_h (bb_d v i)]) by (destruct v; reflexivity).
    rewrite G, lit0. unfold Rltb at 2, Rleb. destruct (Rle_dec (bb_h (bb_d v i)) 0), (Rlt_dec 0 (bb_v (bb_d v i))); try (rewrite ?andb_false_r; reflexivity). lra.
  Qed.
  Lemma bb_updated v env (i1 i2 : Inst R (md (model_of v BouncingBall))) : updated v BouncingBall env i1 i2 ->
    bb_d v i2 = if bb_bounces (bb_d v i1) then bb_bounce (bb_d v i1) else bb_d v i1.
  Proof.
    intros (u & t & E & _ & (b & d & M & Fr & St) & _).
    assert (Eu : (data u : B) = if bb_bounces (bb_d v i1) then bb_bounce (bb_d v i1) else bb_d v i1).
    { assert (G : forall e c (w : Mut R B), exists w', bb_eventUpdate e c w = Done (OK, w', []) /\ data w' = if bb_bounces (data w) then bb_bounce (data w) else data w).
      { intros e c w. unfold bb_eventUpdate, mbind at 1, mdata, bind at 1. cbn. destruct (bb_bounces (data w)); eexists; split; reflexivity. }
      destruct (G env (ctl i1) (mut i1)) as (w' & G1 & G2). refine (eq_trans _ G2).
      assert (E' : bb_eventUpdate env (ctl i1) (mut i1) = Done (OK, (u : Mut R B), t)) by (destruct v; exact E).
      rewrite G1 in E'. injection E' as -> _. reflexivity. }
    rewrite <- Eu. unfold bb_d. rewrite M. cbn [data set_dirty set_data].
    assert (G : forall x y : B, bb_h x = bb_h y -> bb_v x = bb_v y -> bb_g x = bb_g y -> bb_e x = bb_e y -> x = y) by (intros [] []; cbn; intros; subst; reflexivity).
    apply (G d (data u)).
    - destruct v; exact (f_equal (fun l => nth 0 l 0) St).
    - destruct v; exact (f_equal (fun l => nth 1 l 0) St).
    - destruct v; exact (f_equal (@bb_g R) Fr).
    - destruct v; exact (f_equal (@bb_e R) Fr).
  Qed.
  Lemma bb_one v env (i i1 : Inst R (md (model_of v BouncingBall))) : (0 < nx (sol i))%nat -> nz (sol i) = 1%nat -> aloft v i -> solver_step v BouncingBall i i1 ->
    (0 < bb_h (bb_d v i1) -> aloft v i1 /\ ball_of (bb_d v i1) = ball_next (ball_of (bb_d v i)) /\
       forall i2, happened v BouncingBall env i1 i2 -> aloft v i2 /\ ball_of (bb_d v i2) = ball_next (ball_of (bb_d v i))) /\
    (bb_h (bb_d v i1) <= 0 -> eventful v BouncingBall i i1 /\
       forall i2, happened v BouncingBall env i1 i2 -> aloft v i2 /\ ball_of (bb_d v i2) = ball_next (ball_of (bb_d v i))).
  Proof.
    intros N Z (Hh & Hg & Hs) S. fold (bb_d v i) in *.
    assert (Z' : (0 < nz (sol i))%nat) by lia.
    destruct (bb_stepped N Z' S) as (Ed & Es). unfold ball_next. cbn [ball_of height speed gravity restitution].
    assert (E1 : bb_h (bb_d v i1) = bb_h (bb_d v i) + / 1000 * bb_v (bb_d v i)) by (rewrite Ed; reflexivity).
    assert (E2 : bb_v (bb_d v i1) = bb_v (bb_d v i) + / 1000 * bb_g (bb_d v i)) by (rewrite Ed; reflexivity).
    assert (E3 : bb_g (bb_d v i1) = bb_g (bb_d v i)) by (rewrite Ed; reflexivity).
    assert (E4 : bb_e (bb_d v i1) = bb_e (bb_d v i)) by (rewrite Ed; reflexivity).
    rewrite <- E1, <- E2, <- E3, <- E4. split; intro Hp.
    - destruct (Rle_dec (bb_h (bb_d v i1)) 0) as [X|_]; [lra|].
      assert (A1 : aloft v i1).
      { red. fold (bb_d v i1). rewrite E3. split; [exact Hp|]. split; [exact Hg|]. right. eexists. split; [apply Es; auto|exact Hp]. }
      split; [exact A1|]. split; [reflexivity|]. intros i2 (U & St). apply bb_updated in U as U2.
      assert (Q : bb_bounces (bb_d v i1) = false).
      { unfold bb_bounces. change (nle ?a ?b) with (Rleb a b). unfold nzero. cbn [nlit NRb NumR]. rewrite lit0. unfold Rleb. destruct (Rle_dec (bb_h (bb_d v i1)) 0); [lra|reflexivity]. }
      rewrite Q in U2. split; [|rewrite U2; reflexivity]. red. fold (bb_d v i2). rewrite U2. destruct A1 as (_ & G & _). fold (bb_d v i1) in G.
      split; [exact Hp|]. split; [exact G|]. right. assert (I2 : indicators v BouncingBall (data (mut i2)) = [bb_h (bb_d v i1)]) by (rewrite bb_indicator_at; rewrite U2; auto).
      rewrite I2 in St. destruct (St ltac:(cbn; lia)) as [-> | ->]; [rewrite Es by auto|]; eexists; split; try reflexivity; exact Hp.
    - assert (Vn : bb_v (bb_d v i) < 0) by lra. assert (Vn1 : bb_v (bb_d v i1) < 0) by lra.
      destruct Hs as [X|(a & Sa & Pa)]; [lra|]. split.
      + split; [reflexivity|]. left. exists 0%nat, a, (bb_h (bb_d v i1)). rewrite Sa, bb_indicator_at by auto. split; [reflexivity|]. split; [reflexivity|].
        right. change (nle ?a ?b) with (Rleb a b). change (nlt ?a ?b) with (Rltb a b). unfold nzero. cbn [nlit NRb NumR]. rewrite lit0. unfold Rltb, Rleb.
        destruct (Rlt_dec 0 a), (Rle_dec (bb_h (bb_d v i1)) 0); auto; lra.
      + intros i2 (U & St). apply bb_updated in U as U2.
        assert (Q : bb_bounces (bb_d v i1) = true).
        { unfold bb_bounces. change (nle ?a ?b) with (Rleb a b). change (nlt ?a ?b) with (Rltb a b). unfold nzero. cbn [nlit NRb NumR]. rewrite lit0. unfold Rleb, Rltb.
          destruct (Rle_dec (bb_h (bb_d v i1)) 0), (Rlt_dec (bb_v (bb_d v i1)) 0); auto; lra. }
        rewrite Q, bb_bounce_eq in U2. unfold Rltb in U2. destruct (Rle_dec (bb_h (bb_d v i1)) 0) as [_|X]; [|lra].
        pose proof above_pos. unfold aloft. fold (bb_d v i2).
        destruct (Rlt_dec (- bb_v (bb_d v i1) * bb_e (bb_d v i1)) (/ 10)) as [X|X]; rewrite U2; cbn [bb_h bb_v bb_g bb_e ball_of]; split; try reflexivity; (split; [lra|]; split; [lra|left; lra]).
  Qed.
  Lemma bb_course v env k (i i' : Inst R (md (model_of v BouncingBall))) : (0 < nx (sol i))%nat -> nz (sol i) = 1%nat -> aloft v i -> course v BouncingBall env k i i' ->
    aloft v i' /\ ball_of (bb_d v i') = ball_after k (ball_of (bb_d v i)).
  Proof.
    intros N Z A C. revert N Z A. induction C as [i|k i i' p C IH|k i i' i1 C IH S E|k i i' i1 i2 C IH S E U]; intros N Z A.
    - split; [exact A|reflexivity].
    - exact (IH N Z A).
    - destruct (IH N Z A) as (A1 & B1). destruct (course_ctl C) as (_ & _ & X & Xz).
      destruct (@bb_one v env i' i1) as (P & Q); [lia|lia|exact A1|exact S|].
      destruct (Rlt_le_dec 0 (bb_h (bb_d v i1))) as [H|H]; [|destruct (Q H) as (W & _); contradiction].
      destruct (P H) as (A2 & B2 & _). split; [exact A2|]. rewrite B2, B1. reflexivity.
    - destruct (IH N Z A) as (A1 & B1). destruct (course_ctl C) as (_ & _ & X & Xz).
      destruct (@bb_one v env i' i1) as (P & Q); [lia|lia|exact A1|exact S|].
      destruct (Rlt_le_dec 0 (bb_h (bb_d v i1))) as [H|H].
      + destruct (P H) as (_ & _ & G). destruct (G _ U) as (A2 & B2). split; [exact A2|]. rewrite B2, B1. reflexivity.
      + destruct (Q H) as (_ & G). destruct (G _ U) as (A2 & B2). split; [exact A2|]. rewrite B2, B1. reflexivity.
  Qed.
  Lemma aloft_height v i : aloft v i -> 0 < height (ball_of (bb_d v i)).
  Proof. intros (H & _). exact H. Qed.
  Lemma current_aloft v i : current v BouncingBall i -> 0 < bb_h (bb_d v i) -> bb_g (bb_d v i) <= 0 -> aloft v i.
  Proof.
    intros C H G. split; [exact H|]. split; [exact G|]. right. exists (bb_h (bb_d v i)). split; [|exact H]. rewrite C. apply bb_indicator_at. auto.
  Qed.
  Notation m3 := (model_of (F := R) FMI3 BouncingBall).
  Notation m2 := (model_of (F := R) FMI2 BouncingBall).
  Lemma clock_milli v k (s s' : Sys R (md (model_of v BouncingBall))) : clock (m_step (model_of (F := R) v BouncingBall)) k s s' -> clock (/ 1000) k s s'.
  Proof. assert (m_step (model_of (F := R) v BouncingBall) = / 1000) as ->; [|auto]. destruct v; exact milli. Qed.
  Theorem bounce3 szof fuel env e l s obs s' b : reach3 m3 szof s -> eventModeUsed (ctl (sinst s)) = false ->
    set_up FMI3 BouncingBall (sinst s) -> current FMI3 BouncingBall (sinst s) ->
    Forall (fun o => is_DoStep3 o = true) l ->
    run3 m3 szof fuel (map (fun o => (env, o)) l) s = Done (obs, s') -> Forall (fun x => fst (fst x) = OK) obs ->
    ball3 inf szof e s b -> 0 < height b -> gravity b <= 0 ->
    exists n, clock (/ 1000) n s s' /\ ball3 inf szof e s' (ball_after n b) /\ 0 < height (ball_after n b).
  Proof.
    intros Re Em (Su & Sz) Cu Fl E Ok (Gh & Gv & Gg & Ge) Hh Hg. destruct (@course3 _ NRb szof BouncingBall fuel env l s obs s' Re Em Fl E Ok) as (n & C & K).
    assert (Re' : reach3 m3 szof s').
    { apply (@run3_reach R NRb m3 szof fuel (map (fun o => (env, o)) l) s obs s' Re); [|exact E]. intros e0 o i I Im. apply in_map_iff in I as (o' & Q & I). injection Q as _ ->. rewrite Forall_forall in Fl. apply Fl in I. destruct o; discriminate. }
    apply (@get3_peek R NRb szof BouncingBall eq_refl e s TFloat64 _ _ Re) in Gh, Gv, Gg, Ge.
    injection Gh as Gh. injection Gv as Gv. injection Gg as Gg. injection Ge as Ge.
    assert (Eb : ball_of (bb_d FMI3 (sinst s)) = b) by (destruct b; cbn in *; unfold ball_of, bb_d; subst; reflexivity).
    destruct (@bb_course FMI3 env n (sinst s) (sinst s')) as (A & Bl); [refine (eq_ind_r (fun n => (0 < n)%nat) _ Su); cbn; lia|exact Sz| |exact K|].
    { apply current_aloft; [exact Cu| |]; rewrite <- Eb in Hh, Hg; assumption. }
    rewrite Eb in Bl. exists n. split; [apply (@clock_milli FMI3), C|]. split; [|rewrite <- Bl; apply aloft_height, A].
    rewrite <- Bl. split; [|split; [|split]]; apply (@get3_peek R NRb szof BouncingBall eq_refl e s' TFloat64 _ _ Re'); reflexivity.
  Qed.
  Theorem bounce2 szof fuel env e l s obs s' b : reach2 m2 szof s ->
    set_up FMI2 BouncingBall (sinst s) -> current FMI2 BouncingBall (sinst s) ->
    Forall (fun o => is_DoStep2 o = true) l ->
    run2 m2 szof fuel (map (fun o => (env, o)) l) s = Done (obs, s') -> Forall (fun x => fst (fst x) <> Error) obs ->
    ball2 inf szof e s b -> 0 < height b -> gravity b <= 0 ->
    exists n, clock (/ 1000) n s s' /\ ball2 inf szof e s' (ball_after n b) /\ 0 < height (ball_after n b).
  Proof.
    intros Re (Su & Sz) Cu Fl E Ok (Gh & Gv & Gg & Ge) Hh Hg. destruct (@course2 _ NRb szof BouncingBall eq_refl fuel env l s obs s' Re Fl E Ok) as (n & C & K).
    assert (Re' : reach2 m2 szof s').
    { apply (@run2_reach R NRb m2 szof fuel (map (fun o => (env, o)) l) s obs s' Re); [|exact E]. intros e0 o i I Im. apply in_map_iff in I as (o' & Q & I). injection Q as _ ->. rewrite Forall_forall in Fl. apply Fl in I. destruct o; discriminate. }
    apply (@get2_peek R NRb szof BouncingBall eq_refl eq_refl e s TFloat64 _ _ Re) in Gh as (M & Gh).
    apply (@get2_peek R NRb szof BouncingBall eq_refl eq_refl e s TFloat64 _ _ Re) in Gv as (_ & Gv).
    apply (@get2_peek R NRb szof BouncingBall eq_refl eq_refl e s TFloat64 _ _ Re) in Gg as (_ & Gg).
    apply (@get2_peek R NRb szof BouncingBall eq_refl eq_refl e s TFloat64 _ _ Re) in Ge as (_ & Ge).
    injection Gh as Gh. injection Gv as Gv. injection Gg as Gg. injection Ge as Ge.
    assert (Eb : ball_of (bb_d FMI2 (sinst s)) = b) by (destruct b; cbn in *; unfold ball_of, bb_d; subst; reflexivity).
    destruct (@bb_course FMI2 env n (sinst s) (sinst s')) as (A & Bl); [refine (eq_ind_r (fun n => (0 < n)%nat) _ Su); cbn; lia|exact Sz| |exact K|].
    { apply current_aloft; [exact Cu| |]; rewrite <- Eb in Hh, Hg; assumption. }
    rewrite Eb in Bl. exists n. split; [apply (@clock_milli FMI2), C|]. split; [|rewrite <- Bl; apply aloft_height, A].
    assert (Mo : mode_of s' = mode_of s) by exact (proj1 (course_ctl K)). apply (eq_ind_r (fun x => N.land (bit2 x) MASK2_GetReal <> 0%N) M) in Mo as M'.
    rewrite <- Bl. split; [|split; [|split]]; apply (@get2_peek R NRb szof BouncingBall eq_refl eq_refl e s' TFloat64 _ _ Re'); (split; [exact M'|reflexivity]).
  Qed.
End BouncingBall.

(** ** Stair *)
Section Stair.
  Context {F : Type} {NF : Num F} (v : Version) (env : Env) (T : nat) (Tk : ticks_ok (F := F) T).
  Notation m := (model_of (F := F) v Stair).
  Notation D := (md m).
  Definition st_c (i : Inst F D) : Z := st_counter (data (mut i)).
  Definition stairs (n : nat) (c0 : Z) (b : bool) (i : Inst F D) : Prop :=
    nSteps (ctl i) = N.of_nat n /\ startTime (ctl i) = nlit 0 0 /\
    nextEventTimeDefined (mut i) = true /\ nextEventTime (mut i) = event_time (n / 5) /\
    st_c i = (c0 + Z.of_nat (n / 5))%Z /\ terminateSimulation (mut i) = if n <? 5 then b else (10 <=? st_c i)%Z.

  Lemma st_update_eq e c (u u' : Mut F STData) t : st_eventUpdate e c u = Done (OK, u', t) ->
    let tick := nextEventTimeDefined u && isClose (time c) (nextEventTime u) in
    st_counter (data u') = (if tick then (st_counter (data u) + 1)%Z else st_counter (data u)) /\ (st_counter (data u') <= 10)%Z /\
    nextEventTimeDefined u' = true /\ nextEventTime u' = (if tick then nadd (nextEventTime u) (nlit 1 0) else nextEventTime u) /\
    terminateSimulation u' = (10 <=? st_counter (data u'))%Z.
  Proof.
    unfold st_eventUpdate, st_tick, fail, mlogError, mmodd, mbind, mctl, mget, mmod, mdata, menv, mret, mub, bind, ret, tell, ubM, modS, getS. cbn.
    destruct (nextEventTimeDefined u && isClose (time c) (nextEventTime u)).
    - destruct (in_int (st_counter (data u) + 1)); cbn; [|discriminate].
      destruct (10 <? st_counter (data u) + 1)%Z eqn:L; cbn.
      + destruct (logErrors c && hasLogger c); cbn; discriminate.
      + intro E. injection E as <- _. cbn. repeat (split; [reflexivity||(apply Z.ltb_ge in L; lia)|]). reflexivity.
    - cbn. destruct (10 <? st_counter (data u))%Z eqn:L; cbn.
      + destruct (logErrors c && hasLogger c); cbn; discriminate.
      + intro E. injection E as <- _. cbn. repeat (split; [reflexivity||(apply Z.ltb_ge in L; lia)|]). reflexivity.
  Qed.
  Lemma st_updated i i' : updated v Stair env i i' ->
    let tick := nextEventTimeDefined (mut i) && isClose (time (ctl i)) (nextEventTime (mut i)) in
    ctl i' = ctl i /\ st_c i' = (if tick then (st_c i + 1)%Z else st_c i) /\ (st_c i' <= 10)%Z /\
    nextEventTimeDefined (mut i') = true /\ nextEventTime (mut i') = (if tick then nadd (nextEventTime (mut i)) (nlit 1 0) else nextEventTime (mut i)) /\
    terminateSimulation (mut i') = (10 <=? st_c i')%Z.
  Proof.
    intros (u & t & E & Ec & (b & d & M & Fr & _) & _ & _). split; [exact Ec|].
    assert (E' : st_eventUpdate env (ctl i) (mut i : Mut F STData) = Done (OK, (u : Mut F STData), t)) by (destruct v; exact E).
    assert (Ed : (d : STData) = data u) by (destruct v; exact Fr). apply st_update_eq in E'. cbv zeta in E'.
    assert (Q : st_c i' = st_counter (data u : STData) /\ nextEventTimeDefined (mut i') = nextEventTimeDefined u /\ nextEventTime (mut i') = nextEventTime u /\ terminateSimulation (mut i') = terminateSimulation u).
    { unfold st_c. rewrite M. cbn. split; [exact (f_equal st_counter Ed)|auto]. }
    destruct Q as (-> & -> & -> & ->). exact E'.
  Qed.

  Lemma st_one n c0 b i i1 : (N.of_nat (S n) < two64)%N -> S n <= T -> stairs n c0 b i -> solver_step v Stair i i1 ->
    (eventful v Stair i i1 <-> S n mod 5 = 0) /\
    (S n mod 5 <> 0 -> stairs (S n) c0 b i1) /\
    (S n mod 5 = 0 -> forall i2, updated v Stair env i1 i2 -> stairs (S n) c0 b i2 /\ (st_c i2 <= 10)%Z).
  Proof.
    intros L HT (Hn & Hs & Hd & He & Hc & Ht) S.
    destruct (Tk (n := Datatypes.S n)) as (T1 & T2); [lia|exact HT|]. cbn zeta in T1, T2. replace (Datatypes.S n - 1) with n in T1, T2 by lia.
    assert (N1 : nSteps (ctl i1) = N.of_nat (Datatypes.S n)) by (rewrite (sv_steps S), Hn; rewrite N.mod_small; lia).
    assert (S1 : startTime (ctl i1) = nlit 0 0) by (rewrite (sv_ctl S); exact Hs).
    assert (M1 : time (ctl i1) = grid (nlit 2 (-1)) (nlit 0 0) (N.of_nat (Datatypes.S n))).
    { rewrite (sv_time S), N1, Hs. destruct v; reflexivity. }
    assert (Mu : nextEventTimeDefined (mut i1) = true /\ nextEventTime (mut i1) = event_time (n / 5) /\ terminateSimulation (mut i1) = terminateSimulation (mut i)).
    { rewrite (sv_mut S). cbn. auto. } destruct Mu as (D1 & E1 & W1).
    assert (C1 : st_c i1 = st_c i) by (pose proof (sv_frozen S) as Fr; unfold st_c; destruct v; exact (f_equal st_counter Fr)).
    assert (Ev : eventful v Stair i i1 <-> Datatypes.S n mod 5 = 0).
    { unfold eventful. rewrite <- Nat.eqb_eq, <- T1, <- M1, <- He. split.
      - intros (_ & [(j & x & y & _ & Q & _)|(_ & Q)]); [destruct v; destruct j; discriminate Q|exact Q].
      - intro Q. split; [reflexivity|]. right. split; [exact Hd|exact Q]. }
    split; [exact Ev|]. split.
    - intro Q. assert (Dv : Datatypes.S n / 5 = n / 5).
      { pose proof (Nat.div_mod n 5). pose proof (Nat.mod_upper_bound n 5). pose proof (Nat.div_mod (Datatypes.S n) 5). pose proof (Nat.mod_upper_bound (Datatypes.S n) 5). lia. }
      split; [exact N1|]. split; [exact S1|]. split; [exact D1|]. split; [rewrite Dv; exact E1|]. split; [rewrite Dv, C1; exact Hc|].
      rewrite W1, Ht, C1. destruct (n <? 5) eqn:A, (Datatypes.S n <? 5) eqn:B; try reflexivity.
      + apply Nat.ltb_lt in A. apply Nat.ltb_ge in B. assert (n = 4) by lia. subst. discriminate Q || (exfalso; apply Q; reflexivity).
      + apply Nat.ltb_lt in B. apply Nat.ltb_ge in A. lia.
    - intros Q i2 U. apply st_updated in U. cbv zeta in U. rewrite D1, E1, M1, (T2 Q) in U. cbn [andb] in U.
      assert (Dv : Datatypes.S n / 5 = Datatypes.S (n / 5)).
      { pose proof (Nat.div_mod n 5). pose proof (Nat.mod_upper_bound n 5). pose proof (Nat.div_mod (Datatypes.S n) 5). pose proof (Nat.mod_upper_bound (Datatypes.S n) 5). lia. }
      destruct U as (U1 & U2 & U3 & U4 & U5 & U6). split; [|exact U3].
      unfold stairs. rewrite U1, Dv. split; [exact N1|]. split; [exact S1|]. split; [exact U4|]. split; [exact U5|]. split; [rewrite U2, C1, Hc; lia|].
      rewrite U6. destruct (Datatypes.S n <? 5) eqn:B; [|reflexivity]. apply Nat.ltb_lt in B. rewrite Nat.mod_small in Q by lia. lia.
  Qed.
  Lemma st_course c0 b k i i' : (c0 <= 10)%Z -> (Z.to_nat (11 - c0) * 5 <= T)%nat -> (N.of_nat (Z.to_nat (11 - c0) * 5) < two64)%N ->
    stairs 0 c0 b i -> course v Stair env k i i' -> stairs k c0 b i' /\ (st_c i' <= 10)%Z.
  Proof.
    intros Hc HT H64 H0 C. revert H0. induction C as [i|k i i' p C IH|k i i' i1 C IH S E|k i i' i1 i2 C IH S E U]; intro H0.
    - split; [exact H0|]. destruct H0 as (_ & _ & _ & _ & -> & _). cbn. lia.
    - exact (IH H0).
    - destruct (IH H0) as (A & B).
      assert (Hk : (k < Z.to_nat (11 - c0) * 5)%nat).
      { destruct A as (_ & _ & _ & _ & Q & _). rewrite Q in B. pose proof (Nat.div_mod k 5). pose proof (Nat.mod_upper_bound k 5). lia. }
      destruct (@st_one k c0 b i' i1) as (P1 & P2 & _); [lia|lia|exact A|exact S|].
      assert (Q : Datatypes.S k mod 5 <> 0) by (intro Q; apply E, P1, Q). specialize (P2 Q). split; [exact P2|].
      assert (st_c i1 = st_c i') as -> by (pose proof (sv_frozen S) as Fr; unfold st_c; destruct v; exact (f_equal st_counter Fr)). exact B.
    - destruct (IH H0) as (A & B).
      assert (Hk : (k < Z.to_nat (11 - c0) * 5)%nat).
      { destruct A as (_ & _ & _ & _ & Q & _). rewrite Q in B. pose proof (Nat.div_mod k 5). pose proof (Nat.mod_upper_bound k 5). lia. }
      destruct (@st_one k c0 b i' i1) as (P1 & _ & P3); [lia|lia|exact A|exact S|].
      apply P3; [apply P1, E|exact (proj1 U)].
  Qed.
End Stair.

Section StairRuns.
  Context {F : Type} {NF : Num F} (T : nat) (Tk : ticks_ok (F := F) T).
  Notation m3 := (model_of (F := F) FMI3 Stair).
  Notation m2 := (model_of (F := F) FMI2 Stair).
  Definition stair_starts {D} (s : Sys F D) : Prop :=
    steps_of s = 0%N /\ start_of s = nlit 0 0 /\ terminateSimulation (mut (sinst s)) = false /\
    nextEventTimeDefined (mut (sinst s)) = true /\ nextEventTime (mut (sinst s)) = nlit 1 0.
  Lemma stair_flag v n c0 i : (c0 <= 9)%Z -> stairs (F := F) (v := v) n c0 false i -> terminateSimulation (mut i) = (10 <=? st_c i)%Z.
  Proof.
    intros Hc (_ & _ & _ & _ & Q & ->). destruct (n <? 5) eqn:L; [|reflexivity]. apply Nat.ltb_lt in L. rewrite Nat.div_small in Q by exact L.
    symmetry. apply Z.leb_gt. lia.
  Qed.
  Theorem stair3 szof fuel env e l ccp h p1 p2 p3 p4 s obs s1 out s' t c0 : reach3 m3 szof s -> eventModeUsed (ctl (sinst s)) = false ->
    stair_starts s -> get3 m3 szof e s TInt32 1 [c0] -> (c0 <= 9)%Z -> Z.to_nat (11 - c0) * 5 <= T -> (N.of_nat (Z.to_nat (11 - c0) * 5) < two64)%N ->
    Forall (fun o => is_DoStep3 o = true) l ->
    run3 m3 szof fuel (map (fun o => (env, o)) l) s = Done (obs, s1) -> Forall (fun x => fst (fst x) = OK) obs ->
    exec3 m3 szof fuel env (O3DoStep ccp h p1 p2 p3 p4) s1 = Done (OK, out, s', t) ->
    exists n c early, clock (nlit 2 (-1)) n s s' /\ c = (c0 + Z.of_nat (n / 5))%Z /\ (c <= 10)%Z /\ get3 m3 szof e s' TInt32 1 [c] /\
      out = ODoStep (mkDoStepOut (Some false) (Some (10 <=? c)%Z) (Some early) (Some (time_of s'))).
  Proof.
    intros Re Em (S1 & S2 & S3 & S4 & S5) G Hc HT H64 Fl E Ok E1.
    destruct (@course3 _ NF szof Stair fuel env l s obs s1 Re Em Fl E Ok) as (n & C & K).
    assert (Re1 : reach3 m3 szof s1).
    { apply (@run3_reach F NF m3 szof fuel (map (fun o => (env, o)) l) s obs s1 Re); [|exact E]. intros e0 o i I Im. apply in_map_iff in I as (o' & Q & I). injection Q as _ ->. rewrite Forall_forall in Fl. apply Fl in I. destruct o; discriminate. }
    assert (Re' : reach3 m3 szof s') by (eapply reach3_call; [exact Re1| |exact E1]; discriminate).
    assert (Em1 : eventModeUsed (ctl (sinst s1)) = false).
    { clear -K Em. induction K as [i|k i i' p C IH|k i i' i1 C IH S Ev|k i i' i1 i2 C IH S Ev U]; [exact Em|exact (IH Em)| |].
      - rewrite (sv_ctl S). exact (IH Em).
      - destruct U as ((u & t & _ & Uc & _) & _). rewrite Uc, (sv_ctl S). exact (IH Em). }
    destruct (@course_one3 _ NF szof Stair fuel env ccp h p1 p2 p3 p4 s1 out s' t Re1 Em1 E1) as (_ & n1 & C1 & K1).
    destruct (@inside3 F NF szof Stair fuel env ccp h p1 p2 p3 p4 s1 out s' t Re1 Em1 E1) as (term & early & Ho & Htm & _).
    apply (@get3_peek F NF szof Stair eq_refl e s TInt32 _ _ Re) in G. injection G as G.
    pose proof (course_trans K1 K) as KK.
    destruct (@st_course F NF FMI3 env T Tk c0 false (n + n1) (sinst s) (sinst s')) as (A & B); [lia|exact HT|exact H64| |exact KK|].
    { split; [exact S1|]. split; [exact S2|]. split; [exact S4|]. split; [exact S5|]. split; [|exact S3]. cbn. rewrite Z.add_0_r. exact G. }
    exists (n + n1), (st_c (v := FMI3) (sinst s')), early. split; [apply (clock_trans C C1)|]. split; [apply A|]. split; [exact B|]. split.
    - apply (@get3_peek F NF szof Stair eq_refl e s' TInt32 _ _ Re'). reflexivity.
    - rewrite Ho, Htm, (stair_flag Hc A). reflexivity.
  Qed.
  Theorem stair2 szof fuel env e l ccp h s obs s1 st out s' t c0 : reach2 m2 szof s ->
    stair_starts s -> get2 m2 szof e s TInt32 1 c0 -> (c0 <= 9)%Z -> Z.to_nat (11 - c0) * 5 <= T -> (N.of_nat (Z.to_nat (11 - c0) * 5) < two64)%N ->
    Forall (fun o => is_DoStep2 o = true) l ->
    run2 m2 szof fuel (map (fun o => (env, o)) l) s = Done (obs, s1) -> Forall (fun x => fst (fst x) <> Error) obs ->
    exec2 m2 szof fuel env (O2DoStep ccp h) s1 = Done (st, out, s', t) -> st <> Error ->
    exists n n1 c, clock (nlit 2 (-1)) n s s1 /\ clock (nlit 2 (-1)) n1 s1 s' /\ c = (c0 + Z.of_nat ((n + n1) / 5))%Z /\ (c <= 10)%Z /\ get2 m2 szof e s' TInt32 1 c /\
      (st = OK -> n1 = 0 \/ (c < 10)%Z) /\ (st <> OK -> st = Discard /\ c = 10%Z).
  Proof.
    intros Re (S1 & S2 & S3 & S4 & S5) G Hc HT H64 Fl E Ok E1 Ne.
    destruct (@course2 _ NF szof Stair eq_refl fuel env l s obs s1 Re Fl E Ok) as (n & C & K).
    assert (Re1 : reach2 m2 szof s1).
    { apply (@run2_reach F NF m2 szof fuel (map (fun o => (env, o)) l) s obs s1 Re); [|exact E]. intros e0 o i I Im. apply in_map_iff in I as (o' & Q & I). injection Q as _ ->. rewrite Forall_forall in Fl. apply Fl in I. destruct o; discriminate. }
    assert (Re' : reach2 m2 szof s') by (eapply reach2_call; [exact Re1| |exact E1]; discriminate).
    destruct (@course_one2 _ NF szof Stair eq_refl fuel env ccp h s1 st out s' t Re1 Ne E1) as (n1 & C1 & K1 & O1 & O2).
    apply (@get2_peek F NF szof Stair eq_refl eq_refl e s TInt32 _ _ Re) in G as (M & G). injection G as G.
    pose proof (course_trans K1 K) as KK.
    destruct (@st_course F NF FMI2 env T Tk c0 false (n + n1) (sinst s) (sinst s')) as (A & B); [lia|exact HT|exact H64| |exact KK|].
    { split; [exact S1|]. split; [exact S2|]. split; [exact S4|]. split; [exact S5|]. split; [|exact S3]. cbn. rewrite Z.add_0_r. exact G. }
    pose proof (stair_flag Hc A) as Fg.
    exists n, n1, (st_c (v := FMI2) (sinst s')). split; [exact C|]. split; [exact C1|]. split; [apply A|]. split; [exact B|]. split; [|split].
    - apply (@get2_peek F NF szof Stair eq_refl eq_refl e s' TInt32 _ _ Re'). split; [|reflexivity].
      assert (Mo : mode_of s' = mode_of s) by exact (proj1 (course_ctl KK)). apply (eq_ind_r (fun x => N.land (bit2 x) MASK2_GetReal <> 0%N) M) in Mo as M'. exact M'.
    - intro Q. destruct (O1 Q) as [X|X]; [auto|]. right. assert (Y : (10 <=? st_c (v := FMI2) (sinst s'))%Z = false) by (rewrite <- Fg; exact X). apply Z.leb_gt in Y. exact Y.
    - intro Q. destruct (O2 Q) as (X & Y). split; [exact X|]. assert (Z : (10 <=? st_c (v := FMI2) (sinst s'))%Z = true) by (rewrite <- Fg; exact Y). apply Z.leb_le in Z. lia.
  Qed.
End StairRuns.

(** The two arithmetics count exactly. *)
Section TicksR.
Variable inf : R.
Local Instance NRs : Num R := NumR inf.
Lemma ticks_R T : ticks_ok (F := R) T.
Proof.
  intros n Hn _. cbv zeta.
  assert (Ev : forall k, event_time (F := R) k = INR (S k)).
  { induction k as [|k IH]; [cbn; lra|]. cbn [event_time]. rewrite IH. rewrite !S_INR. cbn. lra. }
  assert (Gr : grid (F := R) (nlit 2 (-1)) (nlit 0 0) (N.of_nat n) = (INR n * / 5)%R).
  { unfold grid. cbn [nadd nmul nofN nlit NRs NumR]. rewrite nat_N_Z, <- INR_IZR_INZ. cbn [powerRZ]. change (Pos.to_nat 1) with 1. cbn [pow]. lra. }
  rewrite Ev, Gr. pose proof (Nat.div_mod (n - 1) 5 ltac:(lia)) as Dm. pose proof (Nat.mod_upper_bound (n - 1) 5 ltac:(lia)) as Mb.
  remember ((n - 1) / 5) as q eqn:Eq0. clear Eq0. assert (Hn5 : n mod 5 = 0 <-> n = 5 * S q).
  { split.
    - intro H. pose proof (Nat.div_mod n 5 ltac:(lia)). lia.
    - intros ->. rewrite Nat.mul_comm. apply Nat.mod_mul. lia. }
  assert (Le : (INR (S q) <= INR n * / 5)%R <-> 5 * S q <= n).
  { split.
    - intro H. apply INR_le. rewrite mult_INR. replace (INR 5) with 5%R by (cbn; lra). lra.
    - intro H. apply le_INR in H. rewrite mult_INR in H. replace (INR 5) with 5%R in H by (cbn; lra). lra. }
  split.
  - cbn [nle NRs NumR]. unfold Rleb. destruct (Rle_dec (INR (S q)) (INR n * / 5)) as [A|A].
    + symmetry. apply Nat.eqb_eq, Hn5. apply Le in A. lia.
    + symmetry. apply Nat.eqb_neq. intro B. apply A, Le. apply Hn5 in B. lia.
  - intro H. apply Hn5 in H. assert (Eq : (INR n * / 5 = INR (S q))%R).
    { rewrite H, mult_INR. replace (INR 5) with 5%R by (cbn; lra). lra. }
    rewrite Eq. unfold isClose. cbn [nle nsub NRs NumR]. unfold fmiAbs. cbn [nlt nopp nsub nlit NRs NumR]. unfold Rleb at 1.
    match goal with |- context [Rle_dec ?a ?b] => destruct (Rle_dec a b) as [|X]; [reflexivity|exfalso; apply X] end.
    match goal with |- context [if ?c then _ else _] => destruct c end; cbn [powerRZ]; change (Pos.to_nat 5) with 5; cbn [pow EPSILON nlit NRs NumR]; unfold EPSILON; cbn [nlit NumR powerRZ]; change (Pos.to_nat 5) with 5; cbn [pow]; lra.
Qed.
End TicksR.
Lemma ticks_B64 : ticks_ok (F := B64) 55.
Proof.
  intros n Hn HT. cbv zeta.
  assert (Q : forallb (fun n => Bool.eqb (nle (event_time ((n - 1) / 5)) (grid (nlit 2 (-1)) (nlit 0 0) (N.of_nat n))) (Nat.eqb (n mod 5) 0) &&
     (negb (Nat.eqb (n mod 5) 0) || isClose (grid (nlit 2 (-1)) (nlit 0 0) (N.of_nat n)) (event_time ((n - 1) / 5))))
     (seq 1 55) = true) by (vm_compute; reflexivity).
  rewrite forallb_forall in Q. specialize (Q n). assert (I : In n (seq 1 55)) by (apply in_seq; lia). apply Q in I. clear Q.
  apply andb_true_iff in I as (A & B). split; [apply Bool.eqb_prop, A|]. intro H. apply Nat.eqb_eq in H. rewrite H in B. exact B.
Qed.
Lemma small_count c0 : (c0 <= 9)%Z -> (- 2 ^ 31 <= c0)%Z -> (N.of_nat (Z.to_nat (11 - c0) * 5) < two64)%N.
Proof. intros A B. change two64 with 18446744073709551616%N. change (2 ^ 31)%Z with 2147483648%Z in B. lia. Qed.
Theorem stair3_R inf szof fuel env e l ccp h p1 p2 p3 p4 s obs s1 out s' t c0 :
    let NF := NumR inf in
    let m := model_of (F := R) FMI3 Stair in
    reach3 m szof s -> eventModeUsed (ctl (sinst s)) = false ->
    stair_starts s -> get3 m szof e s TInt32 1 [c0] -> (c0 <= 9)%Z -> (- 2 ^ 31 <= c0)%Z ->
    Forall (fun o => is_DoStep3 o = true) l ->
    run3 m szof fuel (map (fun o => (env, o)) l) s = Done (obs, s1) -> Forall (fun x => fst (fst x) = OK) obs ->
    exec3 m szof fuel env (O3DoStep ccp h p1 p2 p3 p4) s1 = Done (OK, out, s', t) ->
    exists n c early, clock (nlit 2 (-1)) n s s' /\ c = (c0 + Z.of_nat (n / 5))%Z /\ (c <= 10)%Z /\ get3 m szof e s' TInt32 1 [c] /\
      out = ODoStep (mkDoStepOut (Some false) (Some (10 <=? c)%Z) (Some early) (Some (time_of s'))).
Proof.
  cbv zeta. intros. eapply (@stair3 R (NumR inf) _ (@ticks_R inf _)); eauto. apply small_count; assumption.
Qed.
Theorem stair3_B64 szof fuel env e l ccp h p1 p2 p3 p4 s obs s1 out s' t c0 :
    let m := model_of (F := B64) FMI3 Stair in
    reach3 m szof s -> eventModeUsed (ctl (sinst s)) = false ->
    stair_starts s -> get3 m szof e s TInt32 1 [c0] -> (c0 <= 9)%Z -> (0 <= c0)%Z ->
    Forall (fun o => is_DoStep3 o = true) l ->
    run3 m szof fuel (map (fun o => (env, o)) l) s = Done (obs, s1) -> Forall (fun x => fst (fst x) = OK) obs ->
    exec3 m szof fuel env (O3DoStep ccp h p1 p2 p3 p4) s1 = Done (OK, out, s', t) ->
    exists n c early, clock (nlit 2 (-1)) n s s' /\ c = (c0 + Z.of_nat (n / 5))%Z /\ (c <= 10)%Z /\ get3 m szof e s' TInt32 1 [c] /\
      out = ODoStep (mkDoStepOut (Some false) (Some (10 <=? c)%Z) (Some early) (Some (time_of s'))).
Proof.
  cbv zeta. intros. eapply (@stair3 B64 _ 55 ticks_B64); eauto; [lia|]. apply small_count; [assumption|]. change (2 ^ 31)%Z with 2147483648%Z. lia.
Qed.
Theorem stair2_R inf szof fuel env e l ccp h s obs s1 st out s' t c0 :
    let NF := NumR inf in
    let m := model_of (F := R) FMI2 Stair in
    reach2 m szof s ->
    stair_starts s -> get2 m szof e s TInt32 1 c0 -> (c0 <= 9)%Z -> (- 2 ^ 31 <= c0)%Z ->
    Forall (fun o => is_DoStep2 o = true) l ->
    run2 m szof fuel (map (fun o => (env, o)) l) s = Done (obs, s1) -> Forall (fun x => fst (fst x) <> Error) obs ->
    exec2 m szof fuel env (O2DoStep ccp h) s1 = Done (st, out, s', t) -> st <> Error ->
    exists n n1 c, clock (nlit 2 (-1)) n s s1 /\ clock (nlit 2 (-1)) n1 s1 s' /\ c = (c0 + Z.of_nat ((n + n1) / 5))%Z /\ (c <= 10)%Z /\ get2 m szof e s' TInt32 1 c /\
      (st = OK -> n1 = 0 \/ (c < 10)%Z) /\ (st <> OK -> st = Discard /\ c = 10%Z).
Proof.
  cbv zeta. intros. eapply (@stair2 R (NumR inf) _ (@ticks_R inf _)); eauto. apply small_count; assumption.
Qed.
Theorem stair2_B64 szof fuel env e l ccp h s obs s1 st out s' t c0 :
    let m := model_of (F := B64) FMI2 Stair in
    reach2 m szof s ->
    stair_starts s -> get2 m szof e s TInt32 1 c0 -> (c0 <= 9)%Z -> (0 <= c0)%Z ->
    Forall (fun o => is_DoStep2 o = true) l ->
    run2 m szof fuel (map (fun o => (env, o)) l) s = Done (obs, s1) -> Forall (fun x => fst (fst x) <> Error) obs ->
    exec2 m szof fuel env (O2DoStep ccp h) s1 = Done (st, out, s', t) -> st <> Error ->
    exists n n1 c, clock (nlit 2 (-1)) n s s1 /\ clock (nlit 2 (-1)) n1 s1 s' /\ c = (c0 + Z.of_nat ((n + n1) / 5))%Z /\ (c <= 10)%Z /\ get2 m szof e s' TInt32 1 c /\
      (st = OK -> n1 = 0 \/ (c < 10)%Z) /\ (st <> OK -> st = Discard /\ c = 10%Z).
Proof.
  cbv zeta. intros. eapply (@stair2 B64 _ 55 ticks_B64); eauto; [lia|]. apply small_count; [assumption|]. change (2 ^ 31)%Z with 2147483648%Z. lia.
Qed.
