(** CrossNum.v -- the ball rises after a bounce, in doubles and in exact arithmetic. *)
From Coq Require Import ZArith NArith Bool SpecFloat Lia Reals Lra.
From Verif Require Import Base NumB64 NumR FmuBouncingBall CrossLoops.
Set Implicit Arguments.

Section Round.
  Local Open Scope Z_scope.
  (** Rounding gives zero only for numbers below the smallest positive double. *)
  Definition tall (m e : Z) : Prop := 0 < m /\ -1074 <= Z.log2 m + e.
  Lemma digits_log2 p : Z.pos (digits2_pos p) = Z.log2 (Z.pos p) + 1.
  Proof.
    induction p as [p IH|p IH|]; cbn [digits2_pos]; [| |reflexivity]; rewrite Pos2Z.inj_succ, IH.
    - rewrite Pos2Z.inj_xI. rewrite Z.log2_succ_double by lia. lia.
    - rewrite Pos2Z.inj_xO. rewrite Z.log2_double by lia. lia.
  Qed.
  Lemma shr_1_m r : 0 <= shr_m r -> shr_m (shr_1 r) = shr_m r / 2.
  Proof.
    intro H. destruct r as [[|[p|p|]|p] a b]; cbn [shr_m shr_1] in *; try lia; try reflexivity.
    - rewrite Pos2Z.inj_xI. apply Z.div_unique with 1; lia.
    - rewrite Pos2Z.inj_xO, Z.mul_comm, Z.div_mul by lia. reflexivity.
  Qed.
  Lemma iter_m p : forall r, 0 <= shr_m r -> shr_m (SpecFloat.iter_pos shr_1 p r) = shr_m r / 2 ^ Z.pos p.
  Proof.
    induction p as [p IH|p IH|]; intros r H; cbn [SpecFloat.iter_pos].
    - assert (H1 : 0 <= shr_m (shr_1 r)) by (rewrite shr_1_m by auto; apply Z.div_pos; lia).
      assert (H2 : 0 <= shr_m (SpecFloat.iter_pos shr_1 p (shr_1 r))) by (rewrite IH by auto; apply Z.div_pos; lia).
      rewrite IH, IH, shr_1_m by auto. rewrite !Z.div_div by lia. f_equal.
      rewrite (Pos2Z.inj_xI p). replace (2 * Z.pos p + 1) with (1 + Z.pos p + Z.pos p) by lia.
      rewrite !Z.pow_add_r by lia. ring.
    - assert (H2 : 0 <= shr_m (SpecFloat.iter_pos shr_1 p r)) by (rewrite IH by auto; apply Z.div_pos; lia).
      rewrite IH, IH by auto. rewrite Z.div_div by lia. f_equal.
      rewrite (Pos2Z.inj_xO p). replace (2 * Z.pos p) with (Z.pos p + Z.pos p) by lia. rewrite Z.pow_add_r by lia. reflexivity.
    - rewrite shr_1_m by auto. reflexivity.
  Qed.
  Lemma shr_tall m e l r e' : tall m e -> shr_fexp prec emax m e l = (r, e') -> tall (shr_m r) e'.
  Proof.
    intros [M T] E. unfold shr_fexp, shr, fexp, SpecFloat.emin, prec, emax in E.
    assert (Dg : Zdigits2 m = Z.log2 m + 1) by (destruct m; [lia|apply digits_log2|lia]).
    rewrite Dg in E. assert (R0 : shr_m (shr_record_of_loc m l) = m) by (destruct l as [|[]]; reflexivity).
    destruct (Z.max (Z.log2 m + 1 + e - 53) (3 - 1024 - 53) - e) as [|p|p] eqn:N; inversion E; subst; try (rewrite R0; split; auto; fail).
    rewrite iter_m by (rewrite R0; lia). rewrite R0. assert (Np : Z.pos p <= Z.log2 m) by lia.
    assert (Q : 2 ^ (Z.log2 m - Z.pos p) <= m / 2 ^ Z.pos p).
    { apply Z.div_le_lower_bound; [lia|]. rewrite <- Z.pow_add_r by lia. replace (Z.pos p + (Z.log2 m - Z.pos p)) with (Z.log2 m) by lia.
      now apply Z.log2_spec. }
    assert (0 < 2 ^ (Z.log2 m - Z.pos p)) by (apply Z.pow_pos_nonneg; lia). split; [lia|].
    pose proof (Z.log2_le_mono _ _ Q) as G. rewrite Z.log2_pow2 in G by lia. lia.
  Qed.
  Lemma tall_le m m' e : tall m e -> m <= m' -> tall m' e.
  Proof. intros [M T] Q. split; [lia|]. pose proof (Z.log2_le_mono _ _ Q). lia. Qed.
  Lemma round_pos m e : tall m e -> SFleb (binary_round_aux prec emax false m e loc_Exact) (S754_zero false) = false.
  Proof.
    intro T. unfold binary_round_aux. destruct (shr_fexp prec emax m e loc_Exact) as [r e1] eqn:E1.
    pose proof (shr_tall _ T E1) as T1.
    destruct (shr_fexp prec emax (round_nearest_even (shr_m r) (loc_of_shr_record r)) e1 loc_Exact) as [r2 e2] eqn:E2.
    assert (T2 : tall (shr_m r2) e2).
    { eapply shr_tall; [|exact E2]. eapply tall_le; [exact T1|]. unfold round_nearest_even.
      destruct (loc_of_shr_record r) as [|[]]; try lia. destruct (Z.even (shr_m r)); lia. }
    destruct T2 as [T2 _]. destruct (shr_m r2); try lia. destruct (e2 <=? emax - prec)%Z; reflexivity.
  Qed.
  Lemma shl_tall p e e' : tall (Z.pos p) e -> tall (Z.pos (fst (shl_align p e e'))) (snd (shl_align p e e')).
  Proof.
    intros [M T]. unfold shl_align. destruct (e' - e) as [|d|d] eqn:N; cbn [fst snd]; try (split; auto; fail).
    split; [lia|]. rewrite Zpower.shift_pos_correct. rewrite Z.mul_comm. change (Zpower_pos 2 d) with (2 ^ Z.pos d).
    rewrite Z.log2_mul_pow2 by lia. lia.
  Qed.
  Lemma binary_round_pos p e : tall (Z.pos p) e -> SFleb (binary_round prec emax false p e) (S754_zero false) = false.
  Proof.
    intro T. unfold binary_round. pose proof (@shl_tall _ _ (fexp prec emax (Z.pos (digits2_pos p) + e)) T) as Q.
    destruct (shl_align p e _) as [m z]. now apply round_pos.
  Qed.
  (** A sum of two positive doubles, the first at least the smallest normal one. *)
  Lemma add_pos m e m' e' : -1022 <= Z.log2 (Z.pos m) + e ->
    SFleb (SFadd prec emax (S754_finite false m e) (S754_finite false m' e')) (S754_zero false) = false.
  Proof.
    intro T. cbn [SFadd cond_Zopp binary_normalize Z.add]. apply binary_round_pos.
    assert (Q : tall (Z.pos (fst (shl_align m e (Z.min e e')))) (Z.min e e')).
    { unfold shl_align. destruct (Z.min e e' - e) as [|d|d] eqn:N; cbn [fst]; try lia.
      - split; [lia|]. replace (Z.min e e') with e by lia. lia.
      - split; [lia|]. rewrite Zpower.shift_pos_correct, Z.mul_comm. change (Zpower_pos 2 d) with (2 ^ Z.pos d).
        rewrite Z.log2_mul_pow2 by lia. lia. }
    eapply tall_le; [exact Q|]. lia.
  Qed.
End Round.

Lemma rising_B64 : @rising B64 _.
Proof.
  split; [vm_compute; reflexivity|]. intros v H.
  assert (Hd : exists m e, (ndblmin : B64) = S754_finite false m e /\ (-1022 <= Z.log2 (Z.pos m) + e)%Z).
  { eexists _, _. split; [vm_compute; reflexivity|vm_compute; discriminate]. }
  destruct Hd as (m & e & Ed & Ld). rewrite Ed.
  assert (Hv : exists a b, (V_MIN : B64) = S754_finite false a b) by (eexists _, _; vm_compute; reflexivity).
  destruct Hv as (a & b & Ev). rewrite Ev in H.
  assert (Hs : exists a b, (bb_step : B64) = S754_finite false a b) by (eexists _, _; vm_compute; reflexivity).
  destruct Hs as (sm & se & Es). rewrite Es.
  change (nzero : B64) with (S754_zero false) in *. change (@nle B64 _) with SFleb. change (@nlt B64 _) with SFltb in H.
  change (@nadd B64 _) with (SFadd prec emax). change (@nmul B64 _) with (SFmul prec emax).
  destruct v as [s|s| |s p q].
  - destruct H as [[= ->]|H]; [reflexivity|]. destruct s; discriminate.
  - destruct H as [H|H]; [discriminate|]. destruct s; [discriminate|]. reflexivity.
  - reflexivity.
  - destruct H as [H|H]; [discriminate|]. destruct s; [discriminate|].
    cbn [SFmul xorb]. unfold binary_round_aux. destruct (shr_fexp _ _ _ _ _) as [r e1]. destruct (shr_fexp _ _ _ _ _) as [r2 e2].
    destruct (shr_m r2); [reflexivity| |reflexivity]. destruct (e2 <=? emax - prec)%Z; [|reflexivity]. now apply add_pos.
Qed.

Lemma rising_R inf : @rising R (NumR inf).
Proof.
  assert (Hd : (0 < powerRZ 2 (-1022))%R) by (apply powerRZ_lt; lra).
  unfold rising. change (@nle R (NumR inf)) with Rleb. change (@nlt R (NumR inf)) with Rltb.
  change (@ndblmin R (NumR inf)) with (powerRZ 2 (-1022)). set (d := powerRZ 2 (-1022)) in *. clearbody d.
  unfold nzero, V_MIN, bb_step. cbn [nlit nadd nmul NumR].
  unfold Rleb, Rltb. cbn [powerRZ]. change (Pos.to_nat 1) with 1%nat. change (Pos.to_nat 3) with 3%nat. cbn [pow].
  split; [destruct (Rle_dec _ _); [lra|reflexivity]|]. intros v H. destruct (Rle_dec _ _) as [G|]; [|reflexivity]. exfalso.
  destruct H as [->|H]; [lra|]. destruct (Rlt_dec _ _) as [|H']; [discriminate|]. lra.
Qed.
