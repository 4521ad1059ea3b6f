(** BallB64.v -- the ball in doubles: it never stays at or below the ground, and no step bounces right after another (C57). *)
From Coq Require Import List ZArith NArith Bool SpecFloat Lia.
From Verif Require Import Base Fmus NumB64 FmuBouncingBall CrossLoops CrossNum Runs SpecPrograms SpecBall.
Import ListNotations.
Set Implicit Arguments.

Section Doubles.
  Local Open Scope Z_scope.
  Lemma shr_exp m e l r e' : shr_fexp prec emax m e l = (r, e') -> -1074 <= e'.
  Proof.
    unfold shr_fexp, shr, fexp, SpecFloat.emin, prec, emax. intro E.
    destruct (Z.max (Zdigits2 m + e - 53) (3 - 1024 - 53) - e) as [|p|p] eqn:N; inversion E; subst; lia.
  Qed.
  (** A double whose exponent is in the range of the format. *)
  Definition okf (x : B64) : Prop := match x with S754_finite _ _ e => -1074 <= e | _ => True end.
  Lemma aux_ok s m e l : okf (binary_round_aux prec emax s m e l).
  Proof.
    unfold binary_round_aux. destruct (shr_fexp prec emax m e l) as [r e1]. destruct (shr_fexp prec emax _ e1 loc_Exact) as [r2 e2] eqn:E2.
    apply shr_exp in E2. destruct (shr_m r2); cbn; auto. destruct (_ <=? _); cbn; auto.
  Qed.
  Lemma normalize_ok m e b : okf (binary_normalize prec emax m e b).
  Proof.
    destruct m as [|p|p]; [exact I|..]; cbn [binary_normalize]; unfold binary_round;
    destruct (shl_align p e _) as [q z]; apply aux_ok.
  Qed.
  Lemma add_ok x y : okf x -> okf y -> okf (SFadd prec emax x y).
  Proof. destruct x as [[]|[]| |s m e], y as [[]|[]| |s' m' e']; cbn [SFadd]; auto; try (intros; exact I). intros _ _. apply normalize_ok. Qed.
  Lemma mul_ok x y : okf (SFmul prec emax x y).
  Proof. destruct x as [[]|[]| |s m e], y as [[]|[]| |s' m' e']; cbn [SFmul]; try exact I. apply aux_ok. Qed.
  Lemma opp_ok x : okf x -> okf (SFopp x).
  Proof. destruct x; auto. Qed.

  (** The sign of x: positive, not zero. *)
  Definition signed (s : bool) (x : B64) : Prop := match x with S754_finite s' _ _ | S754_infinity s' => s' = s | _ => False end.
  Lemma aux_signed s m e : tall m e -> signed s (binary_round_aux prec emax s m e loc_Exact).
  Proof.
    intro T. unfold binary_round_aux. destruct (shr_fexp prec emax m e loc_Exact) as [r e1] eqn:E1.
    pose proof (shr_tall _ T E1) as T1.
    destruct (shr_fexp prec emax (round_nearest_even (shr_m r) (loc_of_shr_record r)) e1 loc_Exact) as [r2 e2] eqn:E2.
    assert (T2 : tall (shr_m r2) e2).
    { eapply shr_tall; [|exact E2]. eapply tall_le; [exact T1|]. unfold round_nearest_even.
      destruct (loc_of_shr_record r) as [|[]]; try lia. destruct (Z.even (shr_m r)); lia. }
    destruct T2 as [T2 _]. destruct (shr_m r2); try lia. destruct (e2 <=? emax - prec)%Z; reflexivity.
  Qed.
  Lemma round_signed s p e : -1074 <= e -> signed s (binary_round prec emax s p e).
  Proof.
    intro H. assert (T : tall (Z.pos p) e) by (split; [lia|]; pose proof (Z.log2_nonneg (Z.pos p)); lia).
    unfold binary_round. pose proof (@shl_tall _ _ (fexp prec emax (Z.pos (digits2_pos p) + e)) T) as Q.
    destruct (shl_align p e _) as [m z]. now apply aux_signed.
  Qed.
  (** A sum of two doubles of the same sign has this sign. *)
  Lemma add_signed s x y : okf x -> okf y -> signed s x -> signed s y -> signed s (SFadd prec emax x y).
  Proof.
    destruct x as [|sx| |sx m e], y as [|sy| |sy m' e']; try contradiction; cbn [okf signed SFadd]; intros Hx Hy -> ->.
    - now destruct s.
    - reflexivity.
    - reflexivity.
    - destruct s; cbn [cond_Zopp binary_normalize Z.opp Z.add]; apply round_signed; lia.
  Qed.
  Lemma add_zero s x b : signed s x -> SFadd prec emax x (S754_zero b) = x.
  Proof. destruct x; try contradiction; reflexivity. Qed.
  (** The product with a positive double. *)
  Lemma mul_signed a b s x : signed s x -> let y := SFmul prec emax (S754_finite false a b) x in signed s y \/ exists z, y = S754_zero z \/ y = S754_nan.
  Proof.
    destruct x as [|s'| |s' m e]; try contradiction; cbn [signed SFmul]; intros ->.
    - left. now destruct s.
    - cbn [xorb]. destruct s; cbn [xorb]; unfold binary_round_aux; destruct (shr_fexp _ _ _ _ _) as [r e1]; destruct (shr_fexp _ _ _ _ _) as [r2 e2];
      (destruct (shr_m r2); [right; eauto| |right; exists true; auto]; destruct (_ <=? _); left; reflexivity).
  Qed.
End Doubles.

(** ** Bounces follow no bounce, in every arithmetic in which the ball rises after a bounce *)
Section Calm.
  Context {F : Type} {NF : Num F}.
  Lemma calm_after h v g : rising (F := F) -> h = ndblmin -> v = nzero \/ nlt v (nlit 1 (-1)) = false -> bounces BouncingBall [h; v; g] = false.
  Proof.
    intros (R1 & R2) -> Hv. specialize (R2 v Hv). change bb_step with (nlit (F := F) 1 (-3)) in R2.
    cbn [bounces]. unfold changes_sign, ground. rewrite R1, R2, !andb_false_r. cbn [andb]. rewrite R1, R2. now rewrite andb_false_r.
  Qed.
End Calm.

Section Ball.
  Notation ball x := (next (F := B64) BouncingBall x).
  Notation sol := (solution (F := B64) BouncingBall).
  Notation z0 := (nzero (F := B64)).

  Definition airborne (x : list B64) : Prop :=
    match x with
    | [h; v; g] => nle h z0 = false /\ okf h /\ okf v /\ (g = nopp (nlit 981 (-2)) \/ g = z0 /\ v = z0)
    | _ => False
    end.
  Definition hopping (x : list B64) : Prop := match x with [h; v; g] => h = ndblmin /\ (v = z0 \/ nlt v (nlit 1 (-1)) = false) | _ => False end.

  Lemma pos_sign x : nlt z0 x = true -> signed false x.
  Proof. change z0 with (S754_zero false). destruct x as [[]|[]| |[] m e]; intro H; try discriminate H; reflexivity. Qed.
  Lemma sign_pos x : signed false x -> nle x z0 = false.
  Proof. change z0 with (S754_zero false). destruct x as [[]|[]| |[] m e]; intro H; try discriminate H; try contradiction; reflexivity. Qed.
  Lemma sign_neg x : signed true x -> nlt x z0 = true.
  Proof. change z0 with (S754_zero false). destruct x as [[]|[]| |[] m e]; intro H; try discriminate H; try contradiction; reflexivity. Qed.
  Lemma falls h v : nlt z0 h = true -> okf h -> nle (nadd h (nmul (nlit 1 (-3)) v)) z0 = true -> signed true v.
  Proof.
    intros Hp Oh E. apply pos_sign in Hp.
    assert (Hc : exists a b, nlit (F := B64) 1 (-3) = S754_finite false a b) by (eexists _, _; vm_compute; reflexivity).
    destruct Hc as (a & b & Ec). rewrite Ec in E. change (nmul (F := B64)) with (SFmul prec emax) in E. change (nadd (F := B64)) with (SFadd prec emax) in E.
    assert (Z : forall y, y = S754_nan \/ (exists z, y = S754_zero z) -> nle (SFadd prec emax h y) z0 = true -> False).
    { intros y [->|(z & ->)]; [destruct h as [[]|[]| |[] m e]; discriminate|]. rewrite (@add_zero false h z Hp). rewrite sign_pos by exact Hp. discriminate. }
    assert (P : signed false v -> False).
    { intro Sv. destruct (@mul_signed a b false v Sv) as [S|(z & [S|S])].
      - rewrite sign_pos in E; [discriminate|]. apply add_signed; auto. apply mul_ok.
      - rewrite S in E. apply (Z (S754_zero z)); eauto.
      - rewrite S in E. apply (Z S754_nan); auto. }
    destruct v as [[]|[]| |[] m e]; try reflexivity; exfalso; try (apply P; reflexivity); cbn [SFmul xorb] in E; apply (Z _) in E; eauto.
  Qed.
  Lemma airborne_next x : airborne x -> airborne (ball x) /\ (bounces BouncingBall x = true -> hopping (ball x)).
  Proof.
    destruct x as [|h [|v [|g [|]]]]; try contradiction. intros (Hh & Oh & Ov & Hg).
    set (h' := nadd h (nmul (nlit 1 (-3)) v)). set (v' := nadd v (nmul (nlit 1 (-3)) g)).
    assert (Oh' : okf h') by (apply add_ok; [exact Oh|apply mul_ok]). assert (Ov' : okf v') by (apply add_ok; [exact Ov|apply mul_ok]).
    change (ball [h; v; g]) with (if bounces BouncingBall [h; v; g] then bounced h' v' g else [h'; v'; g]).
    assert (Gh : ground h v = h) by (unfold ground; rewrite Hh, andb_false_r; reflexivity).
    assert (Gs : nle (ground h' v') z0 = nle h' z0).
    { unfold ground. destruct (nlt _ h' && nle h' nzero && nlt nzero v') eqn:E; [|reflexivity]. rewrite !andb_true_iff in E. destruct E as ((_ & ->) & _). vm_compute. reflexivity. }
    assert (Bq : bounces BouncingBall [h; v; g] = nlt z0 h && nle h' z0).
    { cbn [bounces]. fold h' v'. unfold changes_sign. rewrite Gh, Gs, Hh. reflexivity. }
    rewrite Bq. destruct (nlt z0 h && nle h' z0) eqn:E.
    - apply andb_true_iff in E as (E1 & E2). pose proof (@falls h v E1 Oh E2) as Sv.
      assert (G : g = nopp (nlit 981 (-2))) by (destruct Hg as [|(_ & ->)]; [assumption|contradiction Sv]).
      assert (Sv' : nlt v' z0 = true).
      { apply sign_neg. unfold v'. apply add_signed; [exact Ov|apply mul_ok|exact Sv|]. rewrite G. vm_compute. reflexivity. }
      unfold bounced. rewrite E2, Sv'. cbn [andb]. destruct (nlt _ (nlit 1 (-1))) eqn:W; cbn [airborne hopping].
      + split; [|auto]. split; [vm_compute; reflexivity|]. split; [vm_compute; discriminate|]. split; [exact I|auto].
      + split; [|auto]. split; [vm_compute; reflexivity|]. split; [vm_compute; discriminate|]. split; [apply mul_ok|auto].
    - split; [|discriminate]. cbn [airborne]. split; [|split; [exact Oh'|split; [exact Ov'|]]].
      + destruct (nlt z0 h) eqn:P; [exact E|]. clear - Hh P Gh. change z0 with (S754_zero false) in *.
        destruct h as [[]|[]| |[] m e]; try discriminate Hh; try discriminate P. unfold h'. destruct (nmul _ v) as [[]|[]| |[] m e]; reflexivity.
      + destruct Hg as [->|(-> & ->)]; [left; reflexivity|right; split; [reflexivity|vm_compute; reflexivity]].
  Qed.
  Lemma airborne_all n : airborne (sol n).
  Proof.
    induction n as [|n IH]; [|exact (proj1 (airborne_next _ IH))].
    cbn [airborne Nat.iter solution begin]. split; [vm_compute; reflexivity|]. split; [vm_compute; discriminate|]. split; [exact I|]. left. reflexivity.
  Qed.
  Lemma spaced_B64 f N : recorded f = true -> spaced (F := B64) f N.
  Proof.
    intros Rc k _ Bn. destruct f; try discriminate Rc; try (now destruct (solution (F := B64) _ _) as [|? [|? [|]]]).
    pose proof (proj2 (airborne_next _ (airborne_all k)) Bn) as Ho. change (ball (sol k)) with (sol (S k)) in Ho.
    destruct (sol (S k)) as [|h [|v [|g [|]]]]; try contradiction. destruct Ho as (Hh & Hv). now apply calm_after; [apply rising_B64|..].
  Qed.
  Lemma never_below n : nle (nth 0 (sol n) nzero) z0 = false.
  Proof. pose proof (airborne_all n) as A. destruct (sol n) as [|h [|v [|g [|]]]]; try contradiction. apply A. Qed.
End Ball.
