(** Deriv.v -- the loops of GetDirectionalDerivative and GetAdjointDerivative. *)
From Coq Require Import List NArith ZArith Bool Arith Lia.
From Verif Require Import Base Instance ModelIface Core Fmi3 Fmi2 Api Fmus Logic SpecModes SpecDeriv Calls Vars
  FmuVanDerPol FmuRoberts.
Import ListNotations.
Set Implicit Arguments.

Section Rows.
  Context {F : Type} {NF : Num F} (m : Model F).
  Notation D := (md m).
  Definition term (J : N -> F) (a : F) (p : N * F) : F := nadd a (nmul (J (fst p)) (snd p)).
  Definition row (J : N -> F) (others : list N) (seed : list F) (acc : F) : F :=
    fold_left (term J) (combine others seed) acc.

  Lemma row_ext J J' others seed acc : (forall y, J' y = J y) -> row J' others seed acc = row J others seed acc.
  Proof.
    intro H. unfold row. generalize (combine others seed). intro l. revert acc.
    induction l as [|p l IH]; intros a; [reflexivity|]. cbn [fold_left]. rewrite IH. unfold term at 2 4. rewrite H. reflexivity.
  Qed.

  (** [J c d u k]: the value of getPartialDerivative, which does not change under calculateValues *)
  Definition gives (pd : N -> N -> MF F D (Status * F)) (J : Ctl F -> D -> N -> N -> F) : Prop :=
    forall env c u a b, exists u', pd a b env c u = Done ((OK, J c (data u) a b), u', []) /\
      forall x y, J c (data u') x y = J c (data u) x y.

  Section Loop.
    Variables (env : Env) (pd : N -> N -> MF F D (Status * F)) (J : Ctl F -> D -> N -> N -> F).
    Hypothesis G : gives pd J.
    Definition keepsJ (i i' : Inst F D) : Prop :=
      ctl i' = ctl i /\ sol i' = sol i /\ forall x y, J (ctl i) (data (mut i')) x y = J (ctl i) (data (mut i)) x y.
    Lemma keepsJ_refl i : keepsJ i i. Proof. split; [reflexivity|split; auto]. Qed.
    Lemma keepsJ_trans i j k : keepsJ i j -> keepsJ j k -> keepsJ i k.
    Proof.
      intros (A & B & C) (A' & B' & C'). split; [congruence|split; [congruence|]]. intros x y.
      rewrite <- C. rewrite A in C'. apply C'.
    Qed.

    Lemma row_do r n : forall others seed j acc i, j + n <= length others -> j + n <= length seed ->
      exists i', deriv_row m env (pd r) (Some others) n j (Some seed) acc OK i =
        Done ((OK, row (J (ctl i) (data (mut i)) r) (firstn n (skipn j others)) (firstn n (skipn j seed)) acc), i', []) /\ keepsJ i i'.
    Proof.
      induction n as [|n IH]; intros others seed j acc i L1 L2.
      - exists i. split; [reflexivity|apply keepsJ_refl].
      - destruct (nth_error others j) as [o|] eqn:Eo; [|apply nth_error_None in Eo; lia].
        destruct (nth_error seed j) as [w|] eqn:Ew; [|apply nth_error_None in Ew; lia].
        destruct (G env (ctl i) (mut i) r o) as (u' & Eu & Ku).
        assert (K1 : keepsJ i (set_mut u' i)) by (split; [reflexivity|split; [reflexivity|exact Ku]]).
        destruct (IH others seed (S j) (nadd acc (nmul (J (ctl i) (data (mut i)) r o) w)) (set_mut u' i)) as (i' & E & K); [lia..|].
        exists i'. split; [|eapply keepsJ_trans; eauto].
        assert (S1 : forall T (l : list T) v, nth_error l j = Some v -> skipn j l = v :: skipn (S j) l).
        { clear. intros T l. revert j. induction l as [|a l IH]; intros [|j] v H; try discriminate; cbn in *.
          - injection H as ->. reflexivity.
          - apply IH. exact H. }
        replace (row (J (ctl i) (data (mut i)) r) (firstn (S n) (skipn j others)) (firstn (S n) (skipn j seed)) acc)
          with (row (J (ctl (set_mut u' i)) (data (mut (set_mut u' i))) r) (firstn n (skipn (S j) others)) (firstn n (skipn (S j) seed))
                 (nadd acc (nmul (J (ctl i) (data (mut i)) r o) w))).
        2:{ rewrite (S1 _ _ _ Eo), (S1 _ _ _ Ew). rewrite !firstn_cons.
            refine (eq_trans _ (eq_sym _)); [apply row_ext; intro y; apply Ku|]. reflexivity. }
        revert E. generalize (row (J (ctl (set_mut u' i)) (data (mut (set_mut u' i))) r) (firstn n (skipn (S j) others)) (firstn n (skipn (S j) seed))
                 (nadd acc (nmul (J (ctl i) (data (mut i)) r o) w))). intros z E.
        cbn [deriv_row]. unfold rd at 1. rewrite Eo. unfold bind at 1. cbn [ret].
        unfold bind at 1. unfold call. rewrite Eu. cbn [fst snd].
        unfold CALL, stops. cbn [smax]. unfold bind at 1. cbn.
        unfold bind at 1. rewrite Ew. cbn.
        rewrite E. reflexivity.
    Qed.
    Lemma rows_do n : forall rows j others seed sens nO i, j + n <= length rows -> j + n <= length sens ->
      nO <= length others -> nO <= length seed ->
      exists i', deriv_rows m env pd (Some rows) n j (Some others) nO (Some seed) (Some sens) OK i =
        Done ((OK, Some (splice j (map (fun r => row (J (ctl i) (data (mut i)) r) (firstn nO others) (firstn nO seed) nzero) (firstn n (skipn j rows))) sens)), i', []) /\ keepsJ i i'.
    Proof.
      induction n as [|n IH]; intros rows j others seed sens nO i L1 L2 L3 L4.
      - exists i. cbn. rewrite splice_nil. split; [reflexivity|apply keepsJ_refl].
      - destruct (nth_error rows j) as [r|] eqn:Er; [|apply nth_error_None in Er; lia].
        assert (Sr : skipn j rows = r :: skipn (S j) rows).
        { clear -Er. revert j Er. induction rows as [|a l IH]; intros [|j] H; try discriminate; cbn in *.
          - injection H as ->. reflexivity.
          - apply IH. exact H. }
        cbn [deriv_rows]. unfold wr at 1. rewrite (proj2 (Nat.ltb_lt j (length sens))) by lia.
        unfold bind at 1. cbn [ret]. rewrite Sr. cbn [firstn map].
        assert (SP : forall v vs, splice (S j) vs (upd sens j v) = splice j (v :: vs) sens \/ length vs + S j > length sens).
        { intros v vs. destruct (le_lt_dec (length vs + S j) (length sens)); [left|right; lia].
          rewrite splice_upd by lia. replace (S j) with (j + length [v]) by (cbn; lia).
          rewrite splice_splice by (cbn; lia). reflexivity. }
        destruct (Nat.eqb_spec nO 0) as [->|Hn].
        + destruct (IH rows (S j) others seed (upd sens j nzero) 0 i) as (i' & E & K); [try lia..|].
          { rewrite splice_upd, splice_length; cbn; lia. }
          exists i'. split; [|exact K]. rewrite E. cbn [firstn] in *. unfold row at 1 2. cbn [combine fold_left].
          cbn. do 5 f_equal.
          destruct (SP nzero (map (fun r0 => row (J (ctl i) (data (mut i)) r0) [] [] nzero) (firstn n (skipn (S j) rows)))) as [X|X]; [exact X|].
          rewrite map_length, firstn_length in X. lia.
        + destruct (row_do r nO others seed 0 nzero i) as (i1 & E1 & K1); [lia..|].
          destruct (IH rows (S j) others seed (upd sens j (row (J (ctl i) (data (mut i)) r) (firstn nO others) (firstn nO seed) nzero)) nO i1)
            as (i' & E & K); [try lia..|].
          { rewrite splice_upd, splice_length; cbn; lia. }
          exists i'. split; [|eapply keepsJ_trans; eauto].
          unfold rd. rewrite Er. unfold bind at 1. cbn [ret]. unfold bind at 1. rewrite E1. cbn [skipn].
          unfold wr. rewrite (proj2 (Nat.ltb_lt j (length (upd sens j nzero)))) by (rewrite splice_upd, splice_length; cbn; lia).
          unfold bind at 1. cbn [ret]. change (stops OK) with false. cbv iota.
          assert (U : forall a b, upd (upd sens j a) j b = upd sens j b).
          { intros a b. clear. revert j. induction sens as [|x l IH]; intros [|j]; cbn; auto. now rewrite IH. }
          rewrite U, E. cbn. do 5 f_equal.
          replace (map (fun r0 => row (J (ctl i1) (data (mut i1)) r0) (firstn nO others) (firstn nO seed) nzero) (firstn n (skipn (S j) rows)))
            with (map (fun r0 => row (J (ctl i) (data (mut i)) r0) (firstn nO others) (firstn nO seed) nzero) (firstn n (skipn (S j) rows))).
          * destruct (SP (row (J (ctl i) (data (mut i)) r) (firstn nO others) (firstn nO seed) nzero)
              (map (fun r0 => row (J (ctl i) (data (mut i)) r0) (firstn nO others) (firstn nO seed) nzero) (firstn n (skipn (S j) rows)))) as [X|X]; [exact X|].
            rewrite map_length, firstn_length in X. lia.
          * apply map_ext. intros r0. symmetry. apply row_ext. intro y. destruct K1 as (C1 & _ & C2). rewrite C1. apply C2.
    Qed.
  End Loop.
End Rows.

(** ** The FMUs *)
Section Fmus.
  Context {F : Type} {NF : Num F}.
  Definition jac (v : Version) (f : FMU) : Ctl F -> md (model_of (F := F) v f) -> N -> N -> F :=
    match f return Ctl F -> md (model_of (F := F) v f) -> N -> N -> F with
    | VanDerPol => fun c d => vp_partial c d
    | Roberts => fun _ d => ro_partial (ro_calc d)
    | _ => fun _ _ _ _ => nzero
    end.
  Lemma jac_gives v f : has_partials f = true -> gives (model_of (F := F) v f) (fun a b => m_getPartialDerivative (model_of (F := F) v f) a b) (jac v f).
  Proof.
    intro H. destruct f; try discriminate H; intros env c u a b; destruct u as [? ? ? ? ? ? ? ? d].
    - eexists. split; [reflexivity|]. intros x y. cbn. destruct d as [dae ? ? ? ? ? ? ? ?]; destruct dae; reflexivity.
    - eexists. split; reflexivity.
  Qed.
  Lemma jac_gives_t v f : has_partials f = true ->
    gives (model_of (F := F) v f) (fun b a => m_getPartialDerivative (model_of (F := F) v f) a b) (fun c d b a => jac v f c d a b).
  Proof. intros H env c u b a. destruct (jac_gives v f H env c u a b) as (u' & E & K). exists u'. auto. Qed.

  (** *** The calls *)
  Section Calls.
    Variables (f : FMU) (szof : N).
    Hypothesis P : has_partials f = true.
    Notation m3 := (model_of (F := F) FMI3 f).
    Notation m2 := (model_of (F := F) FMI2 f).
    Notation J3 s := (jac FMI3 f (ctl (sinst s)) (data (mut (sinst s)))).
    Notation J2 s := (jac FMI2 f (ctl (sinst s)) (data (mut (sinst s)))).
    Definition jac_of v (i i' : Inst F (md (model_of (F := F) v f))) : Prop :=
      ctl i' = ctl i /\ forall x y, jac v f (ctl i') (data (mut i')) x y = jac v f (ctl i) (data (mut i)) x y.

    Lemma directional3 fuel env us nu ks nk seed sens s :
      In (mode_of s) (when3 (O3GetDirectionalDerivative (F := F) (D := md m3) None 0 None 0 None None)) ->
      nu <= length us -> nu <= length sens -> nk <= length ks -> nk <= length seed ->
      exists s', exec3 m3 szof fuel env (O3GetDirectionalDerivative (Some us) nu (Some ks) nk (Some seed) (Some sens)) s =
        Done (OK, OFloats (Some (map (fun u => row (J3 s u) (firstn nk ks) (firstn nk seed) nzero) (firstn nu us) ++ skipn nu sens)), s', []) /\
        jac_of FMI3 (sinst s) (sinst s') /\ heap s' = heap s.
    Proof.
      intros Hm L1 L2 L3 L4. unfold exec3. rewrite outI_eq. unfold fmi3GetDirectionalDerivative. rewrite BEGIN_pass.
      2:{ unfold mode_of in Hm. destruct (mode (ctl (sinst s))); vm_compute; try discriminate; exfalso; cbn in Hm; intuition discriminate. }
      destruct (@rows_do F NF m3 env _ _ (jac_gives FMI3 f P) nu us 0 ks seed sens nk (sinst s)) as (i' & E & K1 & K2 & K3); [lia..|].
      rewrite E. exists (mkSys i' (heap s)). split; [|split; [split; [exact K1|]|reflexivity]].
      - do 5 f_equal. f_equal. f_equal. unfold splice. cbn [firstn app skipn]. rewrite map_length, firstn_length.
        replace (0 + Nat.min nu (length us)) with nu by lia. reflexivity.
      - cbn [sinst]. intros x y. rewrite K1. apply K3.
    Qed.
    Lemma adjoint3 fuel env us nu ks nk seed sens s :
      In (mode_of s) (when3 (O3GetDirectionalDerivative (F := F) (D := md m3) None 0 None 0 None None)) ->
      nu <= length us -> nk <= length sens -> nk <= length ks -> nu <= length seed ->
      exists s', exec3 m3 szof fuel env (O3GetAdjointDerivative (Some us) nu (Some ks) nk (Some seed) (Some sens)) s =
        Done (OK, OFloats (Some (map (fun k => row (fun u => J3 s u k) (firstn nu us) (firstn nu seed) nzero) (firstn nk ks) ++ skipn nk sens)), s', []) /\
        jac_of FMI3 (sinst s) (sinst s') /\ heap s' = heap s.
    Proof.
      intros Hm L1 L2 L3 L4. unfold exec3. rewrite outI_eq. unfold fmi3GetAdjointDerivative. rewrite BEGIN_pass.
      2:{ unfold mode_of in Hm. destruct (mode (ctl (sinst s))); vm_compute; try discriminate; exfalso; cbn in Hm; intuition discriminate. }
      destruct (@rows_do F NF m3 env _ _ (jac_gives_t FMI3 f P) nk ks 0 us seed sens nu (sinst s)) as (i' & E & K1 & K2 & K3); [lia..|].
      rewrite E. exists (mkSys i' (heap s)). split; [|split; [split; [exact K1|]|reflexivity]].
      - do 5 f_equal. f_equal. f_equal. unfold splice. cbn [firstn app skipn]. rewrite map_length, firstn_length.
        replace (0 + Nat.min nk (length ks)) with nk by lia. reflexivity.
      - cbn [sinst]. intros x y. rewrite K1. apply K3.
    Qed.
    Lemma directional2 fuel env us nu ks nk seed sens s :
      In (mode_of s) (when2 (O2GetDirectionalDerivative (F := F) (D := md m2) None 0 None 0 None None)) ->
      nu <= length us -> nu <= length sens -> nk <= length ks -> nk <= length seed ->
      exists s', exec2 m2 szof fuel env (O2GetDirectionalDerivative (Some us) nu (Some ks) nk (Some seed) (Some sens)) s =
        Done (OK, OFloats (Some (map (fun u => row (J2 s u) (firstn nk ks) (firstn nk seed) nzero) (firstn nu us) ++ skipn nu sens)), s', []) /\
        jac_of FMI2 (sinst s) (sinst s') /\ heap s' = heap s.
    Proof.
      intros Hm L1 L2 L3 L4. unfold exec2. rewrite outI_eq. unfold fmi2GetDirectionalDerivative. rewrite BEGIN2_pass.
      2:{ unfold mode_of in Hm. destruct (mode (ctl (sinst s))); vm_compute; try discriminate; exfalso; cbn in Hm; intuition discriminate. }
      destruct (@rows_do F NF m2 env _ _ (jac_gives FMI2 f P) nu us 0 ks seed sens nk (sinst s)) as (i' & E & K1 & K2 & K3); [lia..|].
      rewrite E. exists (mkSys i' (heap s)). split; [|split; [split; [exact K1|]|reflexivity]].
      - do 5 f_equal. f_equal. f_equal. unfold splice. cbn [firstn app skipn]. rewrite map_length, firstn_length.
        replace (0 + Nat.min nu (length us)) with nu by lia. reflexivity.
      - cbn [sinst]. intros x y. rewrite K1. apply K3.
    Qed.
  End Calls.

  (** Without an implementation the functions answer Error as soon as one derivative is asked for. *)
  Lemma absent3 f szof fuel env us nu ks nk seed sens s st out s' t :
    has_partials f = false -> 0 < nu -> 0 < nk ->
    In (mode_of s) (when3 (O3GetDirectionalDerivative (F := F) (D := md (model_of FMI3 f)) None 0 None 0 None None)) ->
    exec3 (model_of FMI3 f) szof fuel env (O3GetDirectionalDerivative us nu ks nk seed sens) s = Done (st, out, s', t) \/
    exec3 (model_of FMI3 f) szof fuel env (O3GetAdjointDerivative us nu ks nk seed sens) s = Done (st, out, s', t) -> st = Error.
  Proof.
    intros P Lu Lk Hm.
    assert (K : forall rows n others k pd, (forall a b c u, exists u' tr, pd a b env c u = Done ((Error, nzero), u', tr)) ->
      forall i st b i' t', 0 < n -> 0 < k ->
      deriv_rows (model_of (F := F) FMI3 f) env pd rows n 0 others k seed sens OK i = Done ((st, b), i', t') -> st = Error).
    { clear. intros rows n others k pd E i st b i' t' Ln Lk. destruct n as [|n]; [lia|]. destruct k as [|k]; [lia|].
      cbn [deriv_rows Nat.eqb]. unfold bind at 1. unfold wr at 1. destruct sens as [sl|]; [|intro H0; discriminate H0].
      destruct (Nat.ltb 0 (length sl)); [|intro H0; discriminate H0]. cbn [ret].
      unfold bind at 1. unfold rd at 1. destruct rows as [rl|]; [|intro H0; discriminate H0]. destruct (nth_error rl 0) as [r|]; [|intro H0; discriminate H0]. cbn [ret].
      unfold bind at 1. cbn [deriv_row]. unfold rd at 1. unfold bind at 1. destruct others as [ol|]; [|intro H0; discriminate H0].
      destruct (nth_error ol 0) as [o|]; [|intro H0; discriminate H0]. cbn [ret].
      unfold bind at 1. unfold call. destruct (E r o (ctl i) (mut i)) as (u' & tr & ->). cbn [fst snd].
      unfold bind at 1. unfold CALL, stops. cbn [smax]. cbn.
      destruct (length (upd sl 0 nzero)); cbn; [intro H0; discriminate H0|].
      intro H. inversion H. reflexivity. }
    assert (E : forall a b c (u : Mut F (md (model_of FMI3 f))), exists u' tr, m_getPartialDerivative (model_of (F := F) FMI3 f) a b env c u = Done ((Error, nzero), u', tr)).
    { clear -P. intros a b c u. destruct f; try discriminate P;
        (cbn; unfold partial_default, mlogError, mbind, mret, bind; cbn; destruct (logErrors c && hasLogger c); do 2 eexists; reflexivity). }
    assert (B : N.land (bit3 (mode (ctl (sinst s)))) MASK_GetDirectionalDerivative <> 0%N).
    { unfold mode_of in Hm. destruct (mode (ctl (sinst s))); vm_compute; try discriminate; exfalso; cbn in Hm; intuition discriminate. }
    intros [H|H]; unfold exec3 in H; rewrite outI_eq in H;
      [unfold fmi3GetDirectionalDerivative in H|unfold fmi3GetAdjointDerivative in H]; rewrite BEGIN_pass in H by exact B.
    - destruct (deriv_rows _ _ _ _ _ _ _ _ _ _ _ _) as [[[[st1 b1] i1] t1]| |] eqn:X; try discriminate.
      apply K in X; auto. inversion H; subst. reflexivity.
    - destruct (deriv_rows _ _ _ _ _ _ _ _ _ _ _ _) as [[[[st1 b1] i1] t1]| |] eqn:X; try discriminate.
      apply K in X; auto. inversion H; subst. reflexivity.
  Qed.
End Fmus.
