(** Dyn.v -- the solver interface of the FMUs in closed form: what the functions for continuous
    states, derivatives and event indicators return and store (used for C17-C22, C30-C32, C45, C46). *)
From Coq Require Import List NArith ZArith Bool Arith Lia.
From Verif Require Import Base Instance ModelIface Core Fmus Logic Calls LawsFmus Vars SimSS VarsFmus DataFmus
  FmuBouncingBall FmuDahlquist FmuStair FmuVanDerPol FmuRoberts FmuClocks FmuResource FmuStateSpace FmuFeedthrough.
Import ListNotations.
Set Implicit Arguments.

Section Dyn.
  Context {F : Type} {NF : Num F}.

  Record Dyn (m : Model F) (WF : md m -> Prop) := mkDyn {
    dy_x : md m -> list F;
    dy_dx : md m -> list F;
    dy_z : md m -> list F;
    dy_put : list F -> md m -> md m;
    dy_tx : Mut F (md m) -> Mut F (md m);
    dy_tdx : Mut F (md m) -> Mut F (md m);
    dy_tz : Mut F (md m) -> Mut F (md m);
    dy_nx : forall u, WF (data u) -> m_nx m u = length (dy_x (data u));
    dy_nz : forall u, WF (data u) -> m_nz m u = length (dy_z (data u));
    dy_zlen : forall d d', length (dy_z d) = length (dy_z d');
    dy_len : forall d, WF d -> length (dy_dx d) = length (dy_x d);
    dy_getx : forall e c u b, WF (data u) -> 0 < length (dy_x (data u)) <= length b ->
      m_getContinuousStates m (Some b) (length (dy_x (data u))) e c u =
      Done ((OK, Some (dy_x (data u) ++ skipn (length (dy_x (data u))) b)), dy_tx u, []);
    dy_getdx : forall e c u b, WF (data u) -> 0 < length (dy_x (data u)) <= length b ->
      m_getDerivatives m (Some b) (length (dy_x (data u))) e c u =
      Done ((OK, Some (dy_dx (data u) ++ skipn (length (dy_x (data u))) b)), dy_tdx u, []);
    dy_getz : forall e c u b, WF (data u) -> 0 < length (dy_z (data u)) <= length b ->
      m_getEventIndicators m (Some b) (length (dy_z (data u))) e c u =
      Done ((OK, Some (dy_z (data u) ++ skipn (length (dy_z (data u))) b)), dy_tz u, []);
    dy_setx : forall e c u l r, WF (data u) -> length l = length (dy_x (data u)) -> 0 < length l ->
      m_setContinuousStates m (Some (l ++ r)) (length l) e c u =
      Done (OK, set_dirty true (set_data (dy_put l (data u)) u), []);
    dy_tx_ok : forall u, WF (data u) -> WF (data (dy_tx u)) /\ dy_x (data (dy_tx u)) = dy_x (data u) /\ dy_dx (data (dy_tx u)) = dy_dx (data u) /\
      exists d b, dy_tx u = set_dirty b (set_data d u);
    dy_tdx_ok : forall u, WF (data u) -> WF (data (dy_tdx u)) /\ dy_x (data (dy_tdx u)) = dy_x (data u) /\ dy_dx (data (dy_tdx u)) = dy_dx (data u) /\
      dy_z (data (dy_tdx u)) = dy_z (data u) /\ exists d b, dy_tdx u = set_dirty b (set_data d u);
    dy_tz_ok : forall u, WF (data u) -> WF (data (dy_tz u)) /\ dy_x (data (dy_tz u)) = dy_x (data u) /\ dy_z (data (dy_tz u)) = dy_z (data u) /\
      exists d b, dy_tz u = set_dirty b (set_data d u);
    dy_put_ok : forall l d, WF d -> length l = length (dy_x d) -> WF (dy_put l d) /\ dy_x (dy_put l d) = l
  }.

  Lemma writel_all {D} (l b : list F) e (c : Ctl F) (u : Mut F D) : length l <= length b ->
    writel (Some b) 0 l e c u = Done (Some (l ++ skipn (length l) b), u, []).
  Proof.
    assert (K : forall (l p b : list F), length l <= length b -> writel (F := F) (D := D) (Some (p ++ b)) (length p) l e c u =
      Done (Some (p ++ l ++ skipn (length l) b), u, [])).
    { clear. induction l as [|x l IH]; intros p b H; cbn [writel].
      - reflexivity.
      - destruct b as [|y b]; [cbn in H; lia|]. change (writel (D := D) (Some (p ++ y :: b)) (length p) (x :: l) e c u) with (mbind (D := D) (mwr (Some (p ++ y :: b)) (length p) x) (fun b' => writel b' (S (length p)) l) e c u).
        unfold mbind, bind, mwr, wr. cbv beta iota.
        assert (E : nth_error (p ++ y :: b) (length p) = Some y) by (rewrite nth_error_app2, Nat.sub_diag; auto).
        rewrite (proj2 (Nat.ltb_lt _ _)) by (rewrite app_length; cbn; lia). unfold ret. cbv beta iota.
        assert (U : upd (p ++ y :: b) (length p) x = (p ++ [x]) ++ b).
        { clear. induction p; cbn; [reflexivity|]. now rewrite IHp. }
        rewrite U. specialize (IH (p ++ [x]) b). rewrite app_length, Nat.add_1_r in IH. rewrite IH by (cbn in H; lia).
        rewrite <- !app_assoc. reflexivity. }
    intro H. apply (K l [] b H).
  Qed.


  Notation "u ~~ d" := (set_dirty false (set_data d u)) (at level 50).

  Definition dx_da (d : DAData F) : list F := [nmul (nopp (da_k d)) (da_x d)].
  Definition dx_vp (d : VPData F) : list F := [vp_der_x0 (vp_calc d); vp_der_x1 (vp_calc d)].
  Definition dx_ro (d : ROData F) : list F := [ro_der_y1 (ro_calc d); ro_der_y2 (ro_calc d)].
  Definition z_ro (d : ROData F) : list F := [nsub (ro_y1 d) (nlit 1 (-4)); nsub (ro_y3 (ro_calc d)) (nlit 1 (-2))].
  Definition x_ss (d : SSData F) : list F := firstn (ss_n d) (ss_x d).
  Definition dx_ss (d : SSData F) : list F := firstn (ss_n d) (ss_der_x (ss_recalc d)).
  Definition put2 {D} (f : F -> F -> D -> D) (l : list F) (d : D) : D :=
    match l with [a; b] => f a b d | _ => d end.

  Lemma arrGet_ok {D} b n (k : MF F D (Status * Buf F)) : arrGet (Some b) n n k = k.
  Proof. unfold arrGet. now rewrite Nat.eqb_refl. Qed.
  Lemma arrSet_ok {D} (b : list F) n (k : MF F D Status) : arrSet (Some b) n n k = k.
  Proof. unfold arrSet. now rewrite Nat.eqb_refl. Qed.
  Lemma out_ok {D} (l b : list F) e c (u : Mut F D) : length l <= length b ->
    mbind (writel (Some b) 0 l) (fun x' => mret (OK, x')) e c u = Done (OK, Some (l ++ skipn (length l) b), u, []).
  Proof. intro H. unfold mbind, bind. rewrite writel_all by exact H. reflexivity. Qed.
  Lemma then_ok {D X} (f : MF F D Status) (g : MF F D X) e c u u1 : f e c u = Done (OK, u1, []) ->
    mbind f (fun _ => g) e c u = g e c u1.
  Proof.
    intro H. unfold mbind, bind. rewrite H. destruct (g e c u1) as [[[x u2] t2]| |]; reflexivity.
  Qed.
  Lemma data_ok {D X} (g : D -> MF F D X) e c u : mbind mdata g e c u = g (data u) e c u.
  Proof. unfold mbind, bind, mdata. destruct (g (data u) e c u) as [[[x u2] t2]| |]; reflexivity. Qed.
  Lemma rd_ok {D X} (l : list F) i x (g : F -> MF F D X) e c u : nth_error l i = Some x ->
    mbind (mrd (Some l) i) g e c u = g x e c u.
  Proof. intro H. unfold mbind, bind, mrd, rd. rewrite H. cbn. destruct (g x e c u) as [[[y u2] t2]| |]; reflexivity. Qed.
  Lemma takel_all {D X} (l r : list F) (g : list F -> MF F D X) e c u :
    mbind (takel (Some (l ++ r)) 0 (length l)) g e c u = g l e c u.
  Proof.
    assert (K : forall (l p r : list F), takel (F := F) (D := D) (Some (p ++ l ++ r)) (length p) (length l) e c u = Done (l, u, [])).
    { clear. induction l as [|x l IH]; intros p r; [reflexivity|].
      change (takel (F := F) (D := D) (Some (p ++ (x :: l) ++ r)) (length p) (length (x :: l)) e c u) with
        (mbind (F := F) (D := D) (mrd (Some (p ++ (x :: l) ++ r)) (length p)) (fun v =>
              mbind (takel (Some (p ++ (x :: l) ++ r)) (S (length p)) (length l)) (fun l => mret (v :: l))) e c u).
      rewrite (rd_ok _ _ (x := x)) by (rewrite nth_error_app2, Nat.sub_diag; auto).
      specialize (IH (p ++ [x]) r). rewrite app_length, Nat.add_1_r, <- app_assoc in IH. cbn [app] in IH |- *.
      unfold mbind, bind. rewrite IH. reflexivity. }
    unfold mbind, bind. specialize (K l [] r). cbn [app length] in K. rewrite K.
    destruct (g l e c u) as [[[y u2] t2]| |]; reflexivity.
  Qed.

  Ltac two l L := destruct l as [|a [|b [|]]]; try discriminate L.
  Ltac one l L := destruct l as [|a [|]]; try discriminate L.
  Ltac get := intros e c u b _ H; unfold m_getContinuousStates, m_getDerivatives, m_getEventIndicators; cbn [BouncingBall_model Dahlquist_model VanDerPol_model Roberts_model];
    try unfold bb_getContinuousStates; try unfold bb_getDerivatives; try unfold bb_getEventIndicators; try unfold da_getContinuousStates; try unfold da_getDerivatives; try unfold vp_getContinuousStates; try unfold vp_getDerivatives; try unfold ro_getContinuousStates; try unfold ro_getDerivatives; try unfold ro_getEventIndicators; cbn [length] in H |- *; rewrite arrGet_ok; erewrite then_ok by reflexivity; rewrite data_ok; rewrite out_ok by exact (proj2 H); reflexivity.
  Ltac touch := intros u _; repeat (split; [reflexivity || exact I|]); eexists _, _; reflexivity.

  Definition bb_dyn : Dyn (BouncingBall_model (F := F)) (fun _ => True).
  Proof.
    refine (@mkDyn BouncingBall_model (fun _ => True) (fun d => [bb_h d; bb_v d]) (fun d => [bb_v d; bb_g d]) (fun d => [bb_indicator d])
      (put2 (fun a b d => set_bb_v b (set_bb_h a d))) (set_dirty false) (set_dirty false) (set_dirty false) _ _ _ _ _ _ _ _ _ _ _ _).
    1-4: reflexivity.
    - get.
    - get.
    - get.
    - intros e c u l r _ L _. two l L. reflexivity.
    - intros [] _. repeat (split; [reflexivity || exact I|]). eexists _, _. reflexivity.
    - intros [] _. repeat (split; [reflexivity || exact I|]). eexists _, _. reflexivity.
    - intros [] _. repeat (split; [reflexivity || exact I|]). eexists _, _. reflexivity.
    - intros l d _ L. two l L. split; [exact I|reflexivity].
  Defined.
  Definition da_dyn : Dyn (Dahlquist_model (F := F)) (fun _ => True).
  Proof.
    refine (@mkDyn Dahlquist_model (fun _ => True) (fun d => [da_x d]) dx_da (fun d => [])
      (fun l d => match l with [a] => set_da_x a d | _ => d end) (fun u => u ~~ da_calc (data u)) (fun u => u ~~ da_calc (data u)) (fun u => u) _ _ _ _ _ _ _ _ _ _ _ _).
    1-4: reflexivity.
    - get.
    - get.
    - intros e c u b _ [H _]. cbn in H. lia.
    - intros e c u l r _ L _. one l L. reflexivity.
    - touch.
    - touch.
    - intros [] _. repeat (split; [reflexivity || exact I|]). eexists _, _. reflexivity.
    - intros l d _ L. one l L. split; [exact I|reflexivity].
  Defined.
  Definition vp_dyn : Dyn (VanDerPol_model (F := F)) (fun _ => True).
  Proof.
    refine (@mkDyn VanDerPol_model (fun _ => True) (fun d => [vp_x0 d; vp_x1 d]) dx_vp (fun d => [])
      (put2 (fun a b d => set_vp_x1 b (set_vp_x0 a d))) (fun u => u ~~ vp_calc (data u)) (fun u => u ~~ vp_calc (data u)) (fun u => u) _ _ _ _ _ _ _ _ _ _ _ _).
    1-4: reflexivity.
    - get.
    - get.
    - intros e c u b _ [H _]. cbn in H. lia.
    - intros e c u l r _ L _. two l L. reflexivity.
    - touch.
    - touch.
    - intros [] _. repeat (split; [reflexivity || exact I|]). eexists _, _. reflexivity.
    - intros l d _ L. two l L. split; [exact I|reflexivity].
  Defined.
  Lemma ro_y1_calc (d : ROData F) : ro_y1 (ro_calc d) = ro_y1 d.
  Proof. unfold ro_calc, ro_ders, ro_alg. destruct d as [[] ? ? ? ? ? ? ? ?]; reflexivity. Qed.
  Lemma ro_y2_calc (d : ROData F) : ro_y2 (ro_calc d) = ro_y2 d.
  Proof. unfold ro_calc, ro_ders, ro_alg. destruct d as [[] ? ? ? ? ? ? ? ?]; reflexivity. Qed.
  Lemma ro_calc_calc (d : ROData F) : ro_calc (ro_calc d) = ro_calc d.
  Proof. unfold ro_calc, ro_ders, ro_alg. destruct d as [[] ? ? ? ? ? ? ? ?]; reflexivity. Qed.
  Ltac getr := intros e c u b _ H; unfold m_getContinuousStates, m_getDerivatives, m_getEventIndicators; cbn [Roberts_model];
    try unfold ro_getContinuousStates; try unfold ro_getDerivatives; try unfold ro_getEventIndicators; cbn [length] in H |- *; rewrite arrGet_ok;
    erewrite then_ok by reflexivity; rewrite data_ok; rewrite out_ok by exact (proj2 H); cbn [data set_dirty set_data]; unfold z_ro, dx_ro;
    rewrite ?ro_y1_calc, ?ro_y2_calc; reflexivity.
  Ltac touchr := intros u _; cbn [data set_dirty set_data]; unfold z_ro, dx_ro; rewrite ?ro_calc_calc, ?ro_y1_calc, ?ro_y2_calc;
    repeat (split; [reflexivity || exact I|]); eexists _, _; reflexivity.
  Definition ro_dyn : Dyn (Roberts_model (F := F)) (fun _ => True).
  Proof.
    refine (@mkDyn Roberts_model (fun _ => True) (fun d => [ro_y1 d; ro_y2 d]) dx_ro z_ro
      (put2 (fun a b d => set_ro_y2 b (set_ro_y1 a d))) (fun u => u ~~ ro_calc (data u)) (fun u => u ~~ ro_calc (data u)) (fun u => u ~~ ro_calc (data u)) _ _ _ _ _ _ _ _ _ _ _ _).
    1-4: reflexivity.
    - getr.
    - getr.
    - getr.
    - intros e c u l r _ L _. two l L. reflexivity.
    - touchr.
    - touchr.
    - touchr.
    - intros l d _ L. two l L. split; [exact I|reflexivity].
  Defined.

  Lemma ss_x_length (d : SSData F) : shape d -> length (x_ss d) = ss_n d.
  Proof. intros []. unfold x_ss, row in *. rewrite firstn_length. lia. Qed.
  Lemma ss_recalc_x (d : SSData F) : shape d -> ss_n (ss_recalc d) = ss_n d /\ ss_x (ss_recalc d) = ss_x d.
  Proof. intro W. destruct (ss_recalc_eq W) as (dx & y & _ & _ & _ & _ & ->). split; reflexivity. Qed.
  Lemma dx_ss_length (d : SSData F) : shape d -> length (dx_ss d) = ss_n d.
  Proof.
    intro W. pose proof (ss_recalc_shape W) as W'. destruct (ss_recalc_x W) as [En _]. destruct W'. unfold dx_ss, row in *. rewrite firstn_length. lia.
  Qed.
  Definition put_ss (l : list F) (d : SSData F) : SSData F := set_ss_x (l ++ skipn (length l) (ss_x d)) d.
  Definition ss_dyn : Dyn (StateSpace_model (F := F)) shape.
  Proof.
    refine (@mkDyn StateSpace_model shape x_ss dx_ss (fun d => []) put_ss (fun u => u) (fun u => u ~~ ss_recalc (data u)) (fun u => u) _ _ _ _ _ _ _ _ _ _ _ _).
    - intros u W. cbn. now rewrite ss_x_length.
    - reflexivity.
    - reflexivity.
    - intros d W. now rewrite ss_x_length, dx_ss_length.
    - intros e c u b W H. pose proof (ss_x_length W) as Lx. unfold m_getContinuousStates. cbn [StateSpace_model].
      unfold ss_getContinuousStates. rewrite data_ok. rewrite Lx in H |- *. rewrite arrGet_ok.
      assert (S : sub1 (ss_n (data u)) (ss_x (data u)) = Some (x_ss (data u))).
      { unfold sub1. rewrite (proj2 (Nat.leb_le _ _)); [reflexivity|]. destruct W. unfold row in *. lia. }
      cbn [md StateSpace_model] in *. rewrite S. unfold ss_out. rewrite out_ok by lia. rewrite Lx. reflexivity.
    - intros e c u b W H. pose proof (ss_x_length W) as Lx. unfold m_getDerivatives. cbn [StateSpace_model].
      unfold ss_getDerivatives. rewrite data_ok. rewrite Lx in H |- *. rewrite arrGet_ok.
      erewrite then_ok by (apply ss_calc_do; exact W). rewrite data_ok. cbn [data set_dirty set_data].
      destruct (ss_recalc_x W) as [En _]. pose proof (ss_recalc_shape W) as W'. cbn [md StateSpace_model] in *. rewrite En.
      assert (S : sub1 (ss_n (data u)) (ss_der_x (ss_recalc (data u))) = Some (dx_ss (data u))).
      { unfold sub1. rewrite (proj2 (Nat.leb_le _ _)); [reflexivity|]. destruct W'. unfold row in *. lia. }
      cbn [md StateSpace_model] in *. rewrite S. unfold ss_out. pose proof (dx_ss_length W) as Ld. rewrite out_ok by lia. rewrite Ld. reflexivity.
    - intros e c u b _ [H _]. cbn in H. lia.
    - intros e c u l r W L _. rewrite ss_x_length in L by exact W. unfold m_setContinuousStates. cbn [StateSpace_model].
      unfold ss_setContinuousStates. rewrite data_ok. cbn [md StateSpace_model] in *. rewrite <- L, arrSet_ok, takel_all.
      assert (P : paste1 l (ss_x (data u)) = Some (l ++ skipn (length l) (ss_x (data u)))).
      { unfold paste1. rewrite (proj2 (Nat.leb_le _ _)); [reflexivity|]. destruct W. unfold row in *. lia. }
      cbn [md StateSpace_model] in *. rewrite P. reflexivity.
    - intros [] W. repeat (split; [reflexivity || exact W|]). eexists _, _. reflexivity.
    - intros u W. cbn [data set_dirty set_data]. destruct (ss_recalc_x W) as [En Ex]. split; [now apply ss_recalc_shape|].
      unfold x_ss, dx_ss. rewrite ss_recalc_idem, En, Ex by exact W. repeat (split; [reflexivity|]). eexists _, _; reflexivity.
    - intros [] W. repeat (split; [reflexivity || exact W|]). eexists _, _. reflexivity.
    - intros l d W L. rewrite ss_x_length in L by exact W. unfold put_ss. split.
      + destruct W. unfold row in *. constructor; cbn; auto. unfold row. rewrite app_length, skipn_length. lia.
      + unfold x_ss. cbn. rewrite <- L. rewrite firstn_app, firstn_all, Nat.sub_diag. cbn. apply app_nil_r.
  Defined.
  (** The FMUs without continuous states. *)
  Definition no_dyn (m : Model F) (Hx : forall u, m_nx m u = 0) (Hz : forall u, m_nz m u = 0) WF : Dyn m WF.
  Proof.
    refine (@mkDyn m WF (fun _ => []) (fun _ => []) (fun _ => []) (fun _ d => d) (fun u => u) (fun u => u) (fun u => u) _ _ _ _ _ _ _ _ _ _ _ _);
      try (intros; cbn in *; lia).
    - auto.
    - auto.
    - intros [] W. repeat (split; [reflexivity || exact W|]). eexists _, _. reflexivity.
    - intros [] W. repeat (split; [reflexivity || exact W|]). eexists _, _. reflexivity.
    - intros [] W. repeat (split; [reflexivity || exact W|]). eexists _, _. reflexivity.
    - intros [] d W L; [auto|discriminate L].
  Defined.

  Definition wf_dyn (v : Version) (f : FMU) : md (model_of (F := F) v f) -> Prop :=
    match f with StateSpace => shape | _ => fun _ => True end.
  Definition dyn_all (v : Version) (f : FMU) : Dyn (model_of (F := F) v f) (wf_dyn v f).
  Proof.
    destruct f.
    - exact bb_dyn.
    - apply no_dyn; reflexivity.
    - exact da_dyn.
    - apply no_dyn; reflexivity.
    - apply no_dyn; reflexivity.
    - exact ro_dyn.
    - apply no_dyn; reflexivity.
    - exact ss_dyn.
    - exact vp_dyn.
  Defined.
End Dyn.
