(** Solver.v -- one step of the fixed-step solver in closed form. *)
From Coq Require Import List NArith ZArith Bool Arith Lia.
From Verif Require Import Base Instance ModelIface Core Fmus Logic Calls Sim Dyn.
Import ListNotations.
Set Implicit Arguments.

Section Solver.
  Context {F : Type} {NF : Num F} (m : Model F) (WF : md m -> Prop) (Y : Dyn m WF).
  Notation D := (md m).

  (** The solver arrays fit the model. *)
  Record fit (i : Inst F D) : Prop := mkFit {
    ft_wf : WF (data (mut i));
    ft_sizes : sizesR m (sol i);
    ft_nx : nx (sol i) = 0 \/ nx (sol i) = length (dy_x Y (data (mut i)));
    ft_nz : nz (sol i) = 0 \/ nz (sol i) = length (dy_z Y (data (mut i))) }.

  (** x + h dx, componentwise *)
  Definition eul (x dx : list F) : list F := map (fun p => nadd (fst p) (nmul (m_step m) (snd p))) (combine x dx).
  Definition stepu (o : Sol F) (u : Mut F D) : Mut F D :=
    if Nat.ltb 0 (nx o) then
      let u2 := dy_tdx Y (dy_tx Y u) in
      set_dirty true (set_data (dy_put Y (eul (dy_x Y (data u)) (dy_dx Y (data u))) (data u2)) u2)
    else u.
  Definition stepz (o : Sol F) (u : Mut F D) : Mut F D := if Nat.ltb 0 (nz o) then dy_tz Y u else u.
  Definition bump (c : Ctl F) : Ctl F :=
    let n := N.modulo (nSteps c + 1) two64 in
    set_time (nadd (startTime c) (nmul (nofN n) (m_step m))) (set_nSteps n c).
  Definition crosses (p z : list F) : bool := existsb (fun q => crossed (fst q) (snd q)) (combine p z).

  Lemma eul_length x dx : length dx = length x -> length (eul x dx) = length x.
  Proof. intro H. unfold eul. rewrite map_length, combine_length. lia. Qed.
  Lemma euler_eq x dx r r' : length dx = length x ->
    euler m (length x) (x ++ r) (dx ++ r') = Some (eul x dx ++ r).
  Proof.
    intro H. unfold euler. rewrite !app_length, !(proj2 (Nat.leb_le _ _)) by lia. cbn [andb].
    assert (A : forall T (a b : list T) n, length a = n -> firstn n (a ++ b) = a).
    { intros T a b n <-. rewrite firstn_app, firstn_all, Nat.sub_diag. cbn. apply app_nil_r. }
    assert (B : forall T (a b : list T) n, length a = n -> skipn n (a ++ b) = b).
    { intros T a b n <-. rewrite skipn_app, skipn_all, Nat.sub_diag. reflexivity. }
    rewrite !A, B by auto. reflexivity.
  Qed.
  Lemma crossings_eq n p z r : length z = n -> n <= length p -> crossings n p (z ++ r) = Some (crosses (firstn n p) z).
  Proof.
    intros H L. unfold crossings. rewrite app_length, !(proj2 (Nat.leb_le _ _)) by lia. cbn [andb].
    subst n. rewrite firstn_app, firstn_all, Nat.sub_diag. cbn [firstn]. rewrite app_nil_r. reflexivity.
  Qed.

  Lemma stepu_keeps o u : WF (data u) ->
    WF (data (stepu o u)) /\ length (dy_x Y (data (stepu o u))) = length (dy_x Y (data u)) /\
    (nx o > 0 -> length (dy_x Y (data u)) > 0 -> dy_x Y (data (stepu o u)) = eul (dy_x Y (data u)) (dy_dx Y (data u))) /\
    exists d b, stepu o u = set_dirty b (set_data d u).
  Proof.
    intro W. unfold stepu. destruct (Nat.ltb_spec 0 (nx o)).
    - destruct (dy_tx_ok Y u W) as (W1 & X1 & DX1 & d1 & b1 & E1).
      destruct (dy_tdx_ok Y _ W1) as (W2 & X2 & DX2 & Z2 & d2 & b2 & E2).
      cbn [data set_dirty set_data].
      assert (L : length (eul (dy_x Y (data u)) (dy_dx Y (data u))) = length (dy_x Y (data (dy_tdx Y (dy_tx Y u))))).
      { rewrite X2, X1. apply eul_length, (dy_len Y). exact W. }
      destruct (dy_put_ok Y _ _ W2 L) as (W3 & X3). split; [exact W3|]. split; [rewrite X3, L, X2, X1; reflexivity|].
      split; [intros; exact X3|]. rewrite E2, E1. eexists _, _. reflexivity.
    - repeat (split; auto). { intros; lia. } exists (data u), (dirty u). destruct u; reflexivity.
  Qed.
  Lemma stepz_keeps o u : WF (data u) ->
    WF (data (stepz o u)) /\ dy_x Y (data (stepz o u)) = dy_x Y (data u) /\ dy_z Y (data (stepz o u)) = dy_z Y (data u) /\
    exists d b, stepz o u = set_dirty b (set_data d u).
  Proof.
    intro W. unfold stepz. destruct (Nat.ltb 0 (nz o)); [apply (dy_tz_ok Y u W)|].
    repeat (split; auto). exists (data u), (dirty u). destruct u; reflexivity.
  Qed.

  Variable env : Env.
  Lemma bind_call_done X Z (f : MF F D X) (k : X -> AF F D Z) i x u :
    f env (ctl i) (mut i) = Done (x, u, []) -> bind (call m env f) k i = k x (set_mut u i).
  Proof. intro E. unfold bind, call. rewrite E. destruct (k x _) as [[[? ?] ?]| |]; reflexivity. Qed.

  Definition next_mut (i : Inst F D) : Mut F D := stepz (sol i) (stepu (sol i) (mut i)).
  Definition state_event (i : Inst F D) : bool :=
    Nat.ltb 0 (nz (sol i)) && crosses (firstn (nz (sol i)) (prez (sol i))) (dy_z Y (data (stepu (sol i) (mut i)))).
  Definition time_event (i : Inst F D) : bool :=
    nextEventTimeDefined (mut i) && nle (nextEventTime (mut i)) (time (bump (ctl i))).
  Definition told (i : Inst F D) : list (Event F) :=
    if hasIntermediateUpdate (ctl i) then [EIntermediateUpdate (time (bump (ctl i)))] else [].

  Record stepped (i i' : Inst F D) : Prop := mkStepped {
    sd_ctl : ctl i' = bump (ctl i);
    sd_mut : mut i' = next_mut i;
    sd_nx : nx (sol i') = nx (sol i);
    sd_nz : nz (sol i') = nz (sol i);
    sd_prez : nz (sol i) > 0 -> firstn (nz (sol i)) (prez (sol i')) = dy_z Y (data (stepu (sol i) (mut i)));
    sd_fit : fit i' }.

  Lemma app_skip_len T (a b : list T) n : length a = n -> n <= length b -> length (a ++ skipn n b) = length b.
  Proof. intros. rewrite app_length, skipn_length. lia. Qed.

  Lemma fixedStep_x_eq i : fit i -> exists x dx,
    fixedStep_x m env i = Done (OK, mkInst (ctl i) (stepu (sol i) (mut i)) (set_xa x (set_dxa dx (sol i))), []) /\
    length x = length (xa (sol i)) /\ length dx = length (dxa (sol i)).
  Proof.
    intros [W (Sz1 & Sz2 & Sz3 & Sx1 & Sx2 & Sx3) Hx Hz]. unfold fixedStep_x. rewrite bind_getSol.
    unfold stepu. destruct (Nat.ltb_spec 0 (nx (sol i))) as [P|P].
    2:{ exists (xa (sol i)), (dxa (sol i)). repeat split; auto. destruct i as [c u []]; reflexivity. }
    destruct Hx as [Hx|Hx]; [lia|]. rewrite Hx in P |- *.
    destruct (dy_tx_ok Y _ W) as (W1 & X1 & DX1 & d1 & b1 & E1).
    destruct (dy_tdx_ok Y _ W1) as (W2 & X2 & DX2 & Z2 & d2 & b2 & E2).
    set (n := length (dy_x Y (data (mut i)))) in *.
    assert (Lx : n <= length (xa (sol i))) by lia. assert (Ld : n <= length (dxa (sol i))) by lia.
    pose proof (dy_getx Y env (ctl i) (mut i) (xa (sol i)) W (conj P Lx)) as G1. fold n in G1.
    rewrite (bind_call_done _ _ _ G1). cbn [fst snd]. rewrite bind_modSol. cbn [ctl mut sol set_mut set_sol].
    assert (P1 : 0 < length (dy_x Y (data (dy_tx Y (mut i)))) <= length (dxa (sol i))) by (rewrite X1; fold n; lia).
    pose proof (dy_getdx Y env (ctl i) (dy_tx Y (mut i)) (dxa (sol i)) W1 P1) as G2. rewrite X1, DX1 in G2. fold n in G2.
    rewrite (@bind_call_done _ _ _ _ (mkInst (ctl i) (dy_tx Y (mut i)) (set_xa (dy_x Y (data (mut i)) ++ skipn n (xa (sol i))) (sol i))) _ _ G2).
    cbn [fst snd]. rewrite bind_modSol. rewrite bind_getSol. cbn [ctl mut sol set_mut set_sol nx xa dxa set_xa set_dxa].
    rewrite Hx.
    assert (Le : length (dy_dx Y (data (mut i))) = length (dy_x Y (data (mut i)))) by (apply (dy_len Y); exact W).
    unfold n at 1. rewrite euler_eq by exact Le. rewrite bind_modSol. cbn [ctl mut sol set_mut set_sol nx xa dxa set_xa set_dxa].
    pose proof (eul_length _ _ Le) as Lu. fold n in Lu.
    assert (L3 : length (eul (dy_x Y (data (mut i))) (dy_dx Y (data (mut i)))) = length (dy_x Y (data (dy_tdx Y (dy_tx Y (mut i)))))).
    { rewrite X2, X1. exact Lu. }
    pose proof (dy_setx Y env (ctl i) (dy_tdx Y (dy_tx Y (mut i))) _ (skipn n (xa (sol i))) W2 L3 ltac:(lia)) as G3.
    rewrite Lu in G3. fold n. unfold call. cbn [ctl mut sol set_sol set_mut]. rewrite G3.
    exists (eul (dy_x Y (data (mut i))) (dy_dx Y (data (mut i))) ++ skipn n (xa (sol i))), (dy_dx Y (data (mut i)) ++ skipn n (dxa (sol i))).
    split; [destruct i as [c u []]; reflexivity|]. split; apply app_skip_len; auto; lia.
  Qed.

  Lemma fixedStep_z_eq i : fit i -> exists z p,
    fixedStep_z m env i = Done ((OK, Nat.ltb 0 (nz (sol i)) && crosses (firstn (nz (sol i)) (prez (sol i))) (dy_z Y (data (mut i)))),
        mkInst (ctl i) (stepz (sol i) (mut i)) (set_za z (set_prez p (sol i))), []) /\
    length z = length (za (sol i)) /\ length p = length (prez (sol i)) /\
    (nz (sol i) > 0 -> firstn (nz (sol i)) p = dy_z Y (data (mut i))).
  Proof.
    intros [W (Sz1 & Sz2 & Sz3 & Sx1 & Sx2 & Sx3) Hx Hz]. unfold fixedStep_z. rewrite bind_getSol.
    unfold stepz. destruct (Nat.ltb_spec 0 (nz (sol i))) as [P|P].
    2:{ exists (za (sol i)), (prez (sol i)). repeat split; auto; [destruct i as [c u []]; reflexivity|lia]. }
    destruct Hz as [Hz|Hz]; [lia|]. rewrite Hz in P |- *. set (n := length (dy_z Y (data (mut i)))) in *.
    assert (Lz : n <= length (za (sol i))) by lia. assert (Lp : n <= length (prez (sol i))) by lia.
    pose proof (dy_getz Y env (ctl i) (mut i) (za (sol i)) W (conj P Lz)) as G1. fold n in G1.
    rewrite (bind_call_done _ _ _ G1). cbn [fst snd]. rewrite bind_modSol, bind_getSol.
    cbn [ctl mut sol set_mut set_sol nz za prez set_za]. rewrite Hz. rewrite crossings_eq by (auto; lia).
    set (z := dy_z Y (data (mut i)) ++ skipn n (za (sol i))).
    assert (C : copyn n z (prez (sol i)) = Some (dy_z Y (data (mut i)) ++ skipn n (prez (sol i)))).
    { unfold copyn, z. rewrite !app_length, !(proj2 (Nat.leb_le _ _)) by lia. cbn [andb].
      rewrite firstn_app. fold n. rewrite Nat.sub_diag. unfold n at 1. rewrite firstn_all. cbn [firstn]. rewrite app_nil_r. reflexivity. }
    rewrite C, bind_modSol. exists z, (dy_z Y (data (mut i)) ++ skipn n (prez (sol i))).
    split; [destruct i as [c u []]; reflexivity|]. split; [apply app_skip_len; auto|]. split; [apply app_skip_len; auto|].
    intros _. rewrite firstn_app. fold n. rewrite Nat.sub_diag. unfold n at 1. rewrite firstn_all. cbn. apply app_nil_r.
  Qed.

  Theorem doFixedStep_eq i : fit i -> exists i',
    doFixedStep m env i = Done ((OK, Some (state_event i), Some (time_event i)), i', told i) /\ stepped i i'.
  Proof.
    intro Ft. destruct (fixedStep_x_eq Ft) as (x & dx & Ex & Lx & Ldx).
    destruct (stepu_keeps (sol i) (mut i) (ft_wf Ft)) as (W1 & Lu & Xu & d1 & b1 & E1).
    set (o1 := set_xa x (set_dxa dx (sol i))).
    set (j := mkInst (bump (ctl i)) (stepu (sol i) (mut i)) o1).
    assert (Fj : fit j).
    { destruct Ft as [W (Sz1 & Sz2 & Sz3 & Sx1 & Sx2 & Sx3) Hx Hz]. constructor.
      - exact W1.
      - unfold sizesR, j, o1. cbn. repeat split; lia || auto.
      - unfold j, o1. cbn. rewrite Lu. exact Hx.
      - unfold j, o1. cbn. rewrite (dy_zlen Y _ (data (mut i))). exact Hz. }
    destruct (fixedStep_z_eq Fj) as (z & p & Ez & Lz & Lp & Pz).
    destruct (stepz_keeps (sol i) (stepu (sol i) (mut i)) W1) as (W2 & Xz & Zz & d2 & b2 & E2).
    set (k := mkInst (bump (ctl i)) (next_mut i) (set_za z (set_prez p o1))).
    exists k. split.
    - unfold doFixedStep. unfold bind at 1. rewrite Ex. cbv beta iota. unfold fixedStep_time.
      change (mkInst (ctl i) (stepu (sol i) (mut i)) (set_xa x (set_dxa dx (sol i)))) with (mkInst (ctl i) (stepu (sol i) (mut i)) o1).
      assert (T : forall X (k : AF F D X), ((modC m (fun c => set_nSteps (N.modulo (nSteps c + 1) two64) c) ;;;
        modC m (fun c => set_time (nadd (startTime c) (nmul (nofN (nSteps c)) (m_step m))) c)) ;;; k)%sw (mkInst (ctl i) (stepu (sol i) (mut i)) o1) = k j).
      { intros X k0. unfold bind at 1. rewrite bind_modC. cbn. destruct (k0 _) as [[[? ?] ?]| |]; reflexivity. }
      rewrite T. unfold bind at 1. rewrite Ez. cbv beta iota.
      rewrite bind_getC, bind_getM. cbn [ctl mut].
      assert (K : nextEventTimeDefined (stepz (sol j) (mut j)) = nextEventTimeDefined (mut i) /\ nextEventTime (stepz (sol j) (mut j)) = nextEventTime (mut i)).
      { unfold j. cbn [sol mut]. unfold stepz in E2 |- *. change (nz o1) with (nz (sol i)). rewrite E2, E1. split; reflexivity. }
      destruct K as [-> ->].
      unfold told, state_event, time_event. change (ctl j) with (bump (ctl i)). change (hasIntermediateUpdate (bump (ctl i))) with (hasIntermediateUpdate (ctl i)).
      destruct (hasIntermediateUpdate (ctl i)); reflexivity.
    - constructor; try reflexivity.
      + intro P. apply Pz. exact P.
      + destruct Fj as [W (Sz1 & Sz2 & Sz3 & Sx1 & Sx2 & Sx3) Hx Hz]. constructor.
        * exact W2.
        * unfold sizesR, k. cbn in *. repeat split; lia || auto.
        * unfold k, next_mut. cbn [mut sol nx set_za set_prez]. rewrite Xz. exact Hx.
        * unfold k, next_mut. cbn [mut sol nz set_za set_prez]. rewrite Zz. exact Hz.
  Qed.
End Solver.
