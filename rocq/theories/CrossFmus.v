(** CrossFmus.v -- the FMUs that are built for FMI 2 and FMI 3, side by side (C23). *)
From Coq Require Import List NArith ZArith Bool Arith Lia.
From Verif Require Import Base Instance ModelIface Core Fmi3 Fmi2 Api Fmus Logic LawsFmus SpecModes SpecCreate Calls Sim Sim3 SimFmus SimMade
  FmuBouncingBall FmuDahlquist FmuFeedthrough FmuStair FmuVanDerPol SpecCross Cross CrossLoops.
Import ListNotations.
Set Implicit Arguments.

(** ** Getters and setters move on by one value *)
Section Adv.
  Context {F D : Type}.
  Definition advg {T} (index : nat) (f : MF F D (GetRes T)) : Prop :=
    forall e c u s v ix u' t, f e c u = Done ((s, v, ix), u', t) -> s = OK -> ix = S index.
  Definition advs (index : nat) (f : MF F D SetRes) : Prop :=
    forall e c u s ix u' t, f e c u = Done ((s, ix), u', t) -> s = OK -> ix = S index.
  Lemma ag_bind T X index (f : MF F D X) (k : X -> MF F D (GetRes T)) : (forall x, advg index (k x)) -> advg index (mbind f k).
  Proof. intros H e c u s v ix u' t E. unfold mbind in E. apply bind_Done in E as (x & u1 & t1 & t2 & _ & E & _). eapply H; exact E. Qed.
  Lemma as_bind X index (f : MF F D X) (k : X -> MF F D SetRes) : (forall x, advs index (k x)) -> advs index (mbind f k).
  Proof. intros H e c u s ix u' t E. unfold mbind in E. apply bind_Done in E as (x & u1 & t1 & t2 & _ & E & _). eapply H; exact E. Qed.
  Lemma ag_ret T index (v : Buf T) s ix : (s = OK -> ix = S index) -> advg index (mret (s, v, ix)).
  Proof. intros H e c u s' v' ix' u' t E. inversion E; subst. exact H. Qed.
  Lemma as_ret index s ix : (s = OK -> ix = S index) -> advs index (mret (s, ix)).
  Proof. intros H e c u s' ix' u' t E. inversion E; subst. exact H. Qed.
  Lemma ag_fail T (v : Buf T) index : advg index (failGet v index).
  Proof. apply ag_bind. intro. apply ag_ret. discriminate. Qed.
  Lemma as_fail index : advs index (failSet index).
  Proof. apply as_bind. intro. apply as_ret. discriminate. Qed.
  Lemma ag_put1 T (v : Buf T) nv index x : advg index (put1 v nv index x).
  Proof. unfold put1. destruct (nvalues_ok _ _ _); [|apply ag_fail]. apply ag_bind. intro. now apply ag_ret. Qed.
  Lemma as_take1 T (v : Buf T) nv index f : advs index (take1 v nv index f).
  Proof. unfold take1. destruct (nvalues_ok _ _ _); [|apply as_fail]. do 2 (apply as_bind; intro). now apply as_ret. Qed.
  Lemma ag_nn T (v : Buf T) index k : advg index k -> advg index (nnGet v index k).
  Proof. intro H. destruct v; [exact H|apply ag_fail]. Qed.
  Lemma as_nn T (v : Buf T) index k : advs index k -> advs index (nnSet v index k).
  Proof. intro H. destruct v; [exact H|apply as_fail]. Qed.
  Lemma as_dirty index k : advs index k -> advs index (thenDirty k).
  Proof.
    intros H e c u s ix u' t E. unfold thenDirty, mbind in E. apply bind_Done in E as ([s1 ix1] & u1 & t1 & t2 & E1 & E2 & _).
    cbn [fst] in E2. intros ->. destruct s1; try (inversion E2; fail). apply bind_Done in E2 as (? & ? & ? & ? & _ & E2 & _).
    inversion E2; subst. eapply H; eauto.
  Qed.
  Lemma as_ub index : advs index mub.
  Proof. intros e c u s ix u' t E. discriminate. Qed.
End Adv.
Ltac adv := repeat first [apply as_ub | apply as_ret; reflexivity | apply ag_ret; reflexivity | apply ag_fail | apply as_fail | apply ag_put1 | apply as_take1 | apply ag_nn | apply as_nn | apply as_dirty
  | apply ag_bind; intro | apply as_bind; intro | match goal with |- context [match ?x with _ => _ end] => destruct x end].

Section Fmus.
  Context {F : Type} {NF : Num F}.
  Lemma advG_all v f : built2 f = true -> f <> Resource -> advG (model_of (F := F) v f).
  Proof.
    intros B NR env t vr values nv index c u s w ix u' tr Bt E. revert E.
    enough (H : advg index (m_get (model_of v f) t vr values nv index)) by (intro E; exact (H _ _ _ _ _ _ _ _ E)).
    destruct f; try discriminate B; try (now destruct NR); destruct t; try discriminate Bt; cbn [model_of m_get BouncingBall_model Dahlquist_model Feedthrough_model Stair_model VanDerPol_model];
      unfold bb_getFloat64, da_getFloat64, st_getFloat64, st_getInt32, vp_getFloat64, ft_getFloat64, ft_getInt32, ft_getString, ft_getBoolean, get_not_allowed; adv.
  Qed.
  Lemma advS_all v f : built2 f = true -> f <> Resource -> advS (model_of (F := F) v f).
  Proof.
    intros B NR env t vr values nv index c u s ix u' tr Bt E. revert E.
    enough (H : advs index (m_set (model_of v f) t vr values nv index)) by (intro E; exact (H _ _ _ _ _ _ _ E)).
    destruct f; try discriminate B; try (now destruct NR); destruct t; try discriminate Bt; cbn [model_of m_set BouncingBall_model Dahlquist_model Feedthrough_model Stair_model VanDerPol_model];
      unfold bb_setFloat64, da_setFloat64, st_setInt32, vp_setFloat64, ft_setFloat64, ft_setInt32, ft_setString, ft_setBoolean, set_not_allowed; adv.
  Qed.

  (** ** Booleans are read and written alike at every place of an array *)
  Lemma nv_lt index nv : index < nv -> nvalues_ok index 1 nv = true /\ nvalues_ok 0 1 nv = true.
  Proof. intro H. unfold nvalues_ok. split; apply Nat.leb_le; lia. Qed.
  Lemma bool_get v f : built2 f = true -> f <> Resource -> forall vr l nv index e c u, index < nv ->
    m_get (model_of (F := F) v f) TBoolean vr (Some l) nv index e c u =
    match m_get (model_of (F := F) v f) TBoolean vr (Some [false]) nv 0 e c u with
    | Done ((OK, v, _), u', t) => match v with Some (b :: _) => if Nat.ltb index (length l) then Done ((OK, Some (upd l index b), S index), u', t) else UB | _ => UB end
    | Done ((st, _, _), u', t) => Done ((st, Some l, index), u', t)
    | UB => UB
    | NoFuel => NoFuel
    end.
  Proof.
    intros B NR vr l nv index e c u Hi. destruct (nv_lt Hi) as [N1 N2].
    destruct f; try discriminate B; try (now destruct NR); cbn [model_of m_get BouncingBall_model Dahlquist_model Feedthrough_model Stair_model VanDerPol_model].
    3: {
      unfold ft_getBoolean, nnGet, mbind. unfold bind at 1 3. destruct (ft_calculateValues e c u) as [[[s1 u1] t1]| |]; [|reflexivity..].
      unfold bind, mdata. cbn [getS bind ret]. destruct (ft_var vr) as [[]|]; try (unfold failGet, mlogError; cbv [mbind mctl mtell mret bind ret getS tell]; destruct (logErrors c && hasLogger c); reflexivity).
      all: unfold put1; rewrite N1, N2; cbv [mbind mwr wr mret bind ret getS]; cbn [length]; change (0 <? 1) with true; cbn [upd];
        pose (n := @length bool l); change (@length bool l) with n; change (@length (val F TBoolean) l) with n; destruct (index <? n); reflexivity. }
    all: unfold get_not_allowed, failGet, mlogError; cbv [mbind mctl mtell mret bind ret getS tell]; destruct (logErrors c && hasLogger c); reflexivity.
  Qed.
  Lemma bool_set v f : built2 f = true -> f <> Resource -> forall vr l nv index b e c u, index < nv -> nth_error l index = Some b ->
    m_set (model_of (F := F) v f) TBoolean vr (Some l) nv index e c u =
    match m_set (model_of (F := F) v f) TBoolean vr (Some [b]) nv 0 e c u with
    | Done ((OK, _), u', t) => Done ((OK, S index), u', t)
    | Done ((st, _), u', t) => Done ((st, index), u', t)
    | UB => UB
    | NoFuel => NoFuel
    end.
  Proof.
    intros B NR vr l nv index b e c u Hi Hb. destruct (nv_lt Hi) as [N1 N2].
    destruct f; try discriminate B; try (now destruct NR); cbn [model_of m_set BouncingBall_model Dahlquist_model Feedthrough_model Stair_model VanDerPol_model].
    3: {
      unfold ft_setBoolean, nnSet, thenDirty. destruct (ft_var vr) as [[]|]; try (unfold failSet, mlogError; cbv [mbind mctl mtell mret bind ret getS tell]; destruct (logErrors c && hasLogger c); reflexivity).
      all: unfold take1; rewrite N1, N2; unfold mrd, rd; change (@nth_error bool l index = Some b) in Hb; rewrite Hb; reflexivity. }
    all: unfold set_not_allowed, failSet, mlogError; cbv [mbind mctl mtell mret bind ret getS tell]; destruct (logErrors c && hasLogger c); reflexivity.
  Qed.

  (** ** BouncingBall: what get and set calls leave alone while it is stepped *)
  Notation BB := (BouncingBall_model (F := F)).
  Definition kb {X} (f : MF F (md BB) X) : Prop :=
    forall e c u x u' t, calm c -> f e c u = Done (x, u', t) -> keepB u u'.
  Lemma keepB_refl u : keepB (F := F) u u.
  Proof. unfold keepB. auto. Qed.
  Lemma keepB_trans a b c : keepB (F := F) a b -> keepB b c -> keepB a c.
  Proof. unfold keepB. intros (A & B & C & D & E) (A' & B' & C' & D' & E'). rewrite A', B', C', D', E'. auto. Qed.
  Lemma keepB_dirty u b : keepB (F := F) u (set_dirty b u).
  Proof. destruct u. unfold keepB. auto. Qed.
  Lemma kb_ret X (x : X) : kb (mret x).
  Proof. intros e c u y u' t _ E. inversion E; subst. apply keepB_refl. Qed.
  Lemma kb_bind X Y (f : MF F (md BB) X) (k : X -> MF F (md BB) Y) : kb f -> (forall x, kb (k x)) -> kb (mbind f k).
  Proof.
    intros H K e c u y u' t C E. unfold mbind in E. apply bind_Done in E as (x & u1 & t1 & t2 & E1 & E2 & _).
    eapply keepB_trans; [eapply H|eapply K]; eauto.
  Qed.
  Lemma kb_same X (f : MF F (md BB) X) : (forall e c u x u' t, f e c u = Done (x, u', t) -> u' = u) -> kb f.
  Proof. intros H e c u x u' t _ E. rewrite (H _ _ _ _ _ _ E). apply keepB_refl. Qed.
  Lemma kb_ctl : kb mctl.
  Proof. apply kb_same. intros e c u x u' t E. now inversion E. Qed.
  Lemma kb_data : kb mdata.
  Proof. apply kb_same. intros e c u x u' t E. now inversion E. Qed.
  Lemma kb_log : kb mlogError.
  Proof. apply kb_same. intros e c u x u' t E. unfold mlogError in E. cbv [mbind mctl mtell mret bind ret getS tell] in E. destruct (logErrors c && hasLogger c); inversion E; reflexivity. Qed.
  Lemma kb_wr T (b : Buf T) i v : kb (mwr b i v).
  Proof. apply kb_same. intros e c u x u' t E. unfold mwr, wr in E. destruct b as [l|]; [destruct (Nat.ltb i (length l))|]; now inversion E. Qed.
  Lemma kb_rd T (b : Buf T) i : kb (mrd b i).
  Proof. apply kb_same. intros e c u x u' t E. unfold mrd, rd in E. destruct b as [l|]; [destruct (nth_error l i)|]; now inversion E. Qed.
  Lemma kb_dirty b : kb (mmod (set_dirty b)).
  Proof. intros e c u x u' t _ E. inversion E; subst. apply keepB_dirty. Qed.
  Lemma kb_calc : kb bb_calculateValues.
  Proof. apply kb_bind; [apply kb_dirty|intro; apply kb_ret]. Qed.
  Lemma kb_ctlb X (k : Ctl F -> MF F (md BB) X) : (forall c, calm c -> kb (k c)) -> kb (mbind mctl k).
  Proof.
    intros H e c u y u' t C E. unfold mbind in E. apply bind_Done in E as (x & u1 & t1 & t2 & E1 & E2 & _).
    inversion E1; subst. eapply H; eauto.
  Qed.
  Lemma kb_modd f : (forall d, bb_h (f d) = bb_h d /\ bb_v (f d) = bb_v d) -> kb (mmodd f).
  Proof. intros H e c u x u' t _ E. inversion E; subst. destruct (H (data u)). unfold keepB. cbn. auto. Qed.
  Lemma kb_failGet T (v : Buf T) ix : kb (failGet v ix).
  Proof. apply kb_bind; [apply kb_log|intro; apply kb_ret]. Qed.
  Lemma kb_failSet ix : kb (failSet ix).
  Proof. apply kb_bind; [apply kb_log|intro; apply kb_ret]. Qed.
  Lemma kb_put1 T (v : Buf T) nv ix x : kb (put1 v nv ix x).
  Proof. unfold put1. destruct (nvalues_ok _ _ _); [|apply kb_failGet]. apply kb_bind; [apply kb_wr|intro; apply kb_ret]. Qed.
  Lemma kb_take1 T (v : Buf T) nv ix f : (forall x d, bb_h (f x d) = bb_h d /\ bb_v (f x d) = bb_v d) -> kb (take1 v nv ix f).
  Proof.
    intro H. unfold take1. destruct (nvalues_ok _ _ _); [|apply kb_failSet]. apply kb_bind; [apply kb_rd|]. intro x.
    apply kb_bind; [apply kb_modd, H|intro; apply kb_ret].
  Qed.
  Lemma kb_thenDirty f : kb f -> kb (thenDirty f).
  Proof.
    intro H. unfold thenDirty. apply kb_bind; [exact H|]. intro r.
    destruct (fst r); try apply kb_ret. apply kb_bind; [apply kb_dirty|intro; apply kb_ret].
  Qed.
  Lemma kb_get t vr values nv index : kb (m_get BB t vr values nv index).
  Proof.
    destruct t; try apply kb_failGet. cbn [m_get BouncingBall_model]. unfold bb_getFloat64, nnGet. destruct values; [|apply kb_failGet].
    apply kb_bind; [apply kb_calc|intros _]. apply kb_bind; [apply kb_ctl|intro c]. apply kb_bind; [apply kb_data|intro d].
    destruct (bb_var vr) as [[]|]; apply kb_put1 || apply kb_failGet.
  Qed.
  Lemma kb_set t vr values nv index : kb (m_set BB t vr values nv index).
  Proof.
    destruct t; try apply kb_failSet. cbn [m_set BouncingBall_model]. unfold bb_setFloat64, nnSet. destruct values as [l|]; [|apply kb_failSet].
    apply kb_ctlb. intros c C. apply kb_thenDirty.
    destruct (bb_var vr) as [[]|]; try apply kb_failSet.
    - unfold calm in C. destruct C as [C|[C|C]]; rewrite C; apply kb_failSet.
    - unfold calm in C. destruct C as [C|[C|C]]; rewrite C; apply kb_failSet.
    - destruct (isME _ && _); [apply kb_failSet|]. apply kb_take1. intros x []. auto.
    - destruct (isME _ && _); [apply kb_failSet|]. apply kb_take1. intros x []. auto.
  Qed.
  Lemma kb_part a b : kb (m_getPartialDerivative BB a b).
  Proof. apply kb_bind; [apply kb_log|intro; apply kb_ret]. Qed.

  (** ** Restored solver data *)
  Lemma copyn_firstn n (a b r : list F) : copyn n a b = Some r -> n <= length a /\ n <= length b /\ length r = length b /\ firstn n r = firstn n a.
  Proof.
    unfold copyn. destruct (n <=? length a)%nat eqn:A; [|discriminate]. destruct (n <=? length b)%nat eqn:B; [|discriminate]. cbn.
    apply Nat.leb_le in A, B. intro H. inversion H. repeat split; auto.
    - rewrite app_length, firstn_length, skipn_length. lia.
    - rewrite firstn_app, firstn_firstn, firstn_length, Nat.min_id. replace (min n (length a)) with n by lia. now rewrite Nat.sub_diag, app_nil_r.
  Qed.
  Lemma solB_restore u o o' a a' r r' : solB (F := F) u o o' -> sizesR BB r -> sizesR BB r' ->
    restoreSol o a = Some r -> restoreSol o' a' = Some r' -> solB u r r'.
  Proof.
    intros (N1 & N2 & N3 & N4 & H) _ _ E E'. unfold restoreSol in E, E'.
    destruct (copyn (nz o) (za o) (za a)) as [z1|]; [|discriminate]. destruct (copyn (nz o) (prez o) (prez a)) as [p1|] eqn:P1; [|discriminate].
    destruct (copyn (nx o) (xa o) (xa a)) as [x1|]; [|discriminate]. destruct (copyn (nx o) (dxa o) (dxa a)) as [d1|]; [|discriminate].
    destruct (copyn (nz o') (za o') (za a')) as [z2|]; [|discriminate]. destruct (copyn (nz o') (prez o') (prez a')) as [p2|] eqn:P2; [|discriminate].
    destruct (copyn (nx o') (xa o') (xa a')) as [x2|]; [|discriminate]. destruct (copyn (nx o') (dxa o') (dxa a')) as [d2|]; [|discriminate].
    inversion E; inversion E'; subst; unfold solB; cbn [nz nx prez]. rewrite N1, N2 in *. apply copyn_firstn in P1 as (_ & _ & _ & ->), P2 as (_ & _ & _ & ->). auto.
  Qed.
  Lemma solF_restore (m : Model F) u o o' a a' r r' : solF m u o o' -> sizesR m r -> sizesR m r' ->
    restoreSol o a = Some r -> restoreSol o' a' = Some r' -> solF m u r r'.
  Proof.
    intros [S S' Nz Nx Pz] Sr Sr' E E'. specialize (Nz I). specialize (Nx I). specialize (Pz I). unfold restoreSol in E, E'.
    destruct (copyn (nz o) (za o) (za a)) as [z1|]; [|discriminate]. destruct (copyn (nz o) (prez o) (prez a)) as [p1|] eqn:P1; [|discriminate].
    destruct (copyn (nx o) (xa o) (xa a)) as [x1|]; [|discriminate]. destruct (copyn (nx o) (dxa o) (dxa a)) as [d1|]; [|discriminate].
    destruct (copyn (nz o') (za o') (za a')) as [z2|]; [|discriminate]. destruct (copyn (nz o') (prez o') (prez a')) as [p2|] eqn:P2; [|discriminate].
    destruct (copyn (nx o') (xa o') (xa a')) as [x2|]; [|discriminate]. destruct (copyn (nx o') (dxa o') (dxa a')) as [d2|]; [|discriminate].
    inversion E; inversion E'; subst. constructor; cbn [nz nx prez]; auto. intros _. rewrite Nz in P2.
    apply copyn_firstn in P1 as (_ & _ & _ & ->), P2 as (_ & _ & _ & ->). exact Pz.
  Qed.

  Definition relX (f : FMU) : Rel (md (model_of (F := F) FMI3 f)) := rel True true False FMI3 f.
  (** The arithmetic fact about BouncingBall. *)
  Definition ball_ok (f : FMU) : Prop := f = BouncingBall -> rising (F := F).

  Lemma FMU_is_ball f : f = BouncingBall \/ f <> BouncingBall.
  Proof. destruct f; auto; right; discriminate. Qed.
  (** The instances that correspond, whatever their FMU. *)
  Definition start_alike (f : FMU) (i j : Inst F (md (model_of (F := F) FMI3 f))) : Prop :=
    instR (model_of FMI3 f) (relX f) True True i j /\ mode (ctl i) = Instantiated /\ mode (ctl j) = Instantiated /\
    itype (ctl i) <> ScheduledExecution /\ eventModeUsed (ctl i) = false /\ earlyReturnAllowed (ctl i) = false.
  Lemma start_K f Sx i j : start_alike f i j -> K (model_of FMI3 f) (relX f) Sx false i j.
  Proof.
    intros (R & M & M' & T & E1 & E2). constructor; auto.
    - eapply instR_weaken; [| |exact R]; auto.
    - rewrite M, M'. reflexivity.
    - rewrite M. discriminate.
  Qed.
  Lemma alike_start f szof szof' fuel l i j : built2 f = true -> f <> Resource -> ball_ok f ->
    forallb (fun p => portable f (snd p)) l = true -> start_alike f i j ->
    alike (model_of FMI3 f) (model_of FMI3 f) szof szof' fuel [] false l (mkSys i []) (mkSys j []).
  Proof.
    intros B NR BO Pl St.
    assert (Pl' : forallb (fun p : Env * Call F => plain (snd p)) l = true).
    { apply forallb_forall. intros p Hp. rewrite forallb_forall in Pl. specialize (Pl _ Hp). unfold portable, plain in *.
      destruct (snd p); try reflexivity; try exact Pl; now apply andb_prop in Pl as [Pl _]. }
    assert (ND : ~ r_dirty (relX f)) by (destruct f; try discriminate B; try congruence; exact (fun H => H)).
    assert (XC : r_cross (relX f) = true) by (apply rel_cross; now right).
    assert (LG : r_log (relX f)) by (unfold relX; now rewrite rel_log).
    destruct (FMU_is_ball f) as [->|NB].
    - refine (@alike_K F NF BB (relX BouncingBall) (sim_all True true False FMI3 BouncingBall) (model_laws FMI3 BouncingBall)
        (rel_env True true False FMI3 BouncingBall) XC LG (advG_all FMI3 B NR) (advS_all FMI3 B NR) ND (bool_get FMI3 B NR) (bool_set FMI3 B NR)
        (@keepB F NF) keepB_refl keepB_dirty keepB_trans kb_get kb_set kb_calc kb_part (@solB F NF) _ _ _ _ szof szof' fuel l Pl' [] false (mkSys i []) (mkSys j []) (start_K _ St) _).
      + intros d d' o o'. apply solB_keep.
      + intros u o o'. apply solB_start.
      + exact (@solB_restore).
      + intros env i0 j0. exact (@ball_pass F NF (BO eq_refl) False (fun H : False => H) True env i0 j0).
      + cbn [heap]. repeat split. now intros [].
    - refine (@alike_K F NF (model_of FMI3 f) (relX f) (sim_all True true False FMI3 f) (model_laws FMI3 f)
        (rel_env True true False FMI3 f) XC LG (advG_all FMI3 B NR) (advS_all FMI3 B NR) ND (bool_get FMI3 B NR) (bool_set FMI3 B NR)
        (fun _ _ => True) _ _ _ _ _ _ _ (@solF F (model_of FMI3 f)) _ _ _ _ szof szof' fuel l Pl' [] false (mkSys i []) (mkSys j []) (start_K _ St) _); try (repeat intro; exact I).
      + intros d d' o o' _ H. exact H.
      + intros u o o' H _. exact H.
      + exact (@solF_restore _).
      + intros env i0 j0. refine (@flat_pass F NF _ _ (sim_all True true False FMI3 f) (model_laws FMI3 f) (rel_env True true False FMI3 f) _ env i0 j0).
        destruct f; try discriminate B; reflexivity || congruence.
      + cbn [heap]. repeat split. now intros [].
  Qed.

  (** ** The two builds of Feedthrough *)
  Notation FT2 := (Feedthrough_model (F := F) true).
  Notation FT3 := (Feedthrough_model (F := F) false).
  Lemma ft_not_enum vr : negb (N.eqb vr 33 || N.eqb vr 34) = true -> ft_var vr <> Some FTenum_in /\ ft_var vr <> Some FTenum_out.
  Proof.
    intro H. apply negb_true_iff, orb_false_iff in H as [H1 H2]. unfold ft_var. rewrite H1, H2. clear H1 H2.
    split; repeat match goal with |- (if ?b then _ else _) <> _ => destruct b; [discriminate|] end; discriminate.
  Qed.
  Lemma ft_get_eq env t n : basic t = true -> forall vrs values nv index st i,
    (t = TInt32 -> forallb (fun vr => negb (N.eqb vr 33 || N.eqb vr 34)) vrs = true) ->
    get_loop FT2 env t vrs n values nv index st i = get_loop FT3 env t vrs n values nv index st i.
  Proof.
    intro Bt. induction n as [|n IH]; intros vrs values nv index st i H; cbn [get_loop]; [reflexivity|].
    destruct vrs as [|vr vrs]; [reflexivity|].
    assert (E : m_get FT2 t vr values nv index = m_get FT3 t vr values nv index).
    { destruct t; try discriminate Bt; try reflexivity. specialize (H eq_refl). cbn [forallb] in H. apply andb_prop in H as [H _].
      cbn [m_get Feedthrough_model]. unfold ft_getInt32. destruct (ft_not_enum _ H) as [H1 H2].
      destruct (ft_var vr) as [[]|]; try reflexivity; congruence. }
    change (call FT3 env (m_get FT3 t vr values nv index)) with (call FT2 env (m_get FT3 t vr values nv index)). rewrite <- E.
    apply bind_ext. intros [[s v'] i'] j. apply bind_ext. intros st' j'. destruct (stops st'); [reflexivity|].
    apply IH. intro T. specialize (H T). now apply andb_prop in H as [_ H].
  Qed.
  Lemma ft_set_eq env t n : basic t = true -> forall vrs values nv index st i,
    (t = TInt32 -> forallb (fun vr => negb (N.eqb vr 33 || N.eqb vr 34)) vrs = true) ->
    set_loop FT2 env t vrs n values nv index st i = set_loop FT3 env t vrs n values nv index st i.
  Proof.
    intro Bt. induction n as [|n IH]; intros vrs values nv index st i H; cbn [set_loop]; [reflexivity|].
    destruct vrs as [|vr vrs]; [reflexivity|].
    assert (E : m_set FT2 t vr values nv index = m_set FT3 t vr values nv index).
    { destruct t; try discriminate Bt; try reflexivity. specialize (H eq_refl). cbn [forallb] in H. apply andb_prop in H as [H _].
      cbn [m_set Feedthrough_model]. unfold ft_setInt32. destruct (ft_not_enum _ H) as [H1 H2].
      destruct (ft_var vr) as [[]|]; try reflexivity; congruence. }
    change (call FT3 env (m_set FT3 t vr values nv index)) with (call FT2 env (m_set FT3 t vr values nv index)). rewrite <- E.
    apply bind_ext. intros [s i'] j. apply bind_ext. intros st' j'. destruct (stops st'); [reflexivity|].
    apply IH. intro T. specialize (H T). now apply andb_prop in H as [_ H].
  Qed.
  Notation DF := (FTData F).
  Lemma begin2_ext env mask X (x : X) (k k' : AF F (md FT3) (Status * X)) i :
    (forall j, k j = k' j) -> BEGIN2 FT3 env mask x k i = BEGIN2 FT3 env mask x k' i.
  Proof. 
    intro H. unfold BEGIN2. apply bind_ext. intros b j. destruct b; [apply H|]. unfold CALLk. apply bind_ext. intros st' j'.
    destruct (stops st'); [reflexivity|apply H].
  Qed.
  Lemma refresh_ext env X st (x : X) (k k' : Status -> AF F (md FT3) (Status * X)) i :
    (forall st j, k st j = k' st j) -> refresh FT3 env st x k i = refresh FT3 env st x k' i.
  Proof.
    intro H. unfold refresh. apply bind_ext. intros u j. destruct (dirty u); [|apply H]. apply bind_ext. intros s j'.
    unfold CALLk. apply bind_ext. intros st' j2. destruct (stops st'); [reflexivity|]. apply bind_ext. intros _ j3. apply H.
  Qed.
  Lemma ft_getV env t vrs n values i : basic t = true ->
    (t = TInt32 -> forallb (fun vr => negb (N.eqb vr 33 || N.eqb vr 34)) vrs = true) ->
    fmi2GetV FT2 env t (Some vrs) n values i = fmi2GetV FT3 env t (Some vrs) n values i.
  Proof.
    intros Bt H. apply (@begin2_ext env MASK2_GetReal _ values). intro j. destruct (n =? 0)%nat; [reflexivity|]. destruct values as [l|]; [|reflexivity].
    apply (@refresh_ext env _ OK (Some l)). intros st j'.
    refine (f_equal (fun z => match z with Done (x, s, t) => match (let '(st, values', _) := x in ret (st, values')) s with Done (y, s', t') => Done (y, s', t ++ t') | UB => UB | NoFuel => NoFuel end | UB => UB | NoFuel => NoFuel end) _).
    now apply ft_get_eq.
  Qed.
  Lemma ft_setV env t vrs n values i : basic t = true ->
    (t = TInt32 -> forallb (fun vr => negb (N.eqb vr 33 || N.eqb vr 34)) vrs = true) ->
    fmi2SetV FT2 env t (Some vrs) n values i = fmi2SetV FT3 env t (Some vrs) n values i.
  Proof.
    intros Bt H. apply (@begin2_ext env (MASK2_Set t) _ tt). intro j. destruct (n =? 0)%nat; [reflexivity|]. destruct values as [l|]; [|reflexivity].
    cbn [ASSERT_NOT_NULL]. unfold bind at 1 3. rewrite (@ft_set_eq env t n Bt _ _ _ _ _ _ H). reflexivity.
  Qed.
  Lemma ft_do2 szof fuel e c (s : Sys F (md FT3)) : portable Feedthrough c = true ->
    do2 FT2 szof fuel e c s = do2 FT3 szof fuel e c s.
  Proof.
    intro H. unfold do2. destruct c; try reflexivity; apply andb_prop in H as [Bt H];
      (assert (H' : t = TInt32 -> forallb (fun vr => negb (N.eqb vr 33 || N.eqb vr 34)) vrs = true) by (intros ->; exact H));
      cbn [op2 exec2]; rewrite !outI_eq; [rewrite (@ft_setV e t vrs _ (Some values) (sinst s) Bt H')|rewrite (@ft_getV e t vrs _ (Some values) (sinst s) Bt H')]; reflexivity.
  Qed.
  Lemma ft_alike szof szof' fuel l : forall saved stopped (s s' : Sys F (md FT3)), forallb (fun p => portable Feedthrough (snd p)) l = true ->
    alike FT3 FT3 szof szof' fuel saved stopped l s s' -> alike FT2 FT3 szof szof' fuel saved stopped l s s'.
  Proof.
    induction l as [|[e c] l IH]; intros saved stopped s s' H A; [exact I|]. cbn [alike forallb snd] in *. apply andb_prop in H as [H1 H2].
    intro K. specialize (A K). rewrite (@ft_do2 szof fuel e c s H1).
    destruct (do2 FT3 szof fuel e c s) as [[[[st o] s1] t]| |]; destruct (do3 FT3 szof' fuel e c s') as [[[[st' o'] s1'] t']| |]; try exact A.
    destruct A as [A1 A2]. split; [exact A1|]. apply IH; auto.
  Qed.

  (** ** Two new instances *)
  Lemma create_pair f (NR : f <> Resource) env e n t r r' lo ty :
    match createModelInstance (model_of (F := F) FMI3 f) env true false e n t r lo ty, createModelInstance (model_of (F := F) FMI3 f) env true false e n t r' lo ty with
    | Done (Some i, a), Done (Some j, b) => b = a /\ instR (model_of FMI3 f) (relX f) True True i j /\
        mode (ctl i) = Instantiated /\ mode (ctl j) = Instantiated /\ itype (ctl i) = ty /\
        eventModeUsed (ctl i) = false /\ earlyReturnAllowed (ctl i) = false
    | Done (None, a), Done (None, b) => b = a
    | UB, UB => True
    | NoFuel, NoFuel => True
    | _, _ => False
    end.
  Proof.
    unfold createModelInstance. destruct n as [n|]; [|reflexivity].
    destruct (Nat.eqb (strlen n) 0); [reflexivity|]. destruct t as [t|]; [|reflexivity].
    destruct (Nat.eqb (strlen t) 0); [reflexivity|]. destruct (negb (streq t (m_token _))); [reflexivity|].
    set (b := blank _ _ (option_map cstr r) _ _ _ _ _). set (b' := blank _ _ (option_map cstr r') _ _ _ _ _).
    assert (R : instR (model_of FMI3 f) (relX f) True True b b').
    { constructor; cbn.
      - constructor; cbn; try reflexivity; try tauto.
        + intro H. unfold relX in H. rewrite (rel_cross True False FMI3 (or_intror NR)) in H. discriminate.
        + apply rel_loc.
        + unfold modeR. destruct (r_cross _); auto.
      - apply rel_blank.
      - constructor; auto; unfold sizesR; cbn; rewrite !repeat_length; repeat split; lia. }
    assert (K : orel (relX f) (fun _ _ i j => instR (model_of FMI3 f) (relX f) True True i j /\
        mode (ctl i) = Instantiated /\ mode (ctl j) = Instantiated /\ itype (ctl i) = ty /\
        eventModeUsed (ctl i) = false /\ earlyReturnAllowed (ctl i) = false)
      ((call (model_of FMI3 f) env (m_setStartValues (model_of FMI3 f)) ;;; modM (model_of FMI3 f) (set_dirty true))%sw b)
      ((call (model_of FMI3 f) env (m_setStartValues (model_of FMI3 f)) ;;; modM (model_of FMI3 f) (set_dirty true))%sw b')).
    { eapply or_call with (E := True) (S := True); [apply rel_env|apply (sl_start (sim_all True true False FMI3 f))|exact R|].
      intros x y u u' _ R'. cbn. split; [|apply traceR_refl].
      assert (R2 : instR (model_of FMI3 f) (relX f) True True (set_mut (set_dirty true u) b) (set_mut (set_dirty true u') b'))
        by (refine (instR_mut R' _); apply mr_set_dirty; apply (ir_mut R')).
      split; [exact R2|]. auto. }
    unfold orel in K.
    destruct ((call (model_of FMI3 f) env (m_setStartValues (model_of FMI3 f)) ;;; modM (model_of FMI3 f) (set_dirty true))%sw b) as [[[x j] tr']| |];
    destruct ((call (model_of FMI3 f) env (m_setStartValues (model_of FMI3 f)) ;;; modM (model_of FMI3 f) (set_dirty true))%sw b') as [[[x' j'] tr2]| |]; try exact K.
    destruct K as [K [_ T]]. split; [apply T; unfold relX; now rewrite rel_log|exact K].
  Qed.
  Lemma alike_two f szof szof' fuel l (i j : Inst F (md (model_of FMI3 f))) : built2 f = true -> f <> Resource ->
    forallb (fun p => portable f (snd p)) l = true ->
    alike (model_of FMI3 f) (model_of FMI3 f) szof szof' fuel [] false l (mkSys i []) (mkSys j []) ->
    match f return Inst F (md (model_of FMI3 f)) -> Inst F (md (model_of FMI3 f)) -> Prop with
    | Feedthrough => fun i j => alike FT2 FT3 szof szof' fuel [] false l (mkSys i []) (mkSys j [])
    | g => fun i j => alike (model_of FMI3 g) (model_of FMI3 g) szof szof' fuel [] false l (mkSys i []) (mkSys j [])
    end i j.
  Proof. destruct f; auto. intros _ _. apply ft_alike. Qed.
  Lemma born f e ty name token resource resource' environment lo szof szof' fuel l :
    built2 f = true -> f <> Resource -> ball_ok f -> ty <> ScheduledExecution ->
    forallb (fun p => portable f (snd p)) l = true ->
    born_alike (model_of FMI2 f) (model_of FMI3 f) szof szof' fuel l
      (new2 (model_of FMI2 f) e ty name token resource environment lo)
      (new3 (model_of FMI3 f) e ty name token resource' environment lo).
  Proof.
    intros B NR BO NS Pl.
    pose proof (@create_pair f NR e environment name token resource resource' lo ty) as C.
    assert (A : forall i j, instR (model_of FMI3 f) (relX f) True True i j /\
        mode (ctl i) = Instantiated /\ mode (ctl j) = Instantiated /\ itype (ctl i) = ty /\
        eventModeUsed (ctl i) = false /\ earlyReturnAllowed (ctl i) = false ->
        alike (model_of FMI3 f) (model_of FMI3 f) szof szof' fuel [] false l (mkSys i []) (mkSys j [])).
    { intros i j (R & M & M' & T & E1 & E2). apply alike_start; auto. unfold start_alike. rewrite T. auto 10. }
    assert (Z : match ty with ModelExchange => True | CoSimulation => True | ScheduledExecution => False end) by (destruct ty; auto; congruence).
    assert (ST : forall j : Inst F (md (model_of FMI3 f)), mode (ctl j) = Instantiated -> eventModeUsed (ctl j) = false -> earlyReturnAllowed (ctl j) = false ->
      set_ctl (set_mode Instantiated (set_eventModeUsed false (set_earlyReturnAllowed false (ctl j)))) j = j).
    { intros [[] ? ?]; cbn. intros -> -> ->. reflexivity. }
    assert (T2 : forall i j, alike (model_of FMI3 f) (model_of FMI3 f) szof szof' fuel [] false l (mkSys i []) (mkSys j []) ->
      match f return Inst F (md (model_of FMI3 f)) -> Inst F (md (model_of FMI3 f)) -> Prop with
      | Feedthrough => fun i j => alike FT2 FT3 szof szof' fuel [] false l (mkSys i []) (mkSys j [])
      | g => fun i j => alike (model_of FMI3 g) (model_of FMI3 g) szof szof' fuel [] false l (mkSys i []) (mkSys j [])
      end i j) by (intros i j; now apply alike_two).
    set (c1 := createModelInstance (model_of FMI3 f) e true false environment name token resource lo ty) in C.
    assert (E1 : new2 (model_of FMI3 f) e ty name token resource environment lo = c1) by reflexivity.
    set (c2 := createModelInstance (model_of FMI3 f) e true false environment name token resource' lo ty) in C.
    assert (E2 : match c2 with Done (Some j, _) => mode (ctl j) = Instantiated /\ eventModeUsed (ctl j) = false /\ earlyReturnAllowed (ctl j) = false | _ => True end ->
      new3 (model_of FMI3 f) e ty name token resource' environment lo = c2).
    { intro H. unfold new3. destruct ty; try now destruct Z.
      - unfold fmi3InstantiateModelExchange. destruct f; try discriminate B; reflexivity.
      - unfold fmi3InstantiateCoSimulation. rewrite andb_false_r. fold c2. destruct c2 as [[[j|] a]| |]; auto. destruct H as (H1 & H2 & H3). now rewrite ST. }
    assert (H : match c2 with Done (Some j, _) => mode (ctl j) = Instantiated /\ eventModeUsed (ctl j) = false /\ earlyReturnAllowed (ctl j) = false | _ => True end).
    { destruct c2 as [[[j|] b]| |]; auto. destruct c1 as [[[i|] a]| |]; try now destruct C. destruct C as (_ & R & M & M' & _ & V1 & V2).
      rewrite (cr_event (ir_ctl R)), (cr_early (ir_ctl R)). auto. }
    specialize (E2 H). clear H.
    assert (G : match c1, c2 with
      | Done (Some i, t), Done (Some i', t') => t' = t /\ match f return Inst F (md (model_of FMI3 f)) -> Inst F (md (model_of FMI3 f)) -> Prop with
        | Feedthrough => fun i j => alike FT2 FT3 szof szof' fuel [] false l (mkSys i []) (mkSys j [])
        | g => fun i j => alike (model_of FMI3 g) (model_of FMI3 g) szof szof' fuel [] false l (mkSys i []) (mkSys j [])
        end i i'
      | Done (None, t), Done (None, t') => t' = t
      | UB, UB => True
      | NoFuel, NoFuel => True
      | _, _ => False
      end).
    { destruct c1 as [[[i|] a]| |]; destruct c2 as [[[j|] b]| |]; try exact C. destruct C as [C1 C2]. split; [exact C1|]. apply T2, A, C2. }
    clearbody c1 c2. clear A C T2 ST Z.
    rewrite E2. clear E2. 
    destruct f; try discriminate B; try congruence; 
      match goal with |- born_alike _ _ _ _ _ _ ?x _ => change x with (new2 (model_of (F := F) FMI3 ltac:(match type of E1 with new2 (model_of FMI3 ?g) _ _ _ _ _ _ _ = _ => exact g end)) e ty name token resource environment lo) end;
      rewrite E1; exact G.
  Qed.
End Fmus.

(** ** The statements of the property file *)
From Coq Require Import Reals.
From Verif Require Import NumB64 NumR CrossNum.
Lemma born_any (F : Type) (NF : Num F) (f : FMU) szof szof' fuel e ty name token resource resource' environment loggingOn (l : list (Env * Call F)) :
  built2 f = true -> f <> Resource -> f <> BouncingBall -> ty <> ScheduledExecution ->
  forallb (fun p => portable f (snd p)) l = true ->
  born_alike (model_of FMI2 f) (model_of FMI3 f) szof szof' fuel l
    (new2 (model_of FMI2 f) e ty name token resource environment loggingOn)
    (new3 (model_of FMI3 f) e ty name token resource' environment loggingOn).
Proof. intros. apply born; auto. intro; congruence. Qed.
Lemma born_B64 (f : FMU) szof szof' fuel e ty name token resource resource' environment loggingOn (l : list (Env * Call B64)) :
  built2 f = true -> f <> Resource -> ty <> ScheduledExecution ->
  forallb (fun p => portable f (snd p)) l = true ->
  born_alike (model_of FMI2 f) (model_of FMI3 f) szof szof' fuel l
    (new2 (model_of FMI2 f) e ty name token resource environment loggingOn)
    (new3 (model_of FMI3 f) e ty name token resource' environment loggingOn).
Proof. intros. apply born; auto. intros _. exact rising_B64. Qed.
Lemma born_R (inf : R) (f : FMU) szof szof' fuel e ty name token resource resource' environment loggingOn (l : list (Env * Call R)) :
  let NF := NumR inf in
  built2 f = true -> f <> Resource -> ty <> ScheduledExecution ->
  forallb (fun p => portable f (snd p)) l = true ->
  born_alike (model_of FMI2 f) (model_of FMI3 f) szof szof' fuel l
    (new2 (model_of FMI2 f) e ty name token resource environment loggingOn)
    (new3 (model_of FMI3 f) e ty name token resource' environment loggingOn).
Proof. intros. apply born; auto. intros _. exact (rising_R inf). Qed.
