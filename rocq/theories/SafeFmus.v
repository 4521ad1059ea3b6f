(** SafeFmus.v -- absence of undefined behaviour of the functions of each FMU (C26). *)
From Coq Require Import List NArith ZArith Bool Arith Lia.
From Verif Require Import Base Instance ModelIface Core Fmi3 Fmi2 Api Logic Calls Fmus SimSS SimFT SpecSafe Safe SafeCalls.
From Verif Require Import FmuBouncingBall FmuDahlquist FmuStair FmuVanDerPol FmuRoberts
  FmuClocks FmuResource FmuStateSpace FmuFeedthrough.
Import ListNotations.
Set Implicit Arguments.
Notation shape := Safe.shape.
Arguments STRING_MAX_LEN : simpl never.
Arguments BINARY_MAX_LEN : simpl never.
Arguments SS_MAX : simpl never.
Arguments MAX_PATH_LENGTH : simpl never.

Definition one_value (t : VType) : Prop := t <> TFloat64.

Section Fmus.
  Context {F : Type} {NF : Num F}.

  (** One value, at a position known to be inside the array. *)
  Lemma ms_put1_at D T (values : Buf T) nv ix v (W : Mut F D -> Prop) e c u : ix < blen values -> W u -> msafe (got W values) (put1 values nv ix v) e c u.
  Proof.
    intros L H. unfold put1, nvalues_ok. destruct (Nat.leb_spec (ix + 1) nv); [|now apply ms_failGet].
    apply ms_bind, ms_wr; [lia|]. intros b' S. apply ms_ret. split; auto.
  Qed.
  Lemma ms_take1_at D T (values : Buf T) nv ix f (W : Mut F D -> Prop) (one : Prop) e c u : ix < blen values -> W u ->
    (forall v, W (set_data (f v (data u)) u)) -> msafe (wrote W one ix) (take1 values nv ix f) e c u.
  Proof.
    intros L H K. unfold take1, nvalues_ok. destruct (Nat.leb_spec (ix + 1) nv); [|now apply ms_failSet].
    apply ms_bind, ms_rd; [lia|]. intros v _. apply ms_bind, ms_modd, ms_ret. split; [apply K|]. split; auto.
  Qed.
  Lemma ms_wrote D (W : Mut F D -> Prop) (one : Prop) ix f e c u : msafe (wrote W one ix) f e c u -> msafe (fun _ => W) f e c u.
  Proof. intro H. eapply ms_conseq; [exact H|]. intros x s A. apply A. Qed.
  Lemma ms_not_get D T vr (values : Buf T) nv ix (W : Mut F D -> Prop) e c u : W u -> msafe (got W values) (get_not_allowed vr values nv ix) e c u.
  Proof. apply ms_failGet. Qed.
  Lemma ms_not_set D T vr (values : Buf T) nv ix (W : Mut F D -> Prop) (one : Prop) e c u : W u -> msafe (wrote W one ix) (set_not_allowed vr values nv ix) e c u.
  Proof. apply ms_failSet. Qed.
  Lemma ms_getBinary_default D vr z b nv ix (W : Mut F D -> Prop) e c u : W u ->
    msafe (fun r u' => W u' /\ shape z (snd (fst (fst r))) /\ shape b (snd (fst r))) (getBinary_default vr z b nv ix) e c u.
  Proof. intro H. apply ms_bind, ms_log, ms_ret. split; [exact H|]. split; apply shape_refl. Qed.
  Lemma ms_setBinary_default D vr z b nv ix (W : Mut F D -> Prop) (one : Prop) e c u : W u -> msafe (wrote W one ix) (setBinary_default vr z b nv ix) e c u.
  Proof. apply ms_failSet. Qed.
  Lemma ms_fail_ended D (W : Mut F D -> Prop) e c u : W u -> msafe (ended W) fail e c u.
  Proof. intro H. apply ms_fail. split; auto. Qed.
  Lemma same_refl m (room : Mut F (md m) -> Prop) u : same_room m room u u.
  Proof. split; auto. Qed.

  Ltac side := cbn [data set_data set_dirty terminateSimulation]; auto using shape_refl.
  Ltac mstep :=
    match goal with
    | |- msafe _ (mbind _ _) _ _ _ => apply ms_bind
    | |- msafe _ (mret _) _ _ _ => apply ms_ret
    | |- msafe _ mctl _ _ _ => apply ms_ctl
    | |- msafe _ menv _ _ _ => apply ms_env
    | |- msafe _ mget _ _ _ => apply ms_get
    | |- msafe _ mdata _ _ _ => apply ms_data
    | |- msafe _ (mmod _) _ _ _ => apply ms_mod
    | |- msafe _ (mmodd _) _ _ _ => apply ms_modd
    | |- msafe _ (mtell _) _ _ _ => apply ms_tell
    | |- msafe _ mlogError _ _ _ => apply ms_log
    | |- msafe (got _ _) (failGet _ _) _ _ _ => apply ms_failGet
    | |- msafe (wrote _ _ _) (failSet _) _ _ _ => apply ms_failSet
    | |- msafe (got _ _) (put1 _ _ _ _) _ _ _ => first [apply ms_put1; [assumption|] | apply ms_put1_at; [cbn; lia|]]
    | |- msafe (wrote _ _ _) (take1 _ _ _ _) _ _ _ => first [apply ms_take1; [assumption| |intro] | apply ms_take1_at; [cbn; lia| |intro]]
    | |- msafe (got _ _) (nnGet _ _ _) _ _ _ => apply ms_nnGet; [|intros]
    | |- msafe (wrote _ _ _) (nnSet _ _ _) _ _ _ => apply ms_nnSet; [|intros]
    | |- msafe (wrote _ _ _) (thenDirty _) _ _ _ => apply ms_thenDirty; [intros|]
    | |- msafe (filled _ _) (arrGet _ _ _ _) _ _ _ => apply ms_arrGet; [|intros]
    | |- msafe (ended _) (arrSet _ _ _ _) _ _ _ => apply ms_arrSet; [|intros]
    | |- msafe (got _ _) (get_not_allowed _ _ _ _) _ _ _ => apply ms_not_get
    | |- msafe (wrote _ _ _) (set_not_allowed _ _ _ _) _ _ _ => apply ms_not_set
    | |- msafe _ (getBinary_default _ _ _ _ _) _ _ _ => apply ms_getBinary_default
    | |- msafe (wrote _ _ _) (setBinary_default _ _ _ _ _) _ _ _ => apply ms_setBinary_default
    | |- msafe _ (states_default _ _) _ _ _ => apply ms_states_default
    | |- msafe _ (indicators_default _ _) _ _ _ => apply ms_indicators_default
    | |- msafe _ (setStates_default _ _) _ _ _ => apply ms_setStates_default
    | |- msafe (ended _) fail _ _ _ => apply ms_fail_ended
    | |- msafe _ fail _ _ _ => apply ms_fail
    | |- msafe _ (if ?b then _ else _) _ _ _ => destruct b
    | |- msafe _ (match ?x with _ => _ end) _ _ _ => destruct x
    | |- msafe _ (writel ?b 0 _) _ _ _ => apply ms_writel; [subst; cbn in *; lia|intros]
    | |- msafe _ (mrd _ _) _ _ _ => apply ms_rd; [subst; cbn in *; lia|intros]
    | |- msafe (fun _ => ?W) (?f _ _ _ _) _ _ _ => fail
    | |- msafe _ ?f _ _ _ => let h := head f in unfold h; cbv beta zeta iota
    end
  with head f := lazymatch f with ?g _ => head g | _ => f end.
  Ltac leaf := unfold filled, ended, same_room, got, wrote; repeat match goal with |- _ /\ _ => split end;
    intros; side; try discriminate; try lia.
  Ltac mgo := repeat mstep; leaf.

  Ltac fields := cbn [m_setStartValues m_calculateValues m_get m_set m_getBinary m_setBinary m_activateClock m_getClock m_getInterval
      m_activateModelPartition m_nz m_nx m_getContinuousStates m_getNominals m_setContinuousStates m_getDerivatives m_getEventIndicators
      m_getOutputDerivative m_getPartialDerivative m_eventUpdateF m_maxX m_maxZ m_eventUpdate m_outputDerivative md
      BouncingBall_model Dahlquist_model Stair_model VanDerPol_model Roberts_model Clocks_model Resource_model StateSpace_model Feedthrough_model] in *.
  Ltac begin := constructor; intros; fields; try match goal with t : VType |- _ => destruct t end.
  Notation simple m := (SafeLaws m (fun _ _ => True) (fun _ => True) one_value (fun _ _ _ _ => True)).
  Lemma bb_safe : simple (BouncingBall_model (F := F)).
  Proof. begin. all: mgo. Qed.
  Lemma da_safe : simple (Dahlquist_model (F := F)).
  Proof. begin. all: try solve [mgo]. Qed.
  Lemma vp_safe : simple (VanDerPol_model (F := F)).
  Proof. begin. all: try solve [mgo]. Qed.
  Lemma ro_safe : simple (Roberts_model (F := F)).
  Proof. begin. all: try solve [mgo]. Qed.

  (** Stair: a counter of ten or more has announced the end. *)
  Definition st_inv (u : Mut F STData) : Prop := (10 <= st_counter (data u))%Z -> terminateSimulation u = true.
  Lemma st_dirty b u : st_inv u -> st_inv (set_dirty b u).
  Proof. intro H. exact H. Qed.
  Lemma st_safe : SafeLaws (Stair_model (F := F)) (fun _ => st_inv) (counter_room FMI3 Stair) one_value (fun _ _ _ _ => True).
  Proof.
    begin. all: try solve [mgo].
    - apply ms_bind, ms_modd, ms_bind, ms_mod, ms_bind, ms_mod, ms_ret. unfold st_inv. cbn. lia.
    - apply ms_nnSet; [assumption|]. intros l ->. apply ms_bind, ms_ctl. apply ms_thenDirty; [intros; now apply st_dirty|].
      destruct (st_var vr) as [[|]|]; try (now apply ms_failSet). destruct (negb _); [now apply ms_failSet|].
      apply ms_bind, ms_rd; [specialize (H1 ltac:(discriminate)); cbn [val blen] in *; lia|]. intros v E. destruct (Z.leb_spec 10 v); [now apply ms_failSet|].
      unfold take1, nvalues_ok. destruct (Nat.leb_spec (ix + 1) nv); [|now apply ms_failSet].
      apply ms_bind, ms_rd; [cbn [val blen] in *; lia|]. intros w E'. rewrite E in E'. injection E' as <-. apply ms_bind, ms_modd, ms_ret.
      split; [|split; auto]. unfold st_inv. cbn. lia.
    - change (in_int (st_counter (@data F STData u) + 1) = true) in H1. unfold st_eventUpdate, st_tick. apply ms_bind, ms_bind, ms_ctl, ms_bind, ms_get.
      assert (K : forall u', (Z.ltb 10 (st_counter (data u')) = false -> in_int (st_counter (data u')) = true \/ in_int (st_counter (data u') + 1) = true) ->
        (Z.ltb 10 (st_counter (data u')) = true -> terminateSimulation u' = true) ->
        msafe (fun (s : Status) (u' : Mut F STData) => (st_inv u' /\ (terminateSimulation u' = false -> counter_room FMI3 Stair u')) /\ (s = OK \/ s = Error))
          (mbind mdata (fun d => if Z.ltb 10 (st_counter d) then fail else
            mbind (mmod (set_valuesChanged false)) (fun _ => mbind (mmod (set_nominalsChanged false)) (fun _ =>
            mbind (mmod (set_terminateSimulation (Z.leb 10 (st_counter d)))) (fun _ => mbind (mmod (set_nextEventTimeDefined true)) (fun _ => mret OK)))))) e c u').
      { intros u' R T. apply ms_bind, ms_data. destruct (Z.ltb 10 (st_counter (data u'))) eqn:L.
        - apply ms_fail. split; [|auto]. split; [intros _; now apply T|]. intro X. rewrite (T eq_refl) in X. discriminate.
        - apply ms_bind, ms_mod, ms_bind, ms_mod, ms_bind, ms_mod, ms_bind, ms_mod, ms_ret. split; [|auto]. split.
          + unfold st_inv. cbn. intro X. now apply Z.leb_le.
          + cbn. intro X. apply Z.leb_gt in X. specialize (R eq_refl). unfold in_int in *. destruct R as [R|R]; [|exact R].
            apply andb_true_iff in R as [R1 R2]. apply Z.leb_le in R1. apply Z.leb_le in R2. apply andb_true_iff. split; apply Z.leb_le; unfold INT_MIN, INT_MAX in *; lia. }
      destruct (nextEventTimeDefined u && isClose (time c) (nextEventTime u)).
      + cbv beta. rewrite H1. apply ms_bind, ms_modd, ms_mod. apply K; cbn; [auto|]. intro X. apply Z.ltb_lt in X. apply H0. lia.
      + apply ms_ret, K; [auto|]. intro X. apply Z.ltb_lt in X. apply H0. lia.
  Qed.

  Lemma ms_int set (get : CLData F -> Z) (Q : unit -> Mut F (CLData F) -> Prop) e c u : in_int (get (data u)) = true ->
    Q tt (set_data (set (get (data u)) (data u)) u) -> msafe Q (cl_int set get) e c u.
  Proof. intros H K. unfold cl_int. apply ms_bind, ms_data. rewrite H. now apply ms_modd. Qed.
  Lemma cl_vr vr x : cl_var vr = Some x ->
    match x with CLinClock1 => vr = 1001%N | CLinClock2 => vr = 1002%N | CLinClock3 => vr = 1003%N | _ => True end.
  Proof.
    unfold cl_var. repeat match goal with |- context [N.eqb vr ?n] => destruct (N.eqb_spec vr n); [subst; intro E; injection E as <-; auto|] end. discriminate.
  Qed.
  Lemma cl_safe : SafeLaws (Clocks_model (F := F)) (fun _ _ => True) (fun _ => True) one_value (partition_room FMI3 Clocks).
  Proof.
    begin. all: try solve [mgo].
    destruct H0 as (Hc & Ht & H1 & H2 & H3).
    assert (Q0 : forall u' : Mut F (CLData F), msafe (fun _ _ => True) cl_clockUpdate e c u')
      by (intro u'; unfold cl_clockUpdate; apply ms_bind, ms_ctl; rewrite Hc; now apply ms_tell).
    assert (Q : forall u' : Mut F (CLData F), msafe (fun _ _ => True) (mbind mdata (fun d => if cl_outClock d then cl_clockUpdate else mret tt)) e c u')
      by (intro u'; apply ms_bind, ms_data; destruct (cl_outClock _); [apply Q0|now apply ms_ret]).
    assert (Q1 : forall u' : Mut F (CLData F), msafe (fun _ _ => True) (mbind mdata (fun d => if Z.eqb (cl_qualifier d) 2 || cl_outClock d then cl_clockUpdate else mret tt)) e c u')
      by (intro u'; apply ms_bind, ms_data; destruct (_ || _); [apply Q0|now apply ms_ret]).
    assert (LK : forall (Q : unit -> Mut F (CLData F) -> Prop) u', Q tt u' -> msafe Q cl_lock e c u')
      by (intros; unfold cl_lock; apply ms_bind, ms_ctl; destruct (hasLockPreemption c); [now apply ms_tell|now apply ms_ret]).
    assert (UL : forall (Q : unit -> Mut F (CLData F) -> Prop) u', Q tt u' -> msafe Q cl_unlock e c u')
      by (intros; unfold cl_unlock; apply ms_bind, ms_ctl; destruct (hasUnlockPreemption c); [now apply ms_tell|now apply ms_ret]).
    assert (FIN : forall f u', msafe (fun _ _ => True) f e c u' -> msafe (fun (_ : Status) (_ : Mut F (CLData F)) => True) (mbind f (fun _ : unit => mret OK)) e c u')
      by (intros f u' H0; apply ms_bind; eapply ms_conseq; [exact H0|]; intros; now apply ms_ret).
    unfold cl_activateModelPartition. destruct (cl_var vr) as [[]|] eqn:E; try solve [mgo]; apply cl_vr in E; apply FIN.
    - destruct (H1 E) as (T1 & z & Z1 & Z2). unfold cl_partition1. apply ms_bind, ms_int; [exact T1|].
      apply ms_bind, ms_int; [exact Ht|]. apply ms_bind. unfold cl_at4. rewrite Z1, Z2. apply ms_ret.
      apply ms_bind. destruct (Z.eqb z 4); [apply ms_modd|apply ms_ret]; apply ms_bind, ms_modd, Q1.
    - destruct (H2 E) as (T1 & Z1). unfold cl_partition2. apply ms_bind, LK, ms_bind, ms_int; [exact T1|].
      apply ms_bind, ms_int; [exact Ht|]. apply ms_bind, ms_int; [exact Z1|]. apply ms_bind, ms_modd, ms_bind, ms_modd, ms_bind, UL, Q.
    - unfold cl_partition3. apply ms_bind, ms_int; [exact (H3 E)|]. apply ms_bind, ms_modd, ms_bind, LK, ms_bind, ms_int; [exact Ht|].
      apply ms_bind, ms_modd, ms_bind, UL, Q.
  Qed.

  Lemma ms_re_calc v (Q : Status -> Mut F REData -> Prop) e c u : location_fits v Resource (resourceLocation c) ->
    (forall s u', Q s u') -> msafe Q (re_calculateValues (isFMI2 v)) e c u.
  Proof.
    intros H K. unfold re_calculateValues. apply ms_bind, ms_ctl. destruct (resourceLocation c) as [loc|]; [|apply ms_fail, K].
    assert (R : forall p u', msafe Q (re_read p) e c u').
    { intros p u'. unfold re_read. apply ms_bind, ms_env. destruct (env_file e p); [|apply ms_fail, K].
      apply ms_bind, ms_modd, ms_bind, ms_mod, ms_ret, K. }
    destruct (isFMI2 v) eqn:V; [destruct (path2 (cstr loc)); [apply R|apply ms_fail, K]|].
    assert (Hl : length (cstr loc) < MAX_PATH_LENGTH) by (apply H; [reflexivity|destruct v; [discriminate|reflexivity]|reflexivity]).
    unfold path3. apply Nat.ltb_lt in Hl as ->. apply R.
  Qed.
  Lemma re_safe v : SafeLaws (Resource_model (F := F) (isFMI2 v)) (fun l _ => location_fits v Resource l) (fun _ => True) one_value (fun _ _ _ _ => True).
  Proof.
    begin. all: try solve [mgo].
    - apply ms_re_calc; auto.
    - unfold re_getFloat64. mstep; [assumption|]. apply ms_bind, ms_re_calc; auto. intros s u'. mgo.
    - unfold re_getInt32. mstep; [assumption|]. apply ms_bind, ms_re_calc; auto. intros s u'. mgo.
  Qed.

  (** Feedthrough: the string and the binary fit their buffers. *)
  Definition ft_inv (u : Mut F (FTData F)) : Prop :=
    Nat.ltb (length (ft_str_in (data u))) STRING_MAX_LEN = true /\ Nat.leb (length (ft_bin_in (data u))) BINARY_MAX_LEN = true.
  Lemma ms_ft_calc (Q : Status -> Mut F (FTData F) -> Prop) e c u : ft_inv u ->
    (forall u', ft_inv u' -> Q OK u') -> msafe Q ft_calculateValues e c u.
  Proof.
    intros [A B] K. unfold ft_calculateValues. apply ms_bind, ms_data. rewrite A, B. cbn [andb].
    apply ms_bind, ms_modd, ms_bind, ms_mod, ms_ret, K. split; assumption.
  Qed.
  Ltac ftget := match goal with |- msafe _ ?f _ _ _ => let h := head f in unfold h end; mstep; [assumption|];
    apply ms_bind, ms_ft_calc; [assumption|]; intros; mgo.
  Lemma ft_safe v : SafeLaws (Feedthrough_model (F := F) v) (fun _ => ft_inv) (fun _ => True) one_value (fun _ _ _ _ => True).
  Proof.
    begin. all: try solve [mgo]. all: try solve [ftget].
    - apply ms_bind, ms_modd, ms_bind, ms_mod, ms_ret. destruct (ft_start_bound (F := F)) as (_ & A & B). split; assumption.
    - apply ms_ft_calc; auto.
    - unfold ft_setInt32. mstep; [assumption|]. subst. specialize (H1 ltac:(discriminate)). mgo.
    - unfold ft_setInt64. mstep; [assumption|]. subst. specialize (H1 ltac:(discriminate)). mgo.
    - unfold ft_setString. mstep; [assumption|]. subst. specialize (H1 ltac:(discriminate)).
      mstep; [assumption|]. destruct (ft_var vr) as [[]|]; try solve [mgo]. apply ms_bind, ms_rd; [cbn [val blen] in *; lia|]. intros [s|] E.
      + destruct (Nat.leb STRING_MAX_LEN (strlen s)) eqn:S; [now apply ms_failSet|]. destruct (nvalues_ok _ _ _); [|now apply ms_failSet].
        apply ms_bind, ms_modd, ms_ret. split; [|split; auto]. split; [|apply H2]. cbn. now apply ft_str_bound.
      + cbn [strings_given items] in H0. apply nth_error_In in E. rewrite Forall_forall in H0. exfalso. now apply (H0 _ E).
    - unfold ft_getBinary. destruct b as [l|]; [|mgo]. apply ms_bind, ms_ft_calc; [assumption|]. intros u' I. apply ms_bind, ms_data.
      assert (P : forall x, msafe (fun (r : Status * Buf nat * Buf bytes * nat) (u' : Mut F (FTData F)) => ft_inv u' /\ shape z (snd (fst (fst r))) /\ shape (Some l) (snd (fst r)))
        (ft_putBinary z (Some l) nv ix x) e c u').
      { intro x. unfold ft_putBinary, nvalues_ok. destruct (Nat.leb_spec (ix + 1) nv); [|mgo].
        apply ms_bind, ms_wr; [lia|]. intros b' S'. apply ms_bind, ms_wr; [lia|]. intros z' Sz. apply ms_ret. split; [exact I|]. split; assumption. }
      destruct (ft_var vr) as [[]|]; first [apply P|mgo].
    - unfold ft_setBinary. mstep; [assumption|]. subst.
      mstep; [assumption|]. destruct (ft_var vr) as [[]|]; try solve [mgo]. apply ms_bind, ms_rd; [lia|]. intros n E.
      destruct (Nat.ltb BINARY_MAX_LEN n) eqn:S; [now apply ms_failSet|]. destruct (nvalues_ok _ _ _); [|now apply ms_failSet].
      apply ms_bind, ms_rd; [lia|]. intros v0 E'. destruct (H1 _ _ _ E E') as (b & -> & Lb). apply Nat.leb_le in Lb as ->.
      apply ms_bind, ms_modd, ms_ret. split; [|split; auto]. split; [apply H3|]. cbn. now apply ft_bin_bound.
  Qed.

  (** StateSpace: the arrays keep their sizes. *)
  Lemma ms_ss_calc (Q : Status -> Mut F (SSData F) -> Prop) e c u : SimSS.shape (data u) ->
    (forall u', SimSS.shape (data u') -> terminateSimulation u' = terminateSimulation u -> ss_n (data u') = ss_n (data u) -> Q OK u') -> msafe Q ss_calculateValues e c u.
  Proof.
    intros H K. unfold ss_calculateValues. apply ms_bind, ms_data.
    assert (R : ssR (data u) (data u)) by (constructor; auto).
    destruct (ss_calc_rel R) as (d & d' & E & E' & R' & RL & RR & _). rewrite E.
    apply ms_bind, ms_modd, ms_bind, ms_mod, ms_ret, K; [apply (s_sh R')|reflexivity|symmetry; apply (s_n RL)].
  Qed.
  Lemma sub1_some T n (v : list T) : n <= length v -> exists l, sub1 n v = Some l.
  Proof. intro H. unfold sub1. rewrite (proj2 (Nat.leb_le _ _) H). eauto. Qed.
  Lemma sub2_some rows cols : forall (a : list (list F)), rows <= length a -> Forall row a -> cols <= SS_MAX -> exists l, sub2 rows cols a = Some l.
  Proof.
    induction rows as [|rows IH]; intros a H R C; cbn [sub2]; [eauto|]. destruct a as [|r a]; cbn [length] in H; [lia|].
    destruct (@sub1_some _ cols r) as [x ->]; [rewrite (Forall_inv R); exact C|].
    destruct (IH a) as [y ->]; [lia|exact (Forall_inv_tail R)|exact C|]. eauto.
  Qed.
  Lemma paste2_some rows cols : forall l (a : list (list F)), rows <= length a -> Forall row a -> cols <= SS_MAX -> exists b, paste2 rows cols l a = Some b.
  Proof.
    induction rows as [|rows IH]; intros l a H R C; cbn [paste2]; [eauto|]. destruct a as [|r a]; cbn [length] in H; [lia|].
    rewrite (proj1 (@paste1_some _ (firstn cols l) r ltac:(rewrite firstn_length, (Forall_inv R); lia))).
    destruct (IH (skipn cols l) a) as [y ->]; [lia|exact (Forall_inv_tail R)|exact C|]. eauto.
  Qed.
  Lemma ms_putarr (values : Buf F) nv ix l (W : Mut F (SSData F) -> Prop) e c u : nv <= blen values -> W u -> (exists x, l = Some x) ->
    msafe (got W values) (putarr values nv ix l) e c u.
  Proof.
    intros H K [x ->]. unfold putarr, nvalues_ok. destruct (Nat.leb_spec (ix + length x) nv); [|now apply ms_failGet]. apply ms_putl; [lia|exact K].
  Qed.
  Lemma ms_takearr (values : Buf F) nv ix n f (W : Mut F (SSData F) -> Prop) (one : Prop) e c u : nv <= blen values -> W u -> ~ one ->
    (forall l, length l = n -> exists d, f l (data u) = Some d /\ W (set_data d u)) -> msafe (wrote W one ix) (takearr values nv ix n f) e c u.
  Proof.
    intros H K O G. unfold takearr, nvalues_ok. destruct (Nat.leb_spec (ix + n) nv); [|now apply ms_failSet].
    apply ms_bind, ms_takel; [lia|]. intros l L. apply ms_bind, ms_data. destruct (G l L) as (d & -> & Wd).
    apply ms_bind, ms_modd, ms_ret. split; [exact Wd|]. split; [now left|]. intros _ o. contradiction.
  Qed.
  Lemma ms_ss_out x l (W : Mut F (SSData F) -> Prop) e c u : (exists y, l = Some y /\ length y <= blen x) -> W u -> msafe (filled W x) (ss_out x l) e c u.
  Proof.
    intros (y & -> & L) H. unfold ss_out. apply ms_bind, ms_writel; [cbn; exact L|]. intros b' S. apply ms_ret. split; [exact H|]. split; [exact S|now left].
  Qed.
  Lemma ss_safe : SafeLaws (StateSpace_model (F := F)) (fun _ u => SimSS.shape (data u)) (fun _ => True) one_value (fun _ _ _ _ => True).
  Proof.
    begin. all: try solve [mgo].
    - apply ms_bind, ms_modd, ms_bind, ms_mod, ms_ret. destruct H.
      assert (I : mat (F := F) ss_identity).
      { split; [unfold ss_identity; now rewrite map_length, seq_length|]. apply Forall_forall. intros r Hr. unfold ss_identity in Hr.
        apply in_map_iff in Hr as (k & <- & _). unfold row. now rewrite map_length, seq_length. }
      constructor; cbn; auto; unfold row, SS_MAX; cbn; auto; lia.
    - apply ms_ss_calc; auto.
    - unfold ss_getFloat64. mstep; [assumption|]. apply ms_bind, ms_ss_calc; [assumption|]. intros u' S _ _. apply ms_bind, ms_ctl, ms_bind, ms_data.
      cbv zeta. pose proof S as S0. destruct S0 as [Sm Sn Sr [A1 A2] [B1 B2] [C1 C2] [D1 D2] X0 Xu Xx Xy Xd]. unfold row in *.
      assert (MT : forall rows cols a, rows <= length a -> Forall row a -> cols <= SS_MAX ->
        exists x : list F, option_map (@concat F) (sub2 rows cols a) = Some x)
        by (intros rows cols a R1 R2 R3; destruct (@sub2_some rows cols a R1 R2 R3) as [y ->]; cbn; eauto).
      destruct (ss_var vr) as [[]|]; try solve [mgo]; (apply ms_putarr; [assumption|exact S|]);
        first [apply MT; auto; lia|apply sub1_some; lia].
    - cbn [val] in *. unfold ss_setFloat64. mstep; [assumption|]. apply ms_bind, ms_ctl, ms_bind, ms_data. cbv zeta. mstep; [assumption|].
      assert (O : ~ one_value TFloat64) by (intro X; now apply X).
      pose proof H2 as S0. destruct S0 as [Sm Sn Sr SA SB SC SD X0 Xu Xx Xy Xd].
      assert (MT : forall rows cols (get : SSData F -> list (list F)) (set : list (list F) -> SSData F -> SSData F), rows <= SS_MAX -> cols <= SS_MAX -> mat (get (data u)) -> (forall a, mat a -> SimSS.shape (set a (data u))) ->
        msafe (wrote (fun u0 : Mut F (SSData F) => SimSS.shape (data u0)) (one_value TFloat64) ix)
          (takearr values nv ix (rows * cols) (fun l d => option_map (fun a : list (list F) => set a d) (paste2 rows cols l (get d)))) e c u).
      { intros rows cols get set R1 R2 [M1 M2] G. apply ms_takearr; [assumption|exact H2|exact O|]. intros l' L'.
        destruct (@paste2_some rows cols l' (get (data u)) ltac:(lia) M2 R2) as [b Eb]. change (@paste2 (val F TFloat64)) with (@paste2 F). rewrite Eb. cbn. eexists. split; [reflexivity|].
        apply G. eapply paste2_mat'; [split; [exact M1|exact M2]|exact Eb]. }
      assert (VT : forall n (get : SSData F -> list F) (set : list F -> SSData F -> SSData F), n <= SS_MAX -> row (get (data u)) -> (forall a, row a -> SimSS.shape (set a (data u))) ->
        msafe (wrote (fun u0 : Mut F (SSData F) => SimSS.shape (data u0)) (one_value TFloat64) ix)
          (takearr values nv ix n (fun l d => option_map (fun a : list F => set a d) (paste1 l (get d)))) e c u).
      { intros n get set R1 M1 G. apply ms_takearr; [assumption|exact H2|exact O|]. intros l' L'. unfold row in *.
        destruct (@paste1_some _ l' (get (data u)) ltac:(lia)) as [Eb Lb]. rewrite Eb. cbn. eexists. split; [reflexivity|].
        apply G. congruence. }
      destruct (ss_var vr) as [[]|]; try solve [mgo].
      all: try (destruct (negb _); [now apply ms_failSet|]).
      all: first [apply MT|apply VT]; auto; intros; constructor; cbn; auto.
    - unfold ss_setUInt64. mstep; [assumption|]. subst. specialize (H1 ltac:(discriminate)). apply ms_bind, ms_ctl.
      destruct (negb _); [now apply ms_failSet|]. apply ms_bind, ms_rd; [cbn [val blen] in *; lia|]. intros v _. cbv zeta. mstep; [assumption|].
      assert (ST : forall set, SimSS.shape (set (N.to_nat v) (data u)) ->
         msafe (wrote (fun u0 : Mut F (SSData F) => SimSS.shape (data u0)) (one_value TUInt64) ix)
          (if nvalues_ok (S ix) 1 nv then mbind (mmodd (set (N.to_nat v))) (fun _ => mret (OK, S ix)) else failSet (S ix)) e c u).
      { intros set G. destruct (nvalues_ok _ _ _); [|now apply ms_failSet].
        apply ms_bind, ms_modd, ms_ret. split; [exact G|]. split; auto. }
      destruct (N.ltb (N.of_nat SS_MAX) v) eqn:V; [destruct (ss_var vr) as [[]|]; mgo|]. pose proof (n_bound _ V) as Vb.
      pose proof H2 as S0. destruct S0. destruct (ss_var vr) as [[]|]; try solve [mgo].
      all: (apply ST; constructor; cbn; auto).
    - unfold ss_getContinuousStates. apply ms_bind, ms_data, ms_arrGet; [auto using same_refl|]. intros l -> ->. cbn in H.
      apply ms_ss_out; [|auto using same_refl]. destruct H0. unfold row in *. destruct (@sub1_some _ (ss_n (data u)) (ss_x (data u))) as [y E]; [lia|].
      exists y. split; [exact E|]. rewrite (sub1_length _ _ E). exact H.
    - unfold ss_getDerivatives. apply ms_bind, ms_data, ms_arrGet; [auto using same_refl|]. intros l -> ->. cbn in H.
      apply ms_bind, ms_ss_calc; [exact H0|]. intros u' S' T' N'. apply ms_bind, ms_data.
      apply ms_ss_out; [|split; [exact S'|split; auto]]. pose proof S' as S0. destruct S0. unfold row in *. destruct (@sub1_some _ (ss_n (data u')) (ss_der_x (data u'))) as [y E]; [lia|].
      exists y. split; [exact E|]. rewrite (sub1_length _ _ E), N'. exact H.
    - unfold ss_getNominals. apply ms_bind, ms_data, ms_arrGet; [auto using same_refl|]. intros l -> ->. cbn in H.
      apply ms_ss_out; [|auto using same_refl]. eexists. split; [reflexivity|]. rewrite repeat_length. exact H.
    - unfold ss_setContinuousStates. apply ms_bind, ms_data, ms_arrSet; [auto using same_refl|]. intros l -> ->. cbn in H.
      apply ms_bind, ms_takel; [exact H|]. intros l' L'. pose proof H0 as S0. destruct S0. unfold row in *.
      destruct (@paste1_some _ l' (ss_x (data u)) ltac:(lia)) as [-> Lb].
      apply ms_bind, ms_modd, ms_bind, ms_mod, ms_ret. split; [|now left]. split; [|split; auto]. constructor; cbn; auto. unfold row. lia.
    - apply H.
  Qed.
End Fmus.
