(** Clock.v -- proofs for C39 and C40. *)
From Coq Require Import List NArith ZArith Bool Arith Lia.
From Verif Require Import Base Instance ModelIface Core Fmi3 Api FmuClocks Fmus Logic Calls SpecModes LawsFmus Reach SpecCreate SpecState Histories SpecVars Vars VarsFmus DataFmus
  Data Keeps KeepRules Fits SpecClocks SpecHist Traces.
Import ListNotations.
Set Implicit Arguments.

Section Clock.
  Context {F : Type} {NF : Num F} (szof : N).
  Notation m := (Clocks_model (F := F)).
  Notation D := (CLData F).
  Definition matches (a : Tally) (d : D) : Prop :=
    cl_t1 d = ticks1 a /\ cl_t2 d = ticks2 a /\ cl_t3 d = ticks3 a /\ cl_total d = ticks a /\ cl_outClock d = ticked a /\
    (0 <= ticks a)%Z /\ (ticked a = true -> every_fifth (ticks a) = true).

  (** Clocks without its partitions and clocks: every other call behaves the same. *)
  Definition still : Model F := {|
    md := CLData F; md0 := cl_zero; m_token := cl_token; m_modelExchange := false; m_scheduled := true;
    m_eventUpdate := true; m_outputDerivative := false; m_maxX := 0; m_maxZ := 0; m_step := nlit 1 0;
    m_setStartValues := cl_setStartValues; m_calculateValues := cl_calculateValues;
    m_get := m_get m; m_set := m_set m;
    m_getBinary := getBinary_default; m_setBinary := setBinary_default;
    m_activateClock := cl_activateClock; m_getClock := getClock_default;
    m_getInterval := cl_getInterval; m_activateModelPartition := activate_default;
    m_nz := fun _ => 0; m_nx := fun _ => 0;
    m_getContinuousStates := states_default; m_getNominals := states_default;
    m_setContinuousStates := setStates_default; m_getDerivatives := states_default;
    m_getEventIndicators := indicators_default;
    m_getOutputDerivative := outputDerivative_absent; m_getPartialDerivative := partial_default;
    m_eventUpdateF := cl_eventUpdate |}.
  Definition counts (d : D) := (cl_t1 d, cl_t2 d, cl_t3 d, cl_total d, cl_outClock d).
  Definition counts_kept (u u' : Mut F D) : Prop := counts (data u') = counts (data u).
  Lemma still_keeps : @KeepLaws F NF still counts_kept False (fun _ _ => True) (fun _ => True).
  Proof.
    assert (Rr : forall u, counts_kept u u) by reflexivity.
    assert (Rt : forall a b c, counts_kept a b -> counts_kept b c -> counts_kept a c) by (unfold counts_kept; intros; congruence).
    constructor; try exact Rr; try exact Rt;
      cbn [m_setStartValues m_calculateValues m_get m_set m_getBinary m_setBinary m_activateClock m_getClock m_getInterval m_activateModelPartition
           m_getContinuousStates m_getNominals m_setContinuousStates m_getDerivatives m_getEventIndicators m_getOutputDerivative m_getPartialDerivative
           m_eventUpdateF still Clocks_model md]; try (intros; kms Rr Rt; fail).
    - reflexivity.
    - intros [].
    - intros t vr b n i. destruct t; kms Rr Rt.
    - intros t vr b n i _. destruct t; try (kms Rr Rt; fail). unfold cl_setInt32. kms Rr Rt; reflexivity.
    - intros vr. unfold cl_getInterval. kms Rr Rt; reflexivity.
  Qed.
  Definition moves (o : Op3 F D) : bool :=
    match o with O3ActivateModelPartition _ _ | O3GetClock _ _ _ | O3Reset | O3SetFMUState _ => true | _ => false end.
  Lemma still_exec fuel env o s : moves o = false -> exec3 m szof fuel env o s = exec3 still szof fuel env o s.
  Proof. destruct o; try discriminate; intros _; reflexivity. Qed.
  Lemma still_step fuel env o s st out s' t : moves o = false -> exec3 m szof fuel env o s = Done (st, out, s', t) ->
    counts (data (mut (sinst s'))) = counts (data (mut (sinst s))).
  Proof.
    intros H E. rewrite still_exec in E by exact H. eapply (@exec3_keeps F NF still _ _ _ _ still_keeps szof fuel env o s); [|exact E].
    destruct o; try discriminate H; cbn; auto; destruct vrs; auto; apply Forall_forall; auto.
  Qed.
  Lemma fifth n b : (0 <= n)%Z -> (b = true -> every_fifth n = true) -> negb b && Z.eqb (Z.rem (n + 1) 5) 0 = every_fifth (n + 1).
  Proof.
    intros H I. unfold every_fifth in *. rewrite Z.rem_mod_nonneg by lia. destruct b; [|reflexivity].
    cbn [negb andb]. symmetry. apply Z.eqb_neq. specialize (I eq_refl). apply Z.eqb_eq in I.
    rewrite Z.add_mod, I by lia. discriminate.
  Qed.
  Lemma int_step (set : Z -> D -> D) get e c (u : Mut F D) x u' t : cl_int set get e c u = Done (x, u', t) ->
    u' = set_data (set (get (data u)) (data u)) u /\ t = [].
  Proof.
    unfold cl_int, mbind, bind, mdata. destruct (in_int (get (data u))); [|discriminate]. intro E. inversion E; subst. auto.
  Qed.
  Ltac step E := let y := fresh "y" in let w := fresh "w" in let a := fresh "t" in let b := fresh "t" in let H := fresh "E" in
    unfold mbind in E; apply bind_Done in E as (y & w & a & b & H & E & ->); fold (@mbind F (CLData F)) in E.
  Lemma update_tell e c (u : Mut F D) x u' t : cl_clockUpdate e c u = Done (x, u', t) -> u' = u /\ t = [EClockUpdate].
  Proof. unfold cl_clockUpdate, mbind, bind, mctl. cbn. destruct (hasClockUpdate c); [|discriminate]. intro E. inversion E; subst. auto. Qed.
  Lemma at4_same t e c (u : Mut F D) x u' tr : cl_at4 t e c u = Done (x, u', tr) -> u' = u /\ tr = [].
  Proof. unfold cl_at4. destruct (ntrunc t); [|discriminate]. destruct (in_int z); [|discriminate]. intro E. inversion E; subst. auto. Qed.
  Lemma lock_same e c (u : Mut F D) x u' tr : cl_lock e c u = Done (x, u', tr) -> u' = u /\ tr = if hasLockPreemption c then [ELock] else [].
  Proof. unfold cl_lock, mbind, bind, mctl. cbn. destruct (hasLockPreemption c); intro E; inversion E; subst; auto. Qed.
  Lemma unlock_same e c (u : Mut F D) x u' tr : cl_unlock e c u = Done (x, u', tr) -> u' = u /\ tr = if hasUnlockPreemption c then [EUnlock] else [].
  Proof. unfold cl_unlock, mbind, bind, mctl. cbn. destruct (hasUnlockPreemption c); intro E; inversion E; subst; auto. Qed.
  Definition lock_trace (c : Ctl F) : list (Event F) := (if hasLockPreemption c then [ELock] else []) ++ (if hasUnlockPreemption c then [EUnlock] else []).
  Lemma partition_spec vr t e c u st u' tr a : matches a (data u) ->
    cl_activateModelPartition vr t e c u = Done (st, u', tr) ->
    matches (match st with OK => tick vr a | _ => a end) (data u') /\
    match st with
    | OK => exists b, (b = true \/ b = false) /\ tr = (if N.eqb vr 1001 then [] else lock_trace c) ++ (if b then [EClockUpdate] else []) /\
              (every_fifth (ticks a + 1) = true -> b = true) /\ (vr <> 1001%N -> b = every_fifth (ticks a + 1))
    | _ => locks tr = [] end.
  Proof.
    destruct u as [u1 u2 u3 u4 u5 u6 u7 u8 d]. destruct d as [iv q o n1 n2 n3 tot re inp o3]. unfold matches. cbn [data cl_t1 cl_t2 cl_t3 cl_total cl_outClock].
    intros (-> & -> & -> & -> & -> & Hn & Hf) E. pose proof (@fifth (ticks a) (ticked a) Hn Hf) as Q.
    assert (T1 : forall b, ticks (mkTally (ticks1 a + 1) (ticks2 a) (ticks3 a) b) = (ticks a + 1)%Z) by (intro; unfold ticks; cbn; lia).
    assert (T2 : forall b, ticks (mkTally (ticks1 a) (ticks2 a + 1) (ticks3 a) b) = (ticks a + 1)%Z) by (intro; unfold ticks; cbn; lia).
    assert (T3 : forall b, ticks (mkTally (ticks1 a) (ticks2 a) (ticks3 a + 1) b) = (ticks a + 1)%Z) by (intro; unfold ticks; cbn; lia).
    unfold cl_activateModelPartition, cl_var in E. unfold tick.
    destruct (N.eqb_spec vr 0) as [->|N0]; [unfold fail, mlogError, mbind, bind in E; destruct (_ && _); inversion E; subst; repeat split; auto|].
    destruct (N.eqb_spec vr 1001) as [->|N1].
    { unfold cl_partition1, cl_int, cl_at4, cl_setOut, cl_clockUpdate, mbind, bind, mdata, mmodd, mret, mctl, mtell, mub, mmod, modS, ubM, tell, ret in E. cbn in E.
      destruct (in_int (ticks1 a + 1)); [|discriminate]. cbn in E. destruct (in_int (ticks a + 1)); [|discriminate]. cbn in E.
      destruct (ntrunc t) as [z|]; [|discriminate]. cbn in E. destruct (in_int z); [|discriminate]. cbn in E.
      destruct (Z.eqb z 4); cbn in E; rewrite Q in E.
      - destruct (hasClockUpdate c); [|discriminate]. cbn in E. inversion E; subst. cbn -[ticks every_fifth Z.add]. rewrite T1.
        split; [repeat split; auto; lia|]. exists true. repeat split; auto. congruence.
      - destruct (Z.eqb q 2) eqn:Eq; cbn in E; [destruct (hasClockUpdate c); [|discriminate]|destruct (every_fifth (ticks a + 1)) eqn:E5; [destruct (hasClockUpdate c); [|discriminate]|]];
          cbn in E; inversion E; subst; cbn -[ticks every_fifth Z.add]; rewrite T1; (split; [repeat split; auto; lia|]).
        + exists true. repeat split; auto. congruence.
        + exists true. repeat split; auto; congruence.
        + exists false. repeat split; auto; congruence. }
    unfold lock_trace.
    destruct (N.eqb_spec vr 1002) as [->|N2].
    { unfold cl_partition2, cl_int, cl_lock, cl_unlock, cl_setOut, cl_clockUpdate, mbind, bind, mdata, mmodd, mret, mctl, mtell, mub, mmod, modS, ubM, tell, ret in E. cbn in E.
      destruct (hasLockPreemption c); cbn in E;
      (destruct (in_int (ticks2 a + 1)); [|discriminate]); cbn in E; (destruct (in_int (ticks a + 1)); [|discriminate]); cbn in E;
      (destruct (in_int (re + inp)); [|discriminate]); cbn in E; destruct (hasUnlockPreemption c); cbn in E; rewrite Q in E;
      (destruct (every_fifth (ticks a + 1)) eqn:E5; [destruct (hasClockUpdate c); [|discriminate]|]); cbn in E; inversion E; subst; cbn -[ticks every_fifth Z.add]; rewrite T2;
      (split; [repeat split; auto; lia|]); ((exists true; repeat split; auto; congruence) || (exists false; repeat split; auto; congruence)). }
    destruct (N.eqb_spec vr 1003) as [->|N3].
    { unfold cl_partition3, cl_int, cl_lock, cl_unlock, cl_setOut, cl_clockUpdate, mbind, bind, mdata, mmodd, mret, mctl, mtell, mub, mmod, modS, ubM, tell, ret in E. cbn in E.
      (destruct (in_int (ticks3 a + 1)); [|discriminate]); cbn in E;
      destruct (hasLockPreemption c); cbn in E; (destruct (in_int (ticks a + 1)); [|discriminate]); cbn in E;
      destruct (hasUnlockPreemption c); cbn in E; rewrite Q in E;
      (destruct (every_fifth (ticks a + 1)) eqn:E5; [destruct (hasClockUpdate c); [|discriminate]|]); cbn in E; inversion E; subst; cbn -[ticks every_fifth Z.add]; rewrite T3;
      (split; [repeat split; auto; lia|]); ((exists true; repeat split; auto; congruence) || (exists false; repeat split; auto; congruence)). }
    repeat match type of E with context [N.eqb vr ?k] => destruct (N.eqb vr k) end;
    unfold fail, mlogError, mbind, bind in E; destruct (_ && _); inversion E; subst; repeat split; auto.
  Qed.
  Definition clear (a : Tally) : Tally := mkTally (ticks1 a) (ticks2 a) (ticks3 a) false.
  Lemma matches_clear a d : matches a d -> matches (clear a) (set_cl_outClock false d).
  Proof. intros (H1 & H2 & H3 & H4 & H5 & H6 & H7). unfold matches, clear, ticks in *. cbn. repeat split; auto. discriminate. Qed.
  Lemma clear_clear a : clear (clear a) = clear a.
  Proof. reflexivity. Qed.
  Lemma clock_call env vr a i st o i' t : matches a (data (mut i)) -> call m env (cl_getClock vr) i = Done ((st, o), i', t) ->
    ctl i' = ctl i /\ (vr = 1005%N -> st = OK /\ t = [] /\ o = Some (ticked a) /\ matches (clear a) (data (mut i'))) /\ (vr <> 1005%N -> st = Error /\ o = None /\ i' = i).
  Proof.
    intros M E. unfold call, cl_getClock, mbind, bind, mdata in E. unfold cl_var in E. destruct (N.eqb_spec vr 1005) as [->|Hv].
    - cbn in E. inversion E; subst. cbn. split; [reflexivity|]. split; [|intro; congruence]. intros _. split; [reflexivity|]. split; [reflexivity|].
      split; [|now apply matches_clear]. f_equal. apply M.
    - assert (Q : st = Error /\ o = None /\ i' = i).
      { repeat match type of E with context [N.eqb vr ?k] => destruct (N.eqb vr k) end; unfold mlogError, mbind, bind, mret, mctl, mtell, tell, ret in E; cbn in E;
          destruct (_ && _) in E; inversion E; subst; destruct i; auto. }
      destruct Q as (-> & -> & ->). split; [reflexivity|]. split; [intro; contradiction|auto].
  Qed.
  Lemma clock_loop env vrs a : forall n k values st i x i' t, matches (clear a) (data (mut i)) -> getClock_loop m env vrs n k values st i = Done (x, i', t) ->
    matches (clear a) (data (mut i')).
  Proof.
    induction n as [|n IH]; intros k values st i x i' t M E; cbn [getClock_loop] in E; [inversion E; subst; exact M|].
    apply bind_Done in E as (vr & i1 & t1 & t2 & E1 & E & ->).
    assert (i1 = i). { unfold rd in E1. destruct vrs as [l|]; [destruct (nth_error l k)|]; inversion E1; auto. } subst i1.
    apply bind_Done in E as ([s o] & i2 & t3 & t4 & E2 & E & ->).
    pose proof (@clock_call _ _ _ _ _ _ _ _ M E2) as (_ & Y & Nn). rewrite clear_clear in Y.
    assert (M2 : matches (clear a) (data (mut i2))).
    { destruct (N.eq_dec vr 1005) as [Q|Q]; [apply Y, Q|]. destruct (Nn Q) as (_ & _ & ->). exact M. }
    apply bind_Done in E as (v2 & i3 & t5 & t6 & E3 & E & ->).
    assert (i3 = i2). { cbn [snd] in E3. destruct o; [|inversion E3; auto]. unfold wr in E3. destruct values as [l|]; [destruct (k <? length l)|]; inversion E3; auto. } subst i3.
    cbn [fst] in E. unfold CALLk in E. apply bind_Done in E as (s' & i4 & t7 & t8 & E4 & E & ->).
    assert (M4 : matches (clear a) (data (mut i4))). { unfold CALL in E4. destruct (smax st s); inversion E4; subst; exact M2. }
    destruct (stops s'); [inversion E; subst; exact M4|]. eapply IH; [exact M4|exact E].
  Qed.
  Notation mm := (model_of (F := F) FMI3 Clocks).
  Lemma any_mode s : reach3 mm szof s -> N.land (bit3 (mode (ctl (sinst s)))) MASK_AnyState <> 0%N.
  Proof.
    intro Re. pose proof (proj1 (reach3_observable (model_laws FMI3 Clocks) Re)) as H. unfold mode_of in H. revert H. generalize (mode (ctl (sinst s))). intros md0 H.
    cbn in H; repeat (destruct H as [<-|H]; [discriminate|]); destruct H.
  Qed.
  Lemma tally_step fuel env o s st out s' t a : reach3 mm szof s -> (forall h, o <> O3SetFMUState h) ->
    matches a (data (mut (sinst s))) -> exec3 mm szof fuel env o s = Done (st, out, s', t) ->
    matches (tally1 o st a) (data (mut (sinst s'))).
  Proof.
    intros Re Ns M E. destruct (moves o) eqn:Mv.
    - pose proof (any_mode Re) as Am. destruct o; try discriminate Mv.
      + (* Reset *) cbn [exec3] in E. rewrite outI_eq in E. unfold fmi3Reset in E. rewrite BEGIN_pass in E by exact Am.
        unfold reset, setMode in E. cbn in E. inversion E; subst. cbn. unfold matches, tally0, ticks. cbn. repeat split; try lia; discriminate.
      + (* GetClock *) cbn [exec3] in E. rewrite outI_eq in E. unfold fmi3GetClock in E. rewrite BEGIN_pass in E by exact Am.
        destruct (getClock_loop _ _ _ _ _ _ _ _) as [[[[st0 x] i'] t0]| |] eqn:G; try discriminate. injection E; intros; subst. clear E. cbn [sinst].
        destruct nvr as [|n]; [cbn in G; inversion G; subst; cbn [tally1]; destruct vrs as [[|]|]; exact M|].
        cbn [getClock_loop] in G. apply bind_Done in G as (vr & i1 & t1 & t2 & E1 & E & ->).
        destruct vrs as [[|vr0 vrs]|]; try discriminate E1. cbn in E1. inversion E1; subst. clear E1. cbn [tally1].
        apply bind_Done in E as ([s0 o] & i2 & t3 & t4 & E2 & E & ->).
        pose proof (@clock_call _ _ _ _ _ _ _ _ M E2) as (_ & Y & Nn).
        assert (M2 : matches (if (vr =? 1005)%N then clear a else a) (data (mut i2))).
        { destruct (N.eqb_spec vr 1005) as [Q|Q]; [apply Y, Q|]. destruct (Nn Q) as (_ & _ & ->). exact M. }
        apply bind_Done in E as (v2 & i3 & t5 & t6 & E3 & E & ->).
        assert (i3 = i2). { cbn [snd] in E3. destruct o; [|inversion E3; auto]. unfold wr in E3. destruct values as [l|]; [destruct (0 <? length l)|]; inversion E3; auto. } subst i3.
        cbn [fst] in E. unfold CALLk in E. apply bind_Done in E as (s'' & i4 & t7 & t8 & E4 & E & ->).
        assert (M4 : matches (if (vr =? 1005)%N then clear a else a) (data (mut i4))). { unfold CALL in E4. destruct (smax OK s0); inversion E4; subst; exact M2. }
        destruct (N.eqb_spec vr 1005) as [Q|Q].
        * destruct (stops s''); [inversion E; subst; exact M4|]. eapply clock_loop; [exact M4|exact E].
        * destruct (Nn Q) as (-> & _ & _). cbn in E4. inversion E4; subst. cbn in E. inversion E; subst. exact M4.
      + (* SetFMUState *) exfalso. eapply Ns; reflexivity.
      + (* ActivateModelPartition *) cbn [exec3] in E. rewrite outI_eq in E.
        destruct (fmi3ActivateModelPartition _ _ _ _ _) as [[[[st0 x] i'] tt0]| |] eqn:G; try discriminate. injection E; intros; subst. clear E. cbn [sinst tally1].
        unfold fmi3ActivateModelPartition in G. apply BEGIN_any in G. destruct G as [(_ & G)|(-> & _ & ->)]; [|exact M].
        apply bind_Done in G as (s0 & i1 & t1 & t2 & E1 & E & ->). unfold call in E1.
        destruct (m_activateModelPartition _ _ _ _ _ _) as [[[s1 u1] t3]| |] eqn:P; try discriminate. inversion E1; subst. clear E1.
        eapply partition_spec in P; [|exact M]. destruct P as (P & _).
        unfold CALLk in E. apply bind_Done in E as (s'' & i4 & t7 & t8 & E4 & E & ->).
        assert (Q : s'' = s0 /\ data (mut i4) = data u1). { unfold CALL in E4. destruct s0; cbn in E4; inversion E4; subst; auto. }
        destruct Q as (-> & Q). assert (K : st = s0 /\ i' = i4) by (destruct (stops s0); inversion E; auto). destruct K as (-> & ->). rewrite Q. exact P.
    - assert (Q : tally1 o st a = a) by (destruct o; try discriminate Mv; reflexivity). rewrite Q.
      pose proof (@still_step fuel env o s st out s' t Mv E) as K. unfold counts in K. injection K as K1 K2 K3 K4 K5.
      destruct M as (H1 & H2 & H3 & H4 & H5 & H6). repeat split; try (etransitivity; [eassumption|assumption]); apply H6.
  Qed.

  Lemma start_matches env c u x w t : cl_setStartValues env c u = Done (x, w, t) -> matches tally0 (data (F := F) w).
  Proof. intro E. unfold cl_setStartValues, mbind, bind, mmodd, mmod, mret, modS, ret in E. inversion E; subst. unfold matches, tally0, ticks. cbn. repeat split; try lia; discriminate. Qed.
  Lemma made_matches i : made3 mm i -> matches tally0 (data (mut i)).
  Proof.
    assert (K : forall env lg iu e n t r lo ty i tr, createModelInstance mm env lg iu e n t r lo ty = Done (Some i, tr) -> matches tally0 (data (mut i))).
    { intros env lg iu e n t r lo ty i0 tr H. apply made_init in H as (_ & _ & c & u & x & t' & [H|(w & H & ->)]); [exact (@start_matches env c u x _ t' H)|]. cbn. exact (@start_matches env c u x _ t' H). }
    intros [(env & n & t & r & b & e & l & tr & H)|[(env & n & t & r & b & ev & er & e & l & iu & tr & H)|(env & n & t & r & b & e & l & cu & lo & ul & tr & H)]].
    - unfold fmi3InstantiateModelExchange in H. destruct (m_modelExchange _); [|discriminate]. exact (K _ _ _ _ _ _ _ _ _ _ _ H).
    - unfold fmi3InstantiateCoSimulation in H. destruct (negb _ && ev); [discriminate|].
      destruct (createModelInstance _ _ _ _ _ _ _ _ _ _) as [[[j|] t0]| |] eqn:E; inversion H; subst. cbn. exact (K _ _ _ _ _ _ _ _ _ _ _ E).
    - unfold fmi3InstantiateScheduledExecution in H. destruct (m_scheduled _); [|discriminate].
      destruct (createModelInstance _ _ _ _ _ _ _ _ _ _) as [[[j|] t0]| |] eqn:E; inversion H; subst. cbn. exact (K _ _ _ _ _ _ _ _ _ _ _ E).
  Qed.
  Lemma tally_run fuel : forall l s obs s' a, reach3 mm szof s -> (forall e o i, In (e, o) l -> image3 o = Some i -> saved3 mm szof i) ->
    Forall (fun p => forall h, snd p <> O3SetFMUState h) l -> matches a (data (mut (sinst s))) -> run3 mm szof fuel l s = Done (obs, s') ->
    matches (tally l obs a) (data (mut (sinst s'))) /\ reach3 mm szof s'.
  Proof.
    induction l as [|[e o] l IH]; intros s obs s' a Re I N M E.
    - cbn in E. inversion E; subst. auto.
    - apply run_cons in E as (st & out & s1 & t & obs' & E1 & E2 & ->). inversion N; subst. cbn [tally].
      eapply IH; [| |eassumption| |exact E2].
      + eapply reach3_call; eauto. intros; eapply I; [now left|eassumption].
      + intros; eapply I; [right; eassumption|eassumption].
      + eapply tally_step; [exact Re|assumption|exact M|exact E1].
  Qed.
  Lemma tally_reads env s vr n : reach3 mm szof s -> cl_value TInt32 vr (ctl (sinst s)) (data (mut (sinst s))) = Some n -> get3 mm szof env s TInt32 vr [n].
  Proof.
    intros Re V. apply (get1_iff cl_laws szof env s TInt32 vr [n] I). split.
    - split.
      + assert (G : forall q, In q observable3 -> N.land (bit3 q) (MASK_Get TInt32) <> 0%N) by (intros q H; cbn in H; repeat (destruct H as [<-|H]; [discriminate|]); destruct H).
        apply G. exact (proj1 (reach3_observable (model_laws FMI3 Clocks) Re)).
      + destruct (dirty _); [eexists; reflexivity|discriminate].
    - unfold peek. cbn [vl_value vl_recalc cl_laws scalar_laws]. cbn. first [rewrite V; reflexivity|exact (f_equal (option_map (fun x => [x])) V)].
  Qed.
  Lemma tally_values env s a : reach3 mm szof s -> matches a (data (mut (sinst s))) ->
    get3 mm szof env s TInt32 2001 [ticks1 a] /\ get3 mm szof env s TInt32 2002 [ticks2 a] /\
    get3 mm szof env s TInt32 2003 [ticks3 a] /\ get3 mm szof env s TInt32 2004 [ticks a].
  Proof.
    intros Re (H1 & H2 & H3 & H4 & _). repeat split; apply tally_reads; auto; unfold cl_value; cbn; f_equal; assumption.
  Qed.
  Lemma tally_clock fuel env s a b : reach3 mm szof s -> matches a (data (mut (sinst s))) ->
    exists s' t, exec3 mm szof fuel env (O3GetClock (Some [1005%N]) 1 (Some [b])) s = Done (OK, OClocks (Some [ticked a]), s', t) /\
      exists s'' t', exec3 mm szof fuel env (O3GetClock (Some [1005%N]) 1 (Some [b])) s' = Done (OK, OClocks (Some [false]), s'', t').
  Proof.
    intros Re M.
    assert (K : forall i a, matches a (data (mut i)) -> N.land (bit3 (mode (ctl i))) MASK_AnyState <> 0%N ->
       exists i' t, fmi3GetClock mm env (Some [1005%N]) 1 (Some [b]) i = Done ((OK, Some [ticked a]), i', t) /\ matches (clear a) (data (mut i')) /\ N.land (bit3 (mode (ctl i'))) MASK_AnyState <> 0%N).
    { intros i a0 M0 Am. unfold fmi3GetClock. rewrite BEGIN_pass by exact Am. eexists _, _. split; [cbn|].
      - unfold bind, call, cl_getClock. cbn. destruct M0 as (_ & _ & _ & _ & <- & _). reflexivity.
      - split; [cbn; now apply matches_clear|exact Am]. }
    destruct s as [i h]. destruct (K i a M (any_mode Re)) as (i' & t & E & M' & C).
    destruct (K i' (clear a) M') as (i'' & t'' & E' & _); [exact C|].
    exists (mkSys i' h), t. split.
    - cbn [exec3]. rewrite outI_eq. cbn [sinst]. rewrite E. reflexivity.
    - exists (mkSys i'' h), t''. cbn [exec3]. rewrite outI_eq. cbn [sinst]. rewrite E'. reflexivity.
  Qed.
  Lemma activation fuel env vr time s out s' tr a : matches a (data (mut (sinst s))) ->
    exec3 mm szof fuel env (O3ActivateModelPartition vr time) s = Done (OK, out, s', tr) ->
    (vr = 1001%N \/ vr = 1002%N \/ vr = 1003%N) /\ (every_fifth (ticks a + 1) = true -> In EClockUpdate tr) /\
    (vr <> 1001%N -> In EClockUpdate tr -> every_fifth (ticks a + 1) = true).
  Proof.
    intros M E. cbn [exec3] in E. rewrite outI_eq in E.
    destruct (fmi3ActivateModelPartition _ _ _ _ _) as [[[[st0 x] i'] tt0]| |] eqn:G; try discriminate. injection E; intros; subst. clear E.
    unfold fmi3ActivateModelPartition in G. apply BEGIN_any in G. destruct G as [(_ & G)|(G & _)]; [|discriminate].
    apply bind_Done in G as (s0 & i1 & t1 & t2 & E1 & E & ->). unfold call in E1.
    destruct (m_activateModelPartition _ _ _ _ _ _) as [[[s1 u1] t3]| |] eqn:P; try discriminate. inversion E1; subst. clear E1.
    unfold CALLk in E. apply bind_Done in E as (s'' & i4 & t7 & t8 & E4 & E & ->).
    assert (Q : s'' = s0 /\ t7 = []). { unfold CALL in E4. destruct s0; cbn in E4; inversion E4; subst; auto. } destruct Q as (-> & ->).
    assert (K : s0 = OK /\ t8 = []) by (destruct (stops s0); inversion E; auto). destruct K as (-> & ->). cbn [app]. rewrite app_nil_r.
    assert (V : vr = 1001%N \/ vr = 1002%N \/ vr = 1003%N).
    { clear -P. cbn in P. unfold cl_activateModelPartition in P. unfold cl_var in P.
      destruct (N.eqb_spec vr 0); [unfold fail, mlogError, mbind, bind in P; destruct (_ && _); discriminate P|].
      destruct (N.eqb_spec vr 1001); [auto|]. destruct (N.eqb_spec vr 1002); [auto|]. destruct (N.eqb_spec vr 1003); [auto|].
      repeat match type of P with context [N.eqb vr ?k] => destruct (N.eqb vr k) end;
        unfold fail, mlogError, mbind, bind in P; destruct (_ && _) in P; discriminate P. }
    eapply partition_spec in P; [|exact M]. destruct P as (_ & b & _ & -> & B1 & B2). split; [exact V|].
    assert (L : ~ In EClockUpdate (if (vr =? 1001)%N then [] else lock_trace (ctl (sinst s)))).
    { unfold lock_trace. destruct (vr =? 1001)%N; [intros []|]. destruct (hasLockPreemption _), (hasUnlockPreemption _); cbn; intuition discriminate. }
    split.
    - intro Q. rewrite (B1 Q). apply in_or_app. right. now left.
    - intros Q I. rewrite <- (B2 Q). apply in_app_or in I as [I|I]; [contradiction|]. destruct b; [reflexivity|destruct I].
  Qed.

  (** The locks. *)
  Lemma locks_app (a b : list (Event F)) : locks (a ++ b) = locks a ++ locks b.
  Proof. unfold locks. apply flat_map_app. Qed.
  Lemma no_locks (t : list (Event F)) : Forall (fun e => e <> ELock /\ e <> EUnlock) t -> locks t = [].
  Proof. induction 1 as [|e t (A & B) _ IH]; [reflexivity|]. destruct e; try exact IH; congruence. Qed.
  Lemma partition_locks vr t e c u st u' tr : hasLockPreemption c = true -> hasUnlockPreemption c = true ->
    cl_activateModelPartition vr t e c u = Done (st, u', tr) -> locks tr = [] \/ locks tr = [true; false] /\ vr <> 1001%N.
  Proof.
    intros HL HU E. destruct u as [u1 u2 u3 u4 u5 u6 u7 u8 d]. destruct d as [iv q o n1 n2 n3 tot re inp o3].
    unfold cl_activateModelPartition, cl_var in E.
    destruct (N.eqb_spec vr 0) as [->|N0]; [unfold fail, mlogError, mbind, bind in E; destruct (_ && _); inversion E; subst; auto|].
    destruct (N.eqb_spec vr 1001) as [->|N1].
    { unfold cl_partition1, cl_int, cl_at4, cl_setOut, cl_clockUpdate, mbind, bind, mdata, mmodd, mret, mctl, mtell, mub, mmod, modS, ubM, tell, ret in E. cbn in E.
      destruct (in_int (n1 + 1)); [|discriminate]. cbn in E. destruct (in_int (tot + 1)); [|discriminate]. cbn in E.
      destruct (ntrunc t) as [z|]; [|discriminate]. cbn in E. destruct (in_int z); [|discriminate]. cbn in E.
      destruct (Z.eqb z 4); cbn in E; [|destruct (Z.eqb q 2); cbn in E; [|destruct (negb o && _); cbn in E]];
        try (destruct (hasClockUpdate c); [|discriminate]); cbn in E; inversion E; subst; cbn; auto. }
    destruct (N.eqb_spec vr 1002) as [->|N2].
    { unfold cl_partition2, cl_int, cl_lock, cl_unlock, cl_setOut, cl_clockUpdate, mbind, bind, mdata, mmodd, mret, mctl, mtell, mub, mmod, modS, ubM, tell, ret in E. cbn in E.
      rewrite HL, ?HU in E. cbn in E.
      (destruct (in_int (n2 + 1)); [|discriminate]); cbn in E; (destruct (in_int (tot + 1)); [|discriminate]); cbn in E;
      (destruct (in_int (re + inp)); [|discriminate]); cbn in E; rewrite ?HU in E; cbn in E;
      (destruct (negb o && _); [destruct (hasClockUpdate c); [|discriminate]|]); cbn in E; inversion E; subst; right; (split; [reflexivity|discriminate]). }
    destruct (N.eqb_spec vr 1003) as [->|N3].
    { unfold cl_partition3, cl_int, cl_lock, cl_unlock, cl_setOut, cl_clockUpdate, mbind, bind, mdata, mmodd, mret, mctl, mtell, mub, mmod, modS, ubM, tell, ret in E. cbn in E.
      rewrite ?HL, ?HU in E. cbn in E.
      (destruct (in_int (n3 + 1)); [|discriminate]); cbn in E; rewrite ?HL in E; cbn in E; (destruct (in_int (tot + 1)); [|discriminate]); cbn in E; rewrite ?HU in E; cbn in E;
      (destruct (negb o && _); [destruct (hasClockUpdate c); [|discriminate]|]); cbn in E; inversion E; subst; right; (split; [reflexivity|discriminate]). }
    repeat match type of E with context [N.eqb vr ?k] => destruct (N.eqb vr k) end;
    unfold fail, mlogError, mbind, bind in E; destruct (_ && _); inversion E; subst; auto.
  Qed.
  Lemma call_locks fuel env o s st out s' t : hasLockPreemption (ctl (sinst s)) = true -> hasUnlockPreemption (ctl (sinst s)) = true ->
    exec3 mm szof fuel env o s = Done (st, out, s', t) -> locks t = [] \/ locks t = [true; false].
  Proof.
    intros HL HU E.
    assert (Q : forall P : Event F -> Prop, (forall s c, P (ELog s c)) -> talks3 mm P o -> Forall P t).
    { intros P Pl Tk. exact (@exec3_says F NF mm P (@talks_all F NF FMI3 Clocks P Pl) szof fuel env o s st out s' t Tk E). }
    destruct (match o with O3ActivateModelPartition _ _ => true | _ => false end) eqn:W.
    - destruct o; try discriminate W. cbn [exec3] in E. rewrite outI_eq in E.
      destruct (fmi3ActivateModelPartition _ _ _ _ _) as [[[[st0 x] i'] tt0]| |] eqn:G; try discriminate. injection E; intros; subst. clear E.
      unfold fmi3ActivateModelPartition, BEGIN in G. apply bind_Done in G as (ok & i0 & ta & tb & Ea & G & ->).
      assert (A : locks ta = [] /\ i0 = sinst s).
      { unfold allowedState in Ea. apply bind_Done in Ea as (c & i1 & t1 & t2 & E1 & Ea & ->). inversion E1; subst. destruct (N.eqb _ _) in Ea; [|inversion Ea; subst; auto].
        apply bind_Done in Ea as (? & i2 & t3 & t4 & E2 & Ea & ->). rewrite logError_eq in E2. inversion E2; subst. inversion Ea; subst.
        split; [|reflexivity]. unfold message. destruct (_ && _); reflexivity. }
      destruct A as (A & ->). rewrite locks_app, A. cbn [app].
      assert (C : forall st0 s1 i1 x i2 t2, CALLk mm st0 s1 tt (fun st => ret (st, tt)) i1 = Done (x, i2, t2) -> locks t2 = []).
      { intros st1 s1 i1 y i2 t2 E. unfold CALLk in E. apply bind_Done in E as (? & i3 & t3 & t4 & E1 & E2 & ->).
        unfold CALL in E1. destruct (smax st1 s1); cbn in E1; inversion E1; subst; cbn in E2; inversion E2; subst; reflexivity. }
      destruct ok; [|left; unfold CALLk, CALL, setMode, modC in G; cbn in G; inversion G; reflexivity].
      apply bind_Done in G as (s0 & i1 & t1 & t2 & E1 & E & ->). unfold call in E1.
      destruct (m_activateModelPartition _ _ _ _ _ _) as [[[s1 u1] t3]| |] eqn:P; try discriminate. inversion E1; subst.
      apply partition_locks in P; [|exact HL|exact HU]. rewrite locks_app, (@C _ _ _ _ _ _ E), app_nil_r. tauto.
    - left. apply no_locks, Q; [split; discriminate|]. destruct o; try exact I; [intro; split; discriminate|discriminate W].
  Qed.
  Lemma run_locks fuel : forall l s obs s', reach3 mm szof s -> (forall e o i, In (e, o) l -> image3 o = Some i -> saved3 mm szof i) ->
    hasLockPreemption (ctl (sinst s)) = true -> hasUnlockPreemption (ctl (sinst s)) = true -> run3 mm szof fuel l s = Done (obs, s') ->
    Forall (fun ob => locks (snd ob) = [] \/ locks (snd ob) = [true; false]) obs.
  Proof.
    induction l as [|[e o] l IH]; intros s obs s' Re I HL HU E.
    - cbn in E. inversion E; subst. constructor.
    - apply run_cons in E as (st & out & s1 & t & obs' & E1 & E2 & ->). constructor; [eapply call_locks; eassumption|].
      pose proof (@exec3_identity F NF mm szof (model_laws FMI3 Clocks) fuel e o s st out s1 t (reach3_modes (model_laws FMI3 Clocks) Re) E1) as [Id _]. unfold identity in Id. injection Id as _ _ _ _ _ _ _ Il Iu.
      eapply IH; [| | | |exact E2].
      + eapply reach3_call; eauto. intros; eapply I; [now left|eassumption].
      + intros; eapply I; [right; eassumption|eassumption].
      + etransitivity; [exact Il|exact HL].
      + etransitivity; [exact Iu|exact HU].
  Qed.

  Lemma clocks_state fuel i l obs s' : made3 mm i -> (forall e o j, In (e, o) l -> image3 o = Some j -> saved3 mm szof j) ->
    Forall (fun p => forall h, snd p <> O3SetFMUState h) l -> run3 mm szof fuel l (mkSys i []) = Done (obs, s') ->
    matches (tally l obs tally0) (data (mut (sinst s'))) /\ reach3 mm szof s'.
  Proof. intros Mi I N E. eapply tally_run; [apply reach3_new, Mi|exact I|exact N|apply made_matches, Mi|exact E]. Qed.
  Lemma clocks_counters fuel env i l obs s' : made3 mm i -> (forall e o j, In (e, o) l -> image3 o = Some j -> saved3 mm szof j) ->
    Forall (fun p => forall h, snd p <> O3SetFMUState h) l -> run3 mm szof fuel l (mkSys i []) = Done (obs, s') ->
    let a := tally l obs tally0 in
    let get := get3 mm szof env s' TInt32 in
    get 2001%N [ticks1 a] /\ get 2002%N [ticks2 a] /\ get 2003%N [ticks3 a] /\ get 2004%N [ticks a].
  Proof. intros Mi I N E. destruct (clocks_state fuel Mi I N E) as (M & Re). now apply tally_values. Qed.
  Lemma clocks_output fuel env i l obs s b : made3 mm i -> (forall e o j, In (e, o) l -> image3 o = Some j -> saved3 mm szof j) ->
    Forall (fun p => forall h, snd p <> O3SetFMUState h) l -> run3 mm szof fuel l (mkSys i []) = Done (obs, s) ->
    let read := O3GetClock (Some [1005%N]) 1 (Some [b]) in
    exists s' t, exec3 mm szof fuel env read s = Done (OK, OClocks (Some [ticked (tally l obs tally0)]), s', t) /\
      exists s'' t', exec3 mm szof fuel env read s' = Done (OK, OClocks (Some [false]), s'', t').
  Proof. intros Mi I N E. destruct (clocks_state fuel Mi I N E) as (M & Re). now apply tally_clock. Qed.
  Lemma clocks_reported fuel env i l obs s vr time out s' tr : made3 mm i -> (forall e o j, In (e, o) l -> image3 o = Some j -> saved3 mm szof j) ->
    Forall (fun p => forall h, snd p <> O3SetFMUState h) l -> run3 mm szof fuel l (mkSys i []) = Done (obs, s) ->
    exec3 mm szof fuel env (O3ActivateModelPartition vr time) s = Done (OK, out, s', tr) ->
    let fifth := every_fifth (ticks (tally l obs tally0) + 1) = true in
    (vr = 1001%N \/ vr = 1002%N \/ vr = 1003%N) /\ (fifth -> In EClockUpdate tr) /\
    (vr <> 1001%N -> In EClockUpdate tr -> fifth).
  Proof. intros Mi I N E. destruct (clocks_state fuel Mi I N E) as (M & Re). now apply activation. Qed.
End Clock.
