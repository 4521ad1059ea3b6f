(** SafeAll.v -- no conforming call of a reachable instance is undefined (C26). *)
From Coq Require Import List NArith ZArith Bool Arith Lia.
From Verif Require Import Base Instance ModelIface Core Fmi3 Fmi2 Api Logic Calls Fmus SpecModes SpecHist Histories
  Sim SimSys SimSys2 SimSS SimFT SimMade Vars VarsFmus DataFmus Keeps KeepRules Flags SpecSafe Safe SafeCalls SafeApi SafeFmus.
From Verif Require Import FmuBouncingBall FmuDahlquist FmuStair FmuVanDerPol FmuRoberts
  FmuClocks FmuResource FmuStateSpace FmuFeedthrough.
Import ListNotations.
Set Implicit Arguments.

Section All.
  Context {F : Type} {NF : Num F}.

  Definition inv_all v f (l : option bytes) : Mut F (md (model_of (F := F) v f)) -> Prop :=
    match f return Mut F (md (model_of (F := F) v f)) -> Prop with
    | Stair => st_inv
    | Feedthrough => ft_inv
    | StateSpace => fun u => SimSS.shape (data u)
    | Resource => fun _ => location_fits v Resource l
    | _ => fun _ => True
    end.
  Theorem safe_all v f : SafeLaws (model_of (F := F) v f) (inv_all v f) (counter_room v f) one_value (partition_room v f).
  Proof.
    destruct f; [exact bb_safe|exact cl_safe|exact da_safe|exact (ft_safe (isFMI2 v))|exact (re_safe v)|exact ro_safe|exact st_safe|exact ss_safe|exact vp_safe].
  Qed.

  Lemma tick_eq e (c : Ctl F) (u : Mut F STData) : st_tick e c u =
    if nextEventTimeDefined u && isClose (time c) (nextEventTime u)
    then if in_int (st_counter (data u) + 1)
         then Done (tt, set_nextEventTime (nadd (nextEventTime u) (nlit 1 0)) (set_data (mkST (st_counter (data u) + 1)) u), [])
         else UB
    else Done (tt, u, []).
  Proof.
    unfold st_tick, mbind, mctl, mget, bind, ret, getS. cbv beta iota. destruct (nextEventTimeDefined u && isClose (time c) (nextEventTime u)); [|reflexivity].
    destruct (in_int (st_counter (data u) + 1)); reflexivity.
  Qed.
  Lemma st_keeps : KeepLaws (Stair_model (F := F)) (fun u u' => st_inv u -> st_inv u') True (fun _ _ => True) (fun _ => True).
  Proof.
    assert (Rr : forall u : Mut F STData, st_inv u -> st_inv u) by auto.
    assert (Rt : forall a b c : Mut F STData, (st_inv a -> st_inv b) -> (st_inv b -> st_inv c) -> st_inv a -> st_inv c) by auto.
    constructor; try exact Rr; try exact Rt.
    - intros b u H. exact H.
    - intros _ e c u x u' t E H. cbn in E. inversion E; subst. unfold st_inv. cbn. lia.
    - cbn. intros. kms Rr Rt.
    - intros t vr b n i. destruct t; cbn; kms Rr Rt.
    - intros t vr b n i _. destruct t; cbn; try solve [kms Rr Rt].
      unfold st_setInt32, nnSet. destruct b as [b|]; [|kms Rr Rt].
      apply km_bind; [exact Rt|apply km_ctl; exact Rr|intro c]. unfold thenDirty. apply km_bind; [exact Rt| |intros [[] ?]; kms Rr Rt; intro H; exact H].
      destruct (st_var vr) as [[|]|]; try solve [kms Rr Rt]. destruct (negb _); [kms Rr Rt|].
      intros e c' u x u' t E H. cbn [val] in *.
      assert (K : keepM (fun u u' => st_inv u -> st_inv u') (failSet (F := F) (D := STData) i)) by (kms Rr Rt).
      unfold mbind in E. apply bind_Done in E as (w & s1 & t1 & t2 & E1 & E2 & ->). unfold mrd, rd in E1.
      destruct (nth_error b i) as [w'|] eqn:En; [|discriminate]. inversion E1; subst. destruct (Z.leb_spec 10 w); [exact (K _ _ _ _ _ _ E2 H)|].
      unfold take1, nvalues_ok in E2. destruct (Nat.leb_spec (i + 1) n); [|exact (K _ _ _ _ _ _ E2 H)].
      unfold mbind in E2. apply bind_Done in E2 as (w2 & s2 & t3 & t4 & E3 & E4 & ->). unfold mrd, rd in E3. rewrite En in E3. inversion E3; subst.
      cbn in E4. inversion E4; subst. unfold st_inv. cbn. lia.
    - cbn. intros. kms Rr Rt.
    - cbn. intros. kms Rr Rt.
    - cbn. intros. kms Rr Rt.
    - cbn. intros. kms Rr Rt.
    - cbn. intros. kms Rr Rt.
    - cbn. intros. kms Rr Rt.
    - cbn. intros. kms Rr Rt.
    - cbn. intros. kms Rr Rt.
    - cbn. intros. kms Rr Rt.
    - cbn. intros. kms Rr Rt.
    - cbn. intros. kms Rr Rt.
    - cbn. intros. kms Rr Rt.
    - cbn. intros. kms Rr Rt.
    - cbn [m_eventUpdateF Stair_model md]. intros e c u x u' t E H.
      unfold st_eventUpdate, mbind in E. apply bind_Done in E as (w & s1 & t1 & t2 & E1 & E2 & ->). rewrite tick_eq in E1.
      assert (K : (10 < st_counter (data s1))%Z -> st_inv s1).
      { revert E1. destruct (nextEventTimeDefined u && isClose (time c) (nextEventTime u)); [destruct (in_int (st_counter (data u) + 1)); [|discriminate]|]; intro E1; inversion E1; subst; [|auto].
        unfold st_inv. cbn. intros X _. apply H. lia. }
      unfold bind, mdata in E2. cbn [fst snd] in E2. destruct (Z.ltb_spec 10 (st_counter (data s1))) as [G|G].
      + unfold fail, mbind, bind, mlogError in E2. destruct (logErrors c && hasLogger c); cbn in E2; inversion E2; subst; auto.
      + cbn in E2. inversion E2; subst. unfold st_inv. cbn. intro X. now apply Z.leb_le.
  Qed.
  Lemma stair3 v szof s : reach3 (model_of (F := F) v Stair) szof s -> st_inv (mut (sinst s)).
  Proof. apply (@inv_reach3 F NF (Stair_model (F := F)) szof st_inv st_keeps). intros b H. cbn in H. lia. Qed.
  Lemma stair2 v szof s : reach2 (model_of (F := F) v Stair) szof s -> st_inv (mut (sinst s)).
  Proof. apply (@inv_reach2 F NF (Stair_model (F := F)) szof st_inv st_keeps). intros b H. cbn in H. lia. Qed.

  Lemma inv_of v f l (i : Inst F (md (model_of (F := F) v f))) : vl_wf (vars_all v f) (data (mut i)) -> (forall E : f = Stair, st_inv (match E in _ = g return Mut F (md (model_of (F := F) v g)) with eq_refl => mut i end)) ->
    location_fits v f l -> inv_all v f l (mut i).
  Proof. destruct f; cbn; auto. intros _ H _. exact (H eq_refl). Qed.
  Theorem fine3 v f szof s : reach3 (model_of (F := F) v f) szof s -> location_fits v f (resourceLocation (ctl (sinst s))) ->
    fine_sys (model_of v f) (inv_all v f) s.
  Proof.
    intros R H. split; [|split].
    - apply inv_of; [apply (wf_reach _ _ R)| |exact H]. intro E. subst. exact (stair3 R).
    - pose proof (rel_diag True True v f R) as [[_ I] _]. exact (sr_sizes (ir_sol I)).
    - intros i Hi. pose proof (rel_saved True True v f (saved3_in i R Hi)) as [_ I]. exact (sr_sizes (ir_sol I)).
  Qed.
  Theorem fine2 v f szof s : reach2 (model_of (F := F) v f) szof s -> location_fits v f (resourceLocation (ctl (sinst s))) ->
    fine_sys (model_of v f) (inv_all v f) s.
  Proof.
    intros R H. split; [|split].
    - apply inv_of; [apply (wf_reach2 _ _ R)| |exact H]. intro E. subst. exact (stair2 R).
    - pose proof (rel_diag2 True True v f R) as [[_ I] _]. exact (sr_sizes (ir_sol I)).
    - intros i Hi. pose proof (rel_saved2 True True v f (saved2_in i R Hi)) as [_ I]. exact (sr_sizes (ir_sol I)).
  Qed.
  Theorem no_ub3 szof f fuel env o s : reach3 (model_of (F := F) FMI3 f) szof s -> callable3 s o -> within3 FMI3 f (sinst s) o ->
    exec3 (model_of FMI3 f) szof fuel env o s <> UB.
  Proof.
    intros R C [Lc Lm]. apply (exec3_safe szof (safe_all FMI3 f)); [intros t H; exact H|now apply (fine3 R)|exact C|]. destruct o; exact Lm || exact I.
  Qed.
  Theorem no_ub2 szof f fuel env o s : reach2 (model_of (F := F) FMI2 f) szof s -> callable2 s o -> within2 FMI2 f (sinst s) o ->
    exec2 (model_of FMI2 f) szof fuel env o s <> UB.
  Proof.
    intros R C [Lc Lm]. apply (exec2_safe szof (safe_all FMI2 f)); [now apply (fine2 R)|exact C|]. destruct o; exact Lm || exact I.
  Qed.
  Theorem history3 szof f fuel : forall l s, reach3 (model_of (F := F) FMI3 f) szof s -> conforming3 FMI3 f szof fuel l s ->
    run3 (model_of FMI3 f) szof fuel l s <> UB.
  Proof.
    induction l as [|[env o] l IH]; intros s R C; [discriminate|]. destruct C as (C1 & C2 & C3 & C4). unfold run3. cbn [run].
    pose proof (no_ub3 fuel env R C1 C2) as N. destruct (exec3 _ _ _ _ _ _) as [[[[st out] s'] t]| |] eqn:E; [|contradiction|discriminate].
    assert (R' : reach3 (model_of FMI3 f) szof s') by (eapply reach3_call; eauto). specialize (IH s' R' (C4 _ _ _ _ eq_refl)). unfold run3 in IH.
    destruct (run _ _ _) as [[]| |]; [discriminate|contradiction|discriminate].
  Qed.
  Theorem history2 szof f fuel : forall l s, reach2 (model_of (F := F) FMI2 f) szof s -> conforming2 FMI2 f szof fuel l s ->
    run2 (model_of FMI2 f) szof fuel l s <> UB.
  Proof.
    induction l as [|[env o] l IH]; intros s R C; [discriminate|]. destruct C as (C1 & C2 & C3 & C4). unfold run2. cbn [run].
    pose proof (no_ub2 fuel env R C1 C2) as N. destruct (exec2 _ _ _ _ _ _) as [[[[st out] s'] t]| |] eqn:E; [|contradiction|discriminate].
    assert (R' : reach2 (model_of FMI2 f) szof s') by (eapply reach2_call; eauto). specialize (IH s' R' (C4 _ _ _ _ eq_refl)). unfold run2 in IH.
    destruct (run _ _ _) as [[]| |]; [discriminate|contradiction|discriminate].
  Qed.

  Lemma create_all v f env lg iu e n t r lo ty : createModelInstance (model_of (F := F) v f) env lg iu e n t r lo ty <> UB.
  Proof.
    unfold createModelInstance. cbv zeta. destruct n as [n|]; [|discriminate].
    destruct (Nat.eqb (strlen n) 0); [discriminate|]. destruct t as [t|]; [|discriminate].
    destruct (Nat.eqb (strlen t) 0); [discriminate|]. destruct (negb _); [discriminate|].
    unfold bind, call. set (b := blank _ _ _ _ _ _ _ _). destruct f; discriminate.
  Qed.
  Theorem new3_all f env name token resource b e l :
    fmi3InstantiateModelExchange (model_of (F := F) FMI3 f) env name token resource b e l <> UB /\
    (forall ev er iu, fmi3InstantiateCoSimulation (model_of (F := F) FMI3 f) env name token resource b ev er e l iu <> UB) /\
    (forall cu lo ul, fmi3InstantiateScheduledExecution (model_of (F := F) FMI3 f) env name token resource b e l cu lo ul <> UB).
  Proof.
    split; [|split]; intros.
    - unfold fmi3InstantiateModelExchange. destruct (m_modelExchange _); [apply create_all|discriminate].
    - unfold fmi3InstantiateCoSimulation. destruct (negb _ && ev); [discriminate|].
      pose proof (@create_all FMI3 f env l iu e name token resource b) as K. specialize (K CoSimulation).
      destruct (createModelInstance _ _ _ _ _ _ _ _ _ _) as [[[j|] t0]| |]; [discriminate|discriminate|contradiction|discriminate].
    - unfold fmi3InstantiateScheduledExecution. destruct (m_scheduled _); [|discriminate].
      pose proof (@create_all FMI3 f env l false e name token resource b) as K. specialize (K ScheduledExecution).
      destruct (createModelInstance _ _ _ _ _ _ _ _ _ _) as [[[j|] t0]| |]; [discriminate|discriminate|contradiction|discriminate].
  Qed.
  Theorem new2_all f env name ty token resource e l b :
    fmi2Instantiate (model_of (F := F) FMI2 f) env name ty token resource e l b <> UB.
  Proof. unfold fmi2Instantiate. destruct l; [apply create_all|discriminate]. Qed.
End All.
