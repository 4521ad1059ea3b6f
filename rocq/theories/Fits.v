(** Fits.v -- in every reachable instance that is not in the state Terminated the arrays of the solver
    fit the model: [fit]. *)
From Coq Require Import List NArith ZArith Bool Arith Lia.
From Verif Require Import Base Instance ModelIface Core Fmi3 Fmi2 Api Fmus Logic Calls LawsFmus SpecModes Gate Debug Effect Reach Histories
  SpecCreate Sim Sim3 SimSys SimSS SimMade Sim2 SimSys2 Vars VarsFmus DataFmus Dep Keeps KeepRules KeepSol Dyn Solver
  FmuBouncingBall FmuDahlquist FmuStair FmuVanDerPol FmuRoberts FmuClocks FmuResource FmuStateSpace FmuFeedthrough.
Import ListNotations.
Set Implicit Arguments.

Section Sizing.
  Context {F : Type} {NF : Num F} (m : Model F) (szof : N).
  Notation D := (md m).
  (** What the calls that configure the solver do to its sizes. *)
  Definition configured (i k : Inst F D) : Prop :=
    (nx (sol k) = nx (sol i) \/ nx (sol k) = m_nx m (mut k)) /\
    (nz (sol k) = nz (sol i) \/ exists u, nz (sol k) = m_nz m u).
  Definition confs {X} (f : AF F D X) : Prop := forall i x k t, f i = Done (x, k, t) -> configured i k.
  (** ... and calls that change neither the sizes nor the model *)
  Definition idles {X} (f : AF F D X) : Prop := forall i x k t, f i = Done (x, k, t) -> same_sizes m i k /\ mut k = mut i.

  Lemma confs_keep X (f : AF F D X) : keep m f -> confs f.
  Proof. intros H i x k t E. destruct (H _ _ _ _ E). split; auto. Qed.
  Lemma confs_bind X Z (f : AF F D X) (g : X -> AF F D Z) : keep m f -> (forall x, confs (g x)) -> confs (bind f g).
  Proof.
    intros A B i x k t E. apply bind_Done in E as (y & j & t1 & t2 & E1 & E2 & ->).
    destruct (A _ _ _ _ E1) as [A1 A2]. destruct (B _ _ _ _ _ E2) as [B1 B2]. unfold configured. rewrite <- A1, <- A2. auto.
  Qed.
  Lemma confs_then X Z (f : AF F D X) (g : X -> AF F D Z) : confs f -> (forall x, idles (g x)) -> confs (bind f g).
  Proof.
    intros A B i x k t E. apply bind_Done in E as (y & j & t1 & t2 & E1 & E2 & ->).
    destruct (A _ _ _ _ E1) as [A1 A2]. destruct (B _ _ _ _ _ E2) as [[B1 B2] B3]. unfold configured. rewrite B1, B2, B3. auto.
  Qed.
  Lemma idles_ret X (x : X) : idles (ret x).
  Proof. intros i y k t E. inversion E; subst. split; [apply sz_refl|reflexivity]. Qed.
  Lemma idles_bind X Z (f : AF F D X) (g : X -> AF F D Z) : idles f -> (forall x, idles (g x)) -> idles (bind f g).
  Proof.
    intros A B i x k t E. apply bind_Done in E as (y & j & t1 & t2 & E1 & E2 & ->).
    destruct (A _ _ _ _ E1) as [A1 A2]. destruct (B _ _ _ _ _ E2) as [B1 B2]. split; [eapply sz_trans; eauto|congruence].
  Qed.
  Lemma idles_modC f : idles (modC m f).
  Proof. intros i y k t E. inversion E; subst. split; [split|]; reflexivity. Qed.
  Lemma idles_CALLk X st s (x : X) : idles (CALLk m st s x (fun st => ret (st, x))).
  Proof.
    unfold CALLk, CALL. apply idles_bind.
    - destruct (smax st s); try apply idles_ret; (apply idles_bind; [apply idles_modC|intro; apply idles_ret]).
    - intros []; apply idles_ret.
  Qed.
  Lemma confs_configurate env : confs (configurate m env).
  Proof.
    intros i x k t E. unfold configurate, CALLc in E. apply bind_Done in E as (s & j & t1 & t2 & E1 & E2 & ->).
    assert (A : nx (sol j) = nx (sol i) /\ (nz (sol j) = nz (sol i) \/ exists u, nz (sol j) = m_nz m u)).
    { unfold configurate_z in E1. destruct (Nat.ltb 0 (m_maxZ m)); [|inversion E1; subst; auto].
      rewrite bind_getM, bind_modSol, bind_getSol in E1. apply bind_Done in E1 as (r & j1 & t3 & t4 & E3 & E4 & ->).
      unfold call in E3. destruct (m_getEventIndicators _ _ _ _ _ _) as [[[? ?] ?]| |]; inversion E3; subst.
      destruct (snd r); [|discriminate]. rewrite bind_modSol in E4. inversion E4; subst. cbn. split; [reflexivity|]. right. eauto. }
    assert (B : (nx (sol k) = nx (sol j) \/ nx (sol k) = m_nx m (mut k)) /\ nz (sol k) = nz (sol j)).
    { destruct s; try (inversion E2; subst; auto; fail). unfold configurate_x in E2. destruct (Nat.ltb 0 (m_maxX m)).
      - unfold bind at 1 in E2. rewrite bind_getM in E2. inversion E2; subst. cbn. auto.
      - inversion E2; subst. auto. }
    destruct A as [A1 A2], B as [[B1|B1] B2]; split; rewrite ?B2; auto. left. congruence.
  Qed.
  Lemma exec3_sizing fuel env o s st out s' t : o = O3ExitInitializationMode \/ o = O3ExitConfigurationMode ->
    exec3 m szof fuel env o s = Done (st, out, s', t) -> configured (sinst s) (sinst s').
  Proof.
    intros Ho E. assert (exists (f : AF F D (Status * unit)) g, outI m f g s = Done (st, out, s', t) /\ confs f) as (f & g & E' & C).
    { destruct Ho; subst; cbn [exec3] in E; eexists _, _; (split; [exact E|]).
      - unfold fmi3ExitInitializationMode, BEGIN. apply confs_bind; [apply k_allowed|]. intros [].
        2: { intros i0 x0 k0 t0 E0. inversion E0; subst. split; left; reflexivity. }
        unfold refresh. apply confs_bind; [apply k_getM|]. intro u. destruct (dirty u).
        + apply confs_bind; [apply k_call|]. intro s0. unfold CALLk. apply confs_bind; [apply k_CALL|]. intros st'.
          destruct (stops st'); [apply confs_keep, k_ret|]. apply confs_bind; [apply k_dirty|]. intros _.
          apply confs_bind; [apply k_modC|]. intros _. apply confs_then; [apply confs_configurate|]. intro. apply idles_CALLk.
        + apply confs_bind; [apply k_modC|]. intros _. apply confs_then; [apply confs_configurate|]. intro. apply idles_CALLk.
      - unfold fmi3ExitConfigurationMode, BEGIN. apply confs_bind; [apply k_allowed|]. intros [].
        2: { intros i0 x0 k0 t0 E0. inversion E0; subst. split; left; reflexivity. }
        apply confs_bind; [apply k_modC|]. intros _. destruct (_ || _); [|apply confs_keep, k_ret].
        apply confs_then; [apply confs_configurate|]. intro. apply idles_CALLk. }
    rewrite outI_eq in E'. destruct (f (sinst s)) as [[[[st0 x] j] t0]| |] eqn:Ef; try discriminate.
    injection E'; intros; subst. cbn. eapply C; eassumption.
  Qed.
  Lemma exec2_sizing fuel env s st out s' t :
    exec2 m szof fuel env O2ExitInitializationMode s = Done (st, out, s', t) -> configured (sinst s) (sinst s').
  Proof.
    intros E. assert (exists (f : AF F D (Status * unit)) g, outI m f g s = Done (st, out, s', t) /\ confs f) as (f & g & E' & C).
    { cbn [exec2] in E; eexists _, _; (split; [exact E|]).
      unfold fmi2ExitInitializationMode, BEGIN2. apply confs_bind; [apply k_allowed2|]. intros [].
      2: { intros i0 x0 k0 t0 E0. inversion E0; subst. split; left; reflexivity. }
      unfold refresh. apply confs_bind; [apply k_getM|]. intro u. destruct (dirty u).
      + apply confs_bind; [apply k_call|]. intro s0. unfold CALLk. apply confs_bind; [apply k_CALL|]. intros st'.
        destruct (stops st'); [apply confs_keep, k_ret|]. apply confs_bind; [apply k_dirty|]. intros _.
        apply confs_bind; [apply k_modC|]. intros _. apply confs_then; [apply confs_configurate|]. intro. apply idles_CALLk.
      + apply confs_bind; [apply k_modC|]. intros _. apply confs_then; [apply confs_configurate|]. intro. apply idles_CALLk. }
    rewrite outI_eq in E'. destruct (f (sinst s)) as [[[[st0 x] j] t0]| |] eqn:Ef; try discriminate.
    injection E'; intros; subst. cbn. eapply C; eassumption.
  Qed.
  (** Restoring a state restores the sizes. *)
  Lemma set3_restores fuel env h s st out s' t :
    exec3 m szof fuel env (O3SetFMUState h) s = Done (st, out, s', t) ->
    (same_sizes m (sinst s) (sinst s') /\ mut (sinst s') = mut (sinst s) /\ mode_of s' = Terminated) \/
    exists k i, saved s k = Some i /\ same_sizes m i (sinst s') /\ mut (sinst s') = mut i /\ ctl (sinst s') = restoreCtl (ctl i) (ctl (sinst s)).
  Proof.
    cbn [exec3]. rewrite (outS_eq (m := m)). unfold fmi3SetFMUState, BEGIN3S. intro E.
    match type of E with match ?X with _ => _ end = _ => destruct X as [[[[st0 x] j] t0]| |] eqn:G end; try discriminate.
    injection E; intros; subst. apply bind_Done in G as (b & s1 & t1 & t2 & E1 & E2 & ->).
    assert (A : s1 = s).
    { unfold onInst, allowedState in E1. rewrite bind_getC in E1. destruct (N.eqb _ _).
      - rewrite bind_logError in E1. inversion E1; subst. destruct s as [[] ?]; reflexivity.
      - inversion E1; subst. destruct s as [[] ?]; reflexivity. }
    subst s1.
    assert (C : forall st x s2 y s3 t3, onInst m (CALLk m OK st tt (fun st => ret (st, tt))) s2 = Done (y, s3, t3) ->
      same_sizes m (sinst s2) (sinst s3) /\ mut (sinst s3) = mut (sinst s2) /\ (x = st -> x = OK -> s3 = s2) /\ (st = Error -> mode_of s3 = Terminated)).
    { intros st2 x2 s2 y s3 t3 G. unfold onInst in G. destruct (CALLk _ _ _ _ _ _) as [[[y' i'] t']| |] eqn:Ec; inversion G; subst.
      pose proof (@idles_CALLk unit OK st2 tt _ _ _ _ Ec) as [H1 H2]. cbn. split; [exact H1|]. split; [exact H2|]. split.
      - intros -> ->. cbn in Ec. inversion Ec; subst. destruct s2; reflexivity.
      - intros ->. cbn in Ec. inversion Ec; subst. reflexivity. }
    destruct b.
    - apply bind_Done in E2 as (r & s2 & t3 & t4 & E3 & E4 & ->).
      destruct (C r OK _ _ _ _ E4) as (H1 & H2 & H3 & H4).
      apply setFMUState_Done in E3 as [(-> & -> & G1 & G2 & _)|(k & i & -> & Hs & -> & _ & -> & G1 & G2 & G3)].
      + left. rewrite G1 in *. specialize (H4 eq_refl). auto.
      + right. exists k, i. specialize (H3 eq_refl eq_refl). subst s2. split; [exact Hs|]. split; [|auto].
        unfold restoreSol in G3. repeat match type of G3 with match ?X with _ => _ end = _ => destruct X; [|discriminate G3] end.
        injection G3 as G3. unfold same_sizes. rewrite <- G3. split; reflexivity.
    - left. destruct (C Error OK _ _ _ _ E2) as (H1 & H2 & _ & H4). auto.
  Qed.
  Lemma set2_restores fuel env h s st out s' t :
    exec2 m szof fuel env (O2SetFMUstate h) s = Done (st, out, s', t) ->
    (same_sizes m (sinst s) (sinst s') /\ mut (sinst s') = mut (sinst s)) \/
    exists k i, saved s k = Some i /\ same_sizes m i (sinst s') /\ mut (sinst s') = mut i /\ ctl (sinst s') = restoreCtl (ctl i) (ctl (sinst s)).
  Proof.
    cbn [exec2]. rewrite (outS_eq (m := m)). unfold fmi2SetFMUstate, BEGIN2S. intro E.
    match type of E with match ?X with _ => _ end = _ => destruct X as [[[[st0 x] j] t0]| |] eqn:G end; try discriminate.
    injection E; intros; subst. apply bind_Done in G as (b & s1 & t1 & t2 & E1 & E2 & ->).
    assert (A : s1 = s).
    { unfold onInst, allowedState2 in E1. rewrite bind_getC in E1. destruct (N.eqb _ _).
      - rewrite bind_logError in E1. inversion E1; subst. destruct s as [[] ?]; reflexivity.
      - inversion E1; subst. destruct s as [[] ?]; reflexivity. }
    subst s1. destruct b.
    - apply bind_Done in E2 as (r & s2 & t3 & t4 & E3 & E4 & ->). inversion E4; subst.
      apply setFMUState_Done in E3 as [(-> & -> & G1 & G2 & _)|(k & i & -> & Hs & -> & _ & -> & G1 & G2 & G3)].
      + left. rewrite G1 in *. split; [apply sz_refl|reflexivity].
      + right. exists k, i. split; [exact Hs|]. split; [|auto].
        unfold restoreSol in G3. repeat match type of G3 with match ?X with _ => _ end = _ => destruct X; [|discriminate G3] end.
        injection G3 as G3. unfold same_sizes. rewrite <- G3. split; reflexivity.
    - left. unfold onInst in E2. destruct (CALLk _ _ _ _ _ _) as [[[y' i'] t']| |] eqn:Ec; inversion E2; subst.
      exact (@idles_CALLk unit OK Error tt _ _ _ _ Ec).
  Qed.
End Sizing.

Section Fits.
  Context {F : Type} {NF : Num F} (szof : N).

  (** ** The dimensions of StateSpace are 3 in every state but Terminated. *)
  Definition dims (d : SSData F) : nat * nat * nat := (ss_m d, ss_n d, ss_r d).
  Definition dims_kept (u u' : Mut F (SSData F)) : Prop := dims (data u') = dims (data u).
  Lemma ss_keeps : @KeepLaws F NF StateSpace_model dims_kept False (fun t _ => t <> TUInt64) (fun _ => True).
  Proof.
    assert (Rr : forall u, dims_kept u u) by reflexivity.
    assert (Rt : forall a b c, dims_kept a b -> dims_kept b c -> dims_kept a c) by (unfold dims_kept; intros; congruence).
    assert (Rc : keepM dims_kept (ss_calculateValues (F := F))).
    { intros e c u x u' t E. unfold ss_calculateValues, mbind, bind, mdata in E.
      destruct (ss_calc (data u)) as [d|] eqn:Ed; [|discriminate]. inversion E; subst. unfold dims_kept. cbn.
      unfold ss_calc in Ed. repeat match type of Ed with match ?X with _ => _ end = _ => destruct X; try discriminate Ed end.
      injection Ed as <-. reflexivity. }
    constructor; try exact Rr; try exact Rt;
      cbn [m_setStartValues m_calculateValues m_get m_set m_getBinary m_setBinary m_activateClock m_getClock m_getInterval m_activateModelPartition
           m_getContinuousStates m_getNominals m_setContinuousStates m_getDerivatives m_getEventIndicators m_getOutputDerivative m_getPartialDerivative
           m_eventUpdateF StateSpace_model md]; try (intros; kms Rr Rt; fail).
    - reflexivity.
    - intros [].
    - intros t vr b n i. destruct t; try (kms Rr Rt; fail).
    - intros t vr b n i Ht. destruct t; try (kms Rr Rt; fail); try congruence.
      assert (Ta : forall v nV j k set, (forall l (d d' : SSData F), set l d = Some d' -> dims d' = dims d) -> keepM dims_kept (takearr (F := F) v nV j k set)).
      { intros v nV j k set H. intros e c u x u' t E. unfold takearr in E. destruct (nvalues_ok j k nV).
        - unfold mbind in E. apply bind_Done in E as (l & u1 & t1 & t2 & E1 & E2 & ->).
          assert (K1 : u1 = u). { revert E1. apply (@km_takel F (SSData F) (fun a b => b = a)); congruence. }
          subst u1. apply bind_Done in E2 as (d & u2 & t3 & t4 & E3 & E4 & ->). inversion E3; subst.
          destruct (set l (data u2)) as [d'|] eqn:Ed; [|discriminate]. inversion E4; subst. unfold dims_kept. cbn. eapply H; eauto.
        - revert E. assert (G : keepM dims_kept (failSet (F := F) (D := SSData F) j)) by (kms Rr Rt). apply G. }
      unfold ss_setFloat64, nnSet. destruct b as [l|]; [|kms Rr Rt].
      apply km_bind; [exact Rt|kms Rr Rt|intro c]. apply km_bind; [exact Rt|kms Rr Rt|intro d]. cbv zeta. unfold thenDirty.
      apply km_bind; [exact Rt| |intro; kms Rr Rt; reflexivity].
      destruct (ss_var vr) as [[]|]; try (kms Rr Rt; fail); try (destruct (negb _); [kms Rr Rt|]);
        apply Ta; intros l0 d0 d1 E;
        (match type of E with option_map _ ?X = _ => destruct X; [|discriminate E] end); injection E as <-; reflexivity.
    - intros x n. unfold ss_setContinuousStates. kms Rr Rt; reflexivity.
    - unfold ss_eventUpdate. kms Rr Rt; reflexivity.
  Qed.

  Definition NX (f : FMU) : nat :=
    match f with BouncingBall | Roberts | VanDerPol => 2 | Dahlquist => 1 | StateSpace => 3 | _ => 0 end.
  Definition NZ (f : FMU) : nat := match f with BouncingBall => 1 | Roberts => 2 | _ => 0 end.
  Definition ss_dims (v : Version) (f : FMU) : md (model_of (F := F) v f) -> nat * nat * nat :=
    match f return md (model_of v f) -> _ with StateSpace => dims | _ => fun _ => (3, 3, 3) end.

  Definition sized_inv v f (i : Inst F (md (model_of (F := F) v f))) : Prop :=
    (nx (sol i) = 0 \/ nx (sol i) = NX f) /\ (nz (sol i) = 0 \/ nz (sol i) = NZ f) /\
    (mode (ctl i) <> Terminated -> ss_dims v f (data (mut i)) = (3, 3, 3)).

  Lemma nx_dims v f (u : Mut F (md (model_of (F := F) v f))) : ss_dims v f (data u) = (3, 3, 3) -> m_nx (model_of v f) u = NX f.
  Proof. destruct f; try reflexivity. cbn. unfold dims. congruence. Qed.
  Lemma nz_dims v f (u : Mut F (md (model_of (F := F) v f))) : m_nz (model_of v f) u = NZ f.
  Proof. destruct f; reflexivity. Qed.

  Lemma made_init (m : Model F) env lg iu e n t r lo ty i tr : createModelInstance m env lg iu e n t r lo ty = Done (Some i, tr) ->
    nx (sol i) = 0 /\ nz (sol i) = 0 /\ exists c u x t', m_setStartValues m env c u = Done (x, mut i, t') \/
      exists w, m_setStartValues m env c u = Done (x, w, t') /\ mut i = set_dirty true w.
  Proof.
    unfold createModelInstance. destruct n as [n|]; [|discriminate].
    destruct (Nat.eqb (strlen n) 0); [discriminate|]. destruct t as [t|]; [|discriminate].
    destruct (Nat.eqb (strlen t) 0); [discriminate|]. destruct (negb (streq t (m_token m))); [discriminate|].
    unfold bind, call. destruct (m_setStartValues m env _ _) as [[[x u] t1]| |] eqn:E; try discriminate. cbn.
    intro H; inversion H; subst; cbn. split; [reflexivity|]. split; [reflexivity|]. eexists _, _, _, _. right. eauto.
  Qed.
  Lemma start_dims v f env c u x w t : m_setStartValues (model_of (F := F) v f) env c u = Done (x, w, t) -> ss_dims v f (data w) = (3, 3, 3).
  Proof.
    destruct f; try reflexivity. intro E. cbn [ss_dims]. unfold dims. cbn in E. unfold ss_setStartValues, mbind, bind, mmodd, mmod, mret, modS, ret in E.
    inversion E; subst. reflexivity.
  Qed.
  Lemma sized_new v f env lg iu e n t r lo ty i tr : createModelInstance (model_of v f) env lg iu e n t r lo ty = Done (Some i, tr) ->
    nx (sol i) = 0 /\ nz (sol i) = 0 /\ ss_dims v f (data (mut i)) = (3, 3, 3).
  Proof.
    intro E. apply made_init in E as (H1 & H2 & c & u & x & t' & H). split; [auto|]. split; [auto|].
    destruct H as [H|(w & H & ->)]; apply start_dims in H; exact H.
  Qed.
  Lemma sized_made v f i : made3 (model_of (F := F) v f) i -> sized_inv v f i.
  Proof.
    intros [(env & n & t & r & b & e & l & tr & H)|[(env & n & t & r & b & ev & er & e & l & iu & tr & H)
      |(env & n & t & r & b & e & l & cu & lo & ul & tr & H)]].
    - unfold fmi3InstantiateModelExchange in H. destruct (m_modelExchange _); [|discriminate].
      apply sized_new in H as (A & B & C). split; auto.
    - unfold fmi3InstantiateCoSimulation in H. destruct (negb _ && ev); [discriminate|].
      destruct (createModelInstance _ _ _ _ _ _ _ _ _ _) as [[[j|] t0]| |] eqn:E; inversion H; subst.
      apply sized_new in E as (A & B & C). split; [left; exact A|]. split; [left; exact B|]. intros _. exact C.
    - unfold fmi3InstantiateScheduledExecution in H. destruct (m_scheduled _); [|discriminate].
      destruct (createModelInstance _ _ _ _ _ _ _ _ _ _) as [[[j|] t0]| |] eqn:E; inversion H; subst.
      apply sized_new in E as (A & B & C). split; [left; exact A|]. split; [left; exact B|]. intros _. exact C.
  Qed.
  Lemma sized_made2 v f i : made2 (model_of (F := F) v f) i -> sized_inv v f i.
  Proof.
    intros (env & n & ty & t & r & e & l & b & tr & H). unfold fmi2Instantiate in H.
    destruct l; [|discriminate]. apply sized_new in H as (A & B & C). split; auto.
  Qed.

  Lemma sized_configured v f i k : sized_inv v f i -> configured (model_of (F := F) v f) i k ->
    (mode (ctl k) <> Terminated -> ss_dims v f (data (mut k)) = (3, 3, 3)) ->
    (nx (sol k) = m_nx (model_of v f) (mut k) -> nx (sol k) = nx (sol i) \/ nx (sol k) = NX f) -> sized_inv v f k.
  Proof.
    intros (A & B & C) [P Q] K G. split; [|split; [|exact K]].
    - destruct P as [->|P]; [exact A|]. destruct (G P) as [->| ->]; auto.
    - destruct Q as [->|[u ->]]; [exact B|]. right. apply nz_dims.
  Qed.

  (** The dimensions after a call. *)
  Lemma reset_dims v f env i x k t : reset (model_of (F := F) v f) env i = Done (x, k, t) -> ss_dims v f (data (mut k)) = (3, 3, 3).
  Proof.
    unfold reset, setMode. rewrite !bind_modC. intro E. apply bind_Done in E as (y & j & t1 & t2 & E1 & E2 & ->).
    unfold call in E1. destruct (m_setStartValues _ _ _ _) as [[[a w] t3]| |] eqn:Es; inversion E1; subst.
    rewrite bind_modM in E2. inversion E2; subst. cbn. eapply start_dims; exact Es.
  Qed.
  Lemma ss_dims_exec3 fuel env o s st out s' t : reach3 (model_of (F := F) FMI3 StateSpace) szof s ->
    (forall h, o <> O3SetFMUState h) ->
    exec3 (model_of FMI3 StateSpace) szof fuel env o s = Done (st, out, s', t) ->
    (mode_of s <> Terminated -> dims (data (mut (sinst s))) = (3, 3, 3)) -> mode_of s' <> Terminated -> dims (data (mut (sinst s'))) = (3, 3, 3).
  Proof.
    intros R Ns E H H'.
    assert (M : o = O3Reset \/ mode_of s <> Terminated).
    { destruct (@exec3_edge _ _ _ szof (@model_laws F NF FMI3 StateSpace) _ _ _ _ _ _ _ _ R E) as [G|[G|[G|G]]].
      - right. congruence.
      - contradiction.
      - right. intro K. rewrite K in G. cbn in G. intuition discriminate.
      - destruct o; try discriminate G; [left; reflexivity|]. exfalso. eapply Ns; reflexivity. }
    assert (Dr : o = O3Reset -> dims (data (mut (sinst s'))) = (3, 3, 3)).
    { intros ->. cbn [exec3] in E. rewrite outI_eq in E. destruct (fmi3Reset _ _ _) as [[[[st0 x] j] t0]| |] eqn:Ef; try discriminate.
      injection E; intros; subst. cbn [sinst]. unfold fmi3Reset in Ef.
      rewrite BEGIN_pass in Ef by (apply any3; exact (@reach3_modes _ _ _ szof (@model_laws F NF FMI3 StateSpace) _ R)).
      apply bind_Done in Ef as (s0 & j1 & t1 & t2 & E1 & E2 & _).
      apply (@reset_dims FMI3 StateSpace) in E1. cbn [ss_dims] in E1.
      destruct (@idles_CALLk _ _ _ _ _ _ _ _ _ _ E2) as [_ K]. cbn [md model_of StateSpace_model] in *. rewrite K. exact E1. }
    destruct M as [->|M]; [auto|]. specialize (H M).
    assert (Hc : calm3 False (fun t _ => t <> TUInt64) (fun _ => True) o -> dims (data (mut (sinst s'))) = (3, 3, 3)).
    { intro C. pose proof (exec3_keeps ss_keeps szof fuel env o s C E) as K. unfold dims_kept in K. cbn [md model_of StateSpace_model] in *. congruence. }
    assert (Re : st <> Error \/ o = O3NotImplemented \/ exists a b c d, o = O3GetOutputDerivatives a b c d).
    { destruct (@exec3_mode _ _ _ szof (@model_laws F NF FMI3 StateSpace) _ _ _ _ _ _ _ _ (@reach3_modes _ _ _ szof (@model_laws F NF FMI3 StateSpace) _ R) E) as [(-> & _)|(_ & [K|(_ & [K|(_ & _ & K)])])]; auto; try contradiction. left; discriminate. }
    destruct o; try (apply Hc; cbn [calm3]; tauto); try (now apply Dr).
    - destruct t0; try (apply Hc; cbn [calm3]; destruct vrs; [|exact I]; apply Forall_forall; intros; discriminate).
      destruct vrs as [vrs|]; [|apply Hc; exact I]. destruct nvr as [|nvr]; [apply Hc; constructor|].
      destruct Re as [Re|[Re|(a & b & c & d & Re)]]; try discriminate Re. exfalso. apply Re.
      destruct values as [l|]; [exact (@structural_refused _ _ szof env fuel s vrs (S nvr) l nValues st out s' t R ltac:(discriminate) E)|].
      cbn [exec3] in E. rewrite outI_eq in E. destruct (fmi3Set _ _ _ _ _ _ _ _) as [[[[st0 x] j] t1]| |] eqn:Ef; try discriminate.
      injection E; intros; subst. unfold fmi3Set, BEGIN in Ef. apply bind_Done in Ef as (b & i1 & t2 & t3 & _ & E2 & _).
      destruct b; [|inversion E2; reflexivity]. change (Nat.eqb (S nvr) 0) with false in E2. cbv iota in E2.
      unfold ASSERT_NOT_NULL in E2. apply bind_Done in E2 as ([s2 k2] & i2 & t4 & t5 & E3 & E4 & _).
      destruct vrs as [|vr vrs]; [discriminate E3|].
      assert (K : s2 = Error).
      { cbn [set_loop] in E3. apply bind_Done in E3 as ([s3 k3] & i3 & t6 & t7 & E5 & E6 & _).
        assert (s3 = Error).
        { unfold call in E5. cbn [m_set model_of StateSpace_model] in E5. unfold ss_setUInt64, nnSet in E5.
          unfold failSet, mbind, bind, mlogError in E5. destruct (_ && _) in E5; inversion E5; reflexivity. }
        subst s3. inversion E6; reflexivity. }
      subst s2. inversion E4; reflexivity.
    - apply Hc. cbn [calm3]. destruct vrs; [apply Forall_forall; auto|exact I].
    - exfalso. eapply Ns; reflexivity.
  Qed.


  Theorem sized_reach f s : reach3 (model_of (F := F) FMI3 f) szof s -> sized_inv FMI3 f (sinst s).
  Proof.
    intro R.
    enough (G : sized_inv FMI3 f (sinst s) /\ all_saved (model_of FMI3 f) (sized_inv FMI3 f) s) by exact (proj1 G).
    apply (@reach3_mut _ _ (model_of FMI3 f) szof (fun s => sized_inv FMI3 f (sinst s) /\ all_saved (model_of FMI3 f) (sized_inv FMI3 f) s) (sized_inv FMI3 f)); auto.
    - intros i Hi. split; [now apply sized_made|]. intros j [].
    - intros s0 fuel env o st out s' t R0 [P0 A0] _ HI E. split.
      2:{ intros i Hi. pose proof (@exec3_heap _ _ (model_of FMI3 f) szof env fuel o s0 st out s' t E i Hi) as [H1|[H1|H1]].
          + now apply A0.
          + subst; auto.
          + now apply HI. }
      destruct P0 as (PX & PZ & PD).
      assert (Dn : (forall h, o <> O3SetFMUState h) -> mode_of s' <> Terminated -> ss_dims FMI3 f (data (mut (sinst s'))) = (3, 3, 3)).
      { destruct f; try reflexivity. intros Hn. exact (@ss_dims_exec3 fuel env o s0 st out s' t R0 Hn E PD). }
      assert (Cs : (exists h, o = O3SetFMUState h) \/ (o = O3ExitInitializationMode \/ o = O3ExitConfigurationMode) \/ ~ sizing3 (model_of FMI3 f) o).
      { destruct o; cbn [sizing3]; eauto. }
      destruct Cs as [(h & ->)|[Cs|Cs]].
      + apply set3_restores in E as [((E1 & E2) & E3 & E4)|(k & i & Hs & (E1 & E2) & E3 & E4)].
        * unfold sized_inv. rewrite E1, E2, E3. split; [exact PX|]. split; [exact PZ|]. intro K. contradiction.
        * assert (Hi : In (Some i) (heap s0)) by (unfold saved in Hs; destruct (nth_error (heap s0) k) as [[]|] eqn:En; inversion Hs; subst; eapply nth_error_In; exact En). destruct (A0 _ Hi) as (QX & QZ & QD). unfold sized_inv. rewrite E1, E2, E3, E4.
          split; [exact QX|]. split; [exact QZ|]. exact QD.
      + assert (Hn : forall h, o <> O3SetFMUState h) by (intro; destruct Cs; subst; discriminate). specialize (Dn Hn).
        pose proof (@exec3_sizing _ _ _ szof fuel env o s0 st out s' t Cs E) as K. split; [|split; [|exact Dn]].
        * destruct K as [[->|K] _]; [exact PX|].
          destruct f; try (right; rewrite K; reflexivity).
          destruct (mode_dec (mode_of s0) Terminated) as [Ht|Ht].
          -- rewrite (@gate3 _ _ (model_of FMI3 StateSpace) szof fuel env o s0) in E.
             ++ injection E; intros; subst. exact PX.
             ++ destruct Cs; subst; discriminate.
             ++ rewrite Ht. cbn; tauto.
             ++ rewrite Ht. destruct Cs; subst; cbn; intuition discriminate.
          -- right. rewrite K. cbn [m_nx model_of StateSpace_model NX].
             assert (C : calm3 False (fun t _ => t <> TUInt64) (fun _ => True) o) by (destruct Cs; subst; exact I).
             pose proof (exec3_keeps ss_keeps szof fuel env o s0 C E) as K2. unfold dims_kept in K2.
             specialize (PD Ht). cbn [ss_dims] in PD. cbn [md model_of StateSpace_model] in *. rewrite PD in K2. unfold dims in K2. congruence.
        * destruct K as [_ [->|[u ->]]]; [exact PZ|]. right. apply nz_dims.
      + assert (Hn : forall h, o <> O3SetFMUState h) by (intros h ->; apply Cs; exact I). specialize (Dn Hn).
        destruct (@exec3_sizes _ _ _ szof fuel env o s0 st out s' t Cs E) as [K1 K2]. unfold sized_inv. rewrite K1, K2. auto.
    - intros s0 i _ [_ A] Hi. now apply A.
  Qed.
  Theorem sized_reach2 f s : f <> StateSpace -> reach2 (model_of (F := F) FMI2 f) szof s -> sized_inv FMI2 f (sinst s).
  Proof.
    intros Nf R.
    assert (Dn : forall d, ss_dims FMI2 f d = (3, 3, 3)) by (destruct f; reflexivity || contradiction).
    apply (@reach2_inv _ _ (model_of FMI2 f) szof (sized_inv FMI2 f)); auto.
    - apply sized_made2.
    - clear s R. intros s0 fuel env o st out s' t (PX & PZ & PD) A0 E.
      assert (Cs : (exists h, o = O2SetFMUstate h) \/ o = O2ExitInitializationMode \/ ~ sizing2 (model_of FMI2 f) o).
      { destruct o; cbn [sizing2]; eauto. }
      destruct Cs as [(h & ->)|[->|Cs]].
      + apply set2_restores in E as [((E1 & E2) & E3)|(k & i & Hs & (E1 & E2) & E3 & E4)].
        * unfold sized_inv. rewrite E1, E2. auto.
        * assert (Hi : In (Some i) (heap s0)) by (unfold saved in Hs; destruct (nth_error (heap s0) k) as [[]|] eqn:En; inversion Hs; subst; eapply nth_error_In; exact En).
          destruct (A0 _ Hi) as (QX & QZ & QD). unfold sized_inv. rewrite E1, E2. auto.
      + apply exec2_sizing in E as [[K|K] G]; (split; [|split; [|auto]]).
        * rewrite K. exact PX.
        * destruct G as [->|[u ->]]; [exact PZ|]. right. apply nz_dims.
        * right. rewrite K. now apply nx_dims.
        * destruct G as [->|[u ->]]; [exact PZ|]. right. apply nz_dims.
      + destruct (@exec2_sizes _ _ _ szof fuel env o s0 st out s' t Cs E) as [K1 K2]. unfold sized_inv. rewrite K1, K2. auto.
  Qed.

  Lemma dyn_nx v f (d : md (model_of (F := F) v f)) : vl_wf (vars_all v f) d -> ss_dims v f d = (3, 3, 3) -> length (dy_x (dyn_all v f) d) = NX f.
  Proof. destruct f; try reflexivity. intros W E. cbn. rewrite ss_x_length by exact W. cbn [ss_dims] in E. unfold dims in E. congruence. Qed.
  Lemma dyn_nz v f (d : md (model_of (F := F) v f)) : length (dy_z (dyn_all v f) d) = NZ f.
  Proof. destruct f; reflexivity. Qed.
  Lemma wf_dyn_of v f (d : md (model_of (F := F) v f)) : vl_wf (vars_all v f) d -> wf_dyn v f d.
  Proof. destruct f; try (intros; exact I). intro W. exact W. Qed.

  Theorem fit_reach f s : reach3 (model_of (F := F) FMI3 f) szof s -> mode_of s <> Terminated -> fit (dyn_all FMI3 f) (sinst s).
  Proof.
    intros R M. destruct (sized_reach f R) as (PX & PZ & PD). specialize (PD M). pose proof (wf_reach FMI3 f R) as W.
    pose proof (rel_diag True True FMI3 f R) as [[_ H] _]. constructor.
    - now apply wf_dyn_of.
    - exact (sr_sizes (ir_sol H)).
    - rewrite dyn_nx by assumption. exact PX.
    - rewrite dyn_nz. exact PZ.
  Qed.
  Theorem fit_reach2 f s : f <> StateSpace -> reach2 (model_of (F := F) FMI2 f) szof s -> fit (dyn_all FMI2 f) (sinst s).
  Proof.
    intros Nf R. destruct (sized_reach2 Nf R) as (PX & PZ & PD). pose proof (wf_reach2 FMI2 f R) as W.
    assert (Dn : forall d, ss_dims FMI2 f d = (3, 3, 3)) by (destruct f; reflexivity || contradiction).
    pose proof (rel_diag2 True True FMI2 f R) as [[_ H] _]. constructor.
    - now apply wf_dyn_of.
    - exact (sr_sizes (ir_sol H)).
    - rewrite dyn_nx by auto. exact PX.
    - rewrite dyn_nz. exact PZ.
  Qed.
End Fits.
