(** Flags.v -- the flags of the event handling that no FMU raises keep their initial values
    (used for C16). *)
From Coq Require Import List NArith ZArith Bool Arith Lia.
From Verif Require Import Base Instance ModelIface Core Fmi3 Fmi2 Api Fmus Logic Calls SpecModes Reach Histories
  Keeps KeepRules Dyn Solver Fits
  FmuBouncingBall FmuDahlquist FmuStair FmuVanDerPol FmuRoberts FmuClocks FmuResource FmuStateSpace FmuFeedthrough.
Import ListNotations.
Set Implicit Arguments.

Section Inv.
  Context {F : Type} {NF : Num F} (m : Model F) (szof : N) (J : Mut F (md m) -> Prop).
  Notation D := (md m).
  Hypothesis L : KeepLaws m (fun u u' => J u -> J u') True (fun _ _ => True) (fun _ => True).
  Hypothesis J0 : forall b, J (mkMut false false false false false nzero false b (md0 m)).

  Lemma all_true T (Q : T -> Prop) (l : list T) : (forall x, Q x) -> Forall Q l.
  Proof. intro H. apply Forall_forall. auto. Qed.
  Lemma inv_exec3 fuel env o s st out s' t : (forall h, o <> O3SetFMUState h) -> J (mut (sinst s)) ->
    exec3 m szof fuel env o s = Done (st, out, s', t) -> J (mut (sinst s')).
  Proof.
    intros N H E. refine (exec3_keeps L szof fuel env o s _ E H).
    destruct o; cbn; auto; try (destruct vrs; auto; now apply all_true). now apply (N h).
  Qed.
  Lemma inv_exec2 fuel env o s st out s' t : (forall h, o <> O2SetFMUstate h) -> J (mut (sinst s)) ->
    exec2 m szof fuel env o s = Done (st, out, s', t) -> J (mut (sinst s')).
  Proof.
    intros N H E. refine (exec2_keeps L szof fuel env o s _ E H).
    destruct o; cbn; auto; try (destruct vrs; auto; now apply all_true). now apply (N h).
  Qed.
  Lemma inv_create env lg iu e n t r lo ty i tr : createModelInstance m env lg iu e n t r lo ty = Done (Some i, tr) -> J (mut i).
  Proof.
    unfold createModelInstance. destruct n as [n|]; [|discriminate].
    destruct (Nat.eqb (strlen n) 0); [discriminate|]. destruct t as [t|]; [|discriminate].
    destruct (Nat.eqb (strlen t) 0); [discriminate|]. destruct (negb (streq t (m_token m))); [discriminate|].
    unfold bind, call. destruct (m_setStartValues m env _ _) as [[[x u] t1]| |] eqn:E; try discriminate. cbn.
    intro H; inversion H; subst; cbn. apply (kp_dirty L). eapply (kp_start L Logic.I); [exact E|]. apply J0.
  Qed.
  Lemma inv_made3 i : made3 m i -> J (mut i).
  Proof.
    intros [(env & n & t & r & b & e & l & tr & H)|[(env & n & t & r & b & ev & er & e & l & iu & tr & H)
      |(env & n & t & r & b & e & l & cu & lo & ul & tr & H)]].
    - unfold fmi3InstantiateModelExchange in H. destruct (m_modelExchange _); [|discriminate].
      eapply inv_create; exact H.
    - unfold fmi3InstantiateCoSimulation in H. destruct (negb _ && ev); [discriminate|].
      destruct (createModelInstance _ _ _ _ _ _ _ _ _ _) as [[[j|] t0]| |] eqn:E; inversion H; subst.
      cbn. eapply inv_create; exact E.
    - unfold fmi3InstantiateScheduledExecution in H. destruct (m_scheduled _); [|discriminate].
      destruct (createModelInstance _ _ _ _ _ _ _ _ _ _) as [[[j|] t0]| |] eqn:E; inversion H; subst.
      cbn. eapply inv_create; exact E.
  Qed.
  Lemma inv_made2 i : made2 m i -> J (mut i).
  Proof.
    intros (env & n & ty & t & r & e & l & b & tr & H). unfold fmi2Instantiate in H.
    destruct l; [|discriminate]. eapply inv_create; exact H.
  Qed.
  Lemma saved_in (s : Sys F D) k i : saved s k = Some i -> In (Some i) (heap s).
  Proof.
    unfold saved. destruct (nth_error (heap s) k) as [[]|] eqn:En; intro H; inversion H; subst. eapply nth_error_In; exact En.
  Qed.
  Theorem inv_reach3 s : reach3 m szof s -> J (mut (sinst s)).
  Proof.
    intro R. apply (@reach3_inv _ _ m szof (fun i => J (mut i)) inv_made3); [|exact R].
    intros s0 fuel env o st out s' t H A E.
    assert (C : (exists h, o = O3SetFMUState h) \/ forall h, o <> O3SetFMUState h) by (destruct o; eauto; right; discriminate).
    destruct C as [[h ->]|C]; [|eapply inv_exec3; eauto].
    apply set3_restores in E as [(_ & -> & _)|(k & i & Hs & _ & -> & _)]; [exact H|].
    apply (A i). eapply saved_in; eauto.
  Qed.
  Theorem inv_reach2 s : reach2 m szof s -> J (mut (sinst s)).
  Proof.
    intro R. apply (@reach2_inv _ _ m szof (fun i => J (mut i)) inv_made2); [|exact R].
    intros s0 fuel env o st out s' t H A E.
    assert (C : (exists h, o = O2SetFMUstate h) \/ forall h, o <> O2SetFMUstate h) by (destruct o; eauto; right; discriminate).
    destruct C as [[h ->]|C]; [|eapply inv_exec2; eauto].
    apply set2_restores in E as [(_ & ->)|(k & i & Hs & _ & -> & _)]; [exact H|].
    apply (A i). eapply saved_in; eauto.
  Qed.
End Inv.

Section Flags.
  Context {F : Type} {NF : Num F} (szof : N).

  Definition idle {D} (u : Mut F D) : Prop :=
    newDiscreteStatesNeeded u = false /\ nominalsChanged u = false /\ clocksTicked u = false.
  Definition quiet {D} (u : Mut F D) : Prop :=
    idle u /\ terminateSimulation u = false /\ nextEventTimeDefined u = false /\ nextEventTime u = nzero.
  Definition calmU {D} (u : Mut F D) : Prop := quiet u /\ valuesChanged u = false.
  Definition calmST (u : Mut F STData) : Prop := idle u /\ valuesChanged u = false.
  Definition quietRO (u : Mut F (ROData F)) : Prop :=
    calmU u /\ ro_g1 (data u) = nzero /\ ro_g2 (data u) = nzero.

  Definition flags v f : Mut F (md (model_of (F := F) v f)) -> Prop :=
    match f return Mut F (md (model_of (F := F) v f)) -> Prop with
    | BouncingBall => @quiet _
    | Stair => calmST
    | Roberts => quietRO
    | _ => @calmU _
    end.

  Ltac fields := cbn [m_setStartValues m_calculateValues m_get m_set m_getBinary m_setBinary m_activateClock m_getClock m_getInterval m_activateModelPartition
           m_getContinuousStates m_getNominals m_setContinuousStates m_getDerivatives m_getEventIndicators m_getOutputDerivative m_getPartialDerivative
           m_eventUpdateF md BouncingBall_model Clocks_model Dahlquist_model Feedthrough_model Resource_model Roberts_model
           Stair_model StateSpace_model VanDerPol_model].
  Ltac flag_leaf := unfold quietRO, calmU, calmST, quiet, idle; cbn; intuition (auto; fail).
  Lemma ro_leaf (u : Mut F (ROData F)) : quietRO u -> quietRO (set_data (ro_calc (data u)) u).
  Proof. destruct u as [? ? ? ? ? ? ? ? [[] ? ? ? ? ? ? ? ?]]; flag_leaf. Qed.
  Lemma flags_keep v f : KeepLaws (model_of (F := F) v f) (fun u u' => flags v f u -> flags v f u') True (fun _ _ => True) (fun _ => True).
  Proof.
    assert (Rr : forall u, flags v f u -> flags v f u) by auto.
    assert (Rt : forall a b c, (flags v f a -> flags v f b) -> (flags v f b -> flags v f c) -> flags v f a -> flags v f c) by auto.
    destruct f; cbn [flags model_of] in *; constructor; try exact Rr; try exact Rt; fields;
      try (intros; kms Rr Rt; flag_leaf; fail);
      try (intros t vr b n i; match type of t with VType => destruct t end; try (intros; kms Rr Rt; flag_leaf; fail)).
    all: intros; kms Rr Rt; try flag_leaf; apply ro_leaf.
  Qed.

  Lemma flags_blank v f b : flags v f (mkMut false false false false false nzero false b (md0 (model_of (F := F) v f))).
  Proof. destruct f; cbn; unfold quietRO, calmU, calmST, quiet, idle; cbn; intuition auto. Qed.
  Theorem flags_reach3 v f s : reach3 (model_of (F := F) v f) szof s -> flags v f (mut (sinst s)).
  Proof. apply inv_reach3; [apply flags_keep|apply flags_blank]. Qed.
  Theorem flags_reach2 v f s : reach2 (model_of (F := F) v f) szof s -> flags v f (mut (sinst s)).
  Proof. apply inv_reach2; [apply flags_keep|apply flags_blank]. Qed.
End Flags.
