(** Saves.v -- saved states stay as they are, and restoring one gives back the instance. *)
From Coq Require Import List NArith ZArith Bool Arith Lia.
From Verif Require Import Base Instance ModelIface Core Fmi3 Fmi2 Api Fmus Logic SpecModes Gate Effect Reach Calls
  LawsFmus SpecHist Histories Sim Sim3 SpecState SimSys Sim2 SimSys2 SimMade.
Import ListNotations.
Set Implicit Arguments.

Section Heap.
  Context {F : Type} {NF : Num F} (m : Model F) (szof : N).
  Notation D := (md m).

  Lemma nth_upd {T} (l : list T) h k v : h <> k -> nth_error (upd l h v) k = nth_error l k.
  Proof.
    revert h k. induction l; intros [|h] [|k] H; cbn; try reflexivity; try congruence. apply IHl. congruence.
  Qed.
  Lemma nth_app {T} (l : list T) k x v : nth_error l k = Some v -> nth_error (l ++ [x]) k = Some v.
  Proof. intro H. rewrite nth_error_app1; auto. apply nth_error_Some. congruence. Qed.
  Lemma length_upd {T} (l : list T) k v : length (upd l k v) = length l.
  Proof. revert k. induction l; intros [|k]; cbn; auto. Qed.

  (** The cell [k] is the same. *)
  Definition keeps (k : nat) (s s' : Sys F D) : Prop :=
    forall i, saved s k = Some i -> saved s' k = Some i.
  Lemma keeps_eq k s s' : heap s' = heap s -> keeps k s s'.
  Proof. intros E i. unfold saved. now rewrite E. Qed.
  Lemma keeps_upd k h v i s : h <> k -> keeps k s (mkSys i (upd (heap s) h v)).
  Proof. intros H j. unfold saved. cbn. now rewrite nth_upd. Qed.
  Lemma keeps_app k v i s : keeps k s (mkSys i (heap s ++ [v])).
  Proof.
    intro j. unfold saved. cbn. destruct (nth_error (heap s) k) as [[x|]|] eqn:E; try discriminate.
    intro H. now rewrite (nth_app _ _ _ E).
  Qed.

  Lemma get_keeps p h s h' s' t k : (forall a, h = Some a -> a <> k) ->
    getFMUState m p h s = Done (h', s', t) -> keeps k s s'.
  Proof.
    intro H. unfold getFMUState, bind, alloc, store, ret. destruct p; [cbn|discriminate].
    destruct h as [a|]; cbn.
    - destruct (nth_error (heap s) a) as [[|]|]; try discriminate. intro E; inversion E; subst; cbn.
      intros j Hi. apply (@keeps_app k _ (sinst s) (mkSys (sinst s) (upd (heap s) a None))).
      apply keeps_upd; [now apply H|exact Hi].
    - intro E; inversion E; subst. apply keeps_app.
  Qed.
  Lemma free_keeps p h s h' s' t k : (forall a, h = Some a -> a <> k) ->
    freeFMUState m p h s = Done (h', s', t) -> keeps k s s'.
  Proof.
    intro H. unfold freeFMUState, bind, store, ret. destruct p; [cbn|discriminate].
    destruct h as [a|]; cbn.
    - destruct (nth_error (heap s) a) as [[|]|]; try discriminate. intro E; inversion E; subst; cbn.
      apply keeps_upd. now apply H.
    - intro E; inversion E; subst. now apply keeps_eq.
  Qed.
  Lemma deserialize_keeps env src size p h s r s' t k : (forall a, h = Some a -> a <> k) ->
    deserializeFMUState m szof env src size p h s = Done (r, s', t) -> keeps k s s'.
  Proof.
    intro H. unfold deserializeFMUState. intro E. apply bind_Done in E as (b & s1 & t1 & t2 & E1 & E2 & ->).
    assert (G : heap s1 = heap s).
    { unfold onInst in E1. destruct (invalidNumber m env size szof (sinst s)) as [[[? ?] ?]| |]; inversion E1; subst; reflexivity. }
    assert (K : keeps k s1 s' -> keeps k s s') by (intros K i Hi; apply K; unfold saved in *; now rewrite G).
    apply K. clear E1 G K. destruct b; [inversion E2; subst; now apply keeps_eq|].
    destruct (negb p); [discriminate|]. destruct src as [b|]; [|discriminate]. destruct (bimage b) as [i|]; [|discriminate].
    destruct (N.ltb (bsize b) szof); [discriminate|]. unfold bind, alloc, store, ret in E2. destruct h as [a|].
    - destruct (nth_error (heap s1) a) as [[|]|]; try discriminate. inversion E2; subst; cbn. apply keeps_upd. now apply H.
    - inversion E2; subst. apply keeps_app.
  Qed.

  Lemma exec3_keeps fuel env o s st out s' t k : spares3 k o ->
    exec3 m szof fuel env o s = Done (st, out, s', t) -> keeps k s s'.
  Proof.
    destruct o; cbn [exec3 spares3]; intros Sp E;
      try (apply keeps_eq; eapply outI_heap; exact E);
      apply outS_gate3 in E as [(_ & _ & H & _)|(y & E & _)]; try (now apply keeps_eq).
    - apply bind_Done in E as (h' & s1 & t1 & t2 & E1 & E2 & ->). inversion E2; subst.
      eapply get_keeps; [|exact E1]. intros a ->. exact Sp.
    - apply bind_Done in E as (h' & s1 & t1 & t2 & E1 & E2 & ->). apply keeps_eq.
      unfold onInst in E2. destruct (CALLk m OK h' tt _ (sinst s1)) as [[[? ?] ?]| |]; inversion E2; subst; cbn.
      apply setFMUState_Done in E1 as [H|(k0 & i0 & H)]; tauto.
    - apply bind_Done in E as (h' & s1 & t1 & t2 & E1 & E2 & ->). inversion E2; subst.
      eapply free_keeps; [|exact E1]. intros a ->. exact Sp.
    - destruct p; inversion E; subst. now apply keeps_eq.
    - apply serialize_Done in E as [(_ & _ & -> & _)|(_ & -> & _)]; now apply keeps_eq.
    - eapply deserialize_keeps; [|exact E]. intros a ->. exact Sp.
  Qed.
  Lemma exec2_keeps fuel env o s st out s' t k : spares2 k o ->
    exec2 m szof fuel env o s = Done (st, out, s', t) -> keeps k s s'.
  Proof.
    destruct o; cbn [exec2 spares2]; intros Sp E;
      try (apply keeps_eq; eapply outI_heap; exact E);
      apply outS_gate2 in E as [(_ & _ & H & _)|(y & E & _)]; try (now apply keeps_eq).
    - apply bind_Done in E as (h' & s1 & t1 & t2 & E1 & E2 & ->). inversion E2; subst.
      eapply get_keeps; [|exact E1]. intros a ->. exact Sp.
    - apply bind_Done in E as (h' & s1 & t1 & t2 & E1 & E2 & ->). inversion E2; subst. apply keeps_eq.
      apply setFMUState_Done in E1 as [H|(k0 & i0 & H)]; tauto.
    - apply bind_Done in E as (h' & s1 & t1 & t2 & E1 & E2 & ->). inversion E2; subst.
      eapply free_keeps; [|exact E1]. intros a ->. exact Sp.
    - destruct p; inversion E; subst. now apply keeps_eq.
    - apply serialize_Done in E as [(_ & _ & -> & _)|(_ & -> & _)]; now apply keeps_eq.
    - eapply deserialize_keeps; [|exact E]. intros a ->. exact Sp.
  Qed.
  Lemma run3_keeps fuel k : forall l s obs s', Forall (fun p => spares3 k (snd p)) l ->
    run3 m szof fuel l s = Done (obs, s') -> keeps k s s'.
  Proof.
    induction l as [|[e o] l IH]; intros s obs s' Sp E.
    - cbn in E. inversion E; subst. intros i; auto.
    - apply run_cons in E as (st & out & s1 & t & obs' & E1 & E2 & ->). inversion Sp; subst.
      intros i Hi. eapply IH; eauto. eapply exec3_keeps; eauto.
  Qed.
  Lemma run2_keeps fuel k : forall l s obs s', Forall (fun p => spares2 k (snd p)) l ->
    run2 m szof fuel l s = Done (obs, s') -> keeps k s s'.
  Proof.
    induction l as [|[e o] l IH]; intros s obs s' Sp E.
    - cbn in E. inversion E; subst. intros i; auto.
    - apply run_cons in E as (st & out & s1 & t & obs' & E1 & E2 & ->). inversion Sp; subst.
      intros i Hi. eapply IH; eauto. eapply exec2_keeps; eauto.
  Qed.

  (** Saving: the new handle refers to a copy of the instance. *)
  Lemma exec3_save fuel env p h s st out s' t : In (mode_of s) modes3 ->
    exec3 m szof fuel env (O3GetFMUState p h) s = Done (st, out, s', t) ->
    st = OK /\ t = [] /\ sinst s' = sinst s /\ out = OHandle (Some (length (heap s))) /\
    saved s' (length (heap s)) = Some (sinst s).
  Proof.
    intros Hm E. cbn [exec3] in E. rewrite (outS_eq (m := m)) in E.
    unfold fmi3GetFMUState in E. rewrite BEGIN3S_any in E by exact Hm.
    unfold bind at 1 in E. destruct (getFMUState m p h s) as [[[h' s1] t1]| |] eqn:E1; try discriminate.
    apply getFMUState_Done in E1 as (_ & A & -> & _ & -> & B). cbn in E. inversion E; subst. auto.
  Qed.
  Lemma exec2_save fuel env p h s st out s' t : In (mode_of s) observable2 ->
    exec2 m szof fuel env (O2GetFMUstate p h) s = Done (st, out, s', t) ->
    st = OK /\ t = [] /\ sinst s' = sinst s /\ out = OHandle (Some (length (heap s))) /\
    saved s' (length (heap s)) = Some (sinst s).
  Proof.
    intros Hm E. cbn [exec2] in E. rewrite (outS_eq (m := m)) in E.
    unfold fmi2GetFMUstate in E. rewrite BEGIN2S_any in E by exact Hm.
    unfold bind at 1 in E. destruct (getFMUState m p h s) as [[[h' s1] t1]| |] eqn:E1; try discriminate.
    apply getFMUState_Done in E1 as (_ & A & -> & _ & -> & B). cbn in E. inversion E; subst. auto.
  Qed.
End Heap.

Section Restore.
  Context {F : Type} {NF : Num F} (f : FMU) (szof : N).
  Notation m := (model_of (F := F) FMI3 f).

  Lemma modes_of_reach s : reach3 m szof s -> In (mode_of s) modes3.
  Proof. apply reach3_modes. apply model_laws. Qed.

  (** Restoring a copy of [sinst s1] in [s2]. *)
  Lemma restore3 s1 s2 k : reach3 m szof s1 -> reach3 m szof s2 -> identity s2 = identity s1 ->
    saved s2 k = Some (sinst s1) ->
    forall fuel env, exists s3,
      exec3 m szof fuel env (O3SetFMUState (Some k)) s2 = Done (OK, ONone, s3, []) /\ heap s3 = heap s2 /\
      sysR m (rel (logging s3 = logging s1) false True FMI3 f) yes yes (length (heap s1)) (length (heap s3)) s1 s3.
  Proof.
    intros R1 R2 Id Sv fuel env.
    pose proof (modes_of_reach R1) as M1. pose proof (modes_of_reach R2) as M2.
    pose proof (proj1 (rel_diag False True FMI3 f R1)) as [_ D1]. pose proof (proj1 (rel_diag False True FMI3 f R2)) as [_ D2].
    pose proof (or_restore env D1 D2) as K. unfold setFMUState in K.
    destruct (restoreSol (sol (sinst s1)) (sol (sinst s2))) as [o|] eqn:Eo.
    2: { exfalso. destruct D1 as [_ _ [(A1 & A2 & A3 & A4 & A5 & A6) _ _ _ _]].
         destruct D2 as [_ _ [(B1 & B2 & B3 & B4 & B5 & B6) _ _ _ _]].
         unfold restoreSol in Eo. rewrite !copyn_some in Eo by lia. discriminate. }
    set (i3 := mkInst (restoreCtl (ctl (sinst s1)) (ctl (sinst s2))) (restoreMut m (mut (sinst s1)) (mut (sinst s2))) o).
    exists (mkSys i3 (heap s2)).
    assert (E : exec3 m szof fuel env (O3SetFMUState (Some k)) s2 = Done (OK, ONone, mkSys i3 (heap s2), [])).
    { cbn [exec3]. rewrite (outS_eq (m := m)). unfold fmi3SetFMUState. rewrite BEGIN3S_any by exact M2.
      cbn [setFMUStateS]. unfold saved in Sv. unfold bind, deref.
      destruct (nth_error (heap s2) k) as [[j|]|]; try discriminate. injection Sv as ->.
      unfold onInst at 1. cbn [setFMUState sinst heap]. rewrite Eo. reflexivity. }
    split; [exact E|]. split; [reflexivity|].
    set (lg := logging (mkSys i3 (heap s2)) = logging s1).
    pose proof (proj1 (rel_diag lg True FMI3 f R1)) as [_ D1'].
    assert (Lg : lg -> logEvents (ctl (sinst s2)) = logEvents (ctl (sinst s1)) /\ logErrors (ctl (sinst s2)) = logErrors (ctl (sinst s1))).
    { unfold lg, logging. cbn. intro H. injection H as -> ->. auto. }
    unfold identity in Id. injection Id as Id1 Id2 Id3 Id4 Id5 Id6 Id7 Id8 Id9.
    split.
    - split; [exact M1|]. destruct K as [[_ K] _]. constructor; cbn.
      + constructor; cbn; auto; try (rewrite ?rel_log; apply Lg); [apply rel_loc|apply modeR_refl].
      + destruct D1' as [_ M _]. destruct M. constructor; cbn; auto.
      + pose proof (ir_sol K) as O. cbn in O. unfold restoreSol, copyn in Eo.
        destruct D1 as [_ _ [(A1 & A2 & A3 & A4 & A5 & A6) _ _ _ _]].
        destruct D2 as [_ _ [(B1 & B2 & B3 & B4 & B5 & B6) _ _ _ _]].
        constructor; [apply D1'|apply O| | |]; intros _;
          repeat match type of Eo with context [if ?b then _ else _] => destruct b; try discriminate Eo end;
          inversion Eo; subst; cbn; auto.
        rewrite firstn_app, firstn_firstn, firstn_length, Nat.min_id.
        replace (min (nz (sol (sinst s1))) (length (prez (sol (sinst s1))))) with (nz (sol (sinst s1))) by lia.
        rewrite Nat.sub_diag, firstn_O, app_nil_r. reflexivity.
    - exists (heap s1), (heap s2), [], []. rewrite !app_nil_r. repeat (split; [reflexivity|]). constructor.
  Qed.

  Lemma C13_lemma3 fuel env h s0 st out s1 t : reach3 m szof s0 ->
    exec3 m szof fuel env (O3GetFMUState true h) s0 = Done (st, out, s1, t) ->
    exists k, st = OK /\ out = OHandle (Some k) /\
    forall fuel' l obs s2,
      (forall e o i, In (e, o) l -> image3 o = Some i -> saved3 m szof i) ->
      Forall (fun p => spares3 k (snd p)) l ->
      run3 m szof fuel' l s1 = Done (obs, s2) ->
    forall fuel2 env2, exists s3,
      exec3 m szof fuel2 env2 (O3SetFMUState (Some k)) s2 = Done (OK, ONone, s3, []) /\
    forall fuel3 l',
      (forall e o i, In (e, o) l' -> image3 o = Some i -> saved3 m szof i) ->
      same_run (logging s3 = logging s1) (length (heap s1)) (length (heap s3))
        (run3 m szof fuel3 (rebases3 (length (heap s1)) l') s1)
        (run3 m szof fuel3 (rebases3 (length (heap s3)) l') s3).
  Proof.
    intros R0 E.
    assert (R1 : reach3 m szof s1) by (eapply reach3_call; [exact R0| |exact E]; discriminate).
    apply exec3_save in E as (-> & -> & Hi & -> & Sv); [|now apply modes_of_reach].
    exists (length (heap s0)). split; [reflexivity|]. split; [reflexivity|].
    intros fuel' l obs s2 Im Sp Er fuel2 env2.
    pose proof (@run3_keeps _ _ _ _ _ _ _ _ _ _ Sp Er _ Sv) as Sv2. rewrite <- Hi in Sv2.
    pose proof (@run3_reach _ _ _ _ _ _ _ _ _ R1 Im Er) as R2.
    pose proof (@run3_identity _ _ _ szof (model_laws FMI3 f) _ _ _ _ _ R1 Im Er) as [Id _].
    destruct (restore3 _ R1 R2 Id Sv2 fuel2 env2) as (s3 & E3 & _ & Rel).
    exists s3. split; [exact E3|]. intros fuel3 l' Im'. eapply run3_same; eauto.
  Qed.

  (** Serializing a saved state and restoring it from the bytes, possibly in another instance. *)
  Lemma C14_lemma3 fuel env h s0 st out s1 t : reach3 m szof s0 ->
    exec3 m szof fuel env (O3GetFMUState true h) s0 = Done (st, out, s1, t) ->
    exists k, out = OHandle (Some k) /\
    forall fuel' l obs s2,
      (forall e o i, In (e, o) l -> image3 o = Some i -> saved3 m szof i) ->
      Forall (fun p => spares3 k (snd p)) l ->
      run3 m szof fuel' l s1 = Done (obs, s2) ->
    forall fuel2 env2 d, (szof <= bsize d)%N -> exists b,
      exec3 m szof fuel2 env2 (O3SerializeFMUState (Some k) (Some d) szof) s2 = Done (OK, OBlob (Some b), s2, []) /\
      bsize b = bsize d /\
    forall s4 fuel4 env4, reach3 m szof s4 -> identity s4 = identity s1 -> exists k' s5,
      exec3 m szof fuel4 env4 (O3DeserializeFMUState (Some b) szof true None) s4 = Done (OK, OHandle (Some k'), s5, []) /\
    forall fuel5 l' obs' s6,
      (forall e o i, In (e, o) l' -> image3 o = Some i -> saved3 m szof i) ->
      Forall (fun p => spares3 k' (snd p)) l' ->
      run3 m szof fuel5 l' s5 = Done (obs', s6) ->
    forall fuel6 env6, exists s7,
      exec3 m szof fuel6 env6 (O3SetFMUState (Some k')) s6 = Done (OK, ONone, s7, []) /\
    forall fuel7 l'',
      (forall e o i, In (e, o) l'' -> image3 o = Some i -> saved3 m szof i) ->
      same_run (logging s7 = logging s1) (length (heap s1)) (length (heap s7))
        (run3 m szof fuel7 (rebases3 (length (heap s1)) l'') s1)
        (run3 m szof fuel7 (rebases3 (length (heap s7)) l'') s7).
  Proof.
    intros R0 E.
    assert (R1 : reach3 m szof s1) by (eapply reach3_call; [exact R0| |exact E]; discriminate).
    apply exec3_save in E as (-> & -> & Hi & -> & Sv); [|now apply modes_of_reach].
    exists (length (heap s0)). split; [reflexivity|].
    intros fuel' l obs s2 Im Sp Er fuel2 env2 d Hd.
    pose proof (@run3_keeps _ _ _ _ _ _ _ _ _ _ Sp Er _ Sv) as Sv2. rewrite <- Hi in Sv2.
    pose proof (@run3_reach _ _ _ _ _ _ _ _ _ R1 Im Er) as R2.
    exists (mkBlob (bsize d) (Some (sinst s1))).
    assert (En : nth_error (heap s2) (length (heap s0)) = Some (Some (sinst s1))).
    { unfold saved in Sv2. destruct (nth_error (heap s2) (length (heap s0))) as [[j|]|]; try discriminate. congruence. }
    split; [|split; [reflexivity|]].
    { cbn [exec3]. rewrite (outS_eq (m := m)). unfold fmi3SerializeFMUState. rewrite BEGIN3S_any by now apply modes_of_reach.
      unfold serializeFMUState, bind, onInst, nullPointer, invalidNumber, deref. cbn. rewrite N.eqb_refl. cbn. rewrite En.
      destruct (N.ltb_spec (bsize d) szof); [lia|]. destruct s2; reflexivity. }
    intros s4 fuel4 env4 R4 Id4. exists (length (heap s4)), (mkSys (sinst s4) (heap s4 ++ [Some (sinst s1)])).
    assert (E5 : exec3 m szof fuel4 env4 (O3DeserializeFMUState (Some (mkBlob (bsize d) (Some (sinst s1)))) szof true None) s4
                 = Done (OK, OHandle (Some (length (heap s4))), mkSys (sinst s4) (heap s4 ++ [Some (sinst s1)]), [])).
    { cbn [exec3]. rewrite (outS_eq (m := m)). unfold fmi3DeserializeFMUState. rewrite BEGIN3S_any by now apply modes_of_reach.
      unfold deserializeFMUState, bind, onInst, invalidNumber. rewrite N.eqb_refl. cbn.
      destruct (N.ltb_spec (bsize d) szof); [lia|]. reflexivity. }
    split; [exact E5|].
    assert (R5 : reach3 m szof (mkSys (sinst s4) (heap s4 ++ [Some (sinst s1)]))).
    { eapply reach3_call; [exact R4| |exact E5]. cbn. intros i Ei; inversion Ei; subst.
      apply saved3_in with (s := s2); [exact R2|]. eapply nth_error_In; exact En. }
    intros fuel5 l' obs' s6 Im' Sp' Er' fuel6 env6.
    assert (Sv5 : saved (mkSys (sinst s4) (heap s4 ++ [Some (sinst s1)])) (length (heap s4)) = Some (sinst s1)).
    { unfold saved. cbn. rewrite nth_error_app2, Nat.sub_diag; auto. }
    pose proof (@run3_keeps _ _ _ _ _ _ _ _ _ _ Sp' Er' _ Sv5) as Sv6.
    pose proof (@run3_reach _ _ _ _ _ _ _ _ _ R5 Im' Er') as R6.
    pose proof (@run3_identity _ _ _ szof (model_laws FMI3 f) _ _ _ _ _ R5 Im' Er') as [Id6 _].
    assert (Id : identity s6 = identity s1) by (rewrite Id6; exact Id4).
    destruct (restore3 _ R1 R6 Id Sv6 fuel6 env6) as (s7 & E7 & _ & Rel).
    exists s7. split; [exact E7|]. intros fuel7 l'' Im''. eapply run3_same; eauto.
  Qed.
End Restore.

Section Restore2.
  Context {F : Type} {NF : Num F} (f : FMU) (szof : N).
  Notation m := (model_of (F := F) FMI2 f).

  Lemma modes_of_reach2 s : reach2 m szof s -> In (mode_of s) observable2.
  Proof. intro H. exact (proj1 (reach2_observable (model_laws FMI2 f) H)). Qed.

  (** Restoring a copy of [sinst s1] in [s2]. *)
  Lemma restore2 s1 s2 k : reach2 m szof s1 -> reach2 m szof s2 -> identity s2 = identity s1 ->
    saved s2 k = Some (sinst s1) ->
    forall fuel env, exists s3,
      exec2 m szof fuel env (O2SetFMUstate (Some k)) s2 = Done (OK, ONone, s3, []) /\ heap s3 = heap s2 /\
      sysR2 m (rel (logging s3 = logging s1) false True FMI2 f) yes yes (length (heap s1)) (length (heap s3)) s1 s3.
  Proof.
    intros R1 R2 Id Sv fuel env.
    pose proof (modes_of_reach2 R1) as M1. pose proof (modes_of_reach2 R2) as M2.
    pose proof (proj1 (rel_diag2 False True FMI2 f R1)) as [_ D1]. pose proof (proj1 (rel_diag2 False True FMI2 f R2)) as [_ D2].
    pose proof (or_restore env D1 D2) as K. unfold setFMUState in K.
    destruct (restoreSol (sol (sinst s1)) (sol (sinst s2))) as [o|] eqn:Eo.
    2: { exfalso. destruct D1 as [_ _ [(A1 & A2 & A3 & A4 & A5 & A6) _ _ _ _]].
         destruct D2 as [_ _ [(B1 & B2 & B3 & B4 & B5 & B6) _ _ _ _]].
         unfold restoreSol in Eo. rewrite !copyn_some in Eo by lia. discriminate. }
    set (i3 := mkInst (restoreCtl (ctl (sinst s1)) (ctl (sinst s2))) (restoreMut m (mut (sinst s1)) (mut (sinst s2))) o).
    exists (mkSys i3 (heap s2)).
    assert (E : exec2 m szof fuel env (O2SetFMUstate (Some k)) s2 = Done (OK, ONone, mkSys i3 (heap s2), [])).
    { cbn [exec2]. rewrite (outS_eq (m := m)). unfold fmi2SetFMUstate. rewrite BEGIN2S_any by exact M2.
      cbn [setFMUStateS]. unfold saved in Sv. unfold bind, deref.
      destruct (nth_error (heap s2) k) as [[j|]|]; try discriminate. injection Sv as ->.
      unfold onInst at 1. cbn [setFMUState sinst heap]. rewrite Eo. reflexivity. }
    split; [exact E|]. split; [reflexivity|].
    set (lg := logging (mkSys i3 (heap s2)) = logging s1).
    pose proof (proj1 (rel_diag2 lg True FMI2 f R1)) as [_ D1'].
    assert (Lg : lg -> logEvents (ctl (sinst s2)) = logEvents (ctl (sinst s1)) /\ logErrors (ctl (sinst s2)) = logErrors (ctl (sinst s1))).
    { unfold lg, logging. cbn. intro H. injection H as -> ->. auto. }
    unfold identity in Id. injection Id as Id1 Id2 Id3 Id4 Id5 Id6 Id7 Id8 Id9.
    split.
    - split; [exact M1|]. destruct K as [[_ K] _]. constructor; cbn.
      + constructor; cbn; auto; try (rewrite ?rel_log; apply Lg); [apply rel_loc|apply modeR_refl].
      + destruct D1' as [_ M _]. destruct M. constructor; cbn; auto.
      + pose proof (ir_sol K) as O. cbn in O. unfold restoreSol, copyn in Eo.
        destruct D1 as [_ _ [(A1 & A2 & A3 & A4 & A5 & A6) _ _ _ _]].
        destruct D2 as [_ _ [(B1 & B2 & B3 & B4 & B5 & B6) _ _ _ _]].
        constructor; [apply D1'|apply O| | |]; intros _;
          repeat match type of Eo with context [if ?b then _ else _] => destruct b; try discriminate Eo end;
          inversion Eo; subst; cbn; auto.
        rewrite firstn_app, firstn_firstn, firstn_length, Nat.min_id.
        replace (min (nz (sol (sinst s1))) (length (prez (sol (sinst s1))))) with (nz (sol (sinst s1))) by lia.
        rewrite Nat.sub_diag, firstn_O, app_nil_r. reflexivity.
    - exists (heap s1), (heap s2), [], []. rewrite !app_nil_r. repeat (split; [reflexivity|]). constructor.
  Qed.

  Lemma C13_lemma2 fuel env h s0 st out s1 t : reach2 m szof s0 ->
    exec2 m szof fuel env (O2GetFMUstate true h) s0 = Done (st, out, s1, t) ->
    exists k, st = OK /\ out = OHandle (Some k) /\
    forall fuel' l obs s2,
      (forall e o i, In (e, o) l -> image2 o = Some i -> saved2 m szof i) ->
      Forall (fun p => spares2 k (snd p)) l ->
      run2 m szof fuel' l s1 = Done (obs, s2) ->
    forall fuel2 env2, exists s3,
      exec2 m szof fuel2 env2 (O2SetFMUstate (Some k)) s2 = Done (OK, ONone, s3, []) /\
    forall fuel3 l',
      (forall e o i, In (e, o) l' -> image2 o = Some i -> saved2 m szof i) ->
      same_run (logging s3 = logging s1) (length (heap s1)) (length (heap s3))
        (run2 m szof fuel3 (rebases2 (length (heap s1)) l') s1)
        (run2 m szof fuel3 (rebases2 (length (heap s3)) l') s3).
  Proof.
    intros R0 E.
    assert (R1 : reach2 m szof s1) by (eapply reach2_call; [exact R0| |exact E]; discriminate).
    apply exec2_save in E as (-> & -> & Hi & -> & Sv); [|now apply modes_of_reach2].
    exists (length (heap s0)). split; [reflexivity|]. split; [reflexivity|].
    intros fuel' l obs s2 Im Sp Er fuel2 env2.
    pose proof (@run2_keeps _ _ _ _ _ _ _ _ _ _ Sp Er _ Sv) as Sv2. rewrite <- Hi in Sv2.
    pose proof (@run2_reach _ _ _ _ _ _ _ _ _ R1 Im Er) as R2.
    pose proof (@run2_identity _ _ _ szof (model_laws FMI2 f) _ _ _ _ _ Er) as [Id _].
    destruct (restore2 _ R1 R2 Id Sv2 fuel2 env2) as (s3 & E3 & _ & Rel).
    exists s3. split; [exact E3|]. intros fuel3 l' Im'. eapply run2_same; eauto.
  Qed.

  (** Serializing a saved state and restoring it from the bytes, possibly in another instance. *)
  Lemma C14_lemma2 fuel env h s0 st out s1 t : reach2 m szof s0 ->
    exec2 m szof fuel env (O2GetFMUstate true h) s0 = Done (st, out, s1, t) ->
    exists k, out = OHandle (Some k) /\
    forall fuel' l obs s2,
      (forall e o i, In (e, o) l -> image2 o = Some i -> saved2 m szof i) ->
      Forall (fun p => spares2 k (snd p)) l ->
      run2 m szof fuel' l s1 = Done (obs, s2) ->
    forall fuel2 env2 d, (szof <= bsize d)%N -> exists b,
      exec2 m szof fuel2 env2 (O2SerializeFMUstate (Some k) (Some d) szof) s2 = Done (OK, OBlob (Some b), s2, []) /\
      bsize b = bsize d /\
    forall s4 fuel4 env4, reach2 m szof s4 -> identity s4 = identity s1 -> exists k' s5,
      exec2 m szof fuel4 env4 (O2DeSerializeFMUstate (Some b) szof true None) s4 = Done (OK, OHandle (Some k'), s5, []) /\
    forall fuel5 l' obs' s6,
      (forall e o i, In (e, o) l' -> image2 o = Some i -> saved2 m szof i) ->
      Forall (fun p => spares2 k' (snd p)) l' ->
      run2 m szof fuel5 l' s5 = Done (obs', s6) ->
    forall fuel6 env6, exists s7,
      exec2 m szof fuel6 env6 (O2SetFMUstate (Some k')) s6 = Done (OK, ONone, s7, []) /\
    forall fuel7 l'',
      (forall e o i, In (e, o) l'' -> image2 o = Some i -> saved2 m szof i) ->
      same_run (logging s7 = logging s1) (length (heap s1)) (length (heap s7))
        (run2 m szof fuel7 (rebases2 (length (heap s1)) l'') s1)
        (run2 m szof fuel7 (rebases2 (length (heap s7)) l'') s7).
  Proof.
    intros R0 E.
    assert (R1 : reach2 m szof s1) by (eapply reach2_call; [exact R0| |exact E]; discriminate).
    apply exec2_save in E as (-> & -> & Hi & -> & Sv); [|now apply modes_of_reach2].
    exists (length (heap s0)). split; [reflexivity|].
    intros fuel' l obs s2 Im Sp Er fuel2 env2 d Hd.
    pose proof (@run2_keeps _ _ _ _ _ _ _ _ _ _ Sp Er _ Sv) as Sv2. rewrite <- Hi in Sv2.
    pose proof (@run2_reach _ _ _ _ _ _ _ _ _ R1 Im Er) as R2.
    exists (mkBlob (bsize d) (Some (sinst s1))).
    assert (En : nth_error (heap s2) (length (heap s0)) = Some (Some (sinst s1))).
    { unfold saved in Sv2. destruct (nth_error (heap s2) (length (heap s0))) as [[j|]|]; try discriminate. congruence. }
    split; [|split; [reflexivity|]].
    { cbn [exec2]. rewrite (outS_eq (m := m)). unfold fmi2SerializeFMUstate. rewrite BEGIN2S_any by now apply modes_of_reach2.
      unfold serializeFMUState, bind, onInst, nullPointer, invalidNumber, deref. cbn. rewrite N.eqb_refl. cbn. rewrite En.
      destruct (N.ltb_spec (bsize d) szof); [lia|]. destruct s2; reflexivity. }
    intros s4 fuel4 env4 R4 Id4. exists (length (heap s4)), (mkSys (sinst s4) (heap s4 ++ [Some (sinst s1)])).
    assert (E5 : exec2 m szof fuel4 env4 (O2DeSerializeFMUstate (Some (mkBlob (bsize d) (Some (sinst s1)))) szof true None) s4
                 = Done (OK, OHandle (Some (length (heap s4))), mkSys (sinst s4) (heap s4 ++ [Some (sinst s1)]), [])).
    { cbn [exec2]. rewrite (outS_eq (m := m)). unfold fmi2DeSerializeFMUstate. rewrite BEGIN2S_any by now apply modes_of_reach2.
      unfold deserializeFMUState, bind, onInst, invalidNumber. rewrite N.eqb_refl. cbn.
      destruct (N.ltb_spec (bsize d) szof); [lia|]. reflexivity. }
    split; [exact E5|].
    assert (R5 : reach2 m szof (mkSys (sinst s4) (heap s4 ++ [Some (sinst s1)]))).
    { eapply reach2_call; [exact R4| |exact E5]. cbn. intros i Ei; inversion Ei; subst.
      apply saved2_in with (s := s2); [exact R2|]. eapply nth_error_In; exact En. }
    intros fuel5 l' obs' s6 Im' Sp' Er' fuel6 env6.
    assert (Sv5 : saved (mkSys (sinst s4) (heap s4 ++ [Some (sinst s1)])) (length (heap s4)) = Some (sinst s1)).
    { unfold saved. cbn. rewrite nth_error_app2, Nat.sub_diag; auto. }
    pose proof (@run2_keeps _ _ _ _ _ _ _ _ _ _ Sp' Er' _ Sv5) as Sv6.
    pose proof (@run2_reach _ _ _ _ _ _ _ _ _ R5 Im' Er') as R6.
    pose proof (@run2_identity _ _ _ szof (model_laws FMI2 f) _ _ _ _ _ Er') as [Id6 _].
    assert (Id : identity s6 = identity s1) by (rewrite Id6; exact Id4).
    destruct (restore2 _ R1 R6 Id Sv6 fuel6 env6) as (s7 & E7 & _ & Rel).
    exists s7. split; [exact E7|]. intros fuel7 l'' Im''. eapply run2_same; eauto.
  Qed.
End Restore2.
