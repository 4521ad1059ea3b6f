(** Reach.v -- invariants of reachable systems; modes along histories (C03-C06), logging (C24),
    identity (C15). *)
From Coq Require Import List NArith ZArith Bool Arith Lia.
From Verif Require Import Base Instance ModelIface Core Fmi3 Fmi2 Api Logic SpecModes Gate Frame Frame3 Effect.
Import ListNotations.
Set Implicit Arguments.

Definition mode_dec (a b : ModelState) : {a = b} + {a <> b}.
Proof. decide equality. Defined.

Section Reach.
  Context {F : Type} {NF : Num F} (m : Model F) (szof : N).
  Notation D := (md m).
  Hypothesis L : Laws m.

  Definition all_saved (P : Inst F D -> Prop) (s : Sys F D) : Prop := forall i, In (Some i) (heap s) -> P i.

  Scheme reach3_mut := Minimality for reach3 Sort Prop
    with saved3_mut := Minimality for saved3 Sort Prop.
  Scheme reach2_mut := Minimality for reach2 Sort Prop
    with saved2_mut := Minimality for saved2 Sort Prop.

  (** The induction principle for invariants of one instance. *)
  Lemma reach3_inv (P : Inst F D -> Prop) :
    (forall i, made3 m i -> P i) ->
    (forall s fuel env o st out s' t, P (sinst s) -> all_saved P s ->
       exec3 m szof fuel env o s = Done (st, out, s', t) -> P (sinst s')) ->
    forall s, reach3 m szof s -> P (sinst s) /\ all_saved P s.
  Proof.
    intros Hm Hs s H.
    apply (@reach3_mut _ _ m szof (fun s => P (sinst s) /\ all_saved P s) P); auto.
    - intros i Hi. split; [now apply Hm|]. intros j [].
    - intros s0 fuel env o st out s' t _ [P0 A0] _ HI E. split; [eapply Hs; eauto|].
      intros i Hi. pose proof (@exec3_heap _ _ m szof env fuel o s0 st out s' t E i Hi) as [H1|[H1|H1]].
      + now apply A0.
      + subst; auto.
      + now apply HI.
    - intros s0 i _ [_ A] Hi. now apply A.
  Qed.
  Lemma reach2_inv (P : Inst F D -> Prop) :
    (forall i, made2 m i -> P i) ->
    (forall s fuel env o st out s' t, P (sinst s) -> all_saved P s ->
       exec2 m szof fuel env o s = Done (st, out, s', t) -> P (sinst s')) ->
    forall s, reach2 m szof s -> P (sinst s) /\ all_saved P s.
  Proof.
    intros Hm Hs s H.
    apply (@reach2_mut _ _ m szof (fun s => P (sinst s) /\ all_saved P s) P); auto.
    - intros i Hi. split; [now apply Hm|]. intros j [].
    - intros s0 fuel env o st out s' t _ [P0 A0] _ HI E. split; [eapply Hs; eauto|].
      intros i Hi. pose proof (@exec2_heap _ _ m szof env fuel o s0 st out s' t E i Hi) as [H1|[H1|H1]].
      + now apply A0.
      + subst; auto.
      + now apply HI.
    - intros s0 i _ [_ A] Hi. now apply A.
  Qed.

  Lemma saved_In (s : Sys F D) h i : saved s h = Some i -> In (Some i) (heap s).
  Proof.
    unfold saved. destruct (nth_error (heap s) h) as [[j|]|] eqn:E; try discriminate.
    intro H; inversion H; subst. eapply nth_error_In; eauto.
  Qed.

  Lemma create_ctl env lg iu en n t r lo ty i tr :
    createModelInstance m env lg iu en n t r lo ty = Done (Some i, tr) ->
    exists nm, ctl i = mkCtl nzero nzero nzero nm ty (option_map cstr r) OK lg iu false false false
                             lo true en Instantiated 0%N false false nzero.
  Proof.
    unfold createModelInstance. destruct n as [n|]; [|discriminate].
    destruct (Nat.eqb (strlen n) 0); [discriminate|]. destruct t as [t|]; [|discriminate].
    destruct (Nat.eqb (strlen t) 0); [discriminate|]. destruct (negb (streq t (m_token m))); [discriminate|].
    unfold bind, call. destruct (m_setStartValues m env _ _) as [[[x u] t1]| |]; try discriminate. cbn.
    intro H; inversion H; subst; cbn. eauto.
  Qed.
  Lemma made3_ctl i : made3 m i -> mode (ctl i) = Instantiated /\ nSteps (ctl i) = 0%N.
  Proof.
    intros [(env & n & t & r & b & e & l & tr & H)|[(env & n & t & r & b & ev & er & e & l & iu & tr & H)
      |(env & n & t & r & b & e & l & cu & lo & ul & tr & H)]].
    - unfold fmi3InstantiateModelExchange in H. destruct (m_modelExchange m); [|discriminate].
      apply create_ctl in H as [nm ->]. auto.
    - unfold fmi3InstantiateCoSimulation in H. destruct (negb (m_eventUpdate m) && ev); [discriminate|].
      destruct (createModelInstance _ _ _ _ _ _ _ _ _ _) as [[[j|] t1]| |] eqn:E; try discriminate.
      inversion H; subst; cbn. apply create_ctl in E as [nm ->]. auto.
    - unfold fmi3InstantiateScheduledExecution in H. destruct (m_scheduled m); [|discriminate].
      destruct (createModelInstance _ _ _ _ _ _ _ _ _ _) as [[[j|] t1]| |] eqn:E; try discriminate.
      inversion H; subst; cbn. apply create_ctl in E as [nm ->]. auto.
  Qed.
  Lemma made2_ctl i : made2 m i -> mode (ctl i) = Instantiated /\ nSteps (ctl i) = 0%N.
  Proof.
    intros (env & n & ty & t & r & e & l & b & tr & H). unfold fmi2Instantiate in H.
    destruct l; [|discriminate]. apply create_ctl in H as [nm ->]. auto.
  Qed.

  Lemma observable3_modes md : In md observable3 -> In md modes3.
  Proof. unfold observable3, modes3. cbn. intuition subst; auto 20. Qed.

  (** Mode after a call, from [effect3]. *)
  Lemma exec3_mode fuel env o s st out s' t :
    In (mode_of s) modes3 ->
    exec3 m szof fuel env o s = Done (st, out, s', t) ->
    (st = OK /\ In (mode_of s) (when3 o) /\ mode_of s' = next3 o s) \/
    (st = Error /\ (mode_of s' = Terminated \/
       (mode_of s' = mode_of s /\ (o = O3NotImplemented \/
          m_outputDerivative m = false /\ In (mode_of s) (when3 o) /\
          exists a b c d, o = O3GetOutputDerivatives a b c d)))).
  Proof.
    intros Hm E. pose proof (@exec3_effect _ _ m szof env L _ _ _ _ _ _ _ Hm E) as [Ef _].
    assert (W : st = OK -> In (mode_of s) (when3 o)).
    { intros ->. destruct (in_dec mode_dec (mode_of s) (when3 o)) as [|N]; auto.
      assert (G : o <> O3NotImplemented -> False).
      { intro G. rewrite (@gate3 _ _ m szof fuel env o s G Hm N) in E. discriminate. }
      destruct o; try (exfalso; apply G; discriminate). exact Hm. }
    unfold mode_of in *.
    destruct o; cbn [effect3] in Ef; cbn [next3];
      try (destruct Ef as [[-> Ef]|[-> Ef]];
           [left; split; [reflexivity|split; [now apply W|rewrite Ef; reflexivity]]
           |right; rewrite Ef; auto]).
    - destruct Ef as (ev & er & _ & [[-> ->]|[-> ->]]); [left|right]; auto.
    - destruct h as [h|].
      + destruct Ef as (i & S & -> & Ef). rewrite S, Ef. left. auto.
      + destruct Ef as [[-> Ef]|[-> Ef]];
           [left; split; [reflexivity|split; [now apply W|rewrite Ef; reflexivity]]
           |right; rewrite Ef; auto].
    - right. destruct Ef as [-> ->]. auto 6.
    - destruct Ef as [[[-> ->]|[-> ->]]|(O & W1 & -> & ->)]; [left|right|right]; auto.
      split; [auto|]. right. split; auto. right. split; [auto|]. split; [auto|]. eauto.
    - destruct Ef as (x & n & p & _ & [[-> ->]|[-> ->]]); [left|right]; auto.
  Qed.

  Lemma next3_observable (s : Sys F D) o :
    In (mode_of s) observable3 -> all_saved (fun i => In (mode (ctl i)) observable3) s ->
    In (next3 o s) observable3.
  Proof.
    intros H A. unfold mode_of in H.
    destruct o; cbn [next3]; auto; try (cbn; tauto).
    - destruct (itype (ctl (sinst s))), (eventModeUsed (ctl (sinst s))); cbn; tauto.
    - destruct h as [h|]; auto. destruct (saved s h) eqn:E; auto. apply (A i). eapply saved_In; eauto.
    - destruct (mode (ctl (sinst s))); cbn; tauto.
    - destruct (mode (ctl (sinst s))), (itype (ctl (sinst s))); cbn; tauto.
  Qed.

  Lemma reach3_observable s : reach3 m szof s ->
    In (mode_of s) observable3 /\ all_saved (fun i => In (mode (ctl i)) observable3) s.
  Proof.
    apply (@reach3_inv (fun i => In (mode (ctl i)) observable3)).
    - intros i H. apply made3_ctl in H as [-> _]. cbn; tauto.
    - intros s0 fuel env o st out s' t P A E.
      destruct (@exec3_mode fuel env o s0 st out s' t) as [(-> & W & N)|(-> & [N|[N _]])]; auto.
      + now apply observable3_modes.
      + unfold mode_of in N. rewrite N. now apply next3_observable.
      + unfold mode_of in N. rewrite N. cbn; tauto.
      + unfold mode_of in N. rewrite N. exact P.
  Qed.
  Lemma reach3_modes s : reach3 m szof s -> In (mode_of s) modes3.
  Proof. intro H. apply observable3_modes. now apply reach3_observable. Qed.

  Lemma exec3_edge s fuel env o st out s' t :
    reach3 m szof s -> exec3 m szof fuel env o s = Done (st, out, s', t) ->
    mode_of s' = mode_of s \/ mode_of s' = Terminated \/
    In (mode_of s, mode_of s') edges3 \/ restarts3 o = true.
  Proof.
    intros R E.
    destruct (@exec3_mode fuel env o s st out s' t) as [(-> & W & N)|(-> & [N|[N _]])]; auto.
    { now apply reach3_modes. }
    rewrite N. clear N E. unfold mode_of in *.
    destruct o; cbn [next3 restarts3]; auto; cbn in W.
    all: destruct (mode (ctl (sinst s))); try (exfalso; intuition discriminate).
    all: try (destruct (itype (ctl (sinst s))); try destruct (eventModeUsed (ctl (sinst s)))).
    all: cbn; intuition auto 30.
  Qed.

  (** FMI 2.0 *)
  Lemma exec2_mode fuel env o s st out s' t :
    exec2 m szof fuel env o s = Done (st, out, s', t) ->
    (st = OK /\ In (mode_of s) (when2 o) /\ mode_of s' = next2 o s) \/
    (st = Discard /\ mode_of s' = mode_of s /\
      match o with O2DoStep _ _ | O2GetStatus _ | O2GetRealStatus _ _ | O2GetBooleanStatus _ _ => True | _ => False end) \/
    (st = Error /\ mode_of s' = Terminated).
  Proof.
    intros E. pose proof (@exec2_effect _ _ m szof env L _ _ _ _ _ _ _ E) as [Ef _].
    assert (W : st = OK -> In (mode_of s) (when2 o)).
    { intros ->. destruct (in_dec mode_dec (mode_of s) (when2 o)) as [|N]; auto.
      rewrite (@gate2 _ _ m szof fuel env o s N) in E. discriminate. }
    unfold mode_of in *.
    destruct o; cbn [effect2] in Ef; cbn [next2];
      try (destruct Ef as [[-> Ef]|[-> Ef]];
           [left; split; [reflexivity|split; [now apply W|rewrite Ef; reflexivity]]
           |right; rewrite Ef; auto]).
    - destruct Ef as (ev & er & _ & [[-> ->]|[-> ->]]); [left|right]; auto.
    - destruct h as [h|].
      + destruct Ef as [(i & S & -> & Ef)|[-> Ef]]; rewrite Ef; [rewrite S; left|right]; auto.
      + destruct Ef as [[-> Ef]|[-> Ef]];
           [left; split; [reflexivity|split; [now apply W|rewrite Ef; reflexivity]]
           |right; rewrite Ef; auto].
    - destruct Ef as (x & n & p & _ & [[[->| ->] ->]|[-> ->]]); auto 6.
    - destruct Ef as [[[-> ->]|[-> ->]]|[-> ->]]; auto 6.
    - destruct Ef as [[[-> ->]|[-> ->]]|[-> ->]]; auto 6.
    - destruct Ef as [[[-> ->]|[-> ->]]|[-> ->]]; auto 6.
  Qed.

  Lemma next2_observable (s : Sys F D) o :
    In (mode_of s) observable2 -> all_saved (fun i => In (mode (ctl i)) observable2) s ->
    In (next2 o s) observable2.
  Proof.
    intros H A. unfold mode_of in H.
    destruct o; cbn [next2]; auto; try (cbn; tauto).
    - destruct (itype (ctl (sinst s))); cbn; tauto.
    - destruct h as [h|]; auto. destruct (saved s h) eqn:E; auto. apply (A i). eapply saved_In; eauto.
  Qed.
  Lemma reach2_observable s : reach2 m szof s ->
    In (mode_of s) observable2 /\ all_saved (fun i => In (mode (ctl i)) observable2) s.
  Proof.
    apply (@reach2_inv (fun i => In (mode (ctl i)) observable2)).
    - intros i H. apply made2_ctl in H as [-> _]. cbn; tauto.
    - intros s0 fuel env o st out s' t P A E.
      destruct (@exec2_mode fuel env o s0 st out s' t) as [(-> & W & N)|[(-> & N & _)|(-> & N)]]; auto;
        unfold mode_of in N; rewrite N.
      + now apply next2_observable.
      + exact P.
      + cbn; tauto.
  Qed.
  Lemma exec2_edge s fuel env o st out s' t :
    exec2 m szof fuel env o s = Done (st, out, s', t) ->
    mode_of s' = mode_of s \/ mode_of s' = Terminated \/
    In (mode_of s, mode_of s') edges2 \/ restarts2 o = true.
  Proof.
    intros E.
    destruct (@exec2_mode fuel env o s st out s' t) as [(-> & W & N)|[(-> & N & _)|(-> & N)]]; auto.
    rewrite N. clear N E. unfold mode_of in *.
    destruct o; cbn [next2 restarts2]; auto; cbn in W.
    all: destruct (mode (ctl (sinst s))); try (exfalso; intuition discriminate).
    all: try (destruct (itype (ctl (sinst s)))).
    all: cbn; intuition auto 30.
  Qed.

End Reach.
