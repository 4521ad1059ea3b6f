(** Create.v -- instantiation (C28) and NULL instances (C27). *)
From Coq Require Import List NArith ZArith Bool Arith Lia.
From Verif Require Import Base Instance ModelIface Core Fmi3 Fmi2 Api Fmus Logic LawsFmus SpecModes SpecDebug SpecCreate
  Gate Calls Debug.
Import ListNotations.
Set Implicit Arguments.

Section Create.
  Context {F : Type} {NF : Num F}.

  Lemma token_eq v f : m_token (model_of v f) = guid f.
  Proof. destruct v, f; reflexivity. Qed.
  Lemma guid_cstr f : cstr (guid f) = guid f.
  Proof. destruct f; reflexivity. Qed.
  Lemma guid_nonempty f : guid f <> [].
  Proof. destruct f; discriminate. Qed.

  (** createModelInstance, by cases *)
  Lemma create_invalid v f env lg iu e n t r lo ty :
    ~ (is_name n /\ is_token f t) ->
    createModelInstance (model_of v f) env lg iu e n t r lo ty =
    Done (None, if lg then [ELog Error CatError] else []).
  Proof.
    intro H. unfold createModelInstance. destruct n as [n|]; auto. unfold strlen.
    destruct (Nat.eqb_spec (length (cstr n)) 0) as [|N]; auto.
    destruct t as [t|]; auto.
    destruct (Nat.eqb_spec (length (cstr t)) 0) as [|T]; auto.
    destruct (streq t (m_token (model_of v f))) eqn:S; auto.
    exfalso. apply H. split.
    - exists n. split; auto. intro Z. rewrite Z in N. auto.
    - exists t. split; auto. apply streq_spec in S. now rewrite token_eq, guid_cstr in S.
  Qed.

  Lemma create_valid v f env lg iu e n t r lo ty :
    is_name n -> is_token f t -> exists n', n = Some n' /\
    createModelInstance (model_of v f) env lg iu e n t r lo ty =
    match (call (model_of v f) env (m_setStartValues (model_of v f)) ;;; modM (model_of v f) (set_dirty true))%sw
            (blank (model_of v f) (cstr n') (option_map cstr r) e ty lg iu lo) with
    | Done (_, i, tr) => Done (Some i, tr)
    | UB => UB
    | NoFuel => NoFuel
    end.
  Proof.
    intros (n' & -> & N) (t' & -> & T). exists n'. split; auto.
    unfold createModelInstance, strlen.
    destruct (Nat.eqb_spec (length (cstr n')) 0) as [Z|_].
    { destruct (cstr n'); [contradiction|discriminate]. }
    destruct (Nat.eqb_spec (length (cstr t')) 0) as [Z|_].
    { rewrite T in Z. destruct f; discriminate. }
    replace (streq t' (m_token (model_of v f))) with true; auto.
    symmetry. apply streq_spec. now rewrite token_eq, guid_cstr, T.
  Qed.

  (** A fresh instance of FMI 3.0 reads as its start values, whatever the settings are. *)
  Ltac bufs :=
    repeat match goal with
    | H : List.length ?b = S _ |- _ => destruct b as [|? b]; [discriminate|]; cbn in H; injection H as H
    | H : List.length ?b = List.length (_ :: _) |- _ =>
        destruct b as [|? b]; [discriminate|]; cbn in H; injection H as H
    | H : List.length ?b = 0 |- _ => destruct b; [|discriminate]
    | H : List.length ?b = List.length [] |- _ => destruct b; [|discriminate]
    end.

  Definition startable3 (f : FMU) (c : Ctl F) : Prop :=
    forall env n r e ty lg iu lo,
      match (call (model_of FMI3 f) env (m_setStartValues (model_of FMI3 f)) ;;;
             modM (model_of FMI3 f) (set_dirty true))%sw
              (blank (model_of FMI3 f) n r e ty lg iu lo) with
      | Done (_, i, tr) => tr = [] /\ ctl i = ctl (blank (model_of FMI3 f) n r e ty lg iu lo) /\
          (mode c = Instantiated -> reads_starts3 f (set_ctl c i))
      | _ => False
      end.
  Lemma startable3_all f c : startable3 f c.
  Proof.
    intros env n r e ty lg iu lo.
    destruct f; cbn; split; auto; split; auto; intro M; split;
      repeat (apply Forall_cons || apply Forall_nil);
      (intros buf szof fuel env' L || intros ? ? szof fuel env'); bufs;
      destruct c; cbn in M; subst; eexists; cbv; reflexivity.
  Qed.

  Definition startable2 (f : FMU) (c : Ctl F) : Prop :=
    forall env n r e ty lg iu lo,
      match (call (model_of FMI2 f) env (m_setStartValues (model_of FMI2 f)) ;;;
             modM (model_of FMI2 f) (set_dirty true))%sw
              (blank (model_of FMI2 f) n r e ty lg iu lo) with
      | Done (_, i, tr) => tr = [] /\ ctl i = ctl (blank (model_of FMI2 f) n r e ty lg iu lo) /\
          (mode c = Instantiated -> reads_starts2 f (set_ctl c i))
      | _ => False
      end.
  Lemma startable2_all f c : startable2 f c.
  Proof.
    intros env n r e ty lg iu lo.
    destruct f; cbn; split; auto; split; auto; intro M; split;
      repeat (apply Forall_cons || apply Forall_nil);
      (intros buf szof fuel env' env'' L || intros ? szof fuel env' env''); bufs;
      destruct c; cbn in M; subst; eexists; cbv; reflexivity.
  Qed.

  (** C28: creation *)
  Lemma create3_new f env lg iu e n t r lo ty :
    is_name n -> is_token f t ->
    exists i, createModelInstance (model_of FMI3 f) env lg iu e n t r lo ty = Done (Some i, []) /\
      fresh n r ty lg lo e false false i /\
      (forall c, mode c = Instantiated -> reads_starts3 f (set_ctl c i)).
  Proof.
    intros N T. destruct (create_valid FMI3 env lg iu e r lo ty N T) as (n' & -> & ->).
    pose proof (fun c => @startable3_all f c env (cstr n') (option_map cstr r) e ty lg iu lo) as H.
    destruct (bind _ _ _) as [[[u i] tr]| |]; try (destruct (H (ctl (blank (model_of FMI3 f) [] r e ty lg iu lo))); fail).
    destruct (H (ctl i)) as (-> & C & _). exists i. split; auto. split.
    - unfold fresh. rewrite C. cbn. intuition auto.
    - intros c M. now apply (H c).
  Qed.

  Lemma set_ctl_same D (i : Inst F D) : set_ctl (ctl i) i = i.
  Proof. destruct i; reflexivity. Qed.

  Lemma me3_valid f env n t r lo e lg :
    f <> Clocks -> is_name n -> is_token f t ->
    exists i, fmi3InstantiateModelExchange (model_of FMI3 f) env n t r lo e lg = Done (Some i, []) /\
      fresh n r ModelExchange lg lo e false false i /\ reads_starts3 f i.
  Proof.
    intros Hf N T. destruct (create3_new env lg false e r lo ModelExchange N T) as (i & E & Fr & R).
    exists i. unfold fmi3InstantiateModelExchange. rewrite E.
    replace (m_modelExchange (model_of FMI3 f)) with true by (destruct f; auto; contradiction).
    split; auto. split; auto. rewrite <- (set_ctl_same i). apply R. apply Fr.
  Qed.
  Lemma me3_invalid f env n t r lo e lg :
    ~ (f <> Clocks /\ is_name n /\ is_token f t) ->
    exists tr, fmi3InstantiateModelExchange (model_of FMI3 f) env n t r lo e lg = Done (None, tr) /\
      (lg = false -> tr = []).
  Proof.
    intro H. unfold fmi3InstantiateModelExchange.
    destruct (m_modelExchange (model_of FMI3 f)) eqn:M; eauto.
    assert (f <> Clocks) by (intros ->; discriminate).
    rewrite create_invalid by tauto. destruct lg; eauto. eexists; split; eauto. discriminate.
  Qed.

  Lemma cs3_valid f env n t r lo ev er e lg iu :
    (ev = true -> handles_events f = true) -> is_name n -> is_token f t ->
    exists i, fmi3InstantiateCoSimulation (model_of FMI3 f) env n t r lo ev er e lg iu = Done (Some i, []) /\
      fresh n r CoSimulation lg lo e ev er i /\ reads_starts3 f i.
  Proof.
    intros Hf N T. destruct (create3_new env lg iu e r lo CoSimulation N T) as (i & E & Fr & R).
    eexists. unfold fmi3InstantiateCoSimulation. rewrite E.
    replace (negb (m_eventUpdate (model_of FMI3 f)) && ev) with false
      by (destruct f, ev; auto; specialize (Hf eq_refl); discriminate).
    split; [reflexivity|]. split.
    - unfold fresh in *. cbn. intuition auto.
    - now apply R.
  Qed.
  Lemma cs3_invalid f env n t r lo ev er e lg iu :
    ~ ((ev = true -> handles_events f = true) /\ is_name n /\ is_token f t) ->
    exists tr, fmi3InstantiateCoSimulation (model_of FMI3 f) env n t r lo ev er e lg iu = Done (None, tr) /\
      (lg = false -> tr = []).
  Proof.
    intro H. unfold fmi3InstantiateCoSimulation.
    destruct (negb (m_eventUpdate (model_of FMI3 f)) && ev) eqn:M.
    { destruct lg; eauto. eexists; split; eauto. discriminate. }
    assert (ev = true -> handles_events f = true) by (intros ->; destruct f; auto; discriminate).
    rewrite create_invalid by tauto. destruct lg; eauto. eexists; split; eauto. discriminate.
  Qed.

  Lemma se3_valid env n t r lo e lg cu lk ul :
    is_name n -> is_token Clocks t ->
    exists i, fmi3InstantiateScheduledExecution (model_of FMI3 Clocks) env n t r lo e lg cu lk ul = Done (Some i, []) /\
      fresh n r ScheduledExecution lg lo e false false i /\ reads_starts3 Clocks i.
  Proof.
    intros N T. destruct (create3_new env lg false e r lo ScheduledExecution N T) as (i & E & Fr & R).
    eexists. unfold fmi3InstantiateScheduledExecution. rewrite E. cbn [m_scheduled model_of].
    split; [reflexivity|]. split.
    - unfold fresh in *. cbn. intuition auto.
    - now apply R.
  Qed.
  Lemma se3_invalid f env n t r lo e lg cu lk ul :
    ~ (f = Clocks /\ is_name n /\ is_token f t) ->
    exists tr, fmi3InstantiateScheduledExecution (model_of FMI3 f) env n t r lo e lg cu lk ul = Done (None, tr) /\
      (lg = false -> tr = []).
  Proof.
    intro H. unfold fmi3InstantiateScheduledExecution.
    destruct (m_scheduled (model_of FMI3 f)) eqn:M; eauto.
    assert (f = Clocks) by (destruct f; auto; discriminate).
    rewrite create_invalid by tauto. destruct lg; eauto. eexists; split; eauto. discriminate.
  Qed.

  Lemma i2_valid f env n ty t r e lo :
    is_name n -> is_token f t ->
    exists i, fmi2Instantiate (model_of FMI2 f) env n ty t r e true lo = Done (Some i, []) /\
      fresh n r ty true lo e false false i /\ reads_starts2 f i.
  Proof.
    intros N T. unfold fmi2Instantiate. destruct (create_valid FMI2 env true false e r lo ty N T) as (n' & -> & ->).
    pose proof (fun c => @startable2_all f c env (cstr n') (option_map cstr r) e ty true false lo) as H.
    destruct (bind _ _ _) as [[[u i] tr]| |]; try (destruct (H (ctl (blank (model_of FMI2 f) [] r e ty true false lo))); fail).
    destruct (H (ctl i)) as (-> & C & R). exists i. split; auto. split.
    - unfold fresh. rewrite C. cbn. intuition auto.
    - rewrite set_ctl_same in R. apply R. rewrite C. reflexivity.
  Qed.
  Lemma i2_invalid f env n ty t r e lg lo :
    ~ (lg = true /\ is_name n /\ is_token f t) ->
    exists tr, fmi2Instantiate (model_of FMI2 f) env n ty t r e lg lo = Done (None, tr) /\ (lg = false -> tr = []).
  Proof.
    intro H. unfold fmi2Instantiate. destruct lg; eauto.
    rewrite create_invalid by tauto. eexists; split; eauto. discriminate.
  Qed.

  (** C27: any history of calls on NULL *)
  Lemma null3 (m : Model F) szof fuel l :
    runH (api3 szof fuel) l (HNull m) =
    Done (map (fun p => (Error, untouched3 m (snd p), [])) l, HNull m).
  Proof. induction l as [|[e o] l IH]; cbn; [|rewrite IH]; reflexivity. Qed.
  Lemma null2 (m : Model F) szof fuel l :
    runH (api2 szof fuel) l (HNull m) =
    Done (map (fun p => (Error, untouched2 m (snd p), [])) l, HNull m).
  Proof. induction l as [|[e o] l IH]; cbn; [|rewrite IH]; reflexivity. Qed.
  Lemma live3 (m : Model F) szof fuel l : forall s,
    runH (api3 szof fuel) l (HLive m s) =
    match run3 m szof fuel l s with
    | Done (obs, s') => Done (obs, HLive m s') | UB => UB | NoFuel => NoFuel end.
  Proof.
    induction l as [|[e o] l IH]; intro s; cbn; [reflexivity|]. unfold run3 in *.
    destruct (exec3 m szof fuel e o s) as [[[[st out] s'] t]| |]; auto. cbn. rewrite IH.
    destruct (run _ l s') as [[obs s'']| |]; auto.
  Qed.
  Lemma live2 (m : Model F) szof fuel l : forall s,
    runH (api2 szof fuel) l (HLive m s) =
    match run2 m szof fuel l s with
    | Done (obs, s') => Done (obs, HLive m s') | UB => UB | NoFuel => NoFuel end.
  Proof.
    induction l as [|[e o] l IH]; intro s; cbn; [reflexivity|]. unfold run2 in *.
    destruct (exec2 m szof fuel e o s) as [[[[st out] s'] t]| |]; auto. cbn. rewrite IH.
    destruct (run _ l s') as [[obs s'']| |]; auto.
  Qed.
End Create.
