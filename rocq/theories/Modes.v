(** Modes.v -- the lemmas behind PropModes.v in their final form. *)
From Coq Require Import List NArith ZArith Bool.
From Verif Require Import Base Instance ModelIface Core Fmi3 Fmi2 Api Fmus LawsFmus SpecModes SpecHist SpecCreate
  Logic Gate Reach Histories.
Import ListNotations.
Set Implicit Arguments.

Section Modes.
  Context {F : Type} {NF : Num F}.

  Lemma gate3_all (m : Model F) szof fuel env (o : Op3 F (md m)) s :
    In (mode_of s) modes3 -> ~ In (mode_of s) (when3 o) ->
    exec3 m szof fuel env o s = Done (Error, untouched3 m o, with_mode Terminated s, refusal s).
  Proof. intros A B. apply gate3; auto. intros ->. now apply B. Qed.

  Lemma output_derivatives_eq v f : m_outputDerivative (model_of v f) = has_output_derivatives f.
  Proof. destruct v, f; reflexivity. Qed.

  Lemma errors_terminate (f : FMU) szof fuel env (o : Op3 F (md (model_of FMI3 f))) s out s' t :
    reach3 (model_of FMI3 f) szof s ->
    exec3 (model_of FMI3 f) szof fuel env o s = Done (Error, out, s', t) ->
    terminating (has_output_derivatives f) o = true ->
    mode_of s' = Terminated.
  Proof.
    intros R E T. pose proof (reach3_modes (model_laws FMI3 f) R).
    eapply exec3_error; eauto; [apply model_laws|]. now rewrite output_derivatives_eq.
  Qed.
  Lemma success_does_not_terminate (f : FMU) szof fuel env (o : Op3 F (md (model_of FMI3 f))) s out s' t :
    reach3 (model_of FMI3 f) szof s -> mode_of s <> Terminated ->
    exec3 (model_of FMI3 f) szof fuel env o s = Done (OK, out, s', t) ->
    mode_of s' = Terminated ->
    o = O3Terminate \/
    exists h i, o = O3SetFMUState (Some h) /\ saved s h = Some i /\ mode (ctl i) = Terminated.
  Proof.
    intros R A E T. pose proof (reach3_modes (model_laws FMI3 f) R).
    eapply exec3_ok_alive; eauto. apply model_laws.
  Qed.

  Lemma mode_graph3 (f : FMU) szof s :
    reach3 (model_of FMI3 f) szof s ->
    In (mode_of s) observable3 /\
    forall fuel env (o : Op3 F (md (model_of FMI3 f))) st out s' t,
      exec3 (model_of FMI3 f) szof fuel env o s = Done (st, out, s', t) ->
      (mode_of s' = mode_of s \/ mode_of s' = Terminated \/ In (mode_of s, mode_of s') edges3 \/
       restarts3 o = true) /\
      (st = OK -> mode_of s' = next3 o s /\ In (mode_of s) (when3 o)).
  Proof.
    intro R. split; [exact (proj1 (reach3_observable (model_laws FMI3 f) R))|].
    intros fuel env o st out s' t E. split; [eapply exec3_edge; eauto; apply model_laws|].
    intros ->. pose proof (reach3_modes (model_laws FMI3 f) R) as Hm.
    destruct (@exec3_mode _ _ _ szof (model_laws FMI3 f) _ _ _ _ _ _ _ _ Hm E) as [(_ & A & B)|(H & _)];
      [auto|discriminate].
  Qed.
  Lemma mode_graph2 (f : FMU) szof s :
    reach2 (model_of FMI2 f) szof s ->
    In (mode_of s) observable2 /\
    forall fuel env (o : Op2 F (md (model_of FMI2 f))) st out s' t,
      exec2 (model_of FMI2 f) szof fuel env o s = Done (st, out, s', t) ->
      (mode_of s' = mode_of s \/ mode_of s' = Terminated \/ In (mode_of s, mode_of s') edges2 \/
       restarts2 o = true) /\
      (st = OK -> mode_of s' = next2 o s /\ In (mode_of s) (when2 o)) /\
      (st = Error -> mode_of s' = Terminated) /\
      (st = Discard -> mode_of s' = mode_of s).
  Proof.
    intro R. split; [exact (proj1 (reach2_observable (model_laws FMI2 f) R))|].
    intros fuel env o st out s' t E. split; [eapply exec2_edge; eauto; apply model_laws|].
    destruct (@exec2_mode _ _ _ szof (model_laws FMI2 f) _ _ _ _ _ _ _ _ E) as [(-> & A & B)|[(-> & A & _)|(-> & A)]];
      repeat split; intros; auto; discriminate.
  Qed.

  Lemma statuses3 (f : FMU) szof fuel env (o : Op3 F (md (model_of FMI3 f))) s st out s' t :
    reach3 (model_of FMI3 f) szof s ->
    exec3 (model_of FMI3 f) szof fuel env o s = Done (st, out, s', t) -> st = OK \/ st = Error.
  Proof.
    intros R E. eapply exec3_status; eauto; [apply model_laws|]. exact (reach3_modes (model_laws FMI3 f) R).
  Qed.
  Lemma statuses2 (f : FMU) szof fuel env (o : Op2 F (md (model_of FMI2 f))) s st out s' t :
    exec2 (model_of FMI2 f) szof fuel env o s = Done (st, out, s', t) ->
    st = OK \/ st = Error \/ (st = Discard /\
      match o with
      | O2DoStep _ _ => terminateSimulation (mut (sinst s')) = true
      | O2GetStatus _ | O2GetRealStatus _ _ | O2GetBooleanStatus _ _ => True
      | _ => False
      end).
  Proof.
    intro E. destruct (exec2_status szof (model_laws FMI2 f) _ _ _ _ E) as [->|[->|[-> H]]]; auto.
    right. right. split; auto. destruct o; auto. eapply exec2_discard; eauto. apply model_laws.
  Qed.
End Modes.
