(** Histories.v -- statuses, modes, identity and logging along histories (C03-C06, C15, C24). *)
From Coq Require Import List NArith ZArith Bool Arith Lia.
From Verif Require Import Base Instance ModelIface Core Fmi3 Fmi2 Api Logic SpecModes SpecHist Gate Frame Frame3
  Effect Reach Calls.
Import ListNotations.
Set Implicit Arguments.

Section Histories.
  Context {F : Type} {NF : Num F} (m : Model F) (szof : N).
  Notation D := (md m).
  Hypothesis L : Laws m.

  Lemma modes3_dec (s : Sys F D) : In (mode_of s) modes3 \/ ~ In (mode_of s) modes3.
  Proof. destruct (in_dec mode_dec (mode_of s) modes3); auto. Qed.

  (** Identity *)
  Lemma exec3_identity fuel env o s st out s' t :
    In (mode_of s) modes3 ->
    exec3 m szof fuel env o s = Done (st, out, s', t) ->
    identity s' = identity s /\
    (match o with O3SetDebugLogging _ _ _ => True | _ => logging s' = logging s end).
  Proof.
    intros Hm E. pose proof (@exec3_effect _ _ m szof env L _ _ _ _ _ _ _ Hm E) as [Ef _].
    unfold identity, logging.
    destruct o; cbn [effect3] in Ef;
      try (destruct Ef as [[_ Ef]|[_ Ef]]; rewrite Ef; auto; fail).
    - destruct Ef as (ev & er & -> & _). auto.
    - destruct h as [h|].
      + destruct Ef as (i & S & _ & ->). auto.
      + destruct Ef as [[_ ->]|[_ ->]]; auto.
    - destruct Ef as [_ ->]. auto.
    - destruct Ef as [[[_ ->]|[_ ->]]|(_ & _ & _ & ->)]; auto.
    - destruct Ef as (x & n & p & -> & _). auto.
  Qed.
  Lemma exec2_identity fuel env o s st out s' t :
    exec2 m szof fuel env o s = Done (st, out, s', t) ->
    identity s' = identity s /\
    (match o with O2SetDebugLogging _ _ _ => True | _ => logging s' = logging s end).
  Proof.
    intros E. pose proof (@exec2_effect _ _ m szof env L _ _ _ _ _ _ _ E) as [Ef _].
    unfold identity, logging.
    destruct o; cbn [effect2] in Ef;
      try (destruct Ef as [[_ Ef]|[_ Ef]]; rewrite Ef; auto; fail).
    - destruct Ef as (ev & er & -> & _). auto.
    - destruct h as [h|].
      + destruct Ef as [(i & S & _ & ->)|[_ ->]]; auto.
      + destruct Ef as [[_ ->]|[_ ->]]; auto.
    - destruct Ef as (x & n & p & -> & _). auto.
    - destruct Ef as [[[_ ->]|[_ ->]]|[_ ->]]; auto.
    - destruct Ef as [[[_ ->]|[_ ->]]|[_ ->]]; auto.
    - destruct Ef as [[[_ ->]|[_ ->]]|[_ ->]]; auto.
  Qed.

  (** A history from a reachable system ends in a reachable one. *)
  Lemma run_cons Op (ex : Env -> Op -> SF m (Status * Out F D)) e o l s obs s'' :
    run ex ((e, o) :: l) s = Done (obs, s'') ->
    exists st out s' t obs', ex e o s = Done (st, out, s', t) /\
      run ex l s' = Done (obs', s'') /\ obs = (st, out, t) :: obs'.
  Proof.
    cbn. destruct (ex e o s) as [[[[st out] s'] t]| |]; try discriminate.
    destruct (run ex l s') as [[obs' s2]| |] eqn:R; try discriminate.
    intro H; inversion H; subst. eauto 10.
  Qed.

  Lemma run3_reach fuel : forall l s obs s',
    reach3 m szof s -> (forall e o i, In (e, o) l -> image3 o = Some i -> saved3 m szof i) ->
    run3 m szof fuel l s = Done (obs, s') -> reach3 m szof s'.
  Proof.
    induction l as [|[e o] l IH]; intros s obs s' R I E.
    - cbn in E. inversion E; subst; auto.
    - apply run_cons in E as (st & out & s1 & t & obs' & E1 & E2 & ->).
      eapply IH; [|intros; eapply I; [right; eassumption|eassumption]|exact E2].
      eapply reach3_call; eauto. intros; eapply I; [now left|eassumption].
  Qed.
  Lemma run2_reach fuel : forall l s obs s',
    reach2 m szof s -> (forall e o i, In (e, o) l -> image2 o = Some i -> saved2 m szof i) ->
    run2 m szof fuel l s = Done (obs, s') -> reach2 m szof s'.
  Proof.
    induction l as [|[e o] l IH]; intros s obs s' R I E.
    - cbn in E. inversion E; subst; auto.
    - apply run_cons in E as (st & out & s1 & t & obs' & E1 & E2 & ->).
      eapply IH; [|intros; eapply I; [right; eassumption|eassumption]|exact E2].
      eapply reach2_call; eauto. intros; eapply I; [now left|eassumption].
  Qed.

  (** Terminated is left only by Reset and SetFMUState. *)
  Lemma exec3_terminated fuel env o s st out s' t :
    mode_of s = Terminated -> restarts3 o = false ->
    exec3 m szof fuel env o s = Done (st, out, s', t) -> mode_of s' = Terminated.
  Proof.
    intros M R E.
    destruct (@exec3_mode _ _ m szof L fuel env o s st out s' t) as [(-> & W & N)|(-> & [N|[N _]])]; auto.
    - rewrite M. cbn; tauto.
    - rewrite N. unfold mode_of in *. rewrite M in W.
      destruct o; cbn in W |- *; auto; try discriminate; intuition discriminate.
    - congruence.
  Qed.
  Lemma exec2_terminated fuel env o s st out s' t :
    mode_of s = Terminated -> restarts2 o = false ->
    exec2 m szof fuel env o s = Done (st, out, s', t) -> mode_of s' = Terminated.
  Proof.
    intros M R E.
    destruct (@exec2_mode _ _ m szof L fuel env o s st out s' t) as [(-> & W & N)|[(-> & N & _)|(-> & N)]]; auto.
    - rewrite N. unfold mode_of in *. rewrite M in W.
      destruct o; cbn in W |- *; auto; try discriminate; intuition discriminate.
    - congruence.
  Qed.
  Lemma run3_terminated fuel : forall l s obs s',
    mode_of s = Terminated -> Forall (fun p => restarts3 (snd p) = false) l ->
    run3 m szof fuel l s = Done (obs, s') -> mode_of s' = Terminated.
  Proof.
    induction l as [|[e o] l IH]; intros s obs s' M R E.
    - cbn in E. inversion E; subst; auto.
    - apply run_cons in E as (st & out & s1 & t & obs' & E1 & E2 & ->). inversion R; subst.
      eapply IH; [eapply exec3_terminated; eauto|eassumption|exact E2].
  Qed.
  Lemma run2_terminated fuel : forall l s obs s',
    mode_of s = Terminated -> Forall (fun p => restarts2 (snd p) = false) l ->
    run2 m szof fuel l s = Done (obs, s') -> mode_of s' = Terminated.
  Proof.
    induction l as [|[e o] l IH]; intros s obs s' M R E.
    - cbn in E. inversion E; subst; auto.
    - apply run_cons in E as (st & out & s1 & t & obs' & E1 & E2 & ->). inversion R; subst.
      eapply IH; [eapply exec2_terminated; eauto|eassumption|exact E2].
  Qed.

  (** C03 *)
  Lemma exec3_error fuel env o s out s' t :
    In (mode_of s) modes3 -> terminating (m_outputDerivative m) o = true ->
    exec3 m szof fuel env o s = Done (Error, out, s', t) -> mode_of s' = Terminated.
  Proof.
    intros Hm C E.
    destruct (@exec3_mode _ _ m szof L fuel env o s Error out s' t) as [(H & _)|(_ & [N|[N H]])]; auto.
    - discriminate.
    - destruct H as [->|(H & _ & a & b & c & d & ->)]; [discriminate|]. cbn in C. congruence.
  Qed.
  Lemma exec3_ok_alive fuel env o s out s' t :
    In (mode_of s) modes3 -> mode_of s <> Terminated ->
    exec3 m szof fuel env o s = Done (OK, out, s', t) -> mode_of s' = Terminated ->
    o = O3Terminate \/ exists h i, o = O3SetFMUState (Some h) /\ saved s h = Some i /\ mode (ctl i) = Terminated.
  Proof.
    intros Hm Ha E M.
    destruct (@exec3_mode _ _ m szof L fuel env o s OK out s' t) as [(_ & W & N)|(H & _)]; auto; [|discriminate].
    rewrite M in N. unfold mode_of in *.
    destruct o; cbn [next3] in N; auto; try congruence; try discriminate.
    - destruct (itype (ctl (sinst s))), (eventModeUsed (ctl (sinst s))); discriminate.
    - right. destruct h as [h|]; [|congruence]. destruct (saved s h) as [i|] eqn:S; [|congruence].
      exists h, i. auto.
    - destruct (mode (ctl (sinst s))); discriminate.
    - destruct (mode (ctl (sinst s))), (itype (ctl (sinst s))); discriminate.
  Qed.

  (** C06 *)
  Lemma exec3_status fuel env o s st out s' t :
    In (mode_of s) modes3 -> exec3 m szof fuel env o s = Done (st, out, s', t) -> st = OK \/ st = Error.
  Proof.
    intros Hm E. destruct (@exec3_mode _ _ m szof L fuel env o s st out s' t) as [(-> & _)|(-> & _)]; auto.
  Qed.
  Lemma exec2_status fuel env o s st out s' t :
    exec2 m szof fuel env o s = Done (st, out, s', t) ->
    st = OK \/ st = Error \/ (st = Discard /\
      match o with O2DoStep _ _ | O2GetStatus _ | O2GetRealStatus _ _ | O2GetBooleanStatus _ _ => True | _ => False end).
  Proof.
    intros E. destruct (@exec2_mode _ _ m szof L fuel env o s st out s' t) as [(-> & _)|[(-> & _ & H)|(-> & _)]]; auto.
  Qed.

  Definition discards (f : AF F D (Status * bool)) : Prop :=
    forall i, match f i with
              | Done ((st, fin), i', _) => st = Discard -> fin = false /\ terminateSimulation (mut i') = true
              | _ => True end.
  Lemma discards_bind X (f : AF F D X) k : (forall x, discards (k x)) -> discards (bind f k).
  Proof.
    intros H i. unfold bind. destruct (f i) as [[[x i1] t1]| |]; auto. specialize (H x i1).
    destruct (k x i1) as [[[[st fin] i2] t2]| |]; auto.
  Qed.
  Lemma discards_bind1 X (P : X -> Prop) (f : AF F D X) k :
    (forall i, match f i with Done (x, _, _) => P x | _ => True end) ->
    (forall x, P x -> discards (k x)) -> discards (bind f k).
  Proof.
    intros Hf H i. unfold bind. specialize (Hf i). destruct (f i) as [[[x i1] t1]| |]; auto.
    specialize (H x Hf i1). destruct (k x i1) as [[[[st fin] i2] t2]| |]; auto.
  Qed.
  Lemma discards_ret st fin : st <> Discard -> discards (ret (st, fin)).
  Proof. intros H i. cbn. intro; contradiction. Qed.
  Lemma CALL_P s : okerr s -> forall i, match CALL m OK s i with Done (x, _, _) => okerr x | _ => True end.
  Proof. intros [->| ->] i; cbn; [left|right]; auto. Qed.
  Lemma doStep2_loop_discard env fuel : forall ncp st, okerr st -> discards (doStep2_loop m env fuel ncp st).
  Proof.
    induction fuel; intros ncp st Hst; cbn [doStep2_loop]; [intro i; exact I|].
    apply discards_bind. intro c. destruct (pointReached m ncp c).
    { apply discards_ret. destruct Hst; subst; discriminate. }
    apply (@discards_bind1 _ (fun r => okerr (fst (fst r)))).
    { intro i. pose proof (@moving_doFixedStep _ _ m L env i) as H.
      destruct (doFixedStep m env i) as [[[r i1] t1]| |]; auto. apply H. }
    intros [[s se] te] Hs. cbn in Hs.
    assert (HC : forall st s, okerr st -> okerr s -> forall i,
      match CALL m st s i with Done (x, _, _) => okerr x | _ => True end).
    { intros a b [->| ->] [->| ->] i; cbn; [left|right|right|right]; auto. }
    apply (@discards_bind1 _ okerr); [now apply HC|]. intros st1 H1.
    destruct (stops st1); [apply discards_ret; destruct H1; subst; discriminate|].
    assert (Hrest : forall st, okerr st -> discards
        (bind (getM m) (fun u : Mut F (md m) => if terminateSimulation u then ret (Discard, false)
                          else doStep2_loop m env fuel ncp st))).
    { intros st2 H2 i. rewrite bind_getM. destruct (terminateSimulation (mut i)) eqn:T.
      - cbn. auto.
      - now apply IHfuel. }
    destruct (m_eventUpdate m); auto.
    destruct (match se with Some true => Some true | Some false => te | None => None end) as [[|]|];
      auto; [|intro i; exact I].
    apply (@discards_bind1 _ okerr).
    { intro i. pose proof (@quiet_call _ m env _ okerr _ (l_event L) i) as H.
      destruct (call m env (m_eventUpdateF m) i) as [[[r i1] t1]| |]; auto. apply H. }
    intros s1 Hs1. apply (@discards_bind1 _ okerr); [now apply HC|]. intros st2 H2.
    destruct (stops st2); [apply discards_ret; destruct H2; subst; discriminate|]. auto.
  Qed.
  Lemma exec2_discard fuel env a h s out s' t :
    exec2 m szof fuel env (O2DoStep a h) s = Done (Discard, out, s', t) ->
    terminateSimulation (mut (sinst s')) = true.
  Proof.
    cbn [exec2]. unfold fmi2DoStep. intro E. apply outI_gate2 in E as [(H & _)|(y & E & _ & _ & _)]; [discriminate|].
    rewrite bind_getC in E. cbv zeta in E.
    destruct (negb _).
    { unfold bind at 1 in E. rewrite logError_eq in E. unfold setMode in E. rewrite bind_modC in E.
      cbn in E. discriminate. }
    destruct (nle h nzero).
    { unfold bind at 1 in E. rewrite logError_eq in E. cbn in E. discriminate. }
    destruct (_ && _).
    { unfold bind at 1 in E. rewrite logError_eq in E. cbn in E. discriminate. }
    apply bind_Done in E as ([st fin] & i1 & t1 & t2 & E1 & E2 & _).
    pose proof (@doStep2_loop_discard env fuel (nadd a h) OK (or_introl eq_refl) (sinst s)) as H.
    rewrite E1 in H. destruct fin.
    - rewrite bind_modC in E2. cbn in E2. inversion E2; subst. destruct (H eq_refl). discriminate.
    - cbn in E2. inversion E2; subst. apply H; auto.
  Qed.

  (** C24 *)
  Lemma exec3_logs fuel env o s st out s' t :
    In (mode_of s) modes3 -> exec3 m szof fuel env o s = Done (st, out, s', t) ->
    forall e, In e t -> is_log e = true ->
      e = ELog Error CatLogStatusError /\ hasLogger (ctl (sinst s)) = true /\
      (logErrors (ctl (sinst s)) = true \/
       (exists b n c, o = O3SetDebugLogging b n c) /\ logErrors (ctl (sinst s')) = true).
  Proof.
    intros Hm E e He Hl. pose proof (@exec3_effect _ _ m szof env L _ _ _ _ _ _ _ Hm E) as [_ W].
    destruct (W e He Hl) as (-> & [A|A] & B); auto.
    split; auto. split; auto.
    pose proof (@exec3_identity fuel env o s st out s' t Hm E) as [_ I]. unfold logging in I.
    destruct o; try (left; congruence). right. eauto.
  Qed.
  Lemma exec2_logs fuel env o s st out s' t :
    exec2 m szof fuel env o s = Done (st, out, s', t) ->
    forall e, In e t -> is_log e = true ->
      e = ELog Error CatLogStatusError /\ hasLogger (ctl (sinst s)) = true /\
      (logErrors (ctl (sinst s)) = true \/
       (exists b n c, o = O2SetDebugLogging b n c) /\ logErrors (ctl (sinst s')) = true).
  Proof.
    intros E e He Hl. pose proof (@exec2_effect _ _ m szof env L _ _ _ _ _ _ _ E) as [_ W].
    destruct (W e He Hl) as (-> & [A|A] & B); auto.
    split; auto. split; auto.
    pose proof (@exec2_identity fuel env o s st out s' t E) as [_ I]. unfold logging in I.
    destruct o; try (left; congruence). right. eauto.
  Qed.

  Lemma mode_modes3 fuel env o s st out s' t :
    In (mode_of s) modes3 -> (forall i, In (Some i) (heap s) -> In (mode (ctl i)) modes3) ->
    exec3 m szof fuel env o s = Done (st, out, s', t) -> In (mode_of s') modes3.
  Proof.
    intros Hm A E.
    destruct (@exec3_mode _ _ m szof L fuel env o s st out s' t) as [(-> & W & N)|(-> & [N|[N _]])]; auto;
      rewrite N; auto; [|cbn; tauto].
    unfold mode_of in *. destruct o; cbn [next3]; auto; try (cbn; tauto).
    - destruct (itype (ctl (sinst s))), (eventModeUsed (ctl (sinst s))); cbn; tauto.
    - destruct h as [h|]; auto. destruct (saved s h) eqn:S; auto. apply A. eapply saved_In; eauto.
    - destruct (mode (ctl (sinst s))); cbn; tauto.
    - destruct (mode (ctl (sinst s))), (itype (ctl (sinst s))); cbn; tauto.
  Qed.

  (** Histories without SetDebugLogging, error logging off: silence. *)
  Lemma run3_silent fuel : forall l s obs s',
    reach3 m szof s -> (forall e o i, In (e, o) l -> image3 o = Some i -> saved3 m szof i) ->
    (hasLogger (ctl (sinst s)) = false \/
     logErrors (ctl (sinst s)) = false /\ Forall (fun p => debugs3 (snd p) = false) l) ->
    run3 m szof fuel l s = Done (obs, s') -> Forall (fun r => Forall (fun e => is_log e = false) (snd r)) obs.
  Proof.
    induction l as [|[e o] l IH]; intros s obs s' R I Q E.
    - cbn in E. inversion E; subst; auto.
    - apply run_cons in E as (st & out & s1 & t & obs' & E1 & E2 & ->).
      pose proof (reach3_modes L R) as Hm.
      pose proof (exec3_logs _ _ _ _ Hm E1) as Lg.
      pose proof (exec3_identity _ _ _ _ Hm E1) as [Id Lo].
      assert (hasLogger (ctl (sinst s1)) = hasLogger (ctl (sinst s))) as Hl
        by (unfold identity in Id; congruence).
      constructor.
      + apply Forall_forall. intros x Hx. destruct (is_log x) eqn:Lx; auto.
        destruct (Lg x Hx Lx) as (_ & A & B). exfalso. cbn in Hx.
        destruct Q as [Q|[Q1 Q2]]; [congruence|]. inversion Q2; subst.
        destruct B as [B|[(b & n & c & ->) _]]; [congruence|discriminate].
      + eapply IH; [|intros; eapply I; [right; eassumption|eassumption]| |exact E2].
        { eapply reach3_call; eauto. intros; eapply I; [now left|eassumption]. }
        destruct Q as [Q|[Q1 Q2]]; [left; congruence|right]. inversion Q2; subst. split; auto.
        unfold logging in Lo. destruct o; try congruence. discriminate.
  Qed.
  Lemma run2_silent fuel : forall l s obs s',
    (hasLogger (ctl (sinst s)) = false \/
     logErrors (ctl (sinst s)) = false /\ Forall (fun p => debugs2 (snd p) = false) l) ->
    run2 m szof fuel l s = Done (obs, s') -> Forall (fun r => Forall (fun e => is_log e = false) (snd r)) obs.
  Proof.
    induction l as [|[e o] l IH]; intros s obs s' Q E.
    - cbn in E. inversion E; subst; auto.
    - apply run_cons in E as (st & out & s1 & t & obs' & E1 & E2 & ->).
      pose proof (exec2_logs _ _ _ _ E1) as Lg.
      pose proof (exec2_identity _ _ _ _ E1) as [Id Lo].
      assert (hasLogger (ctl (sinst s1)) = hasLogger (ctl (sinst s))) as Hl
        by (unfold identity in Id; congruence).
      constructor.
      + apply Forall_forall. intros x Hx. destruct (is_log x) eqn:Lx; auto.
        destruct (Lg x Hx Lx) as (_ & A & B). exfalso. cbn in Hx.
        destruct Q as [Q|[Q1 Q2]]; [congruence|]. inversion Q2; subst.
        destruct B as [B|[(b & n & c & ->) _]]; [congruence|discriminate].
      + eapply IH; [|exact E2].
        destruct Q as [Q|[Q1 Q2]]; [left; congruence|right]. inversion Q2; subst. split; auto.
        unfold logging in Lo. destruct o; try congruence. discriminate.
  Qed.

  (** C15 along histories *)
  Lemma run3_identity fuel : forall l s obs s',
    reach3 m szof s -> (forall e o i, In (e, o) l -> image3 o = Some i -> saved3 m szof i) ->
    run3 m szof fuel l s = Done (obs, s') ->
    identity s' = identity s /\
    (Forall (fun p => debugs3 (snd p) = false) l -> logging s' = logging s).
  Proof.
    induction l as [|[e o] l IH]; intros s obs s' R I E.
    - cbn in E. inversion E; subst; auto.
    - apply run_cons in E as (st & out & s1 & t & obs' & E1 & E2 & ->).
      pose proof (exec3_identity _ _ _ _ (reach3_modes L R) E1) as [Id Lo].
      destruct (IH s1 obs' s') as [A B]; auto.
      { eapply reach3_call; eauto. intros; eapply I; [now left|eassumption]. }
      { intros; eapply I; [right; eassumption|eassumption]. }
      split; [congruence|]. intro Q. inversion Q; subst. rewrite B by auto. destruct o; auto; discriminate.
  Qed.
  Lemma run2_identity fuel : forall l s obs s',
    run2 m szof fuel l s = Done (obs, s') ->
    identity s' = identity s /\
    (Forall (fun p => debugs2 (snd p) = false) l -> logging s' = logging s).
  Proof.
    induction l as [|[e o] l IH]; intros s obs s' E.
    - cbn in E. inversion E; subst; auto.
    - apply run_cons in E as (st & out & s1 & t & obs' & E1 & E2 & ->).
      pose proof (exec2_identity _ _ _ _ E1) as [Id Lo].
      destruct (IH s1 obs' s') as [A B]; auto.
      split; [congruence|]. intro Q. inversion Q; subst. rewrite B by auto. destruct o; auto; discriminate.
  Qed.
End Histories.
