(** Traces.v -- which callbacks the functions call.  Every function but fmi3DoStep and
    fmi3ActivateModelPartition calls the logger only. *)
From Coq Require Import List NArith ZArith Bool Arith Lia.
From Verif Require Import Base Instance ModelIface Core Fmi3 Fmi2 Api Logic Calls SpecModes SpecHist SpecCreate Reach Histories Fmus LawsFmus.
Import ListNotations.
Set Implicit Arguments.

Definition says {F D X} (P : Event F -> Prop) (f : MF F D X) : Prop :=
  forall e c u x u' t, f e c u = Done (x, u', t) -> Forall P t.

Record TraceLaws {F : Type} {NF : Num F} (m : Model F) (P : Event F -> Prop) : Prop := {
  kp_log : forall s c, P (ELog s c);
  kp_start : says P (m_setStartValues m);
  kp_calc : says P (m_calculateValues m);
  kp_get : forall t vr b n i, says P (m_get m t vr b n i);
  kp_set : forall t vr b n i, says P (m_set m t vr b n i);
  kp_bin : forall vr z b n i, says P (m_getBinary m vr z b n i);
  kp_setBin : forall vr z b n i, says P (m_setBinary m vr z b n i);
  kp_activate : forall vr, says P (m_activateClock m vr);
  kp_clock : forall vr, says P (m_getClock m vr);
  kp_interval : forall vr, says P (m_getInterval m vr);
  kp_states : forall x n, says P (m_getContinuousStates m x n);
  kp_nominals : forall x n, says P (m_getNominals m x n);
  kp_setStates : forall x n, says P (m_setContinuousStates m x n);
  kp_derivatives : forall x n, says P (m_getDerivatives m x n);
  kp_indicators : forall x n, says P (m_getEventIndicators m x n);
  kp_output : forall b vr o, says P (m_getOutputDerivative m b vr o);
  kp_partial : forall a b, says P (m_getPartialDerivative m a b);
  kp_event : says P (m_eventUpdateF m) }.

Section Quiet.
  Context {F : Type} {NF : Num F} (m : Model F) (P : Event F -> Prop) (L : TraceLaws m P) (szof : N).
  Notation D := (md m).

  Definition asays {X} (f : AF F D X) : Prop := forall i x k t, f i = Done (x, k, t) -> Forall P t.

  Lemma k_ret X (x : X) : asays (ret x).
  Proof. intros i y k t E. inversion E; subst. constructor. Qed.
  Lemma k_bind X Y (f : AF F D X) (k : X -> AF F D Y) : asays f -> (forall x, asays (k x)) -> asays (bind f k).
  Proof.
    intros A B i y l t E. apply bind_Done in E as (z & s1 & t1 & t2 & E1 & E2 & ->).
    apply Forall_app; split; [eapply A; eassumption|eapply B; eassumption].
  Qed.
  Lemma k_ub X : asays (ubM : AF F D X).
  Proof. intros i y k t E. discriminate. Qed.
  Lemma k_nofuel X : asays (nofuelM : AF F D X).
  Proof. intros i y k t E. discriminate. Qed.
  Lemma k_rd T (b : Buf T) n : asays (rd b n).
  Proof. intros i y k t E. unfold rd in E. destruct b as [l|]; [destruct (nth_error l n)|]; inversion E; subst; constructor. Qed.
  Lemma k_wr T (b : Buf T) n x : asays (wr b n x).
  Proof. intros i y k t E. unfold wr in E. destruct b as [l|]; [destruct (Nat.ltb n (length l))|]; inversion E; subst; constructor. Qed.
  Lemma k_getC : asays (getC m).
  Proof. intros i y k t E. inversion E; subst. constructor. Qed.
  Lemma k_getM : asays (getM m).
  Proof. intros i y k t E. inversion E; subst. constructor. Qed.
  Lemma k_getSol : asays (getSol m).
  Proof. intros i y k t E. inversion E; subst. constructor. Qed.
  Lemma k_modC f : asays (modC m f).
  Proof. intros i y k t E. inversion E; subst. constructor. Qed.
  Lemma k_modSol f : asays (modSol m f).
  Proof. intros i y k t E. inversion E; subst. constructor. Qed.
  Lemma k_tell e : P e -> asays (tell e).
  Proof. intros A i y k t E. inversion E; subst. now repeat constructor. Qed.
  Lemma k_modM f : asays (modM m f).
  Proof. intros i y k t E. inversion E; subst. constructor. Qed.
  Lemma k_call env X (f : MF F D X) : says P f -> asays (call m env f).
  Proof.
    intros A i y k t E. unfold call in E. destruct (f env (ctl i) (mut i)) as [[[x u] t']| |] eqn:Ef; inversion E; subst.
    eapply A; exact Ef.
  Qed.
  Lemma k_log env : asays (logError m env).
  Proof. intros i y k t E. rewrite logError_eq in E. inversion E; subst. unfold message. destruct (logErrors (ctl k)), (hasLogger (ctl k)); cbn; repeat constructor. apply (kp_log L). Qed.
  Lemma k_setMode s : asays (setMode m s).
  Proof. intros i y k t E. inversion E; subst. constructor. Qed.
  Lemma k_CALL st s : asays (CALL m st s).
  Proof. unfold CALL. destruct (smax st s); try apply k_ret; (apply k_bind; [apply k_setMode|intro; apply k_ret]). Qed.
  Lemma k_CALLk X st s (x : X) k : (forall st', asays (k st')) -> asays (CALLk m st s x k).
  Proof. intro H. unfold CALLk. apply k_bind; [apply k_CALL|]. intro st'. destruct (stops st'); [apply k_ret|apply H]. Qed.
  Lemma k_allowed env mask : asays (allowedState m env mask).
  Proof.
    unfold allowedState. apply k_bind; [apply k_getC|]. intro c. destruct (N.eqb _ _); [|apply k_ret].
    apply k_bind; [apply k_log|intro; apply k_ret].
  Qed.
  Lemma k_allowed2 env mask : asays (allowedState2 m env mask).
  Proof.
    unfold allowedState2. apply k_bind; [apply k_getC|]. intro c. destruct (N.eqb _ _); [|apply k_ret].
    apply k_bind; [apply k_log|intro; apply k_ret].
  Qed.
  Lemma k_BEGIN env X mask (x : X) k : asays k -> asays (BEGIN m env mask x k).
  Proof. intro H. unfold BEGIN. apply k_bind; [apply k_allowed|]. intros []; [exact H|]. apply k_CALLk. auto. Qed.
  Lemma k_BEGIN2 env X mask (x : X) k : asays k -> asays (BEGIN2 m env mask x k).
  Proof. intro H. unfold BEGIN2. apply k_bind; [apply k_allowed2|]. intros []; [exact H|]. apply k_CALLk. auto. Qed.
  Lemma k_notnull env T X (p : option T) (x : X) k : asays k -> asays (ASSERT_NOT_NULL m env p x k).
  Proof.
    intro H. unfold ASSERT_NOT_NULL. destruct p; [exact H|].
    apply k_bind; [apply k_log|intro]. apply k_bind; [apply k_setMode|intro]. apply k_ret.
  Qed.
  Lemma k_nullPointer env T (p : option T) : asays (nullPointer m env p).
  Proof. unfold nullPointer. destruct p; [apply k_ret|]. repeat (apply k_bind; [apply k_log || apply k_setMode|intro]). apply k_ret. Qed.
  Lemma k_invalidNumber env a b : asays (invalidNumber m env a b).
  Proof. unfold invalidNumber. destruct (N.eqb a b); [apply k_ret|]. repeat (apply k_bind; [apply k_log || apply k_setMode|intro]). apply k_ret. Qed.

  Ltac k1 := match goal with
    | |- asays (BEGIN _ _ _ _ _) => apply k_BEGIN
    | |- asays (BEGIN2 _ _ _ _ _) => apply k_BEGIN2
    | |- asays (ASSERT_NOT_NULL _ _ _ _ _) => apply k_notnull
    | |- asays (nullPointer _ _ _) => apply k_nullPointer
    | |- asays (if ?b then _ else _) => destruct b
    | |- asays (ret _) => apply k_ret
    | |- asays ubM => apply k_ub
    | |- asays nofuelM => apply k_nofuel
    | |- asays (CALLk _ _ _ _ _) => apply k_CALLk; intro
    | |- asays (CALL _ _ _) => apply k_CALL
    | |- asays (logError _ _) => apply k_log
    | |- asays (setMode _ _) => apply k_setMode
    | |- asays (getC _) => apply k_getC
    | |- asays (getM _) => apply k_getM
    | |- asays (getSol _) => apply k_getSol
    | |- asays (modC _ _) => apply k_modC
    | |- asays (modSol _ _) => apply k_modSol
    | |- asays (modM _ _) => apply k_modM
    | |- asays (rd _ _) => apply k_rd
    | |- asays (wr _ _ _) => apply k_wr
    | |- asays (tell _) => apply k_tell
    | |- asays (call _ _ _) => apply k_call
    | |- asays (bind _ _) => apply k_bind; [|intro]
    | |- asays (match ?x with _ => _ end) => destruct x
    end.
  Ltac ks := cbv zeta; repeat (k1; cbv zeta).

  Lemma k_refresh env X st (x : X) k : (forall st', asays (k st')) -> asays (refresh m env st x k).
  Proof. intro H. unfold refresh. ks; try apply (kp_calc L); apply H. Qed.
  Lemma k_get_loop env t : forall n vrs b nv i st, asays (get_loop m env t vrs n b nv i st).
  Proof. induction n as [|n IH]; intros; cbn [get_loop]; ks; try apply IH. apply (kp_get L). Qed.
  Lemma k_set_loop env t : forall n vrs b nv i st, asays (set_loop m env t vrs n b nv i st).
  Proof. induction n as [|n IH]; intros; cbn [set_loop]; ks; try apply IH. apply (kp_set L). Qed.
  Lemma k_bin_loop env : forall n vrs z b nv i st, asays (getBinary_loop m env vrs n z b nv i st).
  Proof. induction n as [|n IH]; intros; cbn [getBinary_loop]; ks; try apply IH. apply (kp_bin L). Qed.
  Lemma k_setBin_loop env : forall n vrs z b nv i st, asays (setBinary_loop m env vrs n z b nv i st).
  Proof. induction n as [|n IH]; intros; cbn [setBinary_loop]; ks; try apply IH. apply (kp_setBin L). Qed.
  Lemma k_clock_loop env : forall n vrs i b st, asays (getClock_loop m env vrs n i b st).
  Proof. induction n as [|n IH]; intros; cbn [getClock_loop]; ks; try apply IH. apply (kp_clock L). Qed.
  Lemma k_setClock_loop env : forall n vrs i b st, asays (setClock_loop m env vrs n i b st).
  Proof. induction n as [|n IH]; intros; cbn [setClock_loop]; ks; try apply IH. apply (kp_activate L). Qed.
  Lemma k_interval_loop env : forall n vrs i b q st, asays (interval_loop m env vrs n i b q st).
  Proof. induction n as [|n IH]; intros; cbn [interval_loop]; ks; try apply IH. apply (kp_interval L). Qed.
  Lemma k_row env pd : (forall o, says P (pd o)) -> forall n others j seed acc st, asays (deriv_row m env pd others n j seed acc st).
  Proof. intro G. induction n as [|n IH]; intros; cbn [deriv_row]; ks; try apply IH. apply G. Qed.
  Lemma k_rows env pd : (forall r o, says P (pd r o)) -> forall n rows i others k seed sens st,
    asays (deriv_rows m env pd rows n i others k seed sens st).
  Proof.
    intro G. induction n as [|n IH]; intros; cbn [deriv_rows]; ks; try apply IH. apply k_row. intro. apply G.
  Qed.
  Lemma k_output_loop env : forall n vrs i orders values st, asays (outputDerivative_loop m env vrs n i orders values st).
  Proof. induction n as [|n IH]; intros; cbn [outputDerivative_loop]; ks; try apply IH. apply (kp_output L). Qed.
  Lemma k_getBoolean_loop env : forall n vrs i nvr values st, asays (getBoolean_loop m env vrs n i nvr values st).
  Proof. induction n as [|n IH]; intros; cbn [getBoolean_loop]; ks; try apply IH. apply (kp_get L). Qed.
  Lemma k_setBoolean_loop env : forall n vrs i nvr values st, asays (setBoolean_loop m env vrs n i nvr values st).
  Proof. induction n as [|n IH]; intros; cbn [setBoolean_loop]; ks; try apply IH. apply (kp_set L). Qed.
  Lemma k_configurate env : asays (configurate m env).
  Proof. unfold configurate, CALLc, configurate_z, configurate_x. ks; apply (kp_indicators L). Qed.
  Lemma k_reset env : asays (reset m env).
  Proof. unfold reset. ks. apply (kp_start L). Qed.
  Lemma k_fixedStep env : (forall t, P (EIntermediateUpdate t)) -> asays (doFixedStep m env).
  Proof.
    intro A.
    unfold doFixedStep, fixedStep_x, fixedStep_time, fixedStep_z. ks;
      first [apply A|apply (kp_states L)|apply (kp_derivatives L)|apply (kp_setStates L)|apply (kp_indicators L)].
  Qed.
  Lemma k_doStep env : forall fuel ncp ehn st, (forall t, P (EIntermediateUpdate t)) -> asays (doStep_loop m env fuel ncp ehn st).
  Proof.
    induction fuel as [|fuel IH]; intros ncp ehn st A; cbn [doStep_loop]; ks;
      first [apply A|now apply IH|now apply k_fixedStep|apply (kp_event L)|apply (kp_indicators L)].
  Qed.
  Lemma k_doStep2 env : forall fuel ncp st, (forall t, P (EIntermediateUpdate t)) -> asays (doStep2_loop m env fuel ncp st).
  Proof.
    induction fuel as [|fuel IH]; intros ncp st A; cbn [doStep2_loop]; ks;
      first [now apply IH|now apply k_fixedStep|apply (kp_event L)].
  Qed.
  Lemma k_debug_loop env on : forall n cats, asays (setDebugLogging_loop m env on cats n).
  Proof. induction n as [|n IH]; intros; cbn [setDebugLogging_loop]; ks; apply IH. Qed.

  (** Calls on the instance. *)
  Lemma says_outI X (f : AF F D (Status * X)) o s st out s' t : asays f ->
    outI m f o s = Done (st, out, s', t) -> Forall P t.
  Proof.
    intros Q E. rewrite outI_eq in E. destruct (f (sinst s)) as [[[[st0 x] j] t0]| |] eqn:Ef; try discriminate.
    injection E; intros; subst. cbn. eapply Q; eassumption.
  Qed.
  (** Calls on the system. *)
  Definition ssays {X} (f : SF m X) : Prop := forall s x s' t, f s = Done (x, s', t) -> Forall P t.
  Lemma sk_ret X (x : X) : ssays (ret x).
  Proof. intros s y s' t E. inversion E; subst. constructor. Qed.
  Lemma sk_bind X Y (f : SF m X) (k : X -> SF m Y) : ssays f -> (forall x, ssays (k x)) -> ssays (bind f k).
  Proof.
    intros A B i y l t E. apply bind_Done in E as (z & s1 & t1 & t2 & E1 & E2 & ->).
    apply Forall_app; split; [eapply A; eassumption|eapply B; eassumption].
  Qed.
  Lemma sk_ub X : ssays (ubM : SF m X).
  Proof. intros i y k t E. discriminate. Qed.
  Lemma sk_onInst X (f : AF F D X) : asays f -> ssays (onInst m f).
  Proof.
    intros A s x s' t E. unfold onInst in E. destruct (f (sinst s)) as [[[y j] t0]| |] eqn:Ef; try discriminate.
    inversion E; subst. cbn. eapply A; exact Ef.
  Qed.
  Lemma sk_deref h : ssays (deref m h).
  Proof. intros s x s' t E. unfold deref in E. destruct (nth_error (heap s) h) as [[i|]|]; inversion E; subst. constructor. Qed.
  Lemma sk_alloc i : ssays (alloc m i).
  Proof. intros s x s' t E. inversion E; subst. constructor. Qed.
  Lemma sk_store h c : ssays (store m h c).
  Proof. intros s x s' t E. unfold store in E. destruct (nth_error (heap s) h) as [[i|]|]; inversion E; subst. constructor. Qed.
  Lemma sk_self X (g : Sys F D -> X) : ssays (fun s => Done (g s, s, [])).
  Proof. intros s x s' t E. inversion E; subst. constructor. Qed.
  Lemma sk_BEGIN3S X env mask (x : X) k : ssays k -> ssays (BEGIN3S (m := m) env mask x k).
  Proof.
    intro H. unfold BEGIN3S. apply sk_bind; [apply sk_onInst, k_allowed|]. intros []; [exact H|].
    apply sk_onInst. ks.
  Qed.
  Lemma sk_BEGIN2S X env mask (x : X) k : ssays k -> ssays (BEGIN2S (m := m) env mask x k).
  Proof.
    intro H. unfold BEGIN2S. apply sk_bind; [apply sk_onInst, k_allowed2|]. intros []; [exact H|].
    apply sk_onInst. ks.
  Qed.
  Lemma sk_outS X (f : SF m (Status * X)) o : ssays f -> ssays (outS (m := m) f o).
  Proof. intro H. unfold outS. apply sk_bind; [exact H|intro; apply sk_ret]. Qed.
  Lemma k_setState env x : asays (setFMUState m env x).
  Proof.
    unfold setFMUState. destruct x as [x|]; [|ks]. intros i y k t E.
    destruct (restoreSol (sol x) (sol i)); inversion E; subst; constructor.
  Qed.

  Ltac sk1 := match goal with
    | |- ssays (outS _ _) => apply sk_outS
    | |- ssays (BEGIN3S _ _ _ _) => apply sk_BEGIN3S
    | |- ssays (BEGIN2S _ _ _ _) => apply sk_BEGIN2S
    | |- ssays (ret _) => apply sk_ret
    | |- ssays ubM => apply sk_ub
    | |- ssays (onInst _ _) => apply sk_onInst
    | |- ssays (deref _ _) => apply sk_deref
    | |- ssays (alloc _ _) => apply sk_alloc
    | |- ssays (store _ _ _) => apply sk_store
    | |- ssays (bind _ _) => apply sk_bind; [|intro]
    | |- ssays (if ?b then _ else _) => destruct b
    | |- ssays (match ?x with _ => _ end) => destruct x
    | |- ssays (fun s => Done _) => apply sk_self
    | |- asays (nullPointer _ _ _) => apply k_nullPointer
    | |- asays (invalidNumber _ _ _ _) => apply k_invalidNumber
    | |- asays (setFMUState _ _ _) => apply k_setState
    end.

  Definition talks3 (o : Op3 F D) : Prop :=
    match o with
    | O3DoStep _ _ _ _ _ _ => forall t, P (EIntermediateUpdate t)
    | O3ActivateModelPartition vr time => says P (m_activateModelPartition m vr time)
    | _ => True
    end.

  Theorem exec3_says fuel env o s st out s' t : talks3 o -> exec3 m szof fuel env o s = Done (st, out, s', t) ->
    Forall P t.
  Proof.
    intros C E. destruct o; cbn [exec3] in E; cbn [talks3] in C;
      try (eapply says_outI; [|exact E]; clear E);
      try (refine (_ : Forall P t); revert E;
           match goal with |- ?f s = _ -> _ => enough (Q : ssays f) by (apply Q) end;
           unfold fmi3GetFMUState, fmi3SetFMUState, setFMUStateS, fmi3FreeFMUState, fmi3SerializedFMUStateSize, fmi3SerializeFMUState, fmi3DeserializeFMUState,
             getFMUState, freeFMUState, serializeFMUState, deserializeFMUState; repeat sk1; ks).
    - unfold fmi3SetDebugLogging, setDebugLogging. ks. apply k_debug_loop.
    - unfold fmi3EnterInitializationMode. ks.
    - unfold fmi3ExitInitializationMode. ks. apply k_refresh. intro. ks. apply k_configurate.
    - unfold fmi3EnterEventMode. ks.
    - unfold fmi3Terminate. ks.
    - unfold fmi3Reset. ks. apply k_reset.
    - unfold fmi3Get. ks; apply k_refresh; intro; ks; apply k_get_loop.
    - unfold fmi3Set. ks; apply k_set_loop.
    - unfold fmi3GetBinary. ks; apply k_refresh; intro; apply k_bin_loop.
    - unfold fmi3SetBinary. ks; apply k_setBin_loop.
    - unfold fmi3GetClock. ks. apply k_clock_loop.
    - unfold fmi3SetClock. ks. apply k_setClock_loop.
    - unfold fmi3GetDirectionalDerivative. ks. apply k_rows. intros. apply (kp_partial L).
    - unfold fmi3GetAdjointDerivative. ks. apply k_rows. intros. apply (kp_partial L).
    - unfold fmi3EnterConfigurationMode. ks.
    - unfold fmi3ExitConfigurationMode. ks; apply k_configurate.
    - unfold fmi3GetIntervalDecimal. ks. apply k_interval_loop.
    - unfold fmi3NotImplemented, NOT_IMPLEMENTED. ks.
    - unfold fmi3UpdateDiscreteStates. ks. apply (kp_event L).
    - unfold fmi3EnterContinuousTimeMode. ks.
    - unfold fmi3CompletedIntegratorStep. ks.
    - unfold fmi3SetTime. ks.
    - unfold fmi3SetContinuousStates. ks. apply (kp_setStates L).
    - unfold fmi3GetContinuousStateDerivatives, fmi3GetArray. ks. apply (kp_derivatives L).
    - unfold fmi3GetEventIndicators, fmi3GetArray. ks. apply (kp_indicators L).
    - unfold fmi3GetContinuousStates, fmi3GetArray. ks. apply (kp_states L).
    - unfold fmi3GetNominalsOfContinuousStates, fmi3GetArray. ks. apply (kp_nominals L).
    - unfold fmi3GetNumberOfEventIndicators, fmi3GetNumber. ks.
    - unfold fmi3GetNumberOfContinuousStates, fmi3GetNumber. ks.
    - unfold fmi3EnterStepMode. ks.
    - unfold fmi3GetOutputDerivatives, NOT_IMPLEMENTED. ks. apply k_output_loop.
    - unfold fmi3DoStep. ks. now apply k_doStep.
    - unfold fmi3ActivateModelPartition. ks. exact C.
  Qed.
  Definition talks2 (o : Op2 F D) : Prop :=
    match o with
    | O2DoStep _ _ => forall t, P (EIntermediateUpdate t)
    | _ => True
    end.

  Theorem exec2_says fuel env o s st out s' t : talks2 o -> exec2 m szof fuel env o s = Done (st, out, s', t) ->
    Forall P t.
  Proof.
    intros C E. destruct o; cbn [exec2] in E; cbn [talks2] in C;
      try (eapply says_outI; [|exact E]; clear E);
      try (refine (_ : Forall P t); revert E;
           match goal with |- ?f s = _ -> _ => enough (Q : ssays f) by (apply Q) end;
           unfold fmi2GetFMUstate, fmi2SetFMUstate, setFMUStateS, fmi2FreeFMUstate, fmi2SerializedFMUstateSize, fmi2SerializeFMUstate, fmi2DeSerializeFMUstate,
             getFMUState, freeFMUState, serializeFMUState, deserializeFMUState; repeat sk1; ks).
    - unfold fmi2SetDebugLogging, setDebugLogging. ks. apply k_debug_loop.
    - unfold fmi2SetupExperiment. ks.
    - unfold fmi2EnterInitializationMode. ks.
    - unfold fmi2ExitInitializationMode. ks. apply k_refresh. intro. ks. apply k_configurate.
    - unfold fmi2Terminate. ks.
    - unfold fmi2Reset. ks. apply k_reset.
    - unfold fmi2GetV. ks; apply k_refresh; intro; ks; apply k_get_loop.
    - unfold fmi2SetV. ks; apply k_set_loop.
    - unfold fmi2GetBoolean. ks. apply k_getBoolean_loop.
    - unfold fmi2SetBoolean. ks. apply k_setBoolean_loop.
    - unfold fmi2GetDirectionalDerivative. ks. apply k_rows. intros. apply (kp_partial L).
    - unfold fmi2SetRealInputDerivatives. ks.
    - unfold fmi2GetRealOutputDerivatives. ks. apply k_output_loop.
    - unfold fmi2CancelStep. ks.
    - unfold fmi2DoStep. ks. now apply k_doStep2.
    - unfold fmi2GetStatus, getStatus. ks.
    - unfold fmi2GetRealStatus, getStatus. ks.
    - unfold fmi2GetBooleanStatus, getStatus. ks.
    - unfold fmi2EnterEventMode. ks.
    - unfold fmi2NewDiscreteStates. ks. apply (kp_event L).
    - unfold fmi2EnterContinuousTimeMode. ks.
    - unfold fmi2CompletedIntegratorStep. ks.
    - unfold fmi2SetTime. ks.
    - unfold fmi2SetContinuousStates. ks. apply (kp_setStates L).
    - unfold fmi2GetDerivatives, fmi2GetArray. ks. apply (kp_derivatives L).
    - unfold fmi2GetEventIndicators, fmi2GetArray. ks. apply (kp_indicators L).
    - unfold fmi2GetContinuousStates, fmi2GetArray. ks. apply (kp_states L).
    - unfold fmi2GetNominals, fmi2GetArray. ks. apply (kp_nominals L).
  Qed.
End Quiet.

(** Rules for the model functions. *)
Section Rules.
  Context {F D : Type} (P : Event F -> Prop) (Pl : forall s c, P (ELog s c)).
  Lemma sm_ret X (x : X) : says (D := D) P (mret x).
  Proof. intros e c u y u' t E. inversion E; subst. constructor. Qed.
  Lemma sm_bind X Y (f : MF F D X) (k : X -> MF F D Y) : says P f -> (forall x, says P (k x)) -> says P (mbind f k).
  Proof.
    intros A B e c u y u' t E. unfold mbind in E. apply bind_Done in E as (z & s1 & t1 & t2 & E1 & E2 & ->).
    apply Forall_app; split; [eapply A; eassumption|eapply B; eassumption].
  Qed.
  Lemma sm_ub X : says P (mub : MF F D X).
  Proof. intros e c u y u' t E. discriminate. Qed.
  Lemma sm_ctl : says P (mctl : MF F D _).
  Proof. intros e c u y u' t E. inversion E; subst. constructor. Qed.
  Lemma sm_env : says P (menv : MF F D _).
  Proof. intros e c u y u' t E. inversion E; subst. constructor. Qed.
  Lemma sm_get : says P (mget : MF F D _).
  Proof. intros e c u y u' t E. inversion E; subst. constructor. Qed.
  Lemma sm_data : says P (mdata : MF F D _).
  Proof. intros e c u y u' t E. inversion E; subst. constructor. Qed.
  Lemma sm_mod f : says P (mmod f : MF F D _).
  Proof. intros e c u y u' t E. inversion E; subst. constructor. Qed.
  Lemma sm_modd f : says P (mmodd f : MF F D _).
  Proof. intros e c u y u' t E. inversion E; subst. constructor. Qed.
  Lemma sm_tell ev : P ev -> says P (mtell ev : MF F D _).
  Proof. intros A e c u y u' t E. inversion E; subst. now repeat constructor. Qed.
  Lemma sm_rd T (b : Buf T) i : says P (mrd b i : MF F D _).
  Proof. intros e c u y u' t E. unfold mrd, rd in E. destruct b as [l|]; [destruct (nth_error l i)|]; inversion E; subst; constructor. Qed.
  Lemma sm_wr T (b : Buf T) i v : says P (mwr b i v : MF F D _).
  Proof. intros e c u y u' t E. unfold mwr, wr in E. destruct b as [l|]; [destruct (Nat.ltb i (length l))|]; inversion E; subst; constructor. Qed.
  Lemma sm_log : says P (mlogError : MF F D _).
  Proof. intros e c u y u' t E. unfold mlogError in E. destruct (logErrors c && hasLogger c); inversion E; subst; repeat constructor. apply Pl. Qed.
  Lemma sm_putl T : forall (l : list T) b i, says P (putl b i l : MF F D _).
  Proof. induction l as [|v l IH]; intros b i; cbn [putl]; [apply sm_ret|apply sm_bind; [apply sm_wr|intro; apply IH]]. Qed.
  Lemma sm_takel T : forall n (b : Buf T) i, says P (takel b i n : MF F D _).
  Proof.
    induction n as [|n IH]; intros b i; cbn [takel]; [apply sm_ret|].
    apply sm_bind; [apply sm_rd|intro]. apply sm_bind; [apply IH|intro; apply sm_ret].
  Qed.
  Lemma sm_writel T : forall (l : list T) b i, says P (writel b i l : MF F D _).
  Proof. induction l as [|v l IH]; intros b i; cbn [writel]; [apply sm_ret|apply sm_bind; [apply sm_wr|intro; apply IH]]. Qed.
End Rules.
Ltac smr := match goal with
  | |- says _ (mret _) => apply sm_ret
  | |- says _ (mbind _ _) => apply sm_bind; [|intro]
  | |- says _ mub => apply sm_ub
  | |- says _ mctl => apply sm_ctl
  | |- says _ menv => apply sm_env
  | |- says _ mget => apply sm_get
  | |- says _ mdata => apply sm_data
  | |- says _ (mmod _) => apply sm_mod
  | |- says _ (mmodd _) => apply sm_modd
  | |- says _ (mtell _) => apply sm_tell
  | |- says _ (mrd _ _) => apply sm_rd
  | |- says _ (mwr _ _ _) => apply sm_wr
  | |- says _ (putl _ _ _) => apply sm_putl
  | |- says _ (takel _ _ _) => apply sm_takel
  | |- says _ (writel _ _ _) => apply sm_writel
  | |- says _ mlogError => apply sm_log; assumption
  | |- says _ (if ?b then _ else _) => destruct b
  | |- says _ (match ?x with _ => _ end) => destruct x
  | |- says _ (let '(_, _) := ?x in _) => destruct x
  end.
Ltac shead f := match f with ?g _ => shead g | _ => f end.
Ltac smu := match goal with |- says _ ?f => let h := shead f in unfold h end.
Ltac sms := cbv zeta; repeat first [assumption|smr|smu].

Lemma talks_all {F : Type} {NF : Num F} (v : Version) (f : FMU) (P : Event F -> Prop) :
  (forall s c, P (ELog s c)) -> TraceLaws (model_of v f) P.
Proof.
  intro Pl. destruct v, f; constructor; try exact Pl; cbn; intros;
    repeat match goal with t : VType |- _ => destruct t end; try (sms; fail).
Qed.

(** Without an intermediate update callback a step calls the logger only. *)
Section Mute.
  Context {F : Type} {NF : Num F} (m : Model F) (P : Event F -> Prop) (L : TraceLaws m P) (szof : N).
  Notation D := (md m).
  Notation iu i := (hasIntermediateUpdate (ctl i)).
  Definition mute {X} (f : AF F D X) : Prop := forall i x k t, iu i = false -> f i = Done (x, k, t) -> iu k = false /\ Forall P t.
  Lemma mu_says X (f : AF F D X) : asays m P f -> (forall i x k t, f i = Done (x, k, t) -> iu k = iu i) -> mute f.
  Proof. intros A B i x k t H E. split; [rewrite (B _ _ _ _ E); exact H|eapply A; exact E]. Qed.
  Lemma mu_bind X Y (f : AF F D X) (k : X -> AF F D Y) : mute f -> (forall x, mute (k x)) -> mute (bind f k).
  Proof.
    intros A B i y l t H E. apply bind_Done in E as (z & s1 & t1 & t2 & E1 & E2 & ->).
    destruct (A _ _ _ _ H E1) as (H1 & A1). destruct (B _ _ _ _ _ H1 E2) as (H2 & A2). split; [exact H2|apply Forall_app; auto].
  Qed.
  Lemma mu_ctl Y (k : Ctl F -> AF F D Y) : (forall c, hasIntermediateUpdate c = false -> mute (k c)) -> mute (bind (getC m) k).
  Proof. intros B i y l t H E. rewrite bind_getC in E. eapply B; [exact H|exact H|exact E]. Qed.
  Lemma mu_ret X (x : X) : mute (ret x).
  Proof. intros i y k t H E. inversion E; subst. auto. Qed.
  Lemma mu_ub X : mute (ubM : AF F D X).
  Proof. intros i y k t H E. discriminate. Qed.
  Lemma mu_nofuel X : mute (nofuelM : AF F D X).
  Proof. intros i y k t H E. discriminate. Qed.
  Lemma mu_getM : mute (getM m).
  Proof. intros i y k t H E. inversion E; subst. auto. Qed.
  Lemma mu_getSol : mute (getSol m).
  Proof. intros i y k t H E. inversion E; subst. auto. Qed.
  Lemma mu_modC f : (forall c, hasIntermediateUpdate (f c) = hasIntermediateUpdate c) -> mute (modC m f).
  Proof. intros A i y k t H E. inversion E; subst. cbn. rewrite A. auto. Qed.
  Lemma mu_modSol f : mute (modSol m f).
  Proof. intros i y k t H E. inversion E; subst. auto. Qed.
  Lemma mu_call env X (f : MF F D X) : says P f -> mute (call m env f).
  Proof.
    intros A i y k t H E. unfold call in E. destruct (f env (ctl i) (mut i)) as [[[x u] t']| |] eqn:Ef; inversion E; subst.
    split; [exact H|eapply A; exact Ef].
  Qed.
  Lemma mu_CALL st s : mute (CALL m st s).
  Proof. unfold CALL. destruct (smax st s); try apply mu_ret; (apply mu_bind; [apply mu_modC; reflexivity|intro; apply mu_ret]). Qed.
  Lemma mu_log env : mute (logError m env).
  Proof. intros i y k t H E. split; [rewrite logError_eq in E; inversion E; subst; exact H|eapply (k_log L); exact E]. Qed.
  Ltac mu1 := match goal with
    | |- mute (bind (getC _) _) => apply mu_ctl; intros ? ?
    | |- mute (bind _ _) => apply mu_bind; [|intro]
    | |- mute (ret _) => apply mu_ret
    | |- mute ubM => apply mu_ub
    | |- mute nofuelM => apply mu_nofuel
    | |- mute (getM _) => apply mu_getM
    | |- mute (getSol _) => apply mu_getSol
    | |- mute (modC _ _) => apply mu_modC; reflexivity
    | |- mute (setMode _ _) => apply mu_modC; reflexivity
    | |- mute (modSol _ _) => apply mu_modSol
    | |- mute (CALL _ _ _) => apply mu_CALL
    | |- mute (logError _ _) => apply mu_log
    | |- mute (call _ _ _) => apply mu_call
    | |- mute (CALLk _ _ _ _ _) => unfold CALLk
    | H : hasIntermediateUpdate ?c = false |- mute (if hasIntermediateUpdate ?c then _ else _) => rewrite H
    | |- mute (if ?b then _ else _) => destruct b
    | |- mute (match ?x with _ => _ end) => destruct x
    end.
  Ltac mus := cbv zeta; repeat (mu1; cbv zeta).
  Lemma mu_fixedStep env : mute (doFixedStep m env).
  Proof.
    unfold doFixedStep, fixedStep_x, fixedStep_time, fixedStep_z. mus;
      first [apply (kp_states L)|apply (kp_derivatives L)|apply (kp_setStates L)|apply (kp_indicators L)].
  Qed.
  Lemma mu_doStep env : forall fuel ncp ehn st, mute (doStep_loop m env fuel ncp ehn st).
  Proof.
    induction fuel as [|fuel IH]; intros ncp ehn st; cbn [doStep_loop]; mus;
      first [apply IH|apply mu_fixedStep|apply (kp_event L)|apply (kp_indicators L)].
  Qed.
  Lemma mu_doStep2 env : forall fuel ncp st, mute (doStep2_loop m env fuel ncp st).
  Proof.
    induction fuel as [|fuel IH]; intros ncp st; cbn [doStep2_loop]; mus;
      first [apply IH|apply mu_fixedStep|apply (kp_event L)].
  Qed.
  Lemma mu_DoStep env fuel c h a b d e : mute (fmi3DoStep m env fuel c h a b d e).
  Proof. unfold fmi3DoStep, BEGIN, allowedState. mus; apply mu_doStep. Qed.
  Lemma mu_DoStep2 env fuel c h : mute (fmi2DoStep m env fuel c h).
  Proof. unfold fmi2DoStep, BEGIN2, allowedState2. mus; apply mu_doStep2. Qed.
  Lemma exec3_mute fuel env o s st out s' t : iu (sinst s) = false -> (forall vr x, o <> O3ActivateModelPartition vr x) ->
    exec3 m szof fuel env o s = Done (st, out, s', t) -> Forall P t.
  Proof.
    intros H N E. destruct o; try (eapply (exec3_says L); [|exact E]; exact I).
    - cbn [exec3] in E. rewrite outI_eq in E. destruct (fmi3DoStep _ _ _ _ _ _ _ _ _) as [[[[st0 x] i'] tt0]| |] eqn:G; try discriminate.
      injection E; intros; subst. eapply mu_DoStep; [exact H|exact G].
    - exfalso. eapply N; reflexivity.
  Qed.
  Lemma exec2_mute fuel env o s st out s' t : iu (sinst s) = false -> exec2 m szof fuel env o s = Done (st, out, s', t) -> Forall P t.
  Proof.
    intros H E. destruct o; try (eapply (exec2_says L); [|exact E]; exact I).
    cbn [exec2] in E. rewrite outI_eq in E. destruct (fmi2DoStep _ _ _ _ _) as [[[[st0 x] i'] tt0]| |] eqn:G; try discriminate.
    injection E; intros; subst. eapply mu_DoStep2; [exact H|exact G].
  Qed.
End Mute.

Section Callbacks.
  Context {F : Type} {NF : Num F} (f : FMU) (szof : N).
  Lemma partition_says v (P : Event F -> Prop) vr t : (forall s c, P (ELog s c)) -> (f = Clocks -> P EClockUpdate /\ P ELock /\ P EUnlock) ->
    says P (m_activateModelPartition (model_of (F := F) v f) vr t).
  Proof.
    intros Pl Pc. destruct f; cbn; try (sms; fail). destruct (Pc eq_refl) as (P1 & P2 & P3). unfold FmuClocks.cl_activateModelPartition. sms.
  Qed.
  Lemma callbacks3 fuel env o s st out s' t : exec3 (model_of (F := F) FMI3 f) szof fuel env o s = Done (st, out, s', t) ->
    Forall (fun e => match e with
                     | ELog _ _ => True
                     | EIntermediateUpdate _ => hasIntermediateUpdate (ctl (sinst s)) = true /\ exists c h a b d e, o = O3DoStep c h a b d e
                     | EClockUpdate | ELock | EUnlock => f = Clocks /\ exists vr x, o = O3ActivateModelPartition vr x
                     end) t.
  Proof.
    intro E. set (P := fun e : Event F => match e with ELog _ _ => True | EIntermediateUpdate _ => hasIntermediateUpdate (ctl (sinst s)) = true /\ exists c h a b d e, o = O3DoStep c h a b d e
                     | EClockUpdate | ELock | EUnlock => f = Clocks /\ exists vr x, o = O3ActivateModelPartition vr x end).
    assert (T : TraceLaws (model_of (F := F) FMI3 f) P) by (apply talks_all; exact (fun _ _ => I)).
    destruct (match o with O3DoStep _ _ _ _ _ _ => negb (hasIntermediateUpdate (ctl (sinst s))) | _ => false end) eqn:W.
    - refine (@exec3_mute F NF _ P T szof fuel env o s st out s' t _ _ E).
      + destruct o; try discriminate W. destruct (hasIntermediateUpdate _); [discriminate W|reflexivity].
      + intros vr x ->. discriminate W.
    - refine (@exec3_says F NF _ P T szof fuel env o s st out s' t _ E). destruct o; try exact I.
      + intro x. cbn. split; [destruct (hasIntermediateUpdate _); [reflexivity|discriminate W]|repeat eexists].
      + cbn [talks3]. apply partition_says; [exact (fun _ _ => I)|]. intro Q. cbn. repeat split; eauto.
  Qed.
  Lemma callbacks2 fuel env o s st out s' t : reach2 (model_of (F := F) FMI2 f) szof s ->
    exec2 (model_of (F := F) FMI2 f) szof fuel env o s = Done (st, out, s', t) ->
    Forall (fun e => match e with ELog _ _ => True | _ => False end) t.
  Proof.
    intros Re E. set (P := fun e : Event F => match e with ELog _ _ => True | _ => False end).
    assert (T : TraceLaws (model_of (F := F) FMI2 f) P) by (apply talks_all; exact (fun _ _ => I)).
    refine (@exec2_mute F NF _ P T szof fuel env o s st out s' t _ E). clear -Re.
    induction Re as [i Hi|s fuel env o st out s' t Re IH Im E].
    - destruct Hi as (env & n & ty & t & r & e & l & b & tr & H). unfold fmi2Instantiate in H.
      destruct l; [|discriminate]. apply create_ctl in H as [nm H]. cbn [sinst]. exact (f_equal hasIntermediateUpdate H).
    - pose proof (@exec2_identity F NF _ szof (model_laws FMI2 f) fuel env o s st out s' t E) as [Id _].
      unfold identity in Id. injection Id as _ _ _ _ _ Q _ _ _. rewrite Q. exact IH.
  Qed.
End Callbacks.
