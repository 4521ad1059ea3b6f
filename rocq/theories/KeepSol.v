(** KeepSol.v -- the numbers of continuous states and event indicators the solver works with are
    changed only by the calls that configure it. *)
From Coq Require Import List NArith ZArith Bool Arith Lia.
From Verif Require Import Base Instance ModelIface Core Fmi3 Fmi2 Api Logic Calls SpecModes Histories.
Import ListNotations.
Set Implicit Arguments.

Section KeepSol.
  Context {F : Type} {NF : Num F} (m : Model F) (szof : N).
  Notation D := (md m).

  Definition same_sizes (i k : Inst F D) : Prop := nx (sol k) = nx (sol i) /\ nz (sol k) = nz (sol i).
  Lemma sz_refl i : same_sizes i i.
  Proof. split; reflexivity. Qed.
  Lemma sz_trans i j k : same_sizes i j -> same_sizes j k -> same_sizes i k.
  Proof. intros [A B] [A' B']. split; congruence. Qed.
  Definition keep {X} (f : AF F D X) : Prop := forall i x k t, f i = Done (x, k, t) -> same_sizes i k.

  Lemma k_ret X (x : X) : keep (ret x).
  Proof. intros i y k t E. inversion E; subst. (apply sz_refl || (split; reflexivity)). Qed.
  Lemma k_bind X Y (f : AF F D X) (k : X -> AF F D Y) : keep f -> (forall x, keep (k x)) -> keep (bind f k).
  Proof.
    intros A B i y l t E. apply bind_Done in E as (z & s1 & t1 & t2 & E1 & E2 & ->).
    eapply sz_trans; [eapply A; eassumption|eapply B; eassumption].
  Qed.
  Lemma k_ub X : keep (ubM : AF F D X).
  Proof. intros i y k t E. discriminate. Qed.
  Lemma k_nofuel X : keep (nofuelM : AF F D X).
  Proof. intros i y k t E. discriminate. Qed.
  Lemma k_rd T (b : Buf T) n : keep (rd b n).
  Proof. intros i y k t E. unfold rd in E. destruct b as [l|]; [destruct (nth_error l n)|]; inversion E; subst; apply sz_refl. Qed.
  Lemma k_wr T (b : Buf T) n x : keep (wr b n x).
  Proof. intros i y k t E. unfold wr in E. destruct b as [l|]; [destruct (Nat.ltb n (length l))|]; inversion E; subst; (apply sz_refl || (split; reflexivity)). Qed.
  Lemma k_getC : keep (getC m).
  Proof. intros i y k t E. inversion E; subst. (apply sz_refl || (split; reflexivity)). Qed.
  Lemma k_getM : keep (getM m).
  Proof. intros i y k t E. inversion E; subst. (apply sz_refl || (split; reflexivity)). Qed.
  Lemma k_getSol : keep (getSol m).
  Proof. intros i y k t E. inversion E; subst. (apply sz_refl || (split; reflexivity)). Qed.
  Lemma k_modC f : keep (modC m f).
  Proof. intros i y k t E. inversion E; subst. (apply sz_refl || (split; reflexivity)). Qed.
  Lemma k_modSol f : (forall o, nx (f o) = nx o /\ nz (f o) = nz o) -> keep (modSol m f).
  Proof. intros H i y k t E. inversion E; subst. apply H. Qed.
  Lemma k_dirty f : keep (modM m f).
  Proof. intros i y k t E. inversion E; subst. split; reflexivity. Qed.
  Lemma k_tell e : keep (tell e).
  Proof. intros i y k t E. inversion E; subst. (apply sz_refl || (split; reflexivity)). Qed.
  Lemma k_call env X (f : MF F D X) : keep (call m env f).
  Proof.
    intros i y k t E. unfold call in E. destruct (f env (ctl i) (mut i)) as [[[x u] t']| |] eqn:Ef; inversion E; subst.
    split; reflexivity.
  Qed.
  Lemma k_log env : keep (logError m env).
  Proof. intros i y k t E. rewrite logError_eq in E. inversion E; subst. (apply sz_refl || (split; reflexivity)). Qed.
  Lemma k_setMode s : keep (setMode m s).
  Proof. intros i y k t E. inversion E; subst. (apply sz_refl || (split; reflexivity)). Qed.
  Lemma k_CALL st s : keep (CALL m st s).
  Proof. unfold CALL. destruct (smax st s); try apply k_ret; (apply k_bind; [apply k_setMode|intro; apply k_ret]). Qed.
  Lemma k_CALLk X st s (x : X) k : (forall st', keep (k st')) -> keep (CALLk m st s x k).
  Proof. intro H. unfold CALLk. apply k_bind; [apply k_CALL|]. intro st'. destruct (stops st'); [apply k_ret|apply H]. Qed.
  Lemma k_allowed env mask : keep (allowedState m env mask).
  Proof.
    unfold allowedState. apply k_bind; [apply k_getC|]. intro c. destruct (N.eqb _ _); [|apply k_ret].
    apply k_bind; [apply k_log|intro; apply k_ret].
  Qed.
  Lemma k_allowed2 env mask : keep (allowedState2 m env mask).
  Proof.
    unfold allowedState2. apply k_bind; [apply k_getC|]. intro c. destruct (N.eqb _ _); [|apply k_ret].
    apply k_bind; [apply k_log|intro; apply k_ret].
  Qed.
  Lemma k_BEGIN env X mask (x : X) k : keep k -> keep (BEGIN m env mask x k).
  Proof. intro H. unfold BEGIN. apply k_bind; [apply k_allowed|]. intros []; [exact H|]. apply k_CALLk. auto. Qed.
  Lemma k_BEGIN2 env X mask (x : X) k : keep k -> keep (BEGIN2 m env mask x k).
  Proof. intro H. unfold BEGIN2. apply k_bind; [apply k_allowed2|]. intros []; [exact H|]. apply k_CALLk. auto. Qed.
  Lemma k_notnull env T X (p : option T) (x : X) k : keep k -> keep (ASSERT_NOT_NULL m env p x k).
  Proof.
    intro H. unfold ASSERT_NOT_NULL. destruct p; [exact H|].
    apply k_bind; [apply k_log|intro]. apply k_bind; [apply k_setMode|intro]. apply k_ret.
  Qed.
  Lemma k_nullPointer env T (p : option T) : keep (nullPointer m env p).
  Proof. unfold nullPointer. destruct p; [apply k_ret|]. repeat (apply k_bind; [apply k_log || apply k_setMode|intro]). apply k_ret. Qed.
  Lemma k_invalidNumber env a b : keep (invalidNumber m env a b).
  Proof. unfold invalidNumber. destruct (N.eqb a b); [apply k_ret|]. repeat (apply k_bind; [apply k_log || apply k_setMode|intro]). apply k_ret. Qed.

  Ltac k1 := match goal with
    | |- keep (BEGIN _ _ _ _ _) => apply k_BEGIN
    | |- keep (BEGIN2 _ _ _ _ _) => apply k_BEGIN2
    | |- keep (ASSERT_NOT_NULL _ _ _ _ _) => apply k_notnull
    | |- keep (nullPointer _ _ _) => apply k_nullPointer
    | |- keep (if ?b then _ else _) => destruct b
    | |- keep (ret _) => apply k_ret
    | |- keep ubM => apply k_ub
    | |- keep nofuelM => apply k_nofuel
    | |- keep (CALLk _ _ _ _ _) => apply k_CALLk; intro
    | |- keep (CALL _ _ _) => apply k_CALL
    | |- keep (logError _ _) => apply k_log
    | |- keep (setMode _ _) => apply k_setMode
    | |- keep (getC _) => apply k_getC
    | |- keep (getM _) => apply k_getM
    | |- keep (getSol _) => apply k_getSol
    | |- keep (modC _ _) => apply k_modC
    | |- keep (modSol _ _) => apply k_modSol; intro; split; reflexivity
    | |- keep (modM _ _) => apply k_dirty
    | |- keep (rd _ _) => apply k_rd
    | |- keep (wr _ _ _) => apply k_wr
    | |- keep (tell _) => apply k_tell
    | |- keep (call _ _ _) => apply k_call
    | |- keep (bind _ _) => apply k_bind; [|intro]
    | |- keep (match ?x with _ => _ end) => destruct x
    end.
  Ltac ks := cbv zeta; repeat (k1; cbv zeta).

  Lemma k_refresh env X st (x : X) k : (forall st', keep (k st')) -> keep (refresh m env st x k).
  Proof. intro H. unfold refresh. ks; apply H. Qed.
  Lemma k_get_loop env t : forall n vrs b nv i st, keep (get_loop m env t vrs n b nv i st).
  Proof. induction n as [|n IH]; intros; cbn [get_loop]; ks; try apply IH. Qed.
  Lemma k_set_loop env t : forall n vrs b nv i st, keep (set_loop m env t vrs n b nv i st).
  Proof.
    induction n as [|n IH]; intros; cbn [set_loop]; ks; apply IH.
  Qed.
  Lemma k_bin_loop env : forall n vrs z b nv i st, keep (getBinary_loop m env vrs n z b nv i st).
  Proof. induction n as [|n IH]; intros; cbn [getBinary_loop]; ks; try apply IH. Qed.
  Lemma k_setBin_loop env : forall n vrs z b nv i st, keep (setBinary_loop m env vrs n z b nv i st).
  Proof.
    induction n as [|n IH]; intros; cbn [setBinary_loop]; ks; apply IH.
  Qed.
  Lemma k_clock_loop env : forall n vrs i b st, keep (getClock_loop m env vrs n i b st).
  Proof. induction n as [|n IH]; intros; cbn [getClock_loop]; ks; try apply IH. Qed.
  Lemma k_setClock_loop env : forall n vrs i b st, keep (setClock_loop m env vrs n i b st).
  Proof. induction n as [|n IH]; intros; cbn [setClock_loop]; ks; try apply IH. Qed.
  Lemma k_interval_loop env : forall n vrs i b q st, keep (interval_loop m env vrs n i b q st).
  Proof. induction n as [|n IH]; intros; cbn [interval_loop]; ks; try apply IH. Qed.
  Lemma k_row env pd : forall n others j seed acc st, keep (deriv_row m env pd others n j seed acc st).
  Proof. induction n as [|n IH]; intros; cbn [deriv_row]; ks; try apply IH. Qed.
  Lemma k_rows env pd : forall n rows i others k seed sens st,
    keep (deriv_rows m env pd rows n i others k seed sens st).
  Proof.
    induction n as [|n IH]; intros; cbn [deriv_rows]; ks; try apply IH. apply k_row.
  Qed.
  Lemma k_output_loop env : forall n vrs i orders values st, keep (outputDerivative_loop m env vrs n i orders values st).
  Proof. induction n as [|n IH]; intros; cbn [outputDerivative_loop]; ks; try apply IH. Qed.
  Lemma k_getBoolean_loop env : forall n vrs i nvr values st, keep (getBoolean_loop m env vrs n i nvr values st).
  Proof. induction n as [|n IH]; intros; cbn [getBoolean_loop]; ks; try apply IH. Qed.
  Lemma k_setBoolean_loop env : forall n vrs i nvr values st, keep (setBoolean_loop m env vrs n i nvr values st).
  Proof. induction n as [|n IH]; intros; cbn [setBoolean_loop]; ks; apply IH. Qed.
  Lemma k_reset env : keep (reset m env).
  Proof. unfold reset. ks. Qed.
  Lemma k_fixedStep env : keep (doFixedStep m env).
  Proof.
    unfold doFixedStep, fixedStep_x, fixedStep_time, fixedStep_z. ks.
  Qed.
  Lemma k_doStep env : forall fuel ncp ehn st, keep (doStep_loop m env fuel ncp ehn st).
  Proof.
    induction fuel as [|fuel IH]; intros ncp ehn st; cbn [doStep_loop]; ks;
      first [apply IH|apply k_fixedStep].
  Qed.
  Lemma k_doStep2 env : forall fuel ncp st, keep (doStep2_loop m env fuel ncp st).
  Proof.
    induction fuel as [|fuel IH]; intros ncp st; cbn [doStep2_loop]; ks;
      first [apply IH|apply k_fixedStep].
  Qed.
  Lemma k_debug_loop env on : forall n cats, keep (setDebugLogging_loop m env on cats n).
  Proof. induction n as [|n IH]; intros; cbn [setDebugLogging_loop]; ks; apply IH. Qed.

  (** Calls on the instance. *)
  Lemma keep_outI X (f : AF F D (Status * X)) o s st out s' t : keep f ->
    outI m f o s = Done (st, out, s', t) -> same_sizes (sinst s) (sinst s').
  Proof.
    intros Q E. rewrite outI_eq in E. destruct (f (sinst s)) as [[[[st0 x] j] t0]| |] eqn:Ef; try discriminate.
    injection E; intros; subst. cbn. eapply Q; eassumption.
  Qed.
  (** Calls on the system. *)
  Definition skeep {X} (f : SF m X) : Prop := forall s x s' t, f s = Done (x, s', t) -> same_sizes (sinst s) (sinst s').
  Lemma sk_ret X (x : X) : skeep (ret x).
  Proof. intros s y s' t E. inversion E; subst. (apply sz_refl || (split; reflexivity)). Qed.
  Lemma sk_bind X Y (f : SF m X) (k : X -> SF m Y) : skeep f -> (forall x, skeep (k x)) -> skeep (bind f k).
  Proof.
    intros A B i y l t E. apply bind_Done in E as (z & s1 & t1 & t2 & E1 & E2 & ->).
    eapply sz_trans; [eapply A; eassumption|eapply B; eassumption].
  Qed.
  Lemma sk_ub X : skeep (ubM : SF m X).
  Proof. intros i y k t E. discriminate. Qed.
  Lemma sk_onInst X (f : AF F D X) : keep f -> skeep (onInst m f).
  Proof.
    intros A s x s' t E. unfold onInst in E. destruct (f (sinst s)) as [[[y j] t0]| |] eqn:Ef; try discriminate.
    inversion E; subst. cbn. eapply A; exact Ef.
  Qed.
  Lemma sk_deref h : skeep (deref m h).
  Proof. intros s x s' t E. unfold deref in E. destruct (nth_error (heap s) h) as [[i|]|]; inversion E; subst. (apply sz_refl || (split; reflexivity)). Qed.
  Lemma sk_alloc i : skeep (alloc m i).
  Proof. intros s x s' t E. inversion E; subst. (apply sz_refl || (split; reflexivity)). Qed.
  Lemma sk_store h c : skeep (store m h c).
  Proof. intros s x s' t E. unfold store in E. destruct (nth_error (heap s) h) as [[i|]|]; inversion E; subst. (apply sz_refl || (split; reflexivity)). Qed.
  Lemma sk_self X (g : Sys F D -> X) : skeep (fun s => Done (g s, s, [])).
  Proof. intros s x s' t E. inversion E; subst. (apply sz_refl || (split; reflexivity)). Qed.
  Lemma sk_BEGIN3S X env mask (x : X) k : skeep k -> skeep (BEGIN3S (m := m) env mask x k).
  Proof.
    intro H. unfold BEGIN3S. apply sk_bind; [apply sk_onInst, k_allowed|]. intros []; [exact H|].
    apply sk_onInst. ks.
  Qed.
  Lemma sk_BEGIN2S X env mask (x : X) k : skeep k -> skeep (BEGIN2S (m := m) env mask x k).
  Proof.
    intro H. unfold BEGIN2S. apply sk_bind; [apply sk_onInst, k_allowed2|]. intros []; [exact H|].
    apply sk_onInst. ks.
  Qed.
  Lemma sk_outS X (f : SF m (Status * X)) o : skeep f -> skeep (outS (m := m) f o).
  Proof. intro H. unfold outS. apply sk_bind; [exact H|intro; apply sk_ret]. Qed.
  Ltac sk1 := match goal with
    | |- skeep (outS _ _) => apply sk_outS
    | |- skeep (BEGIN3S _ _ _ _) => apply sk_BEGIN3S
    | |- skeep (BEGIN2S _ _ _ _) => apply sk_BEGIN2S
    | |- skeep (ret _) => apply sk_ret
    | |- skeep ubM => apply sk_ub
    | |- skeep (onInst _ _) => apply sk_onInst
    | |- skeep (deref _ _) => apply sk_deref
    | |- skeep (alloc _ _) => apply sk_alloc
    | |- skeep (store _ _ _) => apply sk_store
    | |- skeep (bind _ _) => apply sk_bind; [|intro]
    | |- skeep (if ?b then _ else _) => destruct b
    | |- skeep (match ?x with _ => _ end) => destruct x
    | |- skeep (fun s => Done _) => apply sk_self
    | |- keep (nullPointer _ _ _) => apply k_nullPointer
    | |- keep (invalidNumber _ _ _ _) => apply k_invalidNumber
    end.

  (** The calls that configure the solver or restore a state. *)
  Definition sizing3 (o : Op3 F D) : Prop :=
    match o with O3ExitInitializationMode | O3ExitConfigurationMode | O3SetFMUState _ => True | _ => False end.
  Definition sizing2 (o : Op2 F D) : Prop :=
    match o with O2ExitInitializationMode | O2SetFMUstate _ => True | _ => False end.

  Theorem exec3_sizes fuel env o s st out s' t : ~ sizing3 o -> exec3 m szof fuel env o s = Done (st, out, s', t) ->
    same_sizes (sinst s) (sinst s').
  Proof.
    intros C E. destruct o; cbn [exec3] in E; cbn [sizing3] in C; try (exfalso; exact (C I));
      try (eapply keep_outI; [|exact E]; clear E);
      try (refine (_ : same_sizes (sinst s) (sinst s')); revert E;
           match goal with |- ?f s = _ -> _ => enough (Q : skeep f) by (apply Q) end;
           unfold fmi3GetFMUState, fmi3FreeFMUState, fmi3SerializedFMUStateSize, fmi3SerializeFMUState, fmi3DeserializeFMUState,
             getFMUState, freeFMUState, serializeFMUState, deserializeFMUState; repeat sk1).
    - unfold fmi3SetDebugLogging, setDebugLogging. ks. apply k_debug_loop.
    - unfold fmi3EnterInitializationMode. ks.
    - unfold fmi3EnterEventMode. ks.
    - unfold fmi3Terminate. ks.
    - unfold fmi3Reset. ks. apply k_reset.
    - unfold fmi3Get. ks; apply k_refresh; intro; ks; apply k_get_loop.
    - unfold fmi3Set. ks; apply k_set_loop.
    - unfold fmi3GetBinary. ks; apply k_refresh; intro; apply k_bin_loop.
    - unfold fmi3SetBinary. ks; apply k_setBin_loop.
    - unfold fmi3GetClock. ks. apply k_clock_loop.
    - unfold fmi3SetClock. ks. apply k_setClock_loop.
    - unfold fmi3GetDirectionalDerivative. ks. apply k_rows.
    - unfold fmi3GetAdjointDerivative. ks. apply k_rows.
    - unfold fmi3EnterConfigurationMode. ks.
    - unfold fmi3GetIntervalDecimal. ks. apply k_interval_loop.
    - unfold fmi3NotImplemented, NOT_IMPLEMENTED. ks.
    - unfold fmi3UpdateDiscreteStates. ks.
    - unfold fmi3EnterContinuousTimeMode. ks.
    - unfold fmi3CompletedIntegratorStep. ks.
    - unfold fmi3SetTime. ks.
    - unfold fmi3SetContinuousStates. ks.
    - unfold fmi3GetContinuousStateDerivatives, fmi3GetArray. ks.
    - unfold fmi3GetEventIndicators, fmi3GetArray. ks.
    - unfold fmi3GetContinuousStates, fmi3GetArray. ks.
    - unfold fmi3GetNominalsOfContinuousStates, fmi3GetArray. ks.
    - unfold fmi3GetNumberOfEventIndicators, fmi3GetNumber. ks.
    - unfold fmi3GetNumberOfContinuousStates, fmi3GetNumber. ks.
    - unfold fmi3EnterStepMode. ks.
    - unfold fmi3GetOutputDerivatives, NOT_IMPLEMENTED. ks. apply k_output_loop.
    - unfold fmi3DoStep. ks. apply k_doStep.
    - unfold fmi3ActivateModelPartition. ks.
  Qed.
  Theorem exec2_sizes fuel env o s st out s' t : ~ sizing2 o -> exec2 m szof fuel env o s = Done (st, out, s', t) ->
    same_sizes (sinst s) (sinst s').
  Proof.
    intros C E. destruct o; cbn [exec2] in E; cbn [sizing2] in C; try (exfalso; exact (C I));
      try (eapply keep_outI; [|exact E]; clear E);
      try (refine (_ : same_sizes (sinst s) (sinst s')); revert E;
           match goal with |- ?f s = _ -> _ => enough (Q : skeep f) by (apply Q) end;
           unfold fmi2GetFMUstate, fmi2FreeFMUstate, fmi2SerializedFMUstateSize, fmi2SerializeFMUstate, fmi2DeSerializeFMUstate,
             getFMUState, freeFMUState, serializeFMUState, deserializeFMUState; repeat sk1).
    - unfold fmi2SetDebugLogging, setDebugLogging. ks. apply k_debug_loop.
    - unfold fmi2SetupExperiment. ks.
    - unfold fmi2EnterInitializationMode. ks.
    - unfold fmi2Terminate. ks.
    - unfold fmi2Reset. ks. apply k_reset.
    - unfold fmi2GetV. ks; apply k_refresh; intro; ks; apply k_get_loop.
    - unfold fmi2SetV. ks; apply k_set_loop.
    - unfold fmi2GetBoolean. ks. apply k_getBoolean_loop.
    - unfold fmi2SetBoolean. ks. apply k_setBoolean_loop.
    - unfold fmi2GetDirectionalDerivative. ks. apply k_rows.
    - unfold fmi2SetRealInputDerivatives. ks.
    - unfold fmi2GetRealOutputDerivatives. ks. apply k_output_loop.
    - unfold fmi2CancelStep. ks.
    - unfold fmi2DoStep. ks. apply k_doStep2.
    - unfold fmi2GetStatus, getStatus. ks.
    - unfold fmi2GetRealStatus, getStatus. ks.
    - unfold fmi2GetBooleanStatus, getStatus. ks.
    - unfold fmi2EnterEventMode. ks.
    - unfold fmi2NewDiscreteStates. ks.
    - unfold fmi2EnterContinuousTimeMode. ks.
    - unfold fmi2CompletedIntegratorStep. ks.
    - unfold fmi2SetTime. ks.
    - unfold fmi2SetContinuousStates. ks.
    - unfold fmi2GetDerivatives, fmi2GetArray. ks.
    - unfold fmi2GetEventIndicators, fmi2GetArray. ks.
    - unfold fmi2GetContinuousStates, fmi2GetArray. ks.
    - unfold fmi2GetNominals, fmi2GetArray. ks.
  Qed.
End KeepSol.
