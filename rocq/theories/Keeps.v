(** Keeps.v -- calls that keep a relation between the model data before and after.  [R] is a
    preorder on [Mut] kept by the model functions; every call that only uses such functions keeps it. *)
From Coq Require Import List NArith ZArith Bool Arith Lia.
From Verif Require Import Base Instance ModelIface Core Fmi3 Fmi2 Api Logic Calls SpecModes Histories.
Import ListNotations.
Set Implicit Arguments.

Definition keepM {F D X} (R : Mut F D -> Mut F D -> Prop) (f : MF F D X) : Prop :=
  forall e c u x u' t, f e c u = Done (x, u', t) -> R u u'.

(** The functions of a model.  [Rst]: may setStartValues be called; [St t vr], [Sb vr]: variables
    that may be assigned. *)
Record KeepLaws {F : Type} {NF : Num F} (m : Model F) (R : Mut F (md m) -> Mut F (md m) -> Prop)
  (Rst : Prop) (St : VType -> N -> Prop) (Sb : N -> Prop) : Prop := {
  kp_refl : forall u, R u u;
  kp_trans : forall a b c, R a b -> R b c -> R a c;
  kp_dirty : forall b u, R u (set_dirty b u);
  kp_start : Rst -> keepM R (m_setStartValues m);
  kp_calc : keepM R (m_calculateValues m);
  kp_get : forall t vr b n i, keepM R (m_get m t vr b n i);
  kp_set : forall t vr b n i, St t vr -> keepM R (m_set m t vr b n i);
  kp_bin : forall vr z b n i, keepM R (m_getBinary m vr z b n i);
  kp_setBin : forall vr z b n i, Sb vr -> keepM R (m_setBinary m vr z b n i);
  kp_activate : forall vr, keepM R (m_activateClock m vr);
  kp_clock : forall vr, keepM R (m_getClock m vr);
  kp_interval : forall vr, keepM R (m_getInterval m vr);
  kp_partition : forall vr t, keepM R (m_activateModelPartition m vr t);
  kp_states : forall x n, keepM R (m_getContinuousStates m x n);
  kp_nominals : forall x n, keepM R (m_getNominals m x n);
  kp_setStates : forall x n, keepM R (m_setContinuousStates m x n);
  kp_derivatives : forall x n, keepM R (m_getDerivatives m x n);
  kp_indicators : forall x n, keepM R (m_getEventIndicators m x n);
  kp_output : forall b vr o, keepM R (m_getOutputDerivative m b vr o);
  kp_partial : forall a b, keepM R (m_getPartialDerivative m a b);
  kp_event : keepM R (m_eventUpdateF m) }.

(** Calls that are none of these: assignments to other variables, Reset, restoring a state. *)
Definition calm3 {F D} (Rst : Prop) (St : VType -> N -> Prop) (Sb : N -> Prop) (o : Op3 F D) : Prop :=
  match o with
  | O3Set t (Some vrs) nvr _ _ => Forall (St t) (firstn nvr vrs)
  | O3SetBinary (Some vrs) nvr _ _ _ => Forall Sb (firstn nvr vrs)
  | O3Reset => Rst
  | O3SetFMUState _ => False
  | _ => True
  end.
Definition calm2 {F D} (Rst : Prop) (St : VType -> N -> Prop) (o : Op2 F D) : Prop :=
  match o with
  | O2Set t (Some vrs) nvr _ => Forall (St t) (firstn nvr vrs)
  | O2SetBoolean (Some vrs) nvr _ => Forall (St TBoolean) (firstn nvr vrs)
  | O2Reset => Rst
  | O2SetFMUstate _ => False
  | _ => True
  end.

Section Keeps.
  Context {F : Type} {NF : Num F} (m : Model F) (R : Mut F (md m) -> Mut F (md m) -> Prop)
    (Rst : Prop) (St : VType -> N -> Prop) (Sb : N -> Prop) (L : KeepLaws m R Rst St Sb) (szof : N).
  Notation D := (md m).

  Definition keep {X} (f : AF F D X) : Prop := forall i x k t, f i = Done (x, k, t) -> R (mut i) (mut k).

  Lemma k_ret X (x : X) : keep (ret x).
  Proof. intros i y k t E. inversion E; subst. apply (kp_refl L). Qed.
  Lemma k_bind X Y (f : AF F D X) (k : X -> AF F D Y) : keep f -> (forall x, keep (k x)) -> keep (bind f k).
  Proof.
    intros A B i y l t E. apply bind_Done in E as (z & s1 & t1 & t2 & E1 & E2 & ->).
    eapply (kp_trans L); [eapply A; eassumption|eapply B; eassumption].
  Qed.
  Lemma k_ub X : keep (ubM : AF F D X).
  Proof. intros i y k t E. discriminate. Qed.
  Lemma k_nofuel X : keep (nofuelM : AF F D X).
  Proof. intros i y k t E. discriminate. Qed.
  Lemma k_rd T (b : Buf T) n : keep (rd b n).
  Proof. intros i y k t E. unfold rd in E. destruct b as [l|]; [destruct (nth_error l n)|]; inversion E; subst; apply (kp_refl L). Qed.
  Lemma k_wr T (b : Buf T) n x : keep (wr b n x).
  Proof. intros i y k t E. unfold wr in E. destruct b as [l|]; [destruct (Nat.ltb n (length l))|]; inversion E; subst; apply (kp_refl L). Qed.
  Lemma k_getC : keep (getC m).
  Proof. intros i y k t E. inversion E; subst. apply (kp_refl L). Qed.
  Lemma k_getM : keep (getM m).
  Proof. intros i y k t E. inversion E; subst. apply (kp_refl L). Qed.
  Lemma k_getSol : keep (getSol m).
  Proof. intros i y k t E. inversion E; subst. apply (kp_refl L). Qed.
  Lemma k_modC f : keep (modC m f).
  Proof. intros i y k t E. inversion E; subst. apply (kp_refl L). Qed.
  Lemma k_modSol f : keep (modSol m f).
  Proof. intros i y k t E. inversion E; subst. apply (kp_refl L). Qed.
  Lemma k_dirty b : keep (modM m (set_dirty b)).
  Proof. intros i y k t E. inversion E; subst. apply (kp_dirty L). Qed.
  Lemma k_tell e : keep (tell e).
  Proof. intros i y k t E. inversion E; subst. apply (kp_refl L). Qed.
  Lemma k_call env X (f : MF F D X) : keepM R f -> keep (call m env f).
  Proof.
    intros A i y k t E. unfold call in E. destruct (f env (ctl i) (mut i)) as [[[x u] t']| |] eqn:Ef; inversion E; subst.
    eapply A; exact Ef.
  Qed.
  Lemma k_log env : keep (logError m env).
  Proof. intros i y k t E. rewrite logError_eq in E. inversion E; subst. apply (kp_refl L). Qed.
  Lemma k_setMode s : keep (setMode m s).
  Proof. intros i y k t E. inversion E; subst. apply (kp_refl L). Qed.
  Lemma k_CALL st s : keep (CALL m st s).
  Proof. unfold CALL. destruct (smax st s); try apply k_ret; (apply k_bind; [apply k_setMode|intro; apply k_ret]). Qed.
  Lemma k_CALLk X st s (x : X) k : (forall st', keep (k st')) -> keep (CALLk m st s x k).
  Proof. intro H. unfold CALLk. apply k_bind; [apply k_CALL|]. intro st'. destruct (stops st'); [apply k_ret|apply H]. Qed.
  Lemma k_allowed env mask : keep (allowedState m env mask).
  Proof.
    unfold allowedState. apply k_bind; [apply k_getC|]. intro c. destruct (N.eqb _ _); [|apply k_ret].
    apply k_bind; [apply k_log|intro; apply k_ret].
  Qed.
  Lemma k_allowed2 env mask : keep (allowedState2 m env mask).
  Proof.
    unfold allowedState2. apply k_bind; [apply k_getC|]. intro c. destruct (N.eqb _ _); [|apply k_ret].
    apply k_bind; [apply k_log|intro; apply k_ret].
  Qed.
  Lemma k_BEGIN env X mask (x : X) k : keep k -> keep (BEGIN m env mask x k).
  Proof. intro H. unfold BEGIN. apply k_bind; [apply k_allowed|]. intros []; [exact H|]. apply k_CALLk. auto. Qed.
  Lemma k_BEGIN2 env X mask (x : X) k : keep k -> keep (BEGIN2 m env mask x k).
  Proof. intro H. unfold BEGIN2. apply k_bind; [apply k_allowed2|]. intros []; [exact H|]. apply k_CALLk. auto. Qed.
  Lemma k_notnull env T X (p : option T) (x : X) k : keep k -> keep (ASSERT_NOT_NULL m env p x k).
  Proof.
    intro H. unfold ASSERT_NOT_NULL. destruct p; [exact H|].
    apply k_bind; [apply k_log|intro]. apply k_bind; [apply k_setMode|intro]. apply k_ret.
  Qed.
  Lemma k_nullPointer env T (p : option T) : keep (nullPointer m env p).
  Proof. unfold nullPointer. destruct p; [apply k_ret|]. repeat (apply k_bind; [apply k_log || apply k_setMode|intro]). apply k_ret. Qed.
  Lemma k_invalidNumber env a b : keep (invalidNumber m env a b).
  Proof. unfold invalidNumber. destruct (N.eqb a b); [apply k_ret|]. repeat (apply k_bind; [apply k_log || apply k_setMode|intro]). apply k_ret. Qed.

  Ltac k1 := match goal with
    | |- keep (BEGIN _ _ _ _ _) => apply k_BEGIN
    | |- keep (BEGIN2 _ _ _ _ _) => apply k_BEGIN2
    | |- keep (ASSERT_NOT_NULL _ _ _ _ _) => apply k_notnull
    | |- keep (nullPointer _ _ _) => apply k_nullPointer
    | |- keep (if ?b then _ else _) => destruct b
    | |- keep (ret _) => apply k_ret
    | |- keep ubM => apply k_ub
    | |- keep nofuelM => apply k_nofuel
    | |- keep (CALLk _ _ _ _ _) => apply k_CALLk; intro
    | |- keep (CALL _ _ _) => apply k_CALL
    | |- keep (logError _ _) => apply k_log
    | |- keep (setMode _ _) => apply k_setMode
    | |- keep (getC _) => apply k_getC
    | |- keep (getM _) => apply k_getM
    | |- keep (getSol _) => apply k_getSol
    | |- keep (modC _ _) => apply k_modC
    | |- keep (modSol _ _) => apply k_modSol
    | |- keep (modM _ (set_dirty _)) => apply k_dirty
    | |- keep (rd _ _) => apply k_rd
    | |- keep (wr _ _ _) => apply k_wr
    | |- keep (tell _) => apply k_tell
    | |- keep (call _ _ _) => apply k_call
    | |- keep (bind _ _) => apply k_bind; [|intro]
    | |- keep (match ?x with _ => _ end) => destruct x
    end.
  Ltac ks := cbv zeta; repeat (k1; cbv zeta).

  Lemma k_refresh env X st (x : X) k : (forall st', keep (k st')) -> keep (refresh m env st x k).
  Proof. intro H. unfold refresh. ks; try apply (kp_calc L); apply H. Qed.
  Lemma k_get_loop env t : forall n vrs b nv i st, keep (get_loop m env t vrs n b nv i st).
  Proof. induction n as [|n IH]; intros; cbn [get_loop]; ks; try apply IH. apply (kp_get L). Qed.
  Lemma k_set_loop env t : forall n vrs b nv i st, Forall (St t) (firstn n vrs) -> keep (set_loop m env t vrs n b nv i st).
  Proof.
    induction n as [|n IH]; intros vrs b nv i st A; cbn [set_loop]; [ks|].
    destruct vrs as [|vr vrs]; [ks|]. cbn [firstn] in A. inversion A; subst. ks; [now apply (kp_set L)|now apply IH].
  Qed.
  Lemma k_bin_loop env : forall n vrs z b nv i st, keep (getBinary_loop m env vrs n z b nv i st).
  Proof. induction n as [|n IH]; intros; cbn [getBinary_loop]; ks; try apply IH. apply (kp_bin L). Qed.
  Lemma k_setBin_loop env : forall n vrs z b nv i st, Forall Sb (firstn n vrs) -> keep (setBinary_loop m env vrs n z b nv i st).
  Proof.
    induction n as [|n IH]; intros vrs z b nv i st A; cbn [setBinary_loop]; [ks|].
    destruct vrs as [|vr vrs]; [ks|]. cbn [firstn] in A. inversion A; subst. ks; [now apply (kp_setBin L)|now apply IH].
  Qed.
  Lemma k_clock_loop env : forall n vrs i b st, keep (getClock_loop m env vrs n i b st).
  Proof. induction n as [|n IH]; intros; cbn [getClock_loop]; ks; try apply IH. apply (kp_clock L). Qed.
  Lemma k_setClock_loop env : forall n vrs i b st, keep (setClock_loop m env vrs n i b st).
  Proof. induction n as [|n IH]; intros; cbn [setClock_loop]; ks; try apply IH. apply (kp_activate L). Qed.
  Lemma k_interval_loop env : forall n vrs i b q st, keep (interval_loop m env vrs n i b q st).
  Proof. induction n as [|n IH]; intros; cbn [interval_loop]; ks; try apply IH. apply (kp_interval L). Qed.
  Lemma k_row env pd : (forall o, keepM R (pd o)) -> forall n others j seed acc st, keep (deriv_row m env pd others n j seed acc st).
  Proof. intro G. induction n as [|n IH]; intros; cbn [deriv_row]; ks; try apply IH. apply G. Qed.
  Lemma k_rows env pd : (forall r o, keepM R (pd r o)) -> forall n rows i others k seed sens st,
    keep (deriv_rows m env pd rows n i others k seed sens st).
  Proof.
    intro G. induction n as [|n IH]; intros; cbn [deriv_rows]; ks; try apply IH. apply k_row. intro. apply G.
  Qed.
  Lemma k_output_loop env : forall n vrs i orders values st, keep (outputDerivative_loop m env vrs n i orders values st).
  Proof. induction n as [|n IH]; intros; cbn [outputDerivative_loop]; ks; try apply IH. apply (kp_output L). Qed.
  Lemma k_getBoolean_loop env : forall n vrs i nvr values st, keep (getBoolean_loop m env vrs n i nvr values st).
  Proof. induction n as [|n IH]; intros; cbn [getBoolean_loop]; ks; try apply IH. apply (kp_get L). Qed.
  Lemma k_setBoolean_loop env : forall n l i nvr values st, Forall (St TBoolean) (firstn n (skipn i l)) ->
    keep (setBoolean_loop m env (Some l) n i nvr values st).
  Proof.
    induction n as [|n IH]; intros l i nvr values st A; cbn [setBoolean_loop]; [ks|].
    apply k_bind; [apply k_rd|intro v]. intros j y k t E.
    apply bind_Done in E as (vr & j1 & t1 & t2 & E1 & E2 & ->). unfold rd in E1.
    destruct (nth_error l i) as [w|] eqn:En; inversion E1; subst.
    assert (A' : St TBoolean vr /\ Forall (St TBoolean) (firstn n (skipn (S i) l))).
    { clear -A En. revert l A En. induction i as [|i IH]; intros [|a l] A En; try discriminate.
      - cbn in *. injection En as ->. inversion A; subst. auto.
      - exact (IH l A En). }
    destruct A' as (A1 & A2). revert E2. apply (@k_bind _ _ (call m env (m_set m TBoolean vr _ nvr 0))).
    - apply k_call. now apply (kp_set L).
    - intro. ks. now apply IH.
  Qed.
  Lemma k_configurate env : keep (configurate m env).
  Proof. unfold configurate, CALLc, configurate_z, configurate_x. ks; apply (kp_indicators L). Qed.
  Lemma k_reset env : Rst -> keep (reset m env).
  Proof. intro H. unfold reset. ks. now apply (kp_start L). Qed.
  Lemma k_fixedStep env : keep (doFixedStep m env).
  Proof.
    unfold doFixedStep, fixedStep_x, fixedStep_time, fixedStep_z. ks;
      first [apply (kp_states L)|apply (kp_derivatives L)|apply (kp_setStates L)|apply (kp_indicators L)].
  Qed.
  Lemma k_doStep env : forall fuel ncp ehn st, keep (doStep_loop m env fuel ncp ehn st).
  Proof.
    induction fuel as [|fuel IH]; intros ncp ehn st; cbn [doStep_loop]; ks;
      first [apply IH|apply k_fixedStep|apply (kp_event L)|apply (kp_indicators L)].
  Qed.
  Lemma k_doStep2 env : forall fuel ncp st, keep (doStep2_loop m env fuel ncp st).
  Proof.
    induction fuel as [|fuel IH]; intros ncp st; cbn [doStep2_loop]; ks;
      first [apply IH|apply k_fixedStep|apply (kp_event L)].
  Qed.
  Lemma k_debug_loop env on : forall n cats, keep (setDebugLogging_loop m env on cats n).
  Proof. induction n as [|n IH]; intros; cbn [setDebugLogging_loop]; ks; apply IH. Qed.

  (** Calls on the instance. *)
  Lemma keep_outI X (f : AF F D (Status * X)) o s st out s' t : keep f ->
    outI m f o s = Done (st, out, s', t) -> R (mut (sinst s)) (mut (sinst s')).
  Proof.
    intros Q E. rewrite outI_eq in E. destruct (f (sinst s)) as [[[[st0 x] j] t0]| |] eqn:Ef; try discriminate.
    injection E; intros; subst. cbn. eapply Q; eassumption.
  Qed.
  (** Calls on the system. *)
  Definition skeep {X} (f : SF m X) : Prop := forall s x s' t, f s = Done (x, s', t) -> R (mut (sinst s)) (mut (sinst s')).
  Lemma sk_ret X (x : X) : skeep (ret x).
  Proof. intros s y s' t E. inversion E; subst. apply (kp_refl L). Qed.
  Lemma sk_bind X Y (f : SF m X) (k : X -> SF m Y) : skeep f -> (forall x, skeep (k x)) -> skeep (bind f k).
  Proof.
    intros A B i y l t E. apply bind_Done in E as (z & s1 & t1 & t2 & E1 & E2 & ->).
    eapply (kp_trans L); [eapply A; eassumption|eapply B; eassumption].
  Qed.
  Lemma sk_ub X : skeep (ubM : SF m X).
  Proof. intros i y k t E. discriminate. Qed.
  Lemma sk_onInst X (f : AF F D X) : keep f -> skeep (onInst m f).
  Proof.
    intros A s x s' t E. unfold onInst in E. destruct (f (sinst s)) as [[[y j] t0]| |] eqn:Ef; try discriminate.
    inversion E; subst. cbn. eapply A; exact Ef.
  Qed.
  Lemma sk_deref h : skeep (deref m h).
  Proof. intros s x s' t E. unfold deref in E. destruct (nth_error (heap s) h) as [[i|]|]; inversion E; subst. apply (kp_refl L). Qed.
  Lemma sk_alloc i : skeep (alloc m i).
  Proof. intros s x s' t E. inversion E; subst. apply (kp_refl L). Qed.
  Lemma sk_store h c : skeep (store m h c).
  Proof. intros s x s' t E. unfold store in E. destruct (nth_error (heap s) h) as [[i|]|]; inversion E; subst. apply (kp_refl L). Qed.
  Lemma sk_self X (g : Sys F D -> X) : skeep (fun s => Done (g s, s, [])).
  Proof. intros s x s' t E. inversion E; subst. apply (kp_refl L). Qed.
  Lemma sk_BEGIN3S X env mask (x : X) k : skeep k -> skeep (BEGIN3S (m := m) env mask x k).
  Proof.
    intro H. unfold BEGIN3S. apply sk_bind; [apply sk_onInst, k_allowed|]. intros []; [exact H|].
    apply sk_onInst. ks.
  Qed.
  Lemma sk_BEGIN2S X env mask (x : X) k : skeep k -> skeep (BEGIN2S (m := m) env mask x k).
  Proof.
    intro H. unfold BEGIN2S. apply sk_bind; [apply sk_onInst, k_allowed2|]. intros []; [exact H|].
    apply sk_onInst. ks.
  Qed.
  Lemma sk_outS X (f : SF m (Status * X)) o : skeep f -> skeep (outS (m := m) f o).
  Proof. intro H. unfold outS. apply sk_bind; [exact H|intro; apply sk_ret]. Qed.
  Ltac sk1 := match goal with
    | |- skeep (outS _ _) => apply sk_outS
    | |- skeep (BEGIN3S _ _ _ _) => apply sk_BEGIN3S
    | |- skeep (BEGIN2S _ _ _ _) => apply sk_BEGIN2S
    | |- skeep (ret _) => apply sk_ret
    | |- skeep ubM => apply sk_ub
    | |- skeep (onInst _ _) => apply sk_onInst
    | |- skeep (deref _ _) => apply sk_deref
    | |- skeep (alloc _ _) => apply sk_alloc
    | |- skeep (store _ _ _) => apply sk_store
    | |- skeep (bind _ _) => apply sk_bind; [|intro]
    | |- skeep (if ?b then _ else _) => destruct b
    | |- skeep (match ?x with _ => _ end) => destruct x
    | |- skeep (fun s => Done _) => apply sk_self
    | |- keep (nullPointer _ _ _) => apply k_nullPointer
    | |- keep (invalidNumber _ _ _ _) => apply k_invalidNumber
    end.

  Theorem exec3_keeps fuel env o s st out s' t : calm3 Rst St Sb o -> exec3 m szof fuel env o s = Done (st, out, s', t) ->
    R (mut (sinst s)) (mut (sinst s')).
  Proof.
    intros C E. destruct o; cbn [exec3] in E; cbn [calm3] in C; try contradiction;
      try (eapply keep_outI; [|exact E]; clear E);
      try (refine (_ : R (mut (sinst s)) (mut (sinst s'))); revert E;
           match goal with |- ?f s = _ -> _ => enough (Q : skeep f) by (apply Q) end;
           unfold fmi3GetFMUState, fmi3FreeFMUState, fmi3SerializedFMUStateSize, fmi3SerializeFMUState, fmi3DeserializeFMUState,
             getFMUState, freeFMUState, serializeFMUState, deserializeFMUState; repeat sk1).
    - unfold fmi3SetDebugLogging, setDebugLogging. ks. apply k_debug_loop.
    - unfold fmi3EnterInitializationMode. ks.
    - unfold fmi3ExitInitializationMode. ks. apply k_refresh. intro. ks. apply k_configurate.
    - unfold fmi3EnterEventMode. ks.
    - unfold fmi3Terminate. ks.
    - unfold fmi3Reset. ks. now apply k_reset.
    - unfold fmi3Get. ks; apply k_refresh; intro; ks; apply k_get_loop.
    - unfold fmi3Set. ks; destruct vrs; try (apply k_set_loop; exact C). apply k_set_loop. rewrite firstn_nil. constructor.
    - unfold fmi3GetBinary. ks; apply k_refresh; intro; apply k_bin_loop.
    - unfold fmi3SetBinary. ks; destruct vrs; try (apply k_setBin_loop; exact C). apply k_setBin_loop. rewrite firstn_nil. constructor.
    - unfold fmi3GetClock. ks. apply k_clock_loop.
    - unfold fmi3SetClock. ks. apply k_setClock_loop.
    - unfold fmi3GetDirectionalDerivative. ks. apply k_rows. intros. apply (kp_partial L).
    - unfold fmi3GetAdjointDerivative. ks. apply k_rows. intros. apply (kp_partial L).
    - unfold fmi3EnterConfigurationMode. ks.
    - unfold fmi3ExitConfigurationMode. ks; apply k_configurate.
    - unfold fmi3GetIntervalDecimal. ks. apply k_interval_loop.
    - unfold fmi3NotImplemented, NOT_IMPLEMENTED. ks.
    - unfold fmi3UpdateDiscreteStates. ks. apply (kp_event L).
    - unfold fmi3EnterContinuousTimeMode. ks.
    - unfold fmi3CompletedIntegratorStep. ks.
    - unfold fmi3SetTime. ks.
    - unfold fmi3SetContinuousStates. ks. apply (kp_setStates L).
    - unfold fmi3GetContinuousStateDerivatives, fmi3GetArray. ks. apply (kp_derivatives L).
    - unfold fmi3GetEventIndicators, fmi3GetArray. ks. apply (kp_indicators L).
    - unfold fmi3GetContinuousStates, fmi3GetArray. ks. apply (kp_states L).
    - unfold fmi3GetNominalsOfContinuousStates, fmi3GetArray. ks. apply (kp_nominals L).
    - unfold fmi3GetNumberOfEventIndicators, fmi3GetNumber. ks.
    - unfold fmi3GetNumberOfContinuousStates, fmi3GetNumber. ks.
    - unfold fmi3EnterStepMode. ks.
    - unfold fmi3GetOutputDerivatives, NOT_IMPLEMENTED. ks. apply k_output_loop.
    - unfold fmi3DoStep. ks. apply k_doStep.
    - unfold fmi3ActivateModelPartition. ks. apply (kp_partition L).
  Qed.
  Theorem exec2_keeps fuel env o s st out s' t : calm2 Rst St o -> exec2 m szof fuel env o s = Done (st, out, s', t) ->
    R (mut (sinst s)) (mut (sinst s')).
  Proof.
    intros C E. destruct o; cbn [exec2] in E; cbn [calm2] in C; try contradiction;
      try (eapply keep_outI; [|exact E]; clear E);
      try (refine (_ : R (mut (sinst s)) (mut (sinst s'))); revert E;
           match goal with |- ?f s = _ -> _ => enough (Q : skeep f) by (apply Q) end;
           unfold fmi2GetFMUstate, fmi2FreeFMUstate, fmi2SerializedFMUstateSize, fmi2SerializeFMUstate, fmi2DeSerializeFMUstate,
             getFMUState, freeFMUState, serializeFMUState, deserializeFMUState; repeat sk1).
    - unfold fmi2SetDebugLogging, setDebugLogging. ks. apply k_debug_loop.
    - unfold fmi2SetupExperiment. ks.
    - unfold fmi2EnterInitializationMode. ks.
    - unfold fmi2ExitInitializationMode. ks. apply k_refresh. intro. ks. apply k_configurate.
    - unfold fmi2Terminate. ks.
    - unfold fmi2Reset. ks. now apply k_reset.
    - unfold fmi2GetV. ks; apply k_refresh; intro; ks; apply k_get_loop.
    - unfold fmi2SetV. ks; destruct vrs; try (apply k_set_loop; exact C). apply k_set_loop. cbn. rewrite firstn_nil. constructor.
    - unfold fmi2GetBoolean. ks. apply k_getBoolean_loop.
    - unfold fmi2SetBoolean. ks. destruct vrs as [l|]; [apply k_setBoolean_loop; exact C|].
      destruct nvr; cbn [setBoolean_loop]; [ks|]. intros i y k t0 E. cbn in E. unfold bind, rd in E. destruct values as [lv|]; [destruct (nth_error lv 0)|]; discriminate.
    - unfold fmi2GetDirectionalDerivative. ks. apply k_rows. intros. apply (kp_partial L).
    - unfold fmi2SetRealInputDerivatives. ks.
    - unfold fmi2GetRealOutputDerivatives. ks. apply k_output_loop.
    - unfold fmi2CancelStep. ks.
    - unfold fmi2DoStep. ks. apply k_doStep2.
    - unfold fmi2GetStatus, getStatus. ks.
    - unfold fmi2GetRealStatus, getStatus. ks.
    - unfold fmi2GetBooleanStatus, getStatus. ks.
    - unfold fmi2EnterEventMode. ks.
    - unfold fmi2NewDiscreteStates. ks. apply (kp_event L).
    - unfold fmi2EnterContinuousTimeMode. ks.
    - unfold fmi2CompletedIntegratorStep. ks.
    - unfold fmi2SetTime. ks.
    - unfold fmi2SetContinuousStates. ks. apply (kp_setStates L).
    - unfold fmi2GetDerivatives, fmi2GetArray. ks. apply (kp_derivatives L).
    - unfold fmi2GetEventIndicators, fmi2GetArray. ks. apply (kp_indicators L).
    - unfold fmi2GetContinuousStates, fmi2GetArray. ks. apply (kp_states L).
    - unfold fmi2GetNominals, fmi2GetArray. ks. apply (kp_nominals L).
  Qed.
  Lemma run3_keeps fuel : forall l s obs s', Forall (fun p => calm3 Rst St Sb (snd p)) l ->
    run3 m szof fuel l s = Done (obs, s') -> R (mut (sinst s)) (mut (sinst s')).
  Proof.
    induction l as [|[e o] l IH]; intros s obs s' C E.
    - inversion E; subst. apply (kp_refl L).
    - inversion C; subst. apply run_cons in E as (st & out & s1 & t & obs' & E1 & E2 & ->).
      eapply (kp_trans L); [eapply exec3_keeps; eassumption|eapply IH; eassumption].
  Qed.
  Lemma run2_keeps fuel : forall l s obs s', Forall (fun p => calm2 Rst St (snd p)) l ->
    run2 m szof fuel l s = Done (obs, s') -> R (mut (sinst s)) (mut (sinst s')).
  Proof.
    induction l as [|[e o] l IH]; intros s obs s' C E.
    - inversion E; subst. apply (kp_refl L).
    - inversion C; subst. apply run_cons in E as (st & out & s1 & t & obs' & E1 & E2 & ->).
      eapply (kp_trans L); [eapply exec2_keeps; eassumption|eapply IH; eassumption].
  Qed.
End Keeps.
