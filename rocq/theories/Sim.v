(** Sim.v -- two runs of the same code side by side: a relation between instances that is
    kept by every function, and equal results (used for C07, C13, C14, C16, C23).

    A relation is described by a [Rel]: which parts of the two instances have to agree. *)
From Coq Require Import List NArith ZArith Bool Arith Lia.
From Verif Require Import Base Instance ModelIface Core Logic Calls.
Import ListNotations.
Set Implicit Arguments.

(** What is required of the two instances.  [r_log]: equal log settings.  [r_cross]: an FMI 2
    instance in StepComplete may stand against an FMI 3 instance in StepMode.  [r_env],
    [r_loc]: admissible environments and resource locations.  [r_vals], [r_dirty]: the flags
    valuesChanged and dirty are equal.  [r_data]: the relation between the model data. *)
Record Rel (D : Type) := mkRel {
  r_log : Prop;
  r_cross : bool;
  r_env : Env -> Prop;
  r_loc : option bytes -> Prop;
  r_vals : Prop;
  r_dirty : Prop;
  r_data : D -> D -> Prop }.

Definition modeR (x : bool) (a b : ModelState) : Prop := a = b \/ (x = true /\ a = StepComplete /\ b = StepMode).

Lemma modeR_refl x a : modeR x a a.
Proof. now left. Qed.
Lemma modeR_false a b : modeR false a b -> a = b.
Proof. intros [H|[H _]]; [auto|discriminate]. Qed.
Lemma modeR_inModes x a b l : modeR x a b -> ~ In StepComplete l -> ~ In StepMode l -> inModes l a = inModes l b.
Proof.
  intros [->|(_ & -> & ->)] A B; [reflexivity|]. unfold inModes.
  induction l as [|y l IH]; [reflexivity|]. cbn in A, B |- *.
  rewrite IH by tauto. destruct y; try reflexivity; tauto.
Qed.

Section Sim.
  Context {F : Type} {NF : Num F} {D : Type} (P : Rel D).

  Record ctlR (E : Prop) (c c' : Ctl F) : Prop := mkCtlR {
    cr_start : startTime c' = startTime c;
    cr_stop : E -> stopTime c' = stopTime c;
    cr_time : time c' = time c;
    cr_name : instanceName c' = instanceName c;
    cr_itype : itype c' = itype c;
    cr_loc : r_cross P = false -> resourceLocation c' = resourceLocation c;
    cr_loc_ok : r_loc P (resourceLocation c);
    cr_istatus : istatus c' = istatus c;
    cr_logger : hasLogger c' = hasLogger c;
    cr_iu : hasIntermediateUpdate c' = hasIntermediateUpdate c;
    cr_cu : hasClockUpdate c' = hasClockUpdate c;
    cr_lp : hasLockPreemption c' = hasLockPreemption c;
    cr_up : hasUnlockPreemption c' = hasUnlockPreemption c;
    cr_logEvents : r_log P -> logEvents c' = logEvents c;
    cr_logErrors : r_log P -> logErrors c' = logErrors c;
    cr_env : componentEnvironment c' = componentEnvironment c;
    cr_mode : modeR (r_cross P) (mode c) (mode c');
    cr_nSteps : nSteps c' = nSteps c;
    cr_early : earlyReturnAllowed c' = earlyReturnAllowed c;
    cr_event : eventModeUsed c' = eventModeUsed c;
    cr_ncp : E -> nextCommunicationPoint c' = nextCommunicationPoint c }.

  Record mutR (u u' : Mut F D) : Prop := mkMutR {
    mr_new : newDiscreteStatesNeeded u' = newDiscreteStatesNeeded u;
    mr_term : terminateSimulation u' = terminateSimulation u;
    mr_nom : nominalsChanged u' = nominalsChanged u;
    mr_vals : r_vals P -> valuesChanged u' = valuesChanged u;
    mr_ned : nextEventTimeDefined u' = nextEventTimeDefined u;
    mr_net : nextEventTime u' = nextEventTime u;
    mr_clk : clocksTicked u' = clocksTicked u;
    mr_dirty : r_dirty P -> dirty u' = dirty u;
    mr_data : r_data P (data u) (data u') }.

  (** Traces agree up to log messages, and exactly if the log settings are equal. *)
  Definition nolog (t : list (Event F)) : list (Event F) := filter (fun e => negb (log_event e)) t.
  Definition traceR (t t' : list (Event F)) : Prop := nolog t' = nolog t /\ (r_log P -> t' = t).

  Lemma traceR_refl t : traceR t t.
  Proof. split; auto. Qed.
  Lemma nolog_app t t' : nolog (t ++ t') = nolog t ++ nolog t'.
  Proof. unfold nolog. apply filter_app. Qed.
  Lemma traceR_app t1 t1' t2 t2' : traceR t1 t1' -> traceR t2 t2' -> traceR (t1 ++ t2) (t1' ++ t2').
  Proof.
    intros [A B] [C E]. split.
    - rewrite !nolog_app. congruence.
    - intro H. rewrite (B H), (E H). reflexivity.
  Qed.

  (** Two results agree. *)
  Definition orel {X Y A B : Type} (Q : X -> Y -> A -> B -> Prop)
             (a : res (X * A * list (Event F))) (b : res (Y * B * list (Event F))) : Prop :=
    match a, b with
    | Done (x, i, t), Done (y, j, t') => Q x y i j /\ traceR t t'
    | UB, UB => True
    | NoFuel, NoFuel => True
    | _, _ => False
    end.

  Lemma orel_conseq X Y A B (Q Q' : X -> Y -> A -> B -> Prop) a b :
    orel Q a b -> (forall x y i j, Q x y i j -> Q' x y i j) -> orel Q' a b.
  Proof.
    unfold orel. destruct a as [[[x i] t]| |], b as [[[y j] t']| |]; auto.
    intros [H T] I. split; auto.
  Qed.
  Lemma orel_ret X Y A B (Q : X -> Y -> A -> B -> Prop) x y i j : Q x y i j -> orel Q (ret x i) (ret y j).
  Proof. intro H. cbn. split; [exact H|apply traceR_refl]. Qed.
  Lemma orel_bind X Y Z W A B (Q1 : X -> Y -> A -> B -> Prop) (Q : Z -> W -> A -> B -> Prop)
        (f : SW (Event F) A X) (g : SW (Event F) B Y) k l i j :
    orel Q1 (f i) (g j) ->
    (forall x y i' j', Q1 x y i' j' -> orel Q (k x i') (l y j')) ->
    orel Q (bind f k i) (bind g l j).
  Proof.
    unfold bind. destruct (f i) as [[[x i'] t]| |], (g j) as [[[y j'] t']| |]; cbn; try tauto.
    intros [H T] K. specialize (K _ _ _ _ H).
    destruct (k x i') as [[[z i2] t2]| |], (l y j') as [[[w j2] t2']| |]; cbn in *; try tauto.
    destruct K. split; auto using traceR_app.
  Qed.

  (** ** Functions of the FMU models *)
  Definition mpost {X Y} (RX : X -> Y -> Prop) (x : X) (y : Y) (u u' : Mut F D) : Prop :=
    RX x y /\ mutR u u'.
  Definition msim {X Y} (RX : X -> Y -> Prop) (f : MF F D X) (g : MF F D Y) : Prop :=
    forall e c c' u u', r_env P e -> ctlR False c c' -> mutR u u' ->
      orel (mpost RX) (f e c u) (g e c' u').

  Lemma msim_conseq X Y (RX RX' : X -> Y -> Prop) f g :
    msim RX f g -> (forall x y, RX x y -> RX' x y) -> msim RX' f g.
  Proof.
    intros H I e c c' u u' He Hc Hu. eapply orel_conseq; [now apply H|].
    intros x y v v' [A B]. split; auto.
  Qed.
  Lemma ctlR_weaken (E E' : Prop) c c' : (E' -> E) -> ctlR E c c' -> ctlR E' c c'.
  Proof. intros I []. constructor; auto. Qed.

  (** Buffers: equal up to [n] once [k] holds. *)
  Definition bufR {T} (n : nat) (k : Prop) (x y : list T) (b b' : Buf T) : Prop :=
    exists z w, b = Some z /\ b' = Some w /\ length z = length x /\ length w = length y /\
                (k \/ firstn n x = firstn n y -> firstn n z = firstn n w).
  Definition bufS {T} (n : nat) (x y : list T) (r r' : Status * Buf T) : Prop :=
    fst r = fst r' /\ bufR n (fst r = OK) x y (snd r) (snd r').
End Sim.

(** What the proofs need to know about the FMU. *)
Section Laws.
  Context {F : Type} {NF : Num F} (m : Model F) (P : Rel (md m)).
  Notation D := (md m).
  Notation bufS := (@bufS F).

  Record SimLaws : Prop := {
    sl_start : msim P eq (m_setStartValues m) (m_setStartValues m);
    sl_calc : msim P eq (m_calculateValues m) (m_calculateValues m);
    sl_get : forall t vr values nv index, msim P eq (m_get m t vr values nv index) (m_get m t vr values nv index);
    sl_set : forall t vr values nv index, msim P eq (m_set m t vr values nv index) (m_set m t vr values nv index);
    sl_getBinary : forall vr s b nv index, msim P eq (m_getBinary m vr s b nv index) (m_getBinary m vr s b nv index);
    sl_setBinary : forall vr s b nv index, msim P eq (m_setBinary m vr s b nv index) (m_setBinary m vr s b nv index);
    sl_activateClock : forall vr, msim P eq (m_activateClock m vr) (m_activateClock m vr);
    sl_getClock : forall vr, msim P eq (m_getClock m vr) (m_getClock m vr);
    sl_getInterval : forall vr, msim P eq (m_getInterval m vr) (m_getInterval m vr);
    sl_activate : forall vr t, msim P eq (m_activateModelPartition m vr t) (m_activateModelPartition m vr t);
    sl_nz : forall u u' : Mut F D, mutR P u u' -> m_nz m u = m_nz m u' /\ m_nz m u <= m_maxZ m;
    sl_nx : forall u u' : Mut F D, mutR P u u' -> m_nx m u = m_nx m u' /\ m_nx m u <= m_maxX m;
    sl_states : forall x n, msim P eq (m_getContinuousStates m x n) (m_getContinuousStates m x n);
    sl_nominals : forall x n, msim P eq (m_getNominals m x n) (m_getNominals m x n);
    sl_derivs : forall x n, msim P eq (m_getDerivatives m x n) (m_getDerivatives m x n);
    sl_indicators : forall x n, msim P eq (m_getEventIndicators m x n) (m_getEventIndicators m x n);
    sl_setStates : forall x n, msim P eq (m_setContinuousStates m x n) (m_setContinuousStates m x n);
    sl_bstates : forall x y n, length x = length y ->
      msim P (bufS n x y) (m_getContinuousStates m (Some x) n) (m_getContinuousStates m (Some y) n);
    sl_bderivs : forall x y n, length x = length y ->
      msim P (bufS n x y) (m_getDerivatives m (Some x) n) (m_getDerivatives m (Some y) n);
    sl_bindicators : forall x y n, length x = length y ->
      msim P (bufS n x y) (m_getEventIndicators m (Some x) n) (m_getEventIndicators m (Some y) n);
    sl_bsetStates : forall x y n, length x = length y -> firstn n x = firstn n y ->
      msim P eq (m_setContinuousStates m (Some x) n) (m_setContinuousStates m (Some y) n);
    sl_outDeriv : forall b vr o, msim P eq (m_getOutputDerivative m b vr o) (m_getOutputDerivative m b vr o);
    sl_partial : forall a b, msim P eq (m_getPartialDerivative m a b) (m_getPartialDerivative m a b);
    sl_event : m_eventUpdate m = true ->
      forall e c c' u u', r_env P e -> ctlR P False c c' -> mutR P u u' ->
        orel P (fun x y v v' => x = y /\ mutR P v v' /\ valuesChanged v' = valuesChanged v)
             (m_eventUpdateF m e c u) (m_eventUpdateF m e c' u');
    sl_conf : 0 < m_maxZ m -> forall e c u x r v t,
      m_getEventIndicators m (Some x) (m_nz m u) e c u = Done (r, v, t) -> fst r = OK;
    sl_noevent : m_eventUpdate m = false -> r_vals P;
    (** a side that is up to date against one that is not *)
    sl_refreshL : forall e c c' u u', r_env P e -> ctlR P False c c' -> mutR P u u' ->
      dirty u = true -> dirty u' = false ->
      exists v, m_calculateValues m e c u = Done (OK, v, []) /\ mutR P (set_dirty false v) u';
    sl_refreshR : forall e c c' u u', r_env P e -> ctlR P False c c' -> mutR P u u' ->
      dirty u = false -> dirty u' = true ->
      exists v, m_calculateValues m e c' u' = Done (OK, v, []) /\ mutR P u (set_dirty false v)
  }.
End Laws.

(** ** The framework *)
Section Core.
  Context {F : Type} {NF : Num F} (m : Model F) (P : Rel (md m)) (env : Env).
  Notation D := (md m).
  Hypothesis L : SimLaws m P.
  Hypothesis He : r_env P env.

  Definition sizesR (o : Sol F) : Prop :=
    length (za o) = m_maxZ m /\ length (prez o) = m_maxZ m /\ nz o <= m_maxZ m /\
    length (xa o) = m_maxX m /\ length (dxa o) = m_maxX m /\ nx o <= m_maxX m.
  Record solR (S : Prop) (o o' : Sol F) : Prop := mkSolR {
    sr_sizes : sizesR o;
    sr_sizes' : sizesR o';
    sr_nz : S -> nz o' = nz o;
    sr_nx : S -> nx o' = nx o;
    sr_prez : S -> firstn (nz o) (prez o') = firstn (nz o) (prez o) }.

  Record instR (E S : Prop) (i i' : Inst F D) : Prop := mkInstR {
    ir_ctl : ctlR P E (ctl i) (ctl i');
    ir_mut : mutR P (mut i) (mut i');
    ir_sol : solR S (sol i) (sol i') }.

  Lemma solR_weaken (S S' : Prop) o o' : (S' -> S) -> solR S o o' -> solR S' o o'.
  Proof. intros I []. constructor; auto. Qed.
  Lemma instR_weaken (E S E' S' : Prop) i i' : (E' -> E) -> (S' -> S) -> instR E S i i' -> instR E' S' i i'.
  Proof. intros A B []. constructor; eauto using ctlR_weaken, solR_weaken. Qed.

  Definition apost {X Y} (E S : Prop) (RX : X -> Y -> Prop) (x : X) (y : Y) (i i' : Inst F D) : Prop :=
    RX x y /\ instR E S i i'.

  Section Rules.
    Context {X Y : Type} (Q : X -> Y -> Inst F D -> Inst F D -> Prop).
    Notation orel := (orel P Q).

    Lemma or_getC (k : Ctl F -> AF F D X) (l : Ctl F -> AF F D Y) i j :
      orel (k (ctl i) i) (l (ctl j) j) -> orel (bind (getC m) k i) (bind (getC m) l j).
    Proof. now rewrite !bind_getC. Qed.
    Lemma or_getM (k : Mut F D -> AF F D X) (l : Mut F D -> AF F D Y) i j :
      orel (k (mut i) i) (l (mut j) j) -> orel (bind (getM m) k i) (bind (getM m) l j).
    Proof. now rewrite !bind_getM. Qed.
    Lemma or_getSol (k : Sol F -> AF F D X) (l : Sol F -> AF F D Y) i j :
      orel (k (sol i) i) (l (sol j) j) -> orel (bind (getSol m) k i) (bind (getSol m) l j).
    Proof. now rewrite !bind_getSol. Qed.
    Lemma or_modC f g (k : unit -> AF F D X) (l : unit -> AF F D Y) i j :
      orel (k tt (set_ctl (f (ctl i)) i)) (l tt (set_ctl (g (ctl j)) j)) ->
      orel (bind (modC m f) k i) (bind (modC m g) l j).
    Proof. now rewrite !bind_modC. Qed.
    Lemma or_modM f g (k : unit -> AF F D X) (l : unit -> AF F D Y) i j :
      orel (k tt (set_mut (f (mut i)) i)) (l tt (set_mut (g (mut j)) j)) ->
      orel (bind (modM m f) k i) (bind (modM m g) l j).
    Proof. now rewrite !bind_modM. Qed.
    Lemma or_modSol f g (k : unit -> AF F D X) (l : unit -> AF F D Y) i j :
      orel (k tt (set_sol (f (sol i)) i)) (l tt (set_sol (g (sol j)) j)) ->
      orel (bind (modSol m f) k i) (bind (modSol m g) l j).
    Proof. now rewrite !bind_modSol. Qed.

    Lemma or_call E S U V (RX : U -> V -> Prop) f g (k : U -> AF F D X) (l : V -> AF F D Y) i j :
      msim P RX f g -> instR E S i j ->
      (forall x y u u', RX x y -> instR E S (set_mut u i) (set_mut u' j) ->
         orel (k x (set_mut u i)) (l y (set_mut u' j))) ->
      orel (bind (call m env f) k i) (bind (call m env g) l j).
    Proof.
      intros H [C M O] K.
      apply (@orel_bind _ _ P _ _ _ _ _ _
        (fun x y i' j' => RX x y /\ exists u u', i' = set_mut u i /\ j' = set_mut u' j /\ mutR P u u')).
      - unfold call. assert (C' : ctlR P False (ctl i) (ctl j)) by (eapply ctlR_weaken; [|exact C]; tauto).
        specialize (H env (ctl i) (ctl j) _ _ He C' M). unfold Sim.orel in H |- *.
        destruct (f env (ctl i) (mut i)) as [[[x u] t]| |], (g env (ctl j) (mut j)) as [[[y u'] t']| |]; auto.
        destruct H as [[A B] T]. split; [split; [exact A|eauto 8]|exact T].
      - intros x y i' j' (A & u & u' & -> & -> & B). apply K; [exact A|].
        constructor; cbn; auto.
    Qed.
    Lemma or_logError E S (k : unit -> AF F D X) (l : unit -> AF F D Y) i j :
      instR E S i j -> orel (k tt i) (l tt j) ->
      orel (bind (logError m env) k i) (bind (logError m env) l j).
    Proof.
      intros R K. rewrite !bind_logError. unfold Sim.orel in *.
      destruct (k tt i) as [[[x u] t]| |], (l tt j) as [[[y u'] t']| |]; auto.
      destruct K as [A T]. split; [exact A|]. apply traceR_app; [|exact T].
      destruct R as [C _ _]. unfold message. rewrite (cr_logger C). split.
      - destruct (logErrors (ctl i) && hasLogger (ctl i)), (logErrors (ctl j) && hasLogger (ctl i)); reflexivity.
      - intro H. now rewrite (cr_logErrors C H).
    Qed.
  End Rules.

  (** Field updates on both sides. *)
  Lemma instR_ctl E S E' i j c c' : instR E S i j -> ctlR P E' c c' -> instR E' S (set_ctl c i) (set_ctl c' j).
  Proof. intros [C M O] H. constructor; cbn; auto. Qed.
  Lemma instR_sol E S S' i j o o' : instR E S i j -> solR S' o o' -> instR E S' (set_sol o i) (set_sol o' j).
  Proof. intros [C M O] H. constructor; cbn; auto. Qed.
  Lemma instR_mut E S i j u u' : instR E S i j -> mutR P u u' -> instR E S (set_mut u i) (set_mut u' j).
  Proof. intros [C M O] H. constructor; cbn; auto. Qed.

  Ltac ctl_up := intros []; constructor; cbn; auto.
  Lemma cr_set_mode E (c c' : Ctl F) s s' : ctlR P E c c' -> modeR (r_cross P) s s' -> ctlR P E (set_mode s c) (set_mode s' c').
  Proof. intros H M. revert H. ctl_up. Qed.
  Lemma cr_set_start E (c c' : Ctl F) v : ctlR P E c c' -> ctlR P E (set_startTime v c) (set_startTime v c').
  Proof. ctl_up. Qed.
  Lemma cr_set_stop E (c c' : Ctl F) v : ctlR P E c c' -> ctlR P E (set_stopTime v c) (set_stopTime v c').
  Proof. ctl_up. Qed.
  Lemma cr_set_time E (c c' : Ctl F) v : ctlR P E c c' -> ctlR P E (set_time v c) (set_time v c').
  Proof. ctl_up. Qed.
  Lemma cr_set_nSteps E (c c' : Ctl F) v : ctlR P E c c' -> ctlR P E (set_nSteps v c) (set_nSteps v c').
  Proof. ctl_up. Qed.
  Lemma cr_set_istatus E (c c' : Ctl F) v : ctlR P E c c' -> ctlR P E (set_istatus v c) (set_istatus v c').
  Proof. ctl_up. Qed.
  Lemma cr_set_logEvents E (c c' : Ctl F) v : ctlR P E c c' -> ctlR P E (set_logEvents v c) (set_logEvents v c').
  Proof. ctl_up. Qed.
  Lemma cr_set_logErrors E (c c' : Ctl F) v : ctlR P E c c' -> ctlR P E (set_logErrors v c) (set_logErrors v c').
  Proof. ctl_up. Qed.
  Lemma cr_set_ncp E (c c' : Ctl F) v : ctlR P E c c' -> ctlR P E (set_nextCommunicationPoint v c) (set_nextCommunicationPoint v c').
  Proof. ctl_up. Qed.
  Lemma mr_set_dirty b (u u' : Mut F D) : mutR P u u' -> mutR P (set_dirty b u) (set_dirty b u').
  Proof. intros []. constructor; cbn; auto. Qed.

  Lemma or_setMode X Y (Q : X -> Y -> _) E S s (k : unit -> AF F D X) (l : unit -> AF F D Y) i j :
    instR E S i j ->
    (forall i' j', instR E S i' j' -> orel P Q (k tt i') (l tt j')) ->
    orel P Q (bind (setMode m s) k i) (bind (setMode m s) l j).
  Proof.
    intros R K. apply or_modC. apply K. eapply instR_ctl; [exact R|].
    apply cr_set_mode; [apply R|apply modeR_refl].
  Qed.

  Lemma or_logE E S i j : instR E S i j -> orel P (apost E S eq) (logError m env i) (logError m env j).
  Proof.
    intro R. rewrite !logError_eq. cbn. split; [split; auto|].
    destruct R as [C _ _]. unfold message. rewrite (cr_logger C). split.
    - destruct (logErrors (ctl i) && hasLogger (ctl i)), (logErrors (ctl j) && hasLogger (ctl i)); reflexivity.
    - intro H. now rewrite (cr_logErrors C H).
  Qed.

  Lemma or_invalidNumber E S a b i j :
    instR E S i j -> orel P (apost E S eq) (invalidNumber m env a b i) (invalidNumber m env a b j).
  Proof.
    intro R. unfold invalidNumber. destruct (N.eqb a b).
    - apply orel_ret. split; auto.
    - eapply or_setMode; [exact R|]. intros i' j' R'. eapply or_logError; [exact R'|].
      apply orel_ret. split; auto.
  Qed.
  Lemma or_nullPointer T E S (p : option T) i j :
    instR E S i j -> orel P (apost E S eq) (nullPointer m env p i) (nullPointer m env p j).
  Proof.
    intro R. unfold nullPointer. destruct p.
    - apply orel_ret. split; auto.
    - eapply or_setMode; [exact R|]. intros i' j' R'. eapply or_logError; [exact R'|].
      apply orel_ret. split; auto.
  Qed.

  Lemma or_setDebug_loop E S b n : forall cats i j, instR E S i j ->
    orel P (apost E S eq) (setDebugLogging_loop m env b cats n i) (setDebugLogging_loop m env b cats n j).
  Proof.
    induction n as [|n IH]; intros cats i j R; cbn [setDebugLogging_loop].
    - apply orel_ret. split; auto.
    - destruct cats as [|[c|] cats].
      + exact I.
      + destruct (streq c s_logEvents); [|destruct (streq c s_logStatusError)].
        * apply or_modC. apply IH. eapply instR_ctl; [exact R|]. apply cr_set_logEvents, R.
        * apply or_modC. apply IH. eapply instR_ctl; [exact R|]. apply cr_set_logErrors, R.
        * eapply or_logError; [exact R|]. apply orel_ret; split; auto.
      + eapply or_logError; [exact R|]. apply orel_ret; split; auto.
  Qed.
  Lemma or_setDebug E S b n cats i j : instR E S i j ->
    orel P (apost E S eq) (setDebugLogging m env b n cats i) (setDebugLogging m env b n cats j).
  Proof.
    intro R. unfold setDebugLogging. destruct (Nat.ltb 0 n).
    - destruct cats as [cats|].
      + now apply or_setDebug_loop.
      + eapply or_logError; [exact R|]. apply orel_ret; split; auto.
    - apply or_modC. cbn [set_ctl ctl]. apply or_modC. apply orel_ret. split; [reflexivity|].
      eapply instR_ctl; [|apply cr_set_logErrors, cr_set_logEvents, R]. eapply instR_ctl; [exact R|].
      apply cr_set_logEvents, R.
  Qed.

  (** ** The solver *)
  Lemma or_callb E S n (x y : list F) f g X Y (Q : X -> Y -> _) k l i j :
    msim P (bufS n x y) f g -> instR E S i j ->
    (forall st z w u u', instR E S (set_mut u i) (set_mut u' j) ->
       length z = length x -> length w = length y ->
       (st = OK \/ firstn n x = firstn n y -> firstn n z = firstn n w) ->
       orel P Q (k (st, Some z) (set_mut u i)) (l (st, Some w) (set_mut u' j))) ->
    orel P Q (bind (call m env f) k i) (bind (call m env g) l j).
  Proof.
    intros H R K. eapply or_call; [exact H|exact R|].
    intros [st b] [st' b'] u u' [A (z & w & B & C & Lz & Lw & Eq)] R'. cbn in *. subst.
    apply K; auto.
  Qed.

  Lemma call_conf_ok (x : list F) i r i' t : 0 < m_maxZ m ->
    call m env (m_getEventIndicators m (Some x) (m_nz m (mut i))) i = Done (r, i', t) -> fst r = OK.
  Proof.
    intros Z. unfold call.
    destruct (m_getEventIndicators m (Some x) (m_nz m (mut i)) env (ctl i) (mut i)) as [[[a u] t1]| |] eqn:E; try discriminate.
    intro H; inversion H; subst. eapply (sl_conf L); eauto.
  Qed.

  Lemma or_configurate_z E S i j : instR E S i j ->
    orel P (fun s s' i j => s = OK /\ s' = OK /\ instR E S i j /\ nz (sol j) = nz (sol i) /\
                            firstn (nz (sol i)) (prez (sol j)) = firstn (nz (sol i)) (prez (sol i)))
         (configurate_z m env i) (configurate_z m env j).
  Proof.
    intros R. unfold configurate_z. destruct (Nat.ltb_spec 0 (m_maxZ m)) as [Z|Z].
    - apply or_getM. destruct (sl_nz L (ir_mut R)) as [Nz Nl]. rewrite <- Nz.
      apply or_modSol. apply or_getSol. cbn [set_sol sol set_nz nz prez].
      pose proof (ir_sol R) as [(Z1 & Z2 & Z3 & X1 & X2 & X3) (Z1' & Z2' & Z3' & X1' & X2' & X3') _ _ _].
      assert (Rs : instR E False (set_sol (set_nz (m_nz m (mut i)) (sol i)) i)
                              (set_sol (set_nz (m_nz m (mut i)) (sol j)) j)).
      { eapply instR_sol; [exact R|]. constructor; cbn; try tauto; repeat split; cbn; lia. }
      set (i1 := set_sol _ i) in *. set (j1 := set_sol _ j) in *.
      apply (@orel_bind _ _ P _ _ _ _ _ _
        (fun r r' i2 j2 => exists z w u u', r = (OK, Some z) /\ r' = (OK, Some w) /\
           i2 = set_mut u i1 /\ j2 = set_mut u' j1 /\ mutR P u u' /\ length z = m_maxZ m /\ length w = m_maxZ m /\
           firstn (m_nz m (mut i)) z = firstn (m_nz m (mut i)) w)).
      + pose proof (@call_conf_ok (prez (sol i)) i1) as K1.
        change (mut i1) with (mut i) in K1.
        assert (Le : length (prez (sol i)) = length (prez (sol j))) by congruence.
        pose proof (sl_bindicators L (prez (sol i)) (prez (sol j)) (m_nz m (mut i)) Le env
                      He (ctlR_weaken (fun H : False => match H with end) (ir_ctl Rs)) (ir_mut Rs)) as H.
        unfold call in K1 |- *. unfold orel in H |- *.
        destruct (m_getEventIndicators m (Some (prez (sol i))) _ env (ctl i1) (mut i1)) as [[[r u] t]| |],
                 (m_getEventIndicators m (Some (prez (sol j))) _ env (ctl j1) (mut j1)) as [[[r' u'] t']| |]; auto.
        destruct H as [[[A (z & w & B & C & Lz & Lw & Eq)] M] T].
        specialize (K1 _ _ _ Z eq_refl). destruct r as [st b], r' as [st' b']. cbn in *. subst.
        split; [|exact T]. exists z, w, u, u'. repeat split; auto; try congruence; apply M.
      + intros r r' i2 j2 (z & w & u & u' & -> & -> & -> & -> & M & Lz & Lw & Eq). cbn [snd fst].
        apply or_modSol. apply orel_ret. split; [reflexivity|]. split; [reflexivity|].
        cbn. split; [|split; [reflexivity|symmetry; exact Eq]].
        constructor; cbn; [apply R|exact M|].
        constructor; cbn; auto.
        * repeat split; cbn; lia.
        * repeat split; cbn; lia.
        * intro HS. apply (sr_nx (ir_sol R) HS).
    - apply orel_ret. pose proof (ir_sol R) as [(Z1 & Z2 & Z3 & X1 & X2 & X3) (Z1' & Z2' & Z3' & X1' & X2' & X3') _ _ _].
      split; [reflexivity|]. split; [reflexivity|]. split; [exact R|].
      replace (nz (sol i)) with 0 by lia. replace (nz (sol j)) with 0 by lia. auto.
  Qed.
  Lemma or_configurate E S i j : instR E S i j ->
    orel P (fun s s' i j => s = OK /\ s' = OK /\ instR E True i j) (configurate m env i) (configurate m env j).
  Proof.
    intro R. unfold configurate, CALLc. eapply orel_bind; [apply (or_configurate_z R)|].
    intros s s' i' j' (-> & -> & R' & N & Pz).
    pose proof (ir_sol R') as [(Z1 & Z2 & Z3 & X1 & X2 & X3) (Z1' & Z2' & Z3' & X1' & X2' & X3') _ _ _].
    unfold configurate_x. destruct (Nat.ltb_spec 0 (m_maxX m)) as [Z|Z].
    - destruct (sl_nx L (ir_mut R')) as [Nx Nl].
      apply (@orel_bind _ _ P _ _ _ _ _ _ (fun _ _ i j => instR E True i j)).
      + apply or_getM. rewrite <- Nx. cbn. split; [|apply traceR_refl].
        eapply instR_sol; [exact R'|]. constructor; cbn; auto; repeat split; cbn; lia.
      + intros _ _ i2 j2 R2. apply orel_ret; auto.
    - apply (@orel_bind _ _ P _ _ _ _ _ _ (fun _ _ i j => instR E True i j)).
      + apply orel_ret. destruct R' as [C M _]. constructor; auto. constructor; auto;
          [repeat split; cbn; lia|repeat split; cbn; lia|intros _; lia].
      + intros _ _ i2 j2 R2. apply orel_ret; auto.
  Qed.

  Lemma or_reset E S i j : instR E S i j ->
    orel P (apost E S eq) (reset m env i) (reset m env j).
  Proof.
    intro R. unfold reset. eapply or_setMode; [exact R|]. clear i j R. intros i j R.
    apply or_modC, or_modC, or_modC, or_modC.
    eapply or_call; [apply (sl_start L)| |].
    - eapply instR_ctl; [|apply cr_set_istatus, cr_set_nSteps, cr_set_time, cr_set_start, R].
      do 3 (eapply instR_ctl; [|first [apply cr_set_nSteps|idtac]; first [apply cr_set_time|idtac]; apply cr_set_start, R]).
      exact R.
    - intros x y u u' -> R'. apply or_modM. apply orel_ret. split; [reflexivity|].
      eapply instR_mut; [exact R'|]. apply mr_set_dirty, (ir_mut R').
  Qed.

  (** One solver step; the solver arrays have to agree. *)
  Lemma or_fixedStep_x E i j : instR E True i j ->
    orel P (apost E True eq) (fixedStep_x m env i) (fixedStep_x m env j).
  Proof.
    intro R. unfold fixedStep_x. apply or_getSol.
    pose proof (ir_sol R) as [(Z1 & Z2 & Z3 & X1 & X2 & X3) (Z1' & Z2' & Z3' & X1' & X2' & X3') Nz Nx Pz].
    rewrite (Nx I). destruct (Nat.ltb_spec 0 (nx (sol i))) as [Z|Z]; [|apply orel_ret; split; auto].
    eapply or_callb; [apply (sl_bstates L); congruence|exact R|].
    intros st x y u u' R1 Lx Ly Eq. cbn [snd fst]. apply or_modSol.
    destruct st; try (apply orel_ret; split; [reflexivity|];
      eapply instR_sol; [exact R1|]; constructor; cbn; auto; repeat split; cbn; lia).
    specialize (Eq (or_introl eq_refl)).
    assert (R2 : instR E True (set_sol (set_xa x (sol i)) (set_mut u i)) (set_sol (set_xa y (sol j)) (set_mut u' j))).
    { eapply instR_sol; [exact R1|]; constructor; cbn; auto; repeat split; cbn; lia. }
    eapply or_callb; [apply (sl_bderivs L); congruence|exact R2|].
    intros st dx dy v v' R3 Ldx Ldy Eqd. cbn [snd fst]. apply or_modSol.
    assert (R4 : instR E True
       (set_sol (set_dxa dx (set_xa x (sol i))) (set_mut v (set_sol (set_xa x (sol i)) (set_mut u i))))
       (set_sol (set_dxa dy (set_xa y (sol j))) (set_mut v' (set_sol (set_xa y (sol j)) (set_mut u' j))))).
    { eapply instR_sol; [exact R3|]; constructor; cbn; auto; repeat split; cbn; lia. }
    destruct st; try (apply orel_ret; split; [reflexivity|exact R4]).
    specialize (Eqd (or_introl eq_refl)).
    apply or_getSol. cbn [set_sol set_mut set_dxa set_xa sol nx xa dxa ctl mut]. rewrite (Nx I).
    unfold euler. rewrite Lx, Ly, Ldx, Ldy, X1, X1', X2, X2'.
    destruct (Nat.leb_spec (nx (sol i)) (m_maxX m)); [|exact I]. cbn [andb].
    rewrite Eq, Eqd. apply or_modSol.
    set (e := map _ _). assert (Le : length e = nx (sol i)).
    { unfold e. rewrite map_length, combine_length, !firstn_length. lia. }
    assert (Lsx : length (e ++ skipn (nx (sol i)) x) = m_maxX m) by (rewrite app_length, skipn_length; lia).
    assert (Lsy : length (e ++ skipn (nx (sol i)) y) = m_maxX m) by (rewrite app_length, skipn_length; lia).
    match goal with |- orel _ _ (call _ _ ?f ?a) (call _ _ ?g ?b) =>
      change (orel P (apost E True eq) (call m env f a) (call m env g b));
      assert (R5 : instR E True a b);
      [eapply instR_sol; [exact R4|]; constructor; cbn; auto; repeat split; cbn; lia|];
      pose proof (@sl_bsetStates _ _ _ L (e ++ skipn (nx (sol i)) x) (e ++ skipn (nx (sol i)) y) (nx (sol i))) as Hs
    end.
    assert (Hs' : msim P eq (m_setContinuousStates m (Some (e ++ skipn (nx (sol i)) x)) (nx (sol i)))
              (m_setContinuousStates m (Some (e ++ skipn (nx (sol i)) y)) (nx (sol i)))).
    { apply Hs; [congruence|]. rewrite !firstn_app, Le, Nat.sub_diag. cbn. reflexivity. }
    clear Hs. unfold call. destruct R5 as [C M O].
    specialize (Hs' env _ _ _ _ He (ctlR_weaken (fun H : False => match H with end) C) M). unfold orel in Hs' |- *.
    destruct (m_setContinuousStates m _ _ env _ _) as [[[r1 u1] t1]| |];
      destruct (m_setContinuousStates m _ _ env _ _) as [[[r2 u2] t2]| |]; auto.
    destruct Hs' as [[A B] T]. split; [split; [exact A|]|exact T]. constructor; cbn; auto.
  Qed.

  Lemma or_fixedStep_z E i j : instR E True i j ->
    orel P (apost E True eq) (fixedStep_z m env i) (fixedStep_z m env j).
  Proof.
    intro R. unfold fixedStep_z. apply or_getSol.
    pose proof (ir_sol R) as [(Z1 & Z2 & Z3 & X1 & X2 & X3) (Z1' & Z2' & Z3' & X1' & X2' & X3') Nz Nx Pz].
    rewrite (Nz I). destruct (Nat.ltb_spec 0 (nz (sol i))) as [Z|Z]; [|apply orel_ret; split; auto].
    eapply or_callb; [apply (sl_bindicators L); congruence|exact R|].
    intros st x y u u' R1 Lx Ly Eq. cbn [snd fst]. apply or_modSol.
    assert (R2 : instR E True (set_sol (set_za x (sol i)) (set_mut u i)) (set_sol (set_za y (sol j)) (set_mut u' j))).
    { eapply instR_sol; [exact R1|]; constructor; cbn; auto; repeat split; cbn; lia. }
    destruct st; try (apply orel_ret; split; [reflexivity|exact R2]).
    specialize (Eq (or_introl eq_refl)).
    apply or_getSol. cbn [set_sol set_mut set_za sol nz za prez ctl mut]. rewrite (Nz I).
    unfold crossings, copyn. rewrite Lx, Ly, Z1, Z1', Z2, Z2'.
    destruct (Nat.leb_spec (nz (sol i)) (m_maxZ m)); [|exact I]. cbn [andb].
    rewrite (Pz I), Eq. apply or_modSol. apply orel_ret. split; [reflexivity|].
    assert (Lf : length (firstn (nz (sol i)) y) = nz (sol i)) by (rewrite firstn_length; lia).
    eapply instR_sol; [exact R2|]. constructor; cbn; auto.
    - repeat split; cbn; try lia. rewrite app_length, skipn_length, Lf. lia.
    - repeat split; cbn; try lia. rewrite app_length, skipn_length, Lf. lia.
    - intros _. rewrite !firstn_app, Lf, Nat.sub_diag. cbn. reflexivity.
  Qed.

  Lemma or_fixedStep_time E S i j : instR E S i j ->
    orel P (apost E S eq) (fixedStep_time m i) (fixedStep_time m j).
  Proof.
    intro R. unfold fixedStep_time. apply or_modC. cbn. split; [|apply traceR_refl]. split; [reflexivity|].
    pose proof (ir_ctl R) as C. rewrite (cr_nSteps C), (cr_start C).
    eapply instR_ctl; [|apply cr_set_time, cr_set_nSteps, C]. eapply instR_ctl; [exact R|].
    apply cr_set_nSteps, C.
  Qed.

  Lemma or_doFixedStep E i j : instR E True i j ->
    orel P (apost E True eq) (doFixedStep m env i) (doFixedStep m env j).
  Proof.
    intro R. unfold doFixedStep. eapply orel_bind; [apply (or_fixedStep_x R)|].
    clear i j R. intros s ? i j [<- R]. destruct s; try (apply orel_ret; split; auto).
    eapply orel_bind; [apply (or_fixedStep_time R)|].
    clear i j R. intros [] ? i j [<- R].
    eapply orel_bind; [apply (or_fixedStep_z R)|].
    clear i j R. intros [s ev] ? i j [<- R]. destruct s; try (apply orel_ret; split; auto).
    apply or_getC. apply or_getM. pose proof (ir_ctl R) as C. pose proof (ir_mut R) as M.
    rewrite (cr_iu C), (cr_time C), (mr_ned M), (mr_net M).
    apply (@orel_bind _ _ P _ _ _ _ _ _ (apost E True eq)).
    - destruct (hasIntermediateUpdate (ctl i)).
      + cbn. split; [split; auto|apply traceR_refl].
      + apply orel_ret. split; auto.
    - intros x y i' j' [-> R']. apply orel_ret. split; auto.
  Qed.

  (** Restoring related states into related instances. *)
  Lemma copyn_length n (a b c : list F) : copyn n a b = Some c -> length c = length b.
  Proof.
    unfold copyn. destruct (Nat.leb_spec n (length a)); [|discriminate].
    destruct (Nat.leb_spec n (length b)); [|discriminate]. cbn. intro H1; inversion H1; subst.
    rewrite app_length, firstn_length, skipn_length. lia.
  Qed.
  Lemma copyn_some n (a b : list F) : n <= length a -> n <= length b ->
    copyn n a b = Some (firstn n a ++ skipn n b).
  Proof.
    intros A B. unfold copyn. apply Nat.leb_le in A, B. now rewrite A, B.
  Qed.
  Lemma or_restore E S E' S' s s' i j : instR E S s s' -> instR E' S' i j ->
    orel P (apost E S eq) (setFMUState m env (Some s) i) (setFMUState m env (Some s') j).
  Proof.
    intros [C M O] [C' M' O']. unfold setFMUState, restoreSol.
    destruct O as [(Z1 & Z2 & Z3 & X1 & X2 & X3) (Z1' & Z2' & Z3' & X1' & X2' & X3') Nz Nx Pz].
    destruct O' as [(A1 & A2 & A3 & A4 & A5 & A6) (B1 & B2 & B3 & B4 & B5 & B6) _ _ _].
    rewrite !copyn_some by lia. cbn. split; [|apply traceR_refl]. split; [reflexivity|].
    constructor; cbn.
    - destruct C, C'. constructor; cbn; auto.
    - destruct M. constructor; cbn; auto.
    - constructor; cbn; auto.
      + repeat split; cbn; try lia; rewrite app_length, firstn_length, skipn_length; lia.
      + repeat split; cbn; try lia; rewrite app_length, firstn_length, skipn_length; lia.
      + intro H. rewrite (Nz H), !firstn_app, !firstn_firstn, !firstn_length, Nat.min_id.
        rewrite (Pz H). replace (min (nz (sol s)) (length (prez (sol s')))) with (nz (sol s)) by lia.
        replace (min (nz (sol s)) (length (prez (sol s)))) with (nz (sol s)) by lia.
        rewrite Nat.sub_diag. reflexivity.
  Qed.
End Core.
