(** Sim2.v -- the functions of the FMI 2 interface keep the relation of Sim.v. *)
From Coq Require Import List NArith ZArith Bool Arith Lia.
From Verif Require Import Base Instance ModelIface Core Fmi3 Fmi2 Logic Calls Sim Sim3.
Import ListNotations.
Set Implicit Arguments.

Section Api2.
  Context {F : Type} {NF : Num F} (m : Model F) (P : Rel (md m)) (env : Env).
  Notation D := (md m).
  Hypothesis L : SimLaws m P.
  Hypothesis He : r_env P env.
  Hypothesis NX : r_cross P = false.
  Notation same := (same m P).

  Lemma same2_allowed E S mask : same E S (allowedState2 m env mask).
  Proof.
    unfold allowedState2. apply same_getC. intros i j R. rewrite (same_mode NX R).
    destruct (N.eqb _ 0); [|apply (same_ret _ R)].
    assert (H : same E S (logError m env ;;; ret false)%sw).
    { apply same_bind; [apply same_logError|intros; apply same_ret]. }
    now apply H.
  Qed.
  Lemma same2_BEGIN X E S mask (x : X) k : same E S k -> same E S (BEGIN2 m env mask x k).
  Proof.
    intro H. unfold BEGIN2. apply same_bind; [apply same2_allowed|]. intros [|]; [exact H|].
    apply same_CALLk. intros; exact H.
  Qed.
  Lemma BEGIN2_refused X mask (x : X) k (a : Inst F D) : N.land (bit2 (mode (ctl a))) mask = 0%N ->
    BEGIN2 m env mask x k a = Done ((Error, x), set_ctl (set_mode Terminated (ctl a)) a, message m a).
  Proof.
    intro Ha. unfold BEGIN2, allowedState2. unfold bind at 1. rewrite bind_getC, Ha. cbn [N.eqb].
    rewrite bind_logError. cbn. now rewrite !app_nil_r.
  Qed.
  Lemma or_BEGIN2 X (Q : Status * X -> Status * X -> Inst F D -> Inst F D -> Prop) E S mask (x : X) k i j : instR m P E S i j ->
    (forall i' j', instR m P E S i' j' -> Q (Error, x) (Error, x) i' j') ->
    (N.land (bit2 (mode (ctl i))) mask <> 0%N -> orel P Q (k i) (k j)) ->
    orel P Q (BEGIN2 m env mask x k i) (BEGIN2 m env mask x k j).
  Proof.
    intros R T H. destruct (N.eqb_spec (N.land (bit2 (mode (ctl i))) mask) 0) as [Z|Z].
    - rewrite !BEGIN2_refused; [|rewrite (same_mode NX R); exact Z|exact Z].
      eapply orel_conseq; [apply (or_refused env x R)|]. intros r r' i' j' (-> & -> & Q'). now apply T.
    - rewrite !BEGIN2_pass; [now apply H|rewrite (same_mode NX R); exact Z|exact Z].
  Qed.

  Lemma same2_Get E S t vrs nvr values : same E S (fmi2GetV m env t vrs nvr values).
  Proof.
    unfold fmi2GetV. apply same2_BEGIN. destruct (Nat.eqb nvr 0); [apply same_ret|]. apply same_NULL, same_NULL.
    apply same_refresh; auto. intro st. apply same_bind; [now apply same_get_loop|].
    intros [[st' values'] index]. apply same_ret.
  Qed.
  Lemma same2_Set E S t vrs nvr values : same E S (fmi2SetV m env t vrs nvr values).
  Proof.
    unfold fmi2SetV. apply same2_BEGIN. destruct (Nat.eqb nvr 0); [apply same_ret|]. apply same_NULL, same_NULL.
    apply same_bind; [now apply same_set_loop|]. intros [st index]. destruct (stops st); [apply same_ret|].
    apply same_bind; [apply same_dirty|]. intros _. apply same_ret.
  Qed.
  Lemma same2_getBoolean_loop E S vrs nvr n : forall k values st, same E S (getBoolean_loop m env vrs n k nvr values st).
  Proof.
    induction n as [|n IH]; intros; cbn [getBoolean_loop]; [apply same_ret|].
    apply same_bind; [apply same_rd|]. intro vr.
    apply same_bind; [apply same_call; auto; apply (sl_get L)|]. intros [[s v] idx].
    apply same_CALLk. intro st'. apply same_bind; [apply same_rd|]. intro b.
    apply same_bind; [apply same_wr|]. intro values'. apply IH.
  Qed.
  Lemma same2_setBoolean_loop E S vrs nvr n : forall k values st, same E S (setBoolean_loop m env vrs n k nvr values st).
  Proof.
    induction n as [|n IH]; intros; cbn [setBoolean_loop]; [apply same_ret|].
    apply same_bind; [apply same_rd|]. intro v. apply same_bind; [apply same_rd|]. intro vr.
    apply same_bind; [apply same_call; auto; apply (sl_set L)|]. intros r.
    apply same_CALLk. intro st'. apply IH.
  Qed.
  Lemma same2_mod1 X E S mask (x : X) s : same E S (BEGIN2 m env mask x (setMode m s ;;; ret (OK, x))%sw).
  Proof. apply same2_BEGIN. apply same_bind; [apply same_setMode|intros; apply same_ret]. Qed.
  Lemma same2_Reset E S : same E S (fmi2Reset m env).
  Proof.
    unfold fmi2Reset. apply same2_BEGIN. apply same_bind; [now apply same_reset|]. intro s.
    apply same_CALLk. intros; apply same_ret.
  Qed.
  Lemma same2_SetDebugLogging E S b n c : same E S (fmi2SetDebugLogging m env b n c).
  Proof.
    unfold fmi2SetDebugLogging. apply same2_BEGIN. apply same_bind; [now apply same_setDebug|]. intro s.
    apply same_CALLk. intros; apply same_ret.
  Qed.
  Lemma same2_Directional E S u nu k nk s d : same E S (fmi2GetDirectionalDerivative m env u nu k nk s d).
  Proof.
    unfold fmi2GetDirectionalDerivative. apply same2_BEGIN. apply same_deriv_rows; auto. intros; apply (sl_partial L).
  Qed.
  Lemma same2_err X E S mask (x : X) :
    same E S (BEGIN2 m env mask x (logError m env ;;; CALLk m OK Error x (fun st => ret (st, x)))%sw).
  Proof.
    apply same2_BEGIN. apply same_bind; [apply same_logError|]. intros _. apply same_CALLk. intros; apply same_ret.
  Qed.
  Lemma same2_OutputDerivatives E S vrs n o v : same E S (fmi2GetRealOutputDerivatives m env vrs n o v).
  Proof.
    unfold fmi2GetRealOutputDerivatives. apply same2_BEGIN. destruct (m_outputDerivative m).
    - now apply same_outputDerivative_loop.
    - apply same_bind; [apply same_logError|]. intros _. apply same_CALLk. intros; apply same_ret.
  Qed.
  Lemma same2_getStatus E S k : same E S (getStatus m env k).
  Proof. unfold getStatus. apply same_bind; [apply same_logError|intros; apply same_ret]. Qed.
  Lemma same2_GetStatus E S k : same E S (fmi2GetStatus m env k).
  Proof.
    unfold fmi2GetStatus. apply same2_BEGIN. apply same_bind; [apply same2_getStatus|]. intro s.
    apply same_CALLk. intros; apply same_ret.
  Qed.
  Lemma same2_GetRealStatus E S k p : same E S (fmi2GetRealStatus m env k p).
  Proof.
    unfold fmi2GetRealStatus. apply same2_BEGIN.
    assert (K : same E S (let* s := getStatus m env k in CALLk m OK s None (fun st => ret (st, None (A := F))))%sw).
    { apply same_bind; [apply same2_getStatus|]. intro s. apply same_CALLk. intros; apply same_ret. }
    destruct k; try exact K. apply same_getC. intros i j R. rewrite (cr_time (ir_ctl R)).
    destruct p; [apply (same_ret _ R)|exact I].
  Qed.
  Lemma same2_GetBooleanStatus E S k p : same E S (fmi2GetBooleanStatus m env k p).
  Proof.
    unfold fmi2GetBooleanStatus. apply same2_BEGIN.
    assert (K : same E S (let* s := getStatus m env k in CALLk m OK s None (fun st => ret (st, None (A := bool))))%sw).
    { apply same_bind; [apply same2_getStatus|]. intro s. apply same_CALLk. intros; apply same_ret. }
    destruct k; try exact K. apply same_getM. intros i j R. rewrite (mr_term (ir_mut R)).
    destruct p; [apply (same_ret _ R)|exact I].
  Qed.
  Lemma same2_New E S p : same E S (fmi2NewDiscreteStates m env p).
  Proof.
    unfold fmi2NewDiscreteStates. apply same2_BEGIN. cbv zeta.
    set (kk := fun st => (let* u := getM m in
        if p then ret (st, Some (mkEventInfo (newDiscreteStatesNeeded u) (terminateSimulation u)
            (nominalsChanged u) (valuesChanged u) (nextEventTimeDefined u) (nextEventTime u))) else ubM)%sw).
    assert (K : forall i j (st : Status), instR m P E S i j -> valuesChanged (mut j) = valuesChanged (mut i) ->
      orel P (apost m P E S eq) (kk st i) (kk st j)).
    { intros i j st R V. unfold kk. apply or_getM. pose proof (ir_mut R) as M.
      rewrite (mr_new M), (mr_term M), (mr_nom M), V, (mr_ned M), (mr_net M). destruct p; [apply (same_ret _ R)|exact I]. }
    destruct (m_eventUpdate m) eqn:EU.
    - intros i j R.
      apply (@orel_bind _ _ P _ _ _ _ _ _ (fun x y i j => x = y /\ instR m P E S i j /\ valuesChanged (mut j) = valuesChanged (mut i))).
      + unfold call. assert (C' : ctlR P False (ctl i) (ctl j)) by (eapply ctlR_weaken; [|apply R]; tauto).
        pose proof (sl_event L EU env He C' (ir_mut R)) as H. unfold orel in H |- *.
        destruct (m_eventUpdateF m env (ctl i) (mut i)) as [[[x u] t]| |],
                 (m_eventUpdateF m env (ctl j) (mut j)) as [[[y u'] t']| |]; auto.
        destruct H as [(A & B & V) T]. split; [|exact T]. split; [exact A|]. cbn. split; [|exact V].
        constructor; cbn; auto; apply R.
      + clear i j R. intros x ? i j (<- & R & V).
        apply (@orel_bind _ _ P _ _ _ _ _ _ (fun st st' i j => st = st' /\ instR m P E S i j /\
             (stops st = false -> valuesChanged (mut j) = valuesChanged (mut i)))).
        * unfold CALL. destruct (smax OK x) eqn:Sx; try (match goal with |- orel _ _ (ret _ _) _ => apply orel_ret; auto end);
          (eapply or_setMode; [exact R|]; intros i' j' R'; apply orel_ret; split; [reflexivity|split; [exact R'|discriminate]]).
        * clear i j R V. intros st ? i j (<- & R & V). destruct (stops st) eqn:St; [apply (same_ret _ R)|].
          apply K; auto.
    - intros i j R. apply K; [exact R|]. apply (mr_vals (ir_mut R)). apply (sl_noevent L EU).
  Qed.
  Lemma same2_null T E S (p : option T) : same E S (nullPointer m env p).
  Proof. intros i j R. now apply or_nullPointer. Qed.
  Lemma same2_Completed E S p1 p2 : same E S (fmi2CompletedIntegratorStep m env p1 p2).
  Proof.
    unfold fmi2CompletedIntegratorStep. apply same2_BEGIN.
    apply same_bind; [apply same2_null|]. intros [|]; [apply same_CALLk; intros; apply same_ret|].
    apply same_bind; [apply same2_null|]. intros [|]; [apply same_CALLk; intros; apply same_ret|]. apply same_ret.
  Qed.
  Lemma same2_SetTime E S t : same E S (fmi2SetTime m env t).
  Proof.
    unfold fmi2SetTime. apply same2_BEGIN. apply same_bind; [|intros; apply same_ret].
    intros i j R. unfold modC, modS. cbn. split; [|apply traceR_refl]. split; [reflexivity|].
    eapply instR_ctl; [exact R|]. apply cr_set_time, R.
  Qed.
  Lemma same2_SetStates E S x n : same E S (fmi2SetContinuousStates m env x n).
  Proof.
    unfold fmi2SetContinuousStates. apply same2_BEGIN. apply same_bind; [apply same_call; auto; apply (sl_setStates L)|].
    intro s. apply same_CALLk. intros; apply same_ret.
  Qed.
  Lemma same2_GetArray E S mask f x n : msim P eq (f x n) (f x n) -> same E S (fmi2GetArray m env mask f x n).
  Proof.
    intro H. unfold fmi2GetArray. apply same2_BEGIN. apply same_bind; [now apply same_call|].
    intro s. apply same_CALLk. intros; apply same_ret.
  Qed.

  Lemma same2_doStep_loop fuel : forall ncp st, same True True (doStep2_loop m env fuel ncp st).
  Proof.
    induction fuel as [|fuel IH]; intros ncp st; cbn [doStep2_loop]; [apply same_nofuel|].
    apply same_getC. intros i j R. pose proof (ir_ctl R) as C.
    assert (Hp : pointReached m ncp (ctl j) = pointReached m ncp (ctl i)).
    { unfold pointReached. now rewrite (cr_time C). }
    rewrite Hp. clear C Hp.
    generalize (pointReached m ncp (ctl i)) as reached.
    intros reached. revert i j R.
    match goal with |- forall i j, instR _ _ _ _ i j -> orel _ _ (?f i) (?g j) => change (same True True f) end.
    destruct reached; [apply same_ret|].
    apply same_bind; [now apply same_doFixedStep|]. intros [[s se] te].
    apply same_bind; [apply same_CALL|]. intro st1. destruct (stops st1); [apply same_ret|].
    assert (Rest : forall st2, same True True (let* u := getM m in
              if terminateSimulation u then ret (Discard, false) else doStep2_loop m env fuel ncp st2)%sw).
    { intros st2. apply same_getM. intros i j R. rewrite (mr_term (ir_mut R)).
      destruct (terminateSimulation (mut i)); [apply (same_ret _ R)|now apply IH]. }
    destruct (m_eventUpdate m) eqn:EU; [|apply Rest].
    destruct (match se with Some true => Some true | Some false => te | None => None end) as [[|]|];
      [|apply Rest|apply same_ub].
    apply same_bind; [apply same_call; auto; apply (msim_event L EU)|]. intro s2.
    apply same_bind; [apply same_CALL|]. intro st2. destruct (stops st2); [apply same_ret|apply Rest].
  Qed.
  Lemma same2_doStep_body fuel ccp h : same True True (fmi2DoStep m env fuel ccp h).
  Proof.
    unfold fmi2DoStep. cbv zeta. apply same2_BEGIN. apply same_getC. intros i j R. pose proof (ir_ctl R) as C.
    rewrite (cr_ncp C I), (cr_stop C I). clear C.
    assert (Er : same True True (logError m env ;;; CALLk m OK Error tt (fun st => ret (st, tt)))%sw).
    { apply same_bind; [apply same_logError|]. intros _. apply same_CALLk. intros; apply same_ret. }
    assert (Er' : same True True (logError m env ;;; setMode m Terminated ;;; CALLk m OK Error tt (fun st => ret (st, tt)))%sw).
    { apply same_bind; [apply same_logError|]. intros _. apply same_bind; [apply same_setMode|]. intros _.
      apply same_CALLk. intros; apply same_ret. }
    destruct (negb (isClose ccp _)); [now apply Er'|]. destruct (nle h nzero); [now apply Er|].
    destruct (nlt _ _ && _); [now apply Er|].
    revert i j R. match goal with |- forall i j, instR _ _ _ _ i j -> orel _ _ (?f i) (?g j) => change (same True True f) end.
    apply same_bind; [now apply same2_doStep_loop|]. intros [st fin].
    destruct fin; [|apply same_ret]. intros i j R. apply or_modC. apply orel_ret. split; [reflexivity|].
    eapply instR_ctl; [exact R|]. apply cr_set_ncp, R.
  Qed.
  Lemma or2_DoStep E S fuel ccp h i j : instR m P E S i j ->
    (mode (ctl i) = StepComplete -> E /\ S) ->
    orel P (apost m P E S eq) (fmi2DoStep m env fuel ccp h i) (fmi2DoStep m env fuel ccp h j).
  Proof.
    intros R H. unfold fmi2DoStep at 1 2. cbv zeta. eapply or_BEGIN2; [exact R|split; auto|]. intro B.
    assert (M : mode (ctl i) = StepComplete). { destruct (mode (ctl i)); try (exfalso; apply B; reflexivity); reflexivity. }
    destruct (H M) as [HE HS].
    assert (R' : instR m P True True i j) by (eapply instR_weaken; [| |exact R]; auto).
    pose proof (same2_doStep_body fuel ccp h R') as K.
    unfold fmi2DoStep in K. cbv zeta in K. rewrite !BEGIN2_pass in K; [|rewrite (same_mode NX R); exact B|exact B].
    eapply orel_conseq; [exact K|]. intros x y i' j' [A Q]. split; [exact A|]. eapply instR_weaken; [| |exact Q]; auto.
  Qed.
  Lemma or2_Setup E S a b c i j : instR m P E S i j ->
    orel P (fun r r' i' j' => r = r' /\ instR m P E S i' j' /\ (fst r = OK -> instR m P True S i' j'))
      (fmi2SetupExperiment m env a b c i) (fmi2SetupExperiment m env a b c j).
  Proof.
    intros R. unfold fmi2SetupExperiment. eapply or_BEGIN2; [exact R| |].
    - intros i' j' Q. split; [reflexivity|]. split; [exact Q|discriminate].
    - intros _. do 4 apply or_modC. apply orel_ret. split; [reflexivity|].
      assert (Q : instR m P True S
         (set_ctl (set_nextCommunicationPoint a (set_time a (set_stopTime (if b then c else ninf) (set_startTime a (ctl i))))) i)
         (set_ctl (set_nextCommunicationPoint a (set_time a (set_stopTime (if b then c else ninf) (set_startTime a (ctl j))))) j)).
      { eapply instR_ctl; [exact R|]. destruct (ir_ctl R). constructor; cbn; auto. }
      split; [|intros _; exact Q]. eapply instR_weaken; [| |exact Q]; auto.
  Qed.
  Lemma modeAfterInit2_eq E c c' : ctlR (F := F) P E c c' -> modeAfterInit2 c' = modeAfterInit2 c.
  Proof. intro C. unfold modeAfterInit2. now rewrite (cr_itype C). Qed.
  Lemma or2_ExitInit E S i j : instR m P E S i j ->
    orel P (upg m P E S) (fmi2ExitInitializationMode m env i) (fmi2ExitInitializationMode m env j).
  Proof.
    intro R. unfold fmi2ExitInitializationMode. eapply or_BEGIN2; [exact R| |].
    { intros i' j' Q. split; [reflexivity|]. split; [exact Q|discriminate]. }
    intros _.
    eapply or_refreshQ; [exact L|exact He|exact R| |].
    - clear i j R. intros st i j R. apply or_modC. apply or_configured; auto.
      eapply instR_ctl; [exact R|]. rewrite (modeAfterInit2_eq (ir_ctl R)).
      apply cr_set_mode; [apply R|apply modeR_refl].
    - intros st i' j' R' St. split; [reflexivity|]. split; [exact R'|].
      cbn. intros ->. discriminate.
  Qed.
End Api2.
