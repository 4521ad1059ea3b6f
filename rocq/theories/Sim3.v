(** Sim3.v -- the functions of the FMI 3 interface keep the relation of Sim.v. *)
From Coq Require Import List NArith ZArith Bool Arith Lia.
From Verif Require Import Base Instance ModelIface Core Fmi3 Logic Calls Sim.
Import ListNotations.
Set Implicit Arguments.

Section Same.
  Context {F : Type} {NF : Num F} (m : Model F) (P : Rel (md m)) (env : Env).
  Notation D := (md m).
  Hypothesis L : SimLaws m P.
  Hypothesis He : r_env P env.

  (** [f] gives equal results in related instances. *)
  Definition same {X} (E S : Prop) (f : AF F D X) : Prop :=
    forall i j, instR m P E S i j -> orel P (apost m P E S eq) (f i) (f j).

  Lemma same_ret X E S (x : X) : same E S (ret x).
  Proof. intros i j R. apply orel_ret. split; auto. Qed.
  Lemma same_bind X Y E S (f : AF F D X) (k : X -> AF F D Y) :
    same E S f -> (forall x, same E S (k x)) -> same E S (bind f k).
  Proof.
    intros H K i j R. eapply orel_bind; [apply (H _ _ R)|]. intros x ? i' j' [<- R']. now apply K.
  Qed.
  Lemma same_ub X E S : same E S (ubM : AF F D X).
  Proof. intros i j R. exact I. Qed.
  Lemma same_nofuel X E S : same E S (nofuelM : AF F D X).
  Proof. intros i j R. exact I. Qed.
  Lemma same_rd T E S (b : Buf T) k : same E S (rd b k).
  Proof.
    intros i j R. unfold rd. destruct b as [l|]; [destruct (nth_error l k)|]; try exact I.
    apply orel_ret. split; auto.
  Qed.
  Lemma same_wr T E S (b : Buf T) k v : same E S (wr b k v).
  Proof.
    intros i j R. unfold wr. destruct b as [l|]; [destruct (Nat.ltb k (length l))|]; try exact I.
    apply orel_ret. split; auto.
  Qed.
  Lemma same_call X E S (f : MF F D X) : msim P eq f f -> same E S (call m env f).
  Proof.
    intros H i j R. pose proof (ir_ctl R) as C. pose proof (ir_mut R) as M.
    unfold call. specialize (H env _ _ _ _ He (ctlR_weaken (fun H : False => match H with end) C) M).
    unfold orel in H |- *.
    destruct (f env (ctl i) (mut i)) as [[[x u] t]| |], (f env (ctl j) (mut j)) as [[[y u'] t']| |]; auto.
    destruct H as [[A B] T]. split; [split; [exact A|]|exact T]. constructor; cbn; auto. apply R.
  Qed.
  Lemma same_logError E S : same E S (logError m env).
  Proof. intros i j R. now apply or_logE. Qed.
  Lemma same_setMode E S s : same E S (setMode m s).
  Proof.
    intros i j R. unfold setMode, modC, modS. cbn. split; [|apply traceR_refl]. split; [reflexivity|].
    eapply instR_ctl; [exact R|]. apply cr_set_mode; [apply R|apply modeR_refl].
  Qed.
  Lemma same_dirty E S b : same E S (modM m (set_dirty b)).
  Proof.
    intros i j R. unfold modM, modS. cbn. split; [|apply traceR_refl]. split; [reflexivity|].
    eapply instR_mut; [exact R|]. apply mr_set_dirty, R.
  Qed.
  Lemma same_CALL E S st s : same E S (CALL m st s).
  Proof.
    unfold CALL. destruct (smax st s); try apply same_ret;
      (apply same_bind; [apply same_setMode|intros; apply same_ret]).
  Qed.
  Lemma same_CALLk X E S st s (x : X) k : (forall st', same E S (k st')) -> same E S (CALLk m st s x k).
  Proof.
    intro H. unfold CALLk. apply same_bind; [apply same_CALL|]. intro st'.
    destruct (stops st'); [apply same_ret|apply H].
  Qed.
  Lemma same_NULL T X E S (p : option T) (x : X) k : same E S k -> same E S (ASSERT_NOT_NULL m env p x k).
  Proof.
    intro H. unfold ASSERT_NOT_NULL. destruct p; [exact H|].
    apply same_bind; [apply same_logError|intros]. apply same_bind; [apply same_setMode|intros; apply same_ret].
  Qed.
  Lemma same_NOT_IMPLEMENTED E S : same E S (NOT_IMPLEMENTED m env).
  Proof. unfold NOT_IMPLEMENTED. apply same_bind; [apply same_logError|intros; apply same_ret]. Qed.

  (** Recomputing dependent variables: one side may be up to date already. *)
  Lemma refresh_ok X (x : X) k (i : Inst F D) v :
    dirty (mut i) = true -> m_calculateValues m env (ctl i) (mut i) = Done (OK, v, []) ->
    refresh m env OK x k i = k OK (set_mut (set_dirty false v) i).
  Proof.
    intros Di Ev. unfold refresh. rewrite bind_getM, Di. unfold bind at 1. unfold call. rewrite Ev.
    unfold CALLk, CALL. cbn [smax]. unfold bind, ret, modM, modS. cbn.
    destruct (k OK _) as [[[? ?] ?]| |]; reflexivity.
  Qed.
  Lemma refresh_clean X st (x : X) k (i : Inst F D) : dirty (mut i) = false -> refresh m env st x k i = k st i.
  Proof. intros Di. unfold refresh. now rewrite bind_getM, Di. Qed.
  Lemma or_refresh X E S (x : X) k i j : (forall st', same E S (k st')) -> instR m P E S i j ->
    orel P (apost m P E S eq) (refresh m env OK x k i) (refresh m env OK x k j).
  Proof.
    intros K R.
    assert (C' : ctlR P False (ctl i) (ctl j)) by (eapply ctlR_weaken; [|apply R]; tauto).
    destruct (dirty (mut i)) eqn:Di, (dirty (mut j)) eqn:Dj.
    - unfold refresh. apply or_getM. rewrite Di, Dj.
      assert (H : same E S (let* s := call m env (m_calculateValues m) in
                           CALLk m OK s x (fun st' => modM m (set_dirty false) ;;; k st'))%sw).
      { apply same_bind; [apply same_call, (sl_calc L)|]. intro s. apply same_CALLk. intro st'.
        apply same_bind; [apply same_dirty|]. intros; apply K. }
      now apply H.
    - destruct (sl_refreshL L env He C' (ir_mut R) Di Dj) as (v & Ev & M).
      rewrite (refresh_ok x k i Di Ev), refresh_clean by auto. apply K.
      constructor; cbn; try apply R. exact M.
    - destruct (sl_refreshR L env He C' (ir_mut R) Di Dj) as (v & Ev & M).
      rewrite (refresh_ok x k j Dj Ev), refresh_clean by auto. apply K.
      constructor; cbn; try apply R. exact M.
    - rewrite !refresh_clean by auto. now apply K.
  Qed.
  Lemma same_refresh X E S (x : X) k : (forall st', same E S (k st')) -> same E S (refresh m env OK x k).
  Proof. intros K i j R. now apply or_refresh. Qed.

  Lemma msim_event : m_eventUpdate m = true -> msim P eq (m_eventUpdateF m) (m_eventUpdateF m).
  Proof.
    intros H e c c' u u' E C M. eapply orel_conseq; [apply (sl_event L H e E C M)|].
    intros x y v v' (A & B & _). split; auto.
  Qed.

  (** ** Loops over value references *)
  Lemma same_get_loop E S t n : forall vrs values nv index st, same E S (get_loop m env t vrs n values nv index st).
  Proof.
    induction n as [|n IH]; intros; cbn [get_loop]; [apply same_ret|].
    destruct vrs as [|vr vrs]; [apply same_ub|].
    apply same_bind; [apply same_call, (sl_get L)|]. intros [[s values'] index'].
    apply same_bind; [apply same_CALL|]. intro st'. destruct (stops st'); [apply same_ret|apply IH].
  Qed.
  Lemma same_set_loop E S t n : forall vrs values nv index st, same E S (set_loop m env t vrs n values nv index st).
  Proof.
    induction n as [|n IH]; intros; cbn [set_loop]; [apply same_ret|].
    destruct vrs as [|vr vrs]; [apply same_ub|].
    apply same_bind; [apply same_call, (sl_set L)|]. intros [s index'].
    apply same_bind; [apply same_CALL|]. intro st'. destruct (stops st'); [apply same_ret|apply IH].
  Qed.
  Lemma same_getBinary_loop E S n : forall vrs sizes values nv index st,
    same E S (getBinary_loop m env vrs n sizes values nv index st).
  Proof.
    induction n as [|n IH]; intros; cbn [getBinary_loop]; [apply same_ret|].
    destruct vrs as [|vr vrs]; [apply same_ub|].
    apply same_bind; [apply same_call, (sl_getBinary L)|]. intros [[[s sizes'] values'] index'].
    apply same_CALLk. intro st'. apply IH.
  Qed.
  Lemma same_setBinary_loop E S n : forall vrs sizes values nv index st,
    same E S (setBinary_loop m env vrs n sizes values nv index st).
  Proof.
    induction n as [|n IH]; intros; cbn [setBinary_loop]; [apply same_ret|].
    destruct vrs as [|vr vrs]; [apply same_ub|].
    apply same_bind; [apply same_call, (sl_setBinary L)|]. intros [s index'].
    apply same_bind; [apply same_CALL|]. intro st'. destruct (stops st'); [apply same_ret|apply IH].
  Qed.
  Lemma same_getClock_loop E S vrs n : forall k values st, same E S (getClock_loop m env vrs n k values st).
  Proof.
    induction n as [|n IH]; intros; cbn [getClock_loop]; [apply same_ret|].
    apply same_bind; [apply same_rd|]. intro vr.
    apply same_bind; [apply same_call, (sl_getClock L)|]. intros [s v].
    apply same_bind; [destruct v; [apply same_wr|apply same_ret]|]. intro values'.
    apply same_CALLk. intro st'. apply IH.
  Qed.
  Lemma same_setClock_loop E S vrs n : forall k values st, same E S (setClock_loop m env vrs n k values st).
  Proof.
    induction n as [|n IH]; intros; cbn [setClock_loop]; [apply same_ret|].
    apply same_bind; [apply same_rd|]. intros [|]; [|apply IH].
    apply same_bind; [apply same_rd|]. intro vr.
    apply same_bind; [apply same_call, (sl_activateClock L)|]. intro s.
    apply same_CALLk. intro st'. apply IH.
  Qed.
  Lemma same_deriv_row E S pd others n : (forall a, msim P eq (pd a) (pd a)) ->
    forall k seed acc st, same E S (deriv_row m env pd others n k seed acc st).
  Proof.
    intro H. induction n as [|n IH]; intros; cbn [deriv_row]; [apply same_ret|].
    apply same_bind; [apply same_rd|]. intro o.
    apply same_bind; [apply same_call, H|]. intros [s v].
    apply same_bind; [apply same_CALL|]. intro st'. destruct (stops st'); [apply same_ret|].
    apply same_bind; [apply same_rd|]. intro w. apply IH.
  Qed.
  Lemma same_deriv_rows E S pd rows n others no : (forall a b, msim P eq (pd a b) (pd a b)) ->
    forall k seed sens st, same E S (deriv_rows m env pd rows n k others no seed sens st).
  Proof.
    intro H. induction n as [|n IH]; intros; cbn [deriv_rows]; [apply same_ret|].
    apply same_bind; [apply same_wr|]. intro sens'. destruct (Nat.eqb no 0); [apply IH|].
    apply same_bind; [apply same_rd|]. intro r.
    apply same_bind; [apply same_deriv_row; auto|]. intros [st' acc].
    apply same_bind; [apply same_wr|]. intro sens2. destruct (stops st'); [apply same_ret|apply IH].
  Qed.
  Lemma same_interval_loop E S vrs n : forall k iv q st, same E S (interval_loop m env vrs n k iv q st).
  Proof.
    induction n as [|n IH]; intros; cbn [interval_loop]; [apply same_ret|].
    apply same_bind; [apply same_rd|]. intro vr.
    apply same_bind; [apply same_call, (sl_getInterval L)|]. intros [[s v] w].
    apply same_bind; [destruct v; [apply same_wr|apply same_ret]|]. intro iv'.
    apply same_bind; [destruct w; [apply same_wr|apply same_ret]|]. intro q'.
    apply same_CALLk. intro st'. apply IH.
  Qed.
  Lemma same_outputDerivative_loop E S vrs n : forall k orders values st,
    same E S (outputDerivative_loop m env vrs n k orders values st).
  Proof.
    induction n as [|n IH]; intros; cbn [outputDerivative_loop]; [apply same_ret|].
    apply same_bind; [apply same_rd|]. intro vr.
    apply same_bind; [apply same_rd|]. intro o.
    destruct (isNull values && negb (Nat.eqb k 0)); [apply same_ub|].
    apply same_bind; [apply same_call, (sl_outDeriv L)|]. intros [s v].
    apply same_bind; [destruct v; [apply same_wr|apply same_ret]|]. intro values'.
    apply same_CALLk. intro st'. apply IH.
  Qed.

  Lemma same_configurate E : same E True (configurate m env).
  Proof.
    intros i j R. eapply orel_conseq; [apply (or_configurate env L He R)|].
    intros s s' i' j' (-> & -> & R'). split; auto.
  Qed.
  Lemma same_reset E S : same E S (reset m env).
  Proof. intros i j R. now apply or_reset. Qed.
  Lemma same_setDebug E S b n cats : same E S (setDebugLogging m env b n cats).
  Proof. intros i j R. now apply or_setDebug. Qed.
  Lemma same_doFixedStep E : same E True (doFixedStep m env).
  Proof. intros i j R. now apply or_doFixedStep. Qed.

  Lemma same_getC X E S (k : Ctl F -> AF F D X) :
    (forall i j, instR m P E S i j -> orel P (apost m P E S eq) (k (ctl i) i) (k (ctl j) j)) ->
    same E S (bind (getC m) k).
  Proof. intros H i j R. apply or_getC. now apply H. Qed.
  Lemma same_getM X E S (k : Mut F D -> AF F D X) :
    (forall i j, instR m P E S i j -> orel P (apost m P E S eq) (k (mut i) i) (k (mut j) j)) ->
    same E S (bind (getM m) k).
  Proof. intros H i j R. apply or_getM. now apply H. Qed.

  Lemma same_prez E X (k : Status -> AF F D X) :
    (forall st, same E True (k st)) ->
    same E True (let* o := getSol m in
                 let* r := call m env (m_getEventIndicators m (Some (prez o)) (nz o)) in
                 match snd r with None => ubM | Some p => modSol m (set_prez p) end ;;; k (fst r))%sw.
  Proof.
    intros K i j R. apply or_getSol.
    pose proof (ir_sol R) as [(Z1 & Z2 & Z3 & X1 & X2 & X3) (Z1' & Z2' & Z3' & X1' & X2' & X3') Nz Nx Pz].
    rewrite (Nz I). eapply or_callb; [exact He|apply (sl_bindicators L); congruence|exact R|].
    intros st x y u u' R1 Lx Ly Eq. cbn [snd fst]. apply or_modSol. apply K.
    eapply instR_sol; [exact R1|]. constructor; cbn; auto.
    - repeat split; cbn; lia.
    - repeat split; cbn; lia.
    - intros _. symmetry. apply Eq. right. symmetry. now apply Pz.
  Qed.

  Lemma same_doStep_loop fuel : forall ncp ehn st, same True True (doStep_loop m env fuel ncp ehn st).
  Proof.
    induction fuel as [|fuel IH]; intros ncp ehn st; cbn [doStep_loop]; [apply same_nofuel|].
    apply same_getC. intros i j R. pose proof (ir_ctl R) as C.
    assert (Hp : pointReached m ncp (ctl j) = pointReached m ncp (ctl i)).
    { unfold pointReached. now rewrite (cr_time C). }
    rewrite Hp, (cr_early C), (cr_event C). clear C Hp.
    generalize (pointReached m ncp (ctl i)) as reached, (earlyReturnAllowed (ctl i)) as er, (eventModeUsed (ctl i)) as ev.
    intros reached er ev. revert i j R.
    match goal with |- forall i j, instR _ _ _ _ i j -> orel _ _ (?f i) (?g j) => change (same True True f) end.
    destruct (reached || ehn && er); [apply same_ret|].
    apply same_bind.
    { destruct (m_eventUpdate m) eqn:EU; [|apply same_ret]. destruct ehn; cbn [andb]; [|apply same_ret].
      apply same_bind; [apply same_call, (msim_event EU)|]. intro; apply same_ret. }
    intro ehn1. apply same_bind; [apply same_doFixedStep|]. intros [[s se] te].
    apply same_bind; [apply same_CALL|]. intro st1. destruct (stops st1); [apply same_ret|].
    assert (Rest : forall e2 st2, same True True (let* u := getM m in
              if terminateSimulation u then ret (st2, e2, reached) else doStep_loop m env fuel ncp e2 st2)%sw).
    { intros e2 st2. apply same_getM. intros i j R. rewrite (mr_term (ir_mut R)).
      destruct (terminateSimulation (mut i)); [apply (same_ret _ R)|now apply IH]. }
    destruct (m_eventUpdate m) eqn:EU; [|apply Rest].
    destruct (match se with Some true => Some true | Some false => te | None => None end) as [[|]|];
      [|apply Rest|apply same_ub].
    destruct ev.
    - destruct er; [apply same_ret|apply Rest].
    - apply same_bind; [apply same_call, (msim_event EU)|]. intro s2.
      apply same_bind; [apply same_CALL|]. intro st2. destruct (stops st2); [apply same_ret|].
      destruct (Nat.ltb 0 (m_maxZ m)).
      + apply (@same_prez True _ (fun s3 => let* st3 := CALL m st2 s3 in
             if stops st3 then ret (st3, ehn1, reached) else
             if er then ret (st3, ehn1, reached) else
             (let* u := getM m in if terminateSimulation u then ret (st3, ehn1, reached)
                                  else doStep_loop m env fuel ncp ehn1 st3))%sw).
        intro s3. apply same_bind; [apply same_CALL|]. intro st3.
        destruct (stops st3); [apply same_ret|]. destruct er; [apply same_ret|apply Rest].
      + destruct er; [apply same_ret|apply Rest].
  Qed.
End Same.

(** ** The functions of the interface *)
Section Api3.
  Context {F : Type} {NF : Num F} (m : Model F) (P : Rel (md m)) (env : Env).
  Notation D := (md m).
  Hypothesis L : SimLaws m P.
  Hypothesis He : r_env P env.
  Hypothesis NX : r_cross P = false.
  Notation same := (same m P).

  Lemma same_mode E S i j : instR m P E S i j -> mode (ctl j) = mode (ctl i).
  Proof. intro R. pose proof (cr_mode (ir_ctl R)) as M. rewrite NX in M. symmetry. now apply modeR_false. Qed.

  Lemma same_allowed E S mask : same E S (allowedState m env mask).
  Proof.
    unfold allowedState. apply same_getC. intros i j R. rewrite (same_mode R).
    destruct (N.eqb _ 0); [|apply (same_ret _ R)].
    assert (H : same E S (logError m env ;;; ret false)%sw).
    { apply same_bind; [apply same_logError|intros; apply same_ret]. }
    now apply H.
  Qed.
  Lemma same_BEGIN X E S mask (x : X) k : same E S k -> same E S (BEGIN m env mask x k).
  Proof.
    intro H. unfold BEGIN. apply same_bind; [apply same_allowed|]. intros [|]; [exact H|].
    apply same_CALLk. intros; exact H.
  Qed.
  (** the same for a body that needs the mode check *)
  Lemma BEGIN_refused X mask (x : X) k (a : Inst F D) : N.land (bit3 (mode (ctl a))) mask = 0%N ->
    BEGIN m env mask x k a = Done ((Error, x), set_ctl (set_mode Terminated (ctl a)) a, message m a).
  Proof.
    intro Ha. unfold BEGIN, allowedState. unfold bind at 1. rewrite bind_getC, Ha. cbn [N.eqb].
    rewrite bind_logError. cbn. now rewrite !app_nil_r.
  Qed.
  Lemma or_refused X E S (x : X) i j : instR m P E S i j ->
    orel P (fun r r' i' j' => r = (Error, x) /\ r' = (Error, x) /\ instR m P E S i' j')
      (Done ((Error, x), set_ctl (set_mode Terminated (ctl i)) i, message m i))
      (Done ((Error, x), set_ctl (set_mode Terminated (ctl j)) j, message m j)).
  Proof.
    intro R. cbn. split.
    - split; [reflexivity|]. split; [reflexivity|]. eapply instR_ctl; [exact R|].
      apply cr_set_mode; [apply R|apply modeR_refl].
    - pose proof (or_logE env R) as T. rewrite !logError_eq in T. apply T.
  Qed.
  Lemma or_BEGIN X E S mask (x : X) k i j : instR m P E S i j ->
    (N.land (bit3 (mode (ctl i))) mask <> 0%N -> orel P (apost m P E S eq) (k i) (k j)) ->
    orel P (apost m P E S eq) (BEGIN m env mask x k i) (BEGIN m env mask x k j).
  Proof.
    intros R H. destruct (N.eqb_spec (N.land (bit3 (mode (ctl i))) mask) 0) as [Z|Z].
    - rewrite !BEGIN_refused; [|rewrite (same_mode R); exact Z|exact Z].
      eapply orel_conseq; [apply (or_refused x R)|]. intros r r' i' j' (-> & -> & Q). split; auto.
    - rewrite !BEGIN_pass; [now apply H|rewrite (same_mode R); exact Z|exact Z].
  Qed.

  Lemma same_Get E S t vrs nvr values nv : same E S (fmi3Get m env t vrs nvr values nv).
  Proof.
    unfold fmi3Get. apply same_BEGIN. destruct (Nat.eqb nvr 0); [apply same_ret|]. apply same_NULL. cbv zeta.
    match goal with |- same _ _ (if _ then _ else ?b) => assert (B : same E S b) end.
    { apply same_refresh; auto. intro st. apply same_bind; [now apply same_get_loop|].
      intros [[st' values'] index]. destruct (stops st'); [apply same_ret|].
      destruct (negb (Nat.eqb index nv)); [|apply same_ret].
      apply same_bind; [apply same_logError|]. intros _. apply same_CALLk. intros; apply same_ret. }
    destruct (Nat.ltb 0 nv); [now apply same_NULL|exact B].
  Qed.
  Lemma same_Set E S t vrs nvr values nv : same E S (fmi3Set m env t vrs nvr values nv).
  Proof.
    unfold fmi3Set. apply same_BEGIN. destruct (Nat.eqb nvr 0); [apply same_ret|]. apply same_NULL.
    apply same_bind; [now apply same_set_loop|]. intros [st index]. destruct (stops st); [apply same_ret|].
    apply same_bind; [apply same_dirty|]. intros _.
    destruct (negb (Nat.eqb index nv)); [|apply same_ret].
    apply same_bind; [apply same_logError|]. intros _. apply same_CALLk. intros; apply same_ret.
  Qed.
  Lemma same_GetBinary E S vrs nvr s values nv : same E S (fmi3GetBinary m env vrs nvr s values nv).
  Proof.
    unfold fmi3GetBinary. apply same_BEGIN. destruct (Nat.eqb nvr 0); [apply same_ret|]. apply same_NULL. cbv zeta.
    match goal with |- same _ _ (if _ then _ else ?b) => assert (B : same E S b) end.
    { apply same_refresh; auto. intro st. now apply same_getBinary_loop. }
    destruct (Nat.ltb 0 nv); [now apply same_NULL|exact B].
  Qed.
  Lemma same_SetBinary E S vrs nvr s values nv : same E S (fmi3SetBinary m env vrs nvr s values nv).
  Proof.
    unfold fmi3SetBinary. apply same_BEGIN. destruct (Nat.eqb nvr 0); [apply same_ret|]. apply same_NULL.
    apply same_bind; [now apply same_setBinary_loop|]. intros [st index]. destruct (stops st); [apply same_ret|].
    apply same_bind; [apply same_dirty|]. intros _.
    destruct (negb (Nat.eqb index nv)); [|apply same_ret].
    apply same_bind; [apply same_logError|]. intros _. apply same_CALLk. intros; apply same_ret.
  Qed.
  Lemma same_SetDebugLogging E S b n c : same E S (fmi3SetDebugLogging m env b n c).
  Proof.
    unfold fmi3SetDebugLogging. apply same_BEGIN. apply same_bind; [now apply same_setDebug|]. intro s.
    apply same_CALLk. intros; apply same_ret.
  Qed.
  Lemma same_mod1 X E S mask (x : X) s : same E S (BEGIN m env mask x (setMode m s ;;; ret (OK, x))%sw).
  Proof. apply same_BEGIN. apply same_bind; [apply same_setMode|intros; apply same_ret]. Qed.
  Lemma same_Reset E S : same E S (fmi3Reset m env).
  Proof.
    unfold fmi3Reset. apply same_BEGIN. apply same_bind; [now apply same_reset|]. intro s.
    apply same_CALLk. intros; apply same_ret.
  Qed.
  Lemma same_GetClock E S vrs n v : same E S (fmi3GetClock m env vrs n v).
  Proof. unfold fmi3GetClock. apply same_BEGIN. now apply same_getClock_loop. Qed.
  Lemma same_SetClock E S vrs n v : same E S (fmi3SetClock m env vrs n v).
  Proof. unfold fmi3SetClock. apply same_BEGIN. now apply same_setClock_loop. Qed.
  Lemma same_Directional E S u nu k nk s d : same E S (fmi3GetDirectionalDerivative m env u nu k nk s d).
  Proof.
    unfold fmi3GetDirectionalDerivative. apply same_BEGIN. apply same_deriv_rows; auto. intros; apply (sl_partial L).
  Qed.
  Lemma same_Adjoint E S u nu k nk s d : same E S (fmi3GetAdjointDerivative m env u nu k nk s d).
  Proof.
    unfold fmi3GetAdjointDerivative. apply same_BEGIN. apply same_deriv_rows; auto. intros; apply (sl_partial L).
  Qed.
  Lemma same_modMode E S f : (forall c c', ctlR P E c c' -> f c' = f c) ->
    same E S (modC m (fun c => set_mode (f c) c)).
  Proof.
    intros Hf i j R. unfold modC, modS. cbn. split; [|apply traceR_refl]. split; [reflexivity|].
    eapply instR_ctl; [exact R|]. rewrite (Hf _ _ (ir_ctl R)). apply cr_set_mode; [apply R|apply modeR_refl].
  Qed.
  Lemma ctl_mode E c c' : ctlR (F := F) P E c c' -> mode c' = mode c.
  Proof. intro C. pose proof (cr_mode C) as M. rewrite NX in M. symmetry. now apply modeR_false. Qed.
  Lemma same_EnterConfig E S : same E S (fmi3EnterConfigurationMode m env).
  Proof.
    unfold fmi3EnterConfigurationMode. apply same_BEGIN. apply same_bind; [|intros; apply same_ret].
    apply (@same_modMode E S (fun c => if ModelState_eqb (mode c) Instantiated then ConfigurationMode else ReconfigurationMode)).
    intros c c' C. now rewrite (ctl_mode C).
  Qed.
  Lemma same_Interval E S vrs n a b : same E S (fmi3GetIntervalDecimal m env vrs n a b).
  Proof. unfold fmi3GetIntervalDecimal. apply same_BEGIN. now apply same_interval_loop. Qed.
  Lemma same_NotImplemented E S : same E S (fmi3NotImplemented m env).
  Proof. unfold fmi3NotImplemented. apply same_bind; [apply same_NOT_IMPLEMENTED|intros; apply same_ret]. Qed.

  Lemma same_Update E S : same E S (fmi3UpdateDiscreteStates m env).
  Proof.
    unfold fmi3UpdateDiscreteStates. apply same_BEGIN. cbv zeta.
    assert (K : forall i j (st : Status), instR m P E S i j -> valuesChanged (mut j) = valuesChanged (mut i) ->
      orel P (apost m P E S eq)
        ((let* u := getM m in ret (st, Some (mkEventInfo (newDiscreteStatesNeeded u) (terminateSimulation u)
            (nominalsChanged u) (valuesChanged u) (nextEventTimeDefined u) (nextEventTime u))))%sw i)
        ((let* u := getM m in ret (st, Some (mkEventInfo (newDiscreteStatesNeeded u) (terminateSimulation u)
            (nominalsChanged u) (valuesChanged u) (nextEventTimeDefined u) (nextEventTime u))))%sw j)).
    { intros i j st R V. apply or_getM. pose proof (ir_mut R) as M.
      rewrite (mr_new M), (mr_term M), (mr_nom M), V, (mr_ned M), (mr_net M). apply (same_ret _ R). }
    destruct (m_eventUpdate m) eqn:EU.
    - intros i j R.
      apply (@orel_bind _ _ P _ _ _ _ _ _ (fun x y i j => x = y /\ instR m P E S i j /\ valuesChanged (mut j) = valuesChanged (mut i))).
      + unfold call. assert (C' : ctlR P False (ctl i) (ctl j)) by (eapply ctlR_weaken; [|apply R]; tauto).
        pose proof (sl_event L EU env He C' (ir_mut R)) as H. unfold orel in H |- *.
        destruct (m_eventUpdateF m env (ctl i) (mut i)) as [[[x u] t]| |],
                 (m_eventUpdateF m env (ctl j) (mut j)) as [[[y u'] t']| |]; auto.
        destruct H as [(A & B & V) T]. split; [|exact T]. split; [exact A|]. cbn. split; [|exact V].
        constructor; cbn; auto; apply R.
      + clear i j R. intros x ? i j (<- & R & V).
        apply (@orel_bind _ _ P _ _ _ _ _ _ (fun st st' i j => st = st' /\ instR m P E S i j /\
             (stops st = false -> valuesChanged (mut j) = valuesChanged (mut i)))).
        * unfold CALL. destruct (smax OK x) eqn:Sx; try (match goal with |- orel _ _ (ret _ _) _ => apply orel_ret; auto end);
          (eapply or_setMode; [exact R|]; intros i' j' R'; apply orel_ret; split; [reflexivity|split; [exact R'|discriminate]]).
        * clear i j R V. intros st ? i j (<- & R & V). destruct (stops st) eqn:St; [apply (same_ret _ R)|].
          apply K; auto.
    - intros i j R. apply K; [exact R|]. apply (mr_vals (ir_mut R)). apply (sl_noevent L EU).
  Qed.

  Lemma same_Completed E S p1 p2 : same E S (fmi3CompletedIntegratorStep m env p1 p2).
  Proof. unfold fmi3CompletedIntegratorStep. apply same_BEGIN, same_NULL, same_NULL, same_ret. Qed.
  Lemma same_SetTime E S t : same E S (fmi3SetTime m env t).
  Proof.
    unfold fmi3SetTime. apply same_BEGIN. apply same_bind; [|intros; apply same_ret].
    intros i j R. unfold modC, modS. cbn. split; [|apply traceR_refl]. split; [reflexivity|].
    eapply instR_ctl; [exact R|]. apply cr_set_time, R.
  Qed.
  Lemma same_SetStates E S x n : same E S (fmi3SetContinuousStates m env x n).
  Proof.
    unfold fmi3SetContinuousStates. apply same_BEGIN. apply same_bind; [apply same_call; auto; apply (sl_setStates L)|].
    intro s. apply same_CALLk. intros; apply same_ret.
  Qed.
  Lemma same_GetArray E S f x n : msim P eq (f x n) (f x n) -> same E S (fmi3GetArray m env f x n).
  Proof.
    intro H. unfold fmi3GetArray. apply same_BEGIN. apply same_bind; [now apply same_call|].
    intro s. apply same_CALLk. intros; apply same_ret.
  Qed.
  Lemma same_GetNumber E S f p : (forall u u' : Mut F D, mutR P u u' -> f u = f u') -> same E S (fmi3GetNumber m env f p).
  Proof.
    intro H. unfold fmi3GetNumber. apply same_BEGIN. apply same_getM. intros i j R.
    rewrite (H _ _ (ir_mut R)). destruct p; [apply (same_ret _ R)|exact I].
  Qed.
  Lemma same_OutputDerivatives E S vrs n o v : same E S (fmi3GetOutputDerivatives m env vrs n o v).
  Proof.
    unfold fmi3GetOutputDerivatives. apply same_BEGIN. destruct (m_outputDerivative m).
    - now apply same_outputDerivative_loop.
    - apply same_bind; [apply same_NOT_IMPLEMENTED|intros; apply same_ret].
  Qed.
  Lemma same_ActivateModelPartition E S vr t : same E S (fmi3ActivateModelPartition m env vr t).
  Proof.
    unfold fmi3ActivateModelPartition. apply same_BEGIN.
    apply same_bind; [apply same_call; auto; apply (sl_activate L)|]. intro s. apply same_CALLk. intros; apply same_ret.
  Qed.

  Lemma same_doStep_body fuel ccp h p1 p2 p3 p4 :
    same True True (fmi3DoStep m env fuel ccp h p1 p2 p3 p4).
  Proof.
    unfold fmi3DoStep. cbv zeta. apply same_BEGIN. apply same_getC. intros i j R. pose proof (ir_ctl R) as C.
    rewrite (cr_ncp C I), (cr_stop C I). clear C.
    assert (Er : forall x : DoStepOut F, same True True (logError m env ;;; CALLk m OK Error x (fun st => ret (st, x)))%sw).
    { intro x. apply same_bind; [apply same_logError|]. intros _. apply same_CALLk. intros; apply same_ret. }
    destruct (negb (isClose ccp _)); [now apply Er|]. destruct (nle h nzero); [now apply Er|].
    destruct (nlt _ _ && _); [now apply Er|]. destruct (negb (p1 && p2 && p3)); [exact I|].
    revert i j R. match goal with |- forall i j, instR _ _ _ _ i j -> orel _ _ (?f i) (?g j) => change (same True True f) end.
    apply same_bind; [now apply same_doStep_loop|]. intros [[st ehn] reached].
    destruct (stops st); [apply same_ret|].
    apply same_getM. intros i j R. rewrite (mr_term (ir_mut R)). apply or_getC.
    rewrite (cr_time (ir_ctl R)), (cr_early (ir_ctl R)). destruct (negb p4); [exact I|].
    apply or_modC. apply orel_ret. split; [reflexivity|]. eapply instR_ctl; [exact R|].
    apply cr_set_ncp, R.
  Qed.
  Lemma or_DoStep E S fuel ccp h p1 p2 p3 p4 i j : instR m P E S i j ->
    (mode (ctl i) = StepMode -> E /\ S) ->
    orel P (apost m P E S eq) (fmi3DoStep m env fuel ccp h p1 p2 p3 p4 i) (fmi3DoStep m env fuel ccp h p1 p2 p3 p4 j).
  Proof.
    intros R H. unfold fmi3DoStep at 1 2. cbv zeta. apply or_BEGIN; [exact R|]. intro B.
    assert (M : mode (ctl i) = StepMode). { destruct (mode (ctl i)); try (exfalso; apply B; reflexivity); reflexivity. }
    destruct (H M) as [HE HS].
    assert (R' : instR m P True True i j) by (eapply instR_weaken; [| |exact R]; auto).
    pose proof (same_doStep_body fuel ccp h p1 p2 p3 p4 R') as K.
    unfold fmi3DoStep in K. cbv zeta in K. rewrite !BEGIN_pass in K; [|rewrite (same_mode R); exact B|exact B].
    eapply orel_conseq; [exact K|]. intros x y i' j' [A Q]. split; [exact A|]. eapply instR_weaken; [| |exact Q]; auto.
  Qed.

  (** Entering initialization makes the communication points agree, leaving it the solver. *)
  Lemma or_EnterInit E S a b c i j : instR m P E S i j ->
    orel P (fun r r' i' j' => r = r' /\ instR m P E S i' j' /\ (fst r = OK -> instR m P True S i' j'))
      (fmi3EnterInitializationMode m env a b c i) (fmi3EnterInitializationMode m env a b c j).
  Proof.
    intros R. unfold fmi3EnterInitializationMode.
    destruct (N.eqb_spec (N.land (bit3 (mode (ctl i))) MASK_EnterInitializationMode) 0) as [Z|Z].
    - rewrite !BEGIN_refused; [|rewrite (same_mode R); exact Z|exact Z].
      eapply orel_conseq; [apply (or_refused tt R)|]. intros r r' i' j' (-> & -> & Q).
      split; [reflexivity|]. split; [exact Q|discriminate].
    - rewrite !BEGIN_pass; [|rewrite (same_mode R); exact Z|exact Z].
      do 4 apply or_modC. unfold setMode at 1 2. apply or_modC. apply orel_ret. split; [reflexivity|].
      assert (Q : instR m P True S
         (set_ctl (set_mode InitializationMode (set_nextCommunicationPoint a (set_time a (set_stopTime (if b then c else ninf) (set_startTime a (ctl i)))))) i)
         (set_ctl (set_mode InitializationMode (set_nextCommunicationPoint a (set_time a (set_stopTime (if b then c else ninf) (set_startTime a (ctl j)))))) j)).
      { eapply instR_ctl; [exact R|]. destruct (ir_ctl R). constructor; cbn; auto. apply modeR_refl. }
      split; [|intros _; exact Q]. eapply instR_weaken; [| |exact Q]; auto.
  Qed.

  Definition upg (E S : Prop) (r r' : Status * unit) (i j : Inst F D) : Prop :=
    r = r' /\ instR m P E S i j /\ (fst r = OK -> instR m P E True i j).
  Lemma or_configured E S st i j : instR m P E S i j ->
    orel P (upg E S) ((let* s := configurate m env in CALLk m st s tt (fun st => ret (st, tt)))%sw i)
                     ((let* s := configurate m env in CALLk m st s tt (fun st => ret (st, tt)))%sw j).
  Proof.
    intros R. eapply orel_bind; [apply (or_configurate env L He R)|].
    intros s s' i' j' (-> & -> & R').
    assert (K : same E True (CALLk m st OK tt (fun st => ret (st, tt)))) by (apply same_CALLk; intros; apply same_ret).
    eapply orel_conseq; [apply (K _ _ R')|]. intros x y i2 j2 [-> Q]. split; [reflexivity|]. split; [|auto].
    eapply instR_weaken; [| |exact Q]; auto.
  Qed.

  Lemma or_CALLk X Y E S (Q : Status * X -> Status * Y -> _) st s (x : X) (y : Y) k l i j : instR m P E S i j ->
    (forall st' i j, instR m P E S i j -> orel P Q (k st' i) (l st' j)) ->
    (forall st' i j, instR m P E S i j -> stops st' = true -> Q (st', x) (st', y) i j) ->
    orel P Q (CALLk m st s x k i) (CALLk m st s y l j).
  Proof.
    intros R K T. unfold CALLk. eapply orel_bind; [apply (same_CALL st s R)|].
    intros st' ? i' j' [<- R']. destruct (stops st') eqn:St; [apply orel_ret; auto|now apply K].
  Qed.
  Lemma or_refreshQ X Y E S (Q : Status * X -> Status * Y -> _) (x : X) (y : Y) k l i j : instR m P E S i j ->
    (forall st i j, instR m P E S i j -> orel P Q (k st i) (l st j)) ->
    (forall st i j, instR m P E S i j -> stops st = true -> Q (st, x) (st, y) i j) ->
    orel P Q (refresh m env OK x k i) (refresh m env OK y l j).
  Proof.
    intros R K T.
    assert (C' : ctlR P False (ctl i) (ctl j)) by (eapply ctlR_weaken; [|apply R]; tauto).
    destruct (dirty (mut i)) eqn:Di, (dirty (mut j)) eqn:Dj.
    - unfold refresh. apply or_getM. rewrite Di, Dj.
      eapply orel_bind; [apply (@same_call _ m P env He _ E S _ (sl_calc L) _ _ R)|].
      intros s ? i' j' [<- R']. eapply or_CALLk; [exact R'| |exact T].
      intros st' i2 j2 R2. apply or_modM. apply K. eapply instR_mut; [exact R2|]. apply mr_set_dirty, R2.
    - destruct (sl_refreshL L env He C' (ir_mut R) Di Dj) as (v & Ev & M).
      rewrite (refresh_ok m env x k i Di Ev), refresh_clean by auto. apply K.
      constructor; cbn; try apply R. exact M.
    - destruct (sl_refreshR L env He C' (ir_mut R) Di Dj) as (v & Ev & M).
      rewrite (refresh_ok m env y l j Dj Ev), refresh_clean by auto. apply K.
      constructor; cbn; try apply R. exact M.
    - rewrite !refresh_clean by auto. now apply K.
  Qed.

  Lemma modeAfterInit_eq E c c' : ctlR (F := F) P E c c' -> modeAfterInit c' = modeAfterInit c.
  Proof. intro C. unfold modeAfterInit. now rewrite (cr_itype C), (cr_event C). Qed.
  Lemma modeAfterConfig_eq E c c' : ctlR (F := F) P E c c' -> modeAfterConfig c' = modeAfterConfig c.
  Proof. intro C. unfold modeAfterConfig. now rewrite (cr_itype C), (ctl_mode C). Qed.

  Lemma or_BEGINu E S mask k i j : instR m P E S i j ->
    (N.land (bit3 (mode (ctl i))) mask <> 0%N -> orel P (upg E S) (k i) (k j)) ->
    orel P (upg E S) (BEGIN m env mask tt k i) (BEGIN m env mask tt k j).
  Proof.
    intros R H. destruct (N.eqb_spec (N.land (bit3 (mode (ctl i))) mask) 0) as [Z|Z].
    - rewrite !BEGIN_refused; [|rewrite (same_mode R); exact Z|exact Z].
      eapply orel_conseq; [apply (or_refused tt R)|]. intros r r' i' j' (-> & -> & Q). split; [auto|].
      split; [exact Q|discriminate].
    - rewrite !BEGIN_pass; [now apply H|rewrite (same_mode R); exact Z|exact Z].
  Qed.
  Lemma or_ExitInit E S i j : instR m P E S i j ->
    orel P (upg E S) (fmi3ExitInitializationMode m env i) (fmi3ExitInitializationMode m env j).
  Proof.
    intro R. unfold fmi3ExitInitializationMode. apply or_BEGINu; [exact R|]. intros _.
    eapply or_refreshQ; [exact R| |].
    - clear i j R. intros st i j R. apply or_modC. apply or_configured.
      eapply instR_ctl; [exact R|]. rewrite (modeAfterInit_eq (ir_ctl R)).
      apply cr_set_mode; [apply R|apply modeR_refl].
    - intros st i' j' R' St. split; [reflexivity|]. split; [exact R'|].
      cbn. intros ->. discriminate.
  Qed.
  Lemma or_ExitConfig E S i j : instR m P E S i j ->
    orel P (upg E S) (fmi3ExitConfigurationMode m env i) (fmi3ExitConfigurationMode m env j).
  Proof.
    intro R. unfold fmi3ExitConfigurationMode. apply or_BEGINu; [exact R|]. intros _.
    apply or_modC. rewrite (modeAfterConfig_eq (ir_ctl R)).
    assert (R' : instR m P E S (set_ctl (set_mode (modeAfterConfig (ctl i)) (ctl i)) i)
                               (set_ctl (set_mode (modeAfterConfig (ctl i)) (ctl j)) j)).
    { eapply instR_ctl; [exact R|]. apply cr_set_mode; [apply R|apply modeR_refl]. }
    destruct (Nat.ltb_spec 0 (m_maxX m)); cbn [orb]; [now apply or_configured|].
    destruct (Nat.ltb_spec 0 (m_maxZ m)); [now apply or_configured|].
    apply orel_ret. split; [reflexivity|]. split; [exact R'|]. intros _.
    pose proof (ir_sol R') as [(Z1 & Z2 & Z3 & X1 & X2 & X3) (Z1' & Z2' & Z3' & X1' & X2' & X3') _ _ _].
    cbn in Z3, X3, Z3', X3'.
    destruct R' as [C M _]. constructor; auto. constructor; cbn; auto.
    - repeat split; auto.
    - repeat split; auto.
    - intros _. lia.
    - intros _. lia.
    - intros _. replace (nz (sol i)) with 0 by lia. reflexivity.
  Qed.
End Api3.
