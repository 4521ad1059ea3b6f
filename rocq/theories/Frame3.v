(** Frame3.v -- [effect3]: what every FMI 3.0 call does to the settings of an instance. *)
From Coq Require Import List NArith ZArith Bool Arith Lia.
From Verif Require Import Base Instance ModelIface Core Fmi3 Fmi2 Api Logic SpecModes Frame.
Import ListNotations.
Set Implicit Arguments.

Section Frame3.
  Context {F : Type} {NF : Num F} (m : Model F) (szof : N).
  Notation D := (md m).
  Hypothesis L : Laws m.

  (** The messages of a call: only error messages, only if enabled before or after it. *)
  Definition logs_within (c c' : Ctl F) (t : list (Event F)) : Prop :=
    forall e, In e t -> log_event e = true ->
      e = ELog Error CatLogStatusError /\ (logErrors c = true \/ logErrors c' = true) /\ hasLogger c = true.
  Lemma logs_ok_within c c' t : logs_ok c t -> logs_within c c' t.
  Proof. intros H e He Hl. destruct (H e He Hl) as (-> & -> & ->). auto. Qed.

  (** *** DoStep *)
  (** [f] changes only time and step counter (and, on Error, the mode) *)
  Definition stepping {X} (sel : X -> Status) (ok : Status -> Prop) (f : AF F D X) : Prop :=
    forall i, match f i with
              | Done (x, i', t) =>
                  (exists a n, ok (sel x) /\ ctl i' = set_time a (set_nSteps n (ctl i)) \/
                               sel x = Error /\ ctl i' = set_mode Terminated (set_time a (set_nSteps n (ctl i))))
                  /\ logs_ok (ctl i) t
              | UB => True
              | NoFuel => True
              end.
  Lemma same_time (c : Ctl F) : c = set_time (time c) (set_nSteps (nSteps c) c).
  Proof. destruct c; reflexivity. Qed.

  Lemma stepping_quiet X sel ok (f : AF F D X) : quiet m (fun x => ok (sel x)) f -> stepping sel ok f.
  Proof.
    intros H i. specialize (H i). destruct (f i) as [[[x i'] t]| |]; auto.
    destruct H as (O & E & Lg). split; auto. exists (time (ctl i)), (nSteps (ctl i)). left.
    split; auto. rewrite E. apply same_time.
  Qed.
  Lemma stepping_bind X Y (P : X -> Prop) sel ok f (k : X -> AF F D Y) :
    quiet m P f -> (forall x, P x -> stepping sel ok (k x)) -> stepping sel ok (bind f k).
  Proof.
    intros Hf Hk i. unfold bind. specialize (Hf i). destruct (f i) as [[[x i1] t1]| |]; auto.
    destruct Hf as (Px & E1 & L1). specialize (Hk x Px i1).
    destruct (k x i1) as [[[y i2] t2]| |]; auto. destruct Hk as (Qy & L2).
    rewrite E1 in Qy, L2. auto using logs_ok_app.
  Qed.
  (** [f] moves time and counter only *)
  Definition moving {X} (P : X -> Prop) (f : AF F D X) : Prop :=
    forall i, match f i with
              | Done (x, i', t) => P x /\ (exists a n, ctl i' = set_time a (set_nSteps n (ctl i))) /\ logs_ok (ctl i) t
              | UB => True
              | NoFuel => True
              end.
  Lemma moving_bind X Y (P : X -> Prop) sel ok f (k : X -> AF F D Y) :
    moving P f -> (forall x, P x -> stepping sel ok (k x)) -> stepping sel ok (bind f k).
  Proof.
    intros Hf Hk i. unfold bind. specialize (Hf i). destruct (f i) as [[[x i1] t1]| |]; auto.
    destruct Hf as (Px & (a & n & E1) & L1). specialize (Hk x Px i1).
    destruct (k x i1) as [[[y i2] t2]| |]; auto. destruct Hk as ((a' & n' & Qy) & L2).
    rewrite E1 in Qy, L2. split; [exists a', n'; destruct Qy as [Qy|Qy]; [left|right]; exact Qy|].
    apply logs_ok_app; auto.
  Qed.
  Lemma moving_quiet X (P : X -> Prop) f : quiet m P f -> moving P f.
  Proof.
    intros H i. specialize (H i). destruct (f i) as [[[x i'] t]| |]; auto.
    destruct H as (O & E & Lg). repeat (split; auto). exists (time (ctl i)), (nSteps (ctl i)).
    rewrite E. apply same_time.
  Qed.
  Lemma moving_bind2 X Y (P : X -> Prop) (Q : Y -> Prop) f (k : X -> AF F D Y) :
    moving P f -> (forall x, P x -> moving Q (k x)) -> moving Q (bind f k).
  Proof.
    intros Hf Hk i. unfold bind. specialize (Hf i). destruct (f i) as [[[x i1] t1]| |]; auto.
    destruct Hf as (Px & (a & n & E1) & L1). specialize (Hk x Px i1).
    destruct (k x i1) as [[[y i2] t2]| |]; auto. destruct Hk as (Qy & (a' & n' & E2) & L2).
    rewrite E1 in E2, L2. split; [exact Qy|]. split; [exists a', n'; exact E2|].
    apply logs_ok_app; auto.
  Qed.
  Variable env : Env.

  Lemma quiet_fixedStep_x : quiet m okerr (fixedStep_x m env).
  Proof.
    unfold fixedStep_x. eapply quiet_bind; [apply quiet_getSol|]. intros o _.
    destruct (Nat.ltb 0 (nx o)); [|apply quiet_ret; left; auto].
    eapply quiet_bind; [apply quiet_call, (l_states L)|]. intros r Hr.
    eapply (@quiet_bind _ _ _ _ (fun _ => True)).
    { destruct (snd r); [apply quiet_modSol|apply quiet_ub]. }
    intros _ _. destruct Hr as [->| ->]; [|apply quiet_ret; right; auto].
    eapply quiet_bind; [apply quiet_call, (l_derivs L)|]. intros r' Hr'.
    eapply (@quiet_bind _ _ _ _ (fun _ => True)).
    { destruct (snd r'); [apply quiet_modSol|apply quiet_ub]. }
    intros _ _. destruct Hr' as [->| ->]; [|apply quiet_ret; right; auto].
    eapply quiet_bind; [apply quiet_getSol|]. intros o' _.
    destruct (euler m (nx o') (xa o') (dxa o')); [|apply quiet_ub].
    eapply quiet_bind; [apply quiet_modSol|]. intros _ _. apply quiet_call, (l_setStates L).
  Qed.
  Lemma quiet_fixedStep_z : quiet m (fun r => okerr (fst r)) (fixedStep_z m env).
  Proof.
    unfold fixedStep_z. eapply quiet_bind; [apply quiet_getSol|]. intros o _.
    destruct (Nat.ltb 0 (nz o)); [|apply quiet_ret; left; auto].
    eapply quiet_bind; [apply quiet_call, (l_indicators L)|]. intros r Hr.
    eapply (@quiet_bind _ _ _ _ (fun _ => True)).
    { destruct (snd r); [apply quiet_modSol|apply quiet_ub]. }
    intros _ _. destruct Hr as [->| ->]; [|apply quiet_ret; right; auto].
    eapply quiet_bind; [apply quiet_getSol|]. intros o' _.
    destruct (crossings (nz o') (prez o') (za o')); [|apply quiet_ub].
    destruct (copyn (nz o') (za o') (prez o')); [|apply quiet_ub].
    eapply quiet_bind; [apply quiet_modSol|]. intros _ _. apply quiet_ret. left; auto.
  Qed.
  Lemma moving_fixedStep_time : moving (fun _ => True) (fixedStep_time m).
  Proof.
    intros i. unfold fixedStep_time. cbn. split; auto. split; [|apply logs_ok_nil].
    eexists _, _. reflexivity.
  Qed.
  Lemma moving_doFixedStep : moving (fun r => okerr (fst (fst r))) (doFixedStep m env).
  Proof.
    unfold doFixedStep. eapply moving_bind2; [apply moving_quiet, quiet_fixedStep_x|].
    intros s [->| ->]; [|apply moving_quiet, quiet_ret; right; auto].
    eapply moving_bind2; [apply moving_fixedStep_time|]. intros _ _. apply moving_quiet.
    eapply quiet_bind; [apply quiet_fixedStep_z|]. intros [s ev] [Hs|Hs]; cbn in Hs; subst s;
      [|apply quiet_ret; right; auto].
    eapply quiet_bind; [apply quiet_getC|]. intros c _.
    eapply quiet_bind; [apply quiet_getM|]. intros u _.
    eapply (@quiet_bind _ _ _ _ (fun _ => True)).
    { destruct (hasIntermediateUpdate c); [apply quiet_tell; auto|apply quiet_ret; auto]. }
    intros _ _. apply quiet_ret. left; auto.
  Qed.
  Lemma stepping_CALLif X (sel : X -> Status) ok s a b :
    okerr s -> quiet m (fun x => sel x = Error) (a Error) -> stepping sel ok (b OK) ->
    stepping sel ok (bind (CALL m OK s) (fun st => if stops st then a st else b st)).
  Proof.
    intros [->| ->] Ha Hb i.
    - unfold bind. cbn. specialize (Hb i). destruct (b OK i) as [[[x i'] t]| |]; auto.
    - unfold bind. cbn. specialize (Ha (set_ctl (set_mode Terminated (ctl i)) i)).
      destruct (a Error _) as [[[x i'] t]| |]; auto.
      destruct Ha as (E & C & Lg). split; [|exact Lg].
      exists (time (ctl i)), (nSteps (ctl i)). right. split; [exact E|]. rewrite C. reflexivity.
  Qed.

  Notation sel := (fun r : Status * bool * bool => fst (fst r)).
  Lemma doStep_loop_effect fuel : forall ncp ehn,
    stepping sel (fun st => st = OK) (doStep_loop m env fuel ncp ehn OK).
  Proof.
    induction fuel; intros; cbn [doStep_loop]; [intro i; exact I|].
    eapply stepping_bind; [apply quiet_getC|]. intros c _. cbv zeta.
    destruct (pointReached m ncp c || ehn && earlyReturnAllowed c);
      [apply stepping_quiet, quiet_ret; auto|].
    eapply (@stepping_bind _ _ (fun _ => True)).
    { destruct (m_eventUpdate m && ehn); [|now apply quiet_ret].
      eapply quiet_bind; [apply quiet_call, (l_event L)|]. intros. now apply quiet_ret. }
    intros ehn' _.
    eapply moving_bind; [apply moving_doFixedStep|]. intros [[s se] te] Hs. cbn in Hs.
    match goal with |- stepping _ _ (bind _ (fun st => if stops st then @?a st else @?b st)) =>
      apply (@stepping_CALLif _ sel (fun st => st = OK) s a b Hs) end; [now apply quiet_ret|].
    assert (Hrest : forall e, stepping sel (fun st => st = OK)
        (bind (getM m) (fun u : Mut F (md m) => if terminateSimulation u then ret (OK, e, pointReached m ncp c)
                          else doStep_loop m env fuel ncp e OK))).
    { intro e. eapply stepping_bind; [apply quiet_getM|]. intros u _.
      destruct (terminateSimulation u); auto. now apply stepping_quiet, quiet_ret. }
    destruct (m_eventUpdate m); auto.
    destruct (match se with Some true => Some true | Some false => te | None => None end) as [[|]|];
      auto; [|apply stepping_quiet, quiet_ub].
    destruct (eventModeUsed c).
    { destruct (earlyReturnAllowed c); auto. now apply stepping_quiet, quiet_ret. }
    eapply stepping_bind; [apply quiet_call, (l_event L)|]. intros s1 Hs1.
    match goal with |- stepping _ _ (bind _ (fun st => if stops st then @?a st else @?b st)) =>
      apply (@stepping_CALLif _ sel (fun st => st = OK) s1 a b Hs1) end; [now apply quiet_ret|].
    destruct (Nat.ltb 0 (m_maxZ m)).
    - eapply stepping_bind; [apply quiet_getSol|]. intros o _.
      eapply stepping_bind; [apply quiet_call, (l_indicators L)|]. intros r Hr.
      eapply (@stepping_bind _ _ (fun _ => True)).
      { destruct (snd r); [apply quiet_modSol|apply quiet_ub]. }
      intros _ _.
      match goal with |- stepping _ _ (bind _ (fun st => if stops st then @?a st else @?b st)) =>
        apply (@stepping_CALLif _ sel (fun st => st = OK) (fst r) a b Hr) end; [now apply quiet_ret|].
      destruct (earlyReturnAllowed c); auto. now apply stepping_quiet, quiet_ret.
    - destruct (earlyReturnAllowed c); auto. now apply stepping_quiet, quiet_ret.
  Qed.
  Lemma doStep2_loop_effect fuel : forall ncp,
    stepping fst (fun st => st = OK \/ st = Discard) (doStep2_loop m env fuel ncp OK).
  Proof.
    induction fuel; intros; cbn [doStep2_loop]; [intro i; exact I|].
    eapply stepping_bind; [apply quiet_getC|]. intros c _. cbv zeta.
    destruct (pointReached m ncp c); [apply stepping_quiet, quiet_ret; auto|].
    eapply moving_bind; [apply moving_doFixedStep|]. intros [[s se] te] Hs. cbn in Hs.
    match goal with |- stepping _ ?ok (bind _ (fun st => if stops st then @?a st else @?b st)) =>
      apply (@stepping_CALLif _ fst ok s a b Hs) end; [now apply quiet_ret|].
    assert (Hrest : stepping fst (fun st => st = OK \/ st = Discard)
        (bind (getM m) (fun u : Mut F (md m) => if terminateSimulation u then ret (Discard, false)
                          else doStep2_loop m env fuel ncp OK))).
    { eapply stepping_bind; [apply quiet_getM|]. intros u _.
      destruct (terminateSimulation u); auto. apply stepping_quiet, quiet_ret; auto. }
    destruct (m_eventUpdate m); auto.
    destruct (match se with Some true => Some true | Some false => te | None => None end) as [[|]|];
      auto; [|apply stepping_quiet, quiet_ub].
    eapply stepping_bind; [apply quiet_call, (l_event L)|]. intros s1 Hs1.
    match goal with |- stepping _ ?ok (bind _ (fun st => if stops st then @?a st else @?b st)) =>
      apply (@stepping_CALLif _ fst ok s1 a b Hs1) end; [now apply quiet_ret|]. auto.
  Qed.

  (** *** Single calls *)
  Lemma good_outI X U (f : AF F D (Status * X)) o s st out s' t :
    good m U fst f -> outI m f o s = Done (st, out, s', t) ->
    (st = OK /\ ctl (sinst s') = U (ctl (sinst s)) \/
     st = Error /\ ctl (sinst s') = set_mode Terminated (ctl (sinst s))) /\
    logs_ok (ctl (sinst s)) t.
  Proof.
    intros H. unfold outI, outS, onInst, bind. specialize (H (sinst s)).
    destruct (f (sinst s)) as [[[x i'] t']| |]; try discriminate. cbn. intro E. inversion E; subst. cbn.
    rewrite app_nil_r. exact H.
  Qed.

  Lemma good_modeswitch mask md :
    good m (set_mode md) fst (BEGIN m env mask tt (bind (setMode m md) (fun _ => ret (OK, tt)))).
  Proof.
    apply good_BEGIN. apply (good_modC (m:=m) (U:=fun c => c) (set_mode md)); auto.
    now apply good_ret.
  Qed.
  Lemma good_modeswitch2 mask md :
    good m (set_mode md) fst (BEGIN2 m env mask tt (bind (setMode m md) (fun _ => ret (OK, tt)))).
  Proof.
    apply good_BEGIN2. apply (good_modC (m:=m) (U:=fun c => c) (set_mode md)); auto.
    now apply good_ret.
  Qed.

  Notation id := (fun c : Ctl F => c).

  Lemma good_EnterInit (a : F) (b : bool) (e : F) :
    good m (fun c => set_mode InitializationMode (set_nextCommunicationPoint a (set_time a
          (set_stopTime (if b then e else ninf) (set_startTime a c))))) fst
         (fmi3EnterInitializationMode m env a b e).
  Proof. apply good_BEGIN. intro i. cbn. auto using logs_ok_nil. Qed.
  Lemma good_ExitInit :
    good m (fun c => set_mode (modeAfterInit c) c) fst (fmi3ExitInitializationMode m env).
  Proof.
    apply good_BEGIN. apply good_refresh; auto.
    apply (good_modC (m:=m) (U:=id) (fun c => set_mode (modeAfterInit c) c)); auto.
    eapply good_bind; [apply quiet_configurate; auto|]. intros s Hs. apply good_CALLk; auto.
    now apply good_ret.
  Qed.
  Lemma good_ExitInit2 :
    good m (fun c => set_mode (modeAfterInit2 c) c) fst (fmi2ExitInitializationMode m env).
  Proof.
    apply good_BEGIN2. apply good_refresh; auto.
    apply (good_modC (m:=m) (U:=id) (fun c => set_mode (modeAfterInit2 c) c)); auto.
    eapply good_bind; [apply quiet_configurate; auto|]. intros s Hs. apply good_CALLk; auto.
    now apply good_ret.
  Qed.
  Definition resetCtl (c : Ctl F) : Ctl F :=
    set_mode Instantiated (set_istatus OK (set_nSteps 0%N (set_time nzero (set_startTime nzero c)))).
  Lemma good_reset :
    good m resetCtl fst (bind (reset m env) (fun s => CALLk m OK s tt (fun st => ret (st, tt)))).
  Proof.
    intro i. unfold reset, setMode, modC, bind, modS, modM. cbn. unfold call. cbn.
    pose proof (l_start L env (resetCtl (ctl i)) (mut i)) as H. unfold resetCtl in H.
    cbn in H. unfold set_ctl. cbn. unfold set_istatus, set_nSteps, set_time, set_startTime, set_mode. cbn.
    unfold set_istatus, set_nSteps, set_time, set_startTime, set_mode in H. cbn in H.
    destruct (m_setStartValues m _ _ _) as [[[x u] t]| |]; auto. cbn.
    split; [left; split; reflexivity|]. rewrite !app_nil_r. apply H.
  Qed.
  Lemma good_EnterConfig :
    good m (fun c => set_mode (if ModelState_eqb (mode c) Instantiated
                               then ConfigurationMode else ReconfigurationMode) c) fst
         (fmi3EnterConfigurationMode m env).
  Proof.
    apply good_BEGIN.
    apply (good_modC (m:=m) (U:=id) _); auto. now apply good_ret.
  Qed.
  Lemma good_ExitConfig :
    good m (fun c => set_mode (modeAfterConfig c) c) fst (fmi3ExitConfigurationMode m env).
  Proof.
    apply good_BEGIN.
    apply (good_modC (m:=m) (U:=id) _); auto.
    destruct (Nat.ltb 0 (m_maxX m) || Nat.ltb 0 (m_maxZ m)); [|now apply good_ret].
    eapply good_bind; [apply quiet_configurate; auto|]. intros s Hs. apply good_CALLk; auto.
    now apply good_ret.
  Qed.
  Lemma good_Get t vrs nvr v nv : good m id fst (fmi3Get m env t vrs nvr v nv).
  Proof.
    apply good_BEGIN. destruct (Nat.eqb nvr 0); [now apply good_ret|]. apply good_ASSERT.
    match goal with |- good _ _ _ (let b := ?B in _) => assert (good m id fst B) as HB end.
    { apply good_refresh; auto.
      eapply good_bind2; [apply good_get_loop; auto| |]; intros [[st v'] ix] Hst; cbn in Hst; subst st; cbn.
      - destruct (Nat.eqb ix nv); cbn; [now apply good_ret|]. apply good_failE.
      - now apply quiet_ret. }
    cbv zeta. destruct (Nat.ltb 0 nv); auto. now apply good_ASSERT.
  Qed.
  Lemma good_Set t vrs nvr v nv : good m id fst (fmi3Set m env t vrs nvr v nv).
  Proof.
    apply good_BEGIN. destruct (Nat.eqb nvr 0); [now apply good_ret|]. apply good_ASSERT.
    eapply good_bind2; [apply good_set_loop; auto| |]; intros [st ix] Hst; cbn in Hst; subst st; cbn.
    - eapply good_bind; [apply quiet_modM|]. intros _ _.
      destruct (Nat.eqb ix nv); cbn; [now apply good_ret|]. apply good_failE.
    - now apply quiet_ret.
  Qed.
  Lemma good_GetBinary vrs nvr z v nv : good m id fst (fmi3GetBinary m env vrs nvr z v nv).
  Proof.
    apply good_BEGIN. destruct (Nat.eqb nvr 0); [now apply good_ret|]. apply good_ASSERT.
    assert (good m id fst (refresh m env OK (z, v) (fun st =>
        getBinary_loop m env (match vrs with Some l => l | None => [] end) nvr z v nv 0 st))) as HB.
    { apply good_refresh; auto. apply good_getBinary_loop; auto. }
    cbv zeta. destruct (Nat.ltb 0 nv); auto. now apply good_ASSERT.
  Qed.
  Lemma good_SetBinary vrs nvr z v nv : good m id fst (fmi3SetBinary m env vrs nvr z v nv).
  Proof.
    apply good_BEGIN. destruct (Nat.eqb nvr 0); [now apply good_ret|]. apply good_ASSERT.
    eapply good_bind2; [apply good_setBinary_loop; auto| |]; intros [st ix] Hst; cbn in Hst; subst st; cbn.
    - eapply good_bind; [apply quiet_modM|]. intros _ _.
      destruct (Nat.eqb ix nv); cbn; [now apply good_ret|]. apply good_failE.
    - now apply quiet_ret.
  Qed.
  Lemma good_callS f : gd okerr f ->
    good m id fst (bind (call m env f) (fun s => CALLk m OK s tt (fun st => ret (st, tt)))).
  Proof.
    intro H. eapply good_bind; [apply quiet_call, H|]. intros s Hs. apply good_CALLk; auto. now apply good_ret.
  Qed.
  Lemma good_callA (f : Buf F -> nat -> MF F D (Status * Buf F)) (x : Buf F) (n : nat) : (forall x n, gd (fun r => okerr (fst r)) (f x n)) ->
    good m id fst (bind (call m env (f x n)) (fun r => CALLk m OK (fst r) (snd r) (fun st => ret (st, snd r)))).
  Proof.
    intro H. eapply good_bind; [apply quiet_call, H|]. intros s Hs. apply good_CALLk; auto. now apply good_ret.
  Qed.
  Lemma good_UpdateDiscrete : good m id fst (fmi3UpdateDiscreteStates m env).
  Proof.
    apply good_BEGIN. cbv zeta. destruct (m_eventUpdate m).
    - eapply good_bind; [apply quiet_call, (l_event L)|]. intros s Hs. apply good_CALLk; auto.
      eapply good_bind; [apply quiet_getM|]. intros. now apply good_ret.
    - eapply good_bind; [apply quiet_getM|]. intros. now apply good_ret.
  Qed.
  Lemma good_NewDiscrete p : good m id fst (fmi2NewDiscreteStates m env p).
  Proof.
    apply good_BEGIN2. cbv zeta. destruct (m_eventUpdate m).
    - eapply good_bind; [apply quiet_call, (l_event L)|]. intros s Hs. apply good_CALLk; auto.
      eapply good_bind; [apply quiet_getM|]. intros. destruct p; [now apply good_ret|apply good_ub].
    - eapply good_bind; [apply quiet_getM|]. intros. destruct p; [now apply good_ret|apply good_ub].
  Qed.
  Lemma good_SetTime x : good m (set_time x) fst (fmi3SetTime m env x).
  Proof. apply good_BEGIN. intro i. cbn. auto using logs_ok_nil. Qed.
  Lemma good_SetTime2 x : good m (set_time x) fst (fmi2SetTime m env x).
  Proof. apply good_BEGIN2. intro i. cbn. auto using logs_ok_nil. Qed.
  Lemma good_GetNumber f p : good m id fst (fmi3GetNumber m env f p).
  Proof.
    apply good_BEGIN. eapply good_bind; [apply quiet_getM|]. intros.
    destruct p; [now apply good_ret|apply good_ub].
  Qed.

  (** SetDebugLogging *)
  Definition debug_effect (c : Ctl F) (st : Status) (c' : Ctl F) (t : list (Event F)) : Prop :=
    okerr st /\ (exists ev er, c' = set_logErrors er (set_logEvents ev c)) /\ logs_ok c' t.
  Lemma debug_same c st : okerr st -> debug_effect c st c [].
  Proof.
    intro H. split; auto. split; [exists (logEvents c), (logErrors c); destruct c; reflexivity|].
    apply logs_ok_nil.
  Qed.
  Lemma debug_fail i :
    match bind (logError m env) (fun _ => ret Error) i with
    | Done (st, i', t) => debug_effect (ctl i) st (ctl i') t
    | UB => True
    | NoFuel => False
    end.
  Proof.
    unfold bind. pose proof (@quiet_logError _ m env i) as H.
    destruct (logError m env i) as [[[x i'] t]| |]; auto. cbn. destruct H as (_ & -> & H).
    split; [right; auto|]. split; [exists (logEvents (ctl i)), (logErrors (ctl i)); destruct (ctl i); reflexivity|].
    now rewrite app_nil_r.
  Qed.
  Lemma setDebugLogging_loop_effect on n : forall cats i,
    match setDebugLogging_loop m env on cats n i with
    | Done (st, i', t) => debug_effect (ctl i) st (ctl i') t
    | UB => True
    | NoFuel => False
    end.
  Proof.
    induction n; intros cats i; cbn.
    - apply debug_same. left; auto.
    - destruct cats as [|[c|] cats]; [exact I | | apply debug_fail].
      destruct (streq c s_logEvents).
      + specialize (IHn cats (set_ctl (set_logEvents on (ctl i)) i)).
        unfold bind, modC, modS. destruct (setDebugLogging_loop _ _ _ _ _ _) as [[[x i'] t]| |]; exact IHn.
      + destruct (streq c s_logStatusError); [|apply debug_fail].
        specialize (IHn cats (set_ctl (set_logErrors on (ctl i)) i)).
        unfold bind, modC, modS. destruct (setDebugLogging_loop _ _ _ _ _ _) as [[[x i'] t]| |];
          [|exact I|exact IHn].
        destruct IHn as (O & (ev & er & C) & W). split; auto. split; [exists ev, er; exact C|exact W].
  Qed.
  Lemma setDebugLogging_effect on n cats i :
    match setDebugLogging m env on n cats i with
    | Done (st, i', t) => debug_effect (ctl i) st (ctl i') t
    | UB => True
    | NoFuel => False
    end.
  Proof.
    unfold setDebugLogging. destruct (Nat.ltb 0 n).
    - destruct cats; [apply setDebugLogging_loop_effect|apply debug_fail].
    - cbn. split; [left; auto|]. split; [exists on, on; reflexivity|apply logs_ok_nil].
  Qed.

  (** A gated function on the instance, from what its body does. *)
  Lemma outI_gate3 X mask (x : X) k o s st out s' t :
    outI m (BEGIN m env mask x k) o s = Done (st, out, s', t) ->
    (st = Error /\ ctl (sinst s') = set_mode Terminated (ctl (sinst s)) /\ heap s' = heap s /\
      logs_ok (ctl (sinst s)) t) \/
    (exists y, k (sinst s) = Done ((st, y), sinst s', t) /\ out = o y /\ heap s' = heap s /\
      N.land (bit3 (mode (ctl (sinst s)))) mask <> 0%N).
  Proof.
    unfold outI, outS, onInst, BEGIN, allowedState. unfold bind at 1 2 3. cbn [getC].
    destruct (N.eqb_spec (N.land (bit3 (mode (ctl (sinst s)))) mask) 0) as [E|E].
    - unfold bind at 1. pose proof (@quiet_logError _ m env (sinst s)) as H.
      destruct (logError m env (sinst s)) as [[[u i'] t']| |]; try discriminate.
      destruct H as (_ & C & Lg). cbn. rewrite !app_nil_r. intro H; inversion H; subst; cbn. rewrite C.
      left; auto.
    - cbn. destruct (k (sinst s)) as [[[[st1 y] i1] t1]| |]; try discriminate. cbn.
      rewrite app_nil_r. intro H; inversion H; subst. right. exists y. auto.
  Qed.
  Lemma outI_gate2 X mask (x : X) k o s st out s' t :
    outI m (BEGIN2 m env mask x k) o s = Done (st, out, s', t) ->
    (st = Error /\ ctl (sinst s') = set_mode Terminated (ctl (sinst s)) /\ heap s' = heap s /\
      logs_ok (ctl (sinst s)) t) \/
    (exists y, k (sinst s) = Done ((st, y), sinst s', t) /\ out = o y /\ heap s' = heap s /\
      N.land (bit2 (mode (ctl (sinst s)))) mask <> 0%N).
  Proof.
    unfold outI, outS, onInst, BEGIN2, allowedState2. unfold bind at 1 2 3. cbn [getC].
    destruct (N.eqb_spec (N.land (bit2 (mode (ctl (sinst s)))) mask) 0) as [E|E].
    - unfold bind at 1. pose proof (@quiet_logError _ m env (sinst s)) as H.
      destruct (logError m env (sinst s)) as [[[u i'] t']| |]; try discriminate.
      destruct H as (_ & C & Lg). cbn. rewrite !app_nil_r. intro H; inversion H; subst; cbn. rewrite C.
      left; auto.
    - cbn. destruct (k (sinst s)) as [[[[st1 y] i1] t1]| |]; try discriminate. cbn.
      rewrite app_nil_r. intro H; inversion H; subst. right. exists y. auto.
  Qed.

  Lemma body_debug on n cats i st y i' t :
    bind (setDebugLogging m env on n cats) (fun s => CALLk m OK s tt (fun st => ret (st, tt))) i
      = Done ((st, y), i', t) ->
    (exists ev er, ctl i' = set_mode (mode (ctl i')) (set_logErrors er (set_logEvents ev (ctl i)))) /\
    (st = OK /\ mode (ctl i') = mode (ctl i) \/ st = Error /\ mode (ctl i') = Terminated) /\
    logs_ok (ctl i') t.
  Proof.
    intro H. apply bind_Done in H as (st1 & i1 & t1 & t2 & E1 & E2 & ->).
    pose proof (setDebugLogging_effect on n cats i) as H. rewrite E1 in H.
    destruct H as ([->| ->] & (ev & er & C) & W); cbn in E2; inversion E2; subst; cbn; rewrite C in *;
      cbn; rewrite !app_nil_r.
    - split; [exists ev, er; reflexivity|]. split; [left; auto|]. exact W.
    - split; [exists ev, er; reflexivity|]. split; [right; auto|]. exact W.
  Qed.
End Frame3.
