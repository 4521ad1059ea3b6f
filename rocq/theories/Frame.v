(** Frame.v -- what the framework functions do to the fields of the instance that belong to
    the framework ([Ctl]), for every FMU that satisfies [Laws]. *)

From Coq Require Import List NArith ZArith Bool Arith Lia.
From Verif Require Import Base Instance ModelIface Core Fmi3 Fmi2 Api Logic.
Import ListNotations.
Set Implicit Arguments.

Lemma set_mode_mode F s1 s2 (c : Ctl F) : set_mode s1 (set_mode s2 c) = set_mode s1 c.
Proof. reflexivity. Qed.
Lemma set_mode_same F (c : Ctl F) : set_mode (mode c) c = c.
Proof. destruct c; reflexivity. Qed.

Section Frame.
  Context {F : Type} {NF : Num F} (m : Model F) (env : Env).
  Notation D := (md m).
  Hypothesis L : Laws m.

  (** Leaves [Ctl] alone, logs only as enabled, result in [P]. *)
  Definition quiet {X} (P : X -> Prop) (f : AF F D X) : Prop :=
    forall i, match f i with
              | Done (x, i', t) => P x /\ ctl i' = ctl i /\ logs_ok (ctl i) t
              | UB => True
              | NoFuel => False
              end.

  (** Succeeds after doing [U] to [Ctl], or fails and only sets the mode Terminated. *)
  Definition good {X} (U : Ctl F -> Ctl F) (sel : X -> Status) (f : AF F D X) : Prop :=
    forall i, match f i with
              | Done (x, i', t) =>
                  (sel x = OK /\ ctl i' = U (ctl i) \/ sel x = Error /\ ctl i' = set_mode Terminated (ctl i))
                  /\ logs_ok (ctl i) t
              | UB => True
              | NoFuel => False
              end.

  Lemma logs_ok_ctl (c c' : Ctl F) t :
    logErrors c' = logErrors c -> hasLogger c' = hasLogger c -> logs_ok c' t -> logs_ok c t.
  Proof. unfold logs_ok. intros -> ->. auto. Qed.

  Lemma quiet_ret X (P : X -> Prop) x : P x -> quiet P (ret x).
  Proof. intros H i. cbn. auto using logs_ok_nil. Qed.
  Lemma quiet_ub X (P : X -> Prop) : quiet P ubM.
  Proof. intros i. exact I. Qed.
  Lemma quiet_bind X Y (P : X -> Prop) (Q : Y -> Prop) f k :
    quiet P f -> (forall x, P x -> quiet Q (k x)) -> quiet Q (bind f k).
  Proof.
    intros Hf Hk i. unfold bind. specialize (Hf i). destruct (f i) as [[[x i1] t1]| |]; auto.
    destruct Hf as (Px & E1 & L1). specialize (Hk x Px i1).
    destruct (k x i1) as [[[y i2] t2]| |]; auto. destruct Hk as (Qy & E2 & L2).
    rewrite E1 in E2, L2. split; [exact Qy|]. split; [exact E2|]. now apply logs_ok_app.
  Qed.
  Lemma quiet_weaken X (P Q : X -> Prop) f : (forall x, P x -> Q x) -> quiet P f -> quiet Q f.
  Proof.
    intros H Hf i. specialize (Hf i). destruct (f i) as [[[x i1] t1]| |]; auto. intuition.
  Qed.
  Lemma quiet_true X (P : X -> Prop) f : quiet P f -> quiet (fun _ => True) f.
  Proof. apply quiet_weaken; auto. Qed.
  Lemma quiet_call X (P : X -> Prop) f : gd P f -> quiet P (call m env f).
  Proof.
    intros H i. unfold call. specialize (H env (ctl i) (mut i)).
    destruct (f env (ctl i) (mut i)) as [[[x u] t]| |]; auto. destruct H. split; [assumption|]. split; [reflexivity|assumption].
  Qed.
  Lemma quiet_logError : quiet (fun _ => True) (logError m env).
  Proof. apply quiet_call, gd_log. Qed.
  Lemma quiet_getC : quiet (fun _ => True) (getC m).
  Proof. intros i. cbn. auto using logs_ok_nil. Qed.
  Lemma quiet_getM : quiet (fun _ => True) (getM m).
  Proof. intros i. cbn. auto using logs_ok_nil. Qed.
  Lemma quiet_getSol : quiet (fun _ => True) (getSol m).
  Proof. intros i. cbn. auto using logs_ok_nil. Qed.
  Lemma quiet_modM f : quiet (fun _ => True) (modM m f).
  Proof. intros i. cbn. auto using logs_ok_nil. Qed.
  Lemma quiet_modSol f : quiet (fun _ => True) (modSol m f).
  Proof. intros i. cbn. auto using logs_ok_nil. Qed.
  Lemma quiet_rd T (b : Buf T) i : quiet (fun _ => True) (rd b i).
  Proof.
    intros s. unfold rd. destruct b as [l|]; cbn; auto.
    destruct (nth_error l i); cbn; auto using logs_ok_nil.
  Qed.
  Lemma quiet_wr T (b : Buf T) i v : quiet (fun _ => True) (wr b i v).
  Proof.
    intros s. unfold wr. destruct b as [l|]; [|exact I].
    destruct (Nat.ltb i (length l)); [|exact I]. cbn; auto using logs_ok_nil.
  Qed.
  Lemma quiet_tell e : log_event e = false -> quiet (fun _ => True) (tell e).
  Proof. intros H i. cbn. split; [exact I|]. split; [reflexivity|]. intros x [<-|[]] Hx. congruence. Qed.

  Notation id := (fun c : Ctl F => c).

  Lemma good_ret X U sel (x : X) : sel x = OK -> U = id -> good U sel (ret x).
  Proof. intros H -> i. cbn. auto using logs_ok_nil. Qed.
  Lemma good_ub X U (sel : X -> Status) : good U sel ubM.
  Proof. intros i. exact I. Qed.
  Lemma good_bind X Y (P : X -> Prop) U (sel : Y -> Status) f k :
    quiet P f -> (forall x, P x -> good U sel (k x)) -> good U sel (bind f k).
  Proof.
    intros Hf Hk i. unfold bind. specialize (Hf i). destruct (f i) as [[[x i1] t1]| |]; auto.
    destruct Hf as (Px & E1 & L1). specialize (Hk x Px i1).
    destruct (k x i1) as [[[y i2] t2]| |]; auto. destruct Hk as (Qy & L2).
    rewrite E1 in Qy, L2. auto using logs_ok_app.
  Qed.
  (** a good [f] followed by a continuation that keeps failures *)
  Lemma good_bind2 X Y U (sel : Y -> Status) (sel1 : X -> Status) f k :
    good id sel1 f ->
    (forall x, sel1 x = OK -> good U sel (k x)) ->
    (forall x, sel1 x = Error -> quiet (fun y => sel y = Error) (k x)) ->
    good U sel (bind f k).
  Proof.
    intros Hf Hk He i. unfold bind. specialize (Hf i). destruct (f i) as [[[x i1] t1]| |]; auto.
    destruct Hf as ([[E1 C1]|[E1 C1]] & L1).
    - specialize (Hk x E1 i1). destruct (k x i1) as [[[y i2] t2]| |]; auto.
      destruct Hk as (Qy & L2). rewrite C1 in Qy, L2. auto using logs_ok_app.
    - specialize (He x E1 i1). destruct (k x i1) as [[[y i2] t2]| |]; auto.
      destruct He as (Qy & E2 & L2). rewrite C1 in E2, L2. split; [right; auto|].
      apply logs_ok_app; auto.
  Qed.
  Lemma good_ext X U U' (sel : X -> Status) f : (forall c, U c = U' c) -> good U sel f -> good U' sel f.
  Proof.
    intros H Hf i. specialize (Hf i). destruct (f i) as [[[x i1] t1]| |]; auto. rewrite <- H. auto.
  Qed.
  Lemma good_modC X U g (sel : X -> Status) k :
    (forall c, set_mode Terminated (g c) = set_mode Terminated c) ->
    (forall c, logErrors (g c) = logErrors c /\ hasLogger (g c) = hasLogger c) ->
    good U sel k -> good (fun c => U (g c)) sel (bind (modC m g) (fun _ => k)).
  Proof.
    intros HT HL Hk i. unfold bind. cbn. specialize (Hk (set_ctl (g (ctl i)) i)).
    destruct (k (set_ctl (g (ctl i)) i)) as [[[y i2] t2]| |]; auto. cbn in Hk.
    destruct Hk as (Qy & L2). rewrite HT in Qy. split; auto.
    destruct (HL (ctl i)). eapply logs_ok_ctl; eauto.
  Qed.

  Lemma good_CALLk X U s (x : X) k :
    okerr s -> good U fst (k OK) -> good U fst (CALLk m OK s x k).
  Proof.
    intros [->| ->] Hk i.
    - unfold CALLk, CALL, bind. cbn. specialize (Hk i).
      destruct (k OK i) as [[[y i2] t2]| |]; auto.
    - cbn. split; auto. auto using logs_ok_nil.
  Qed.
  Lemma good_CALL s : okerr s -> good id (fun x => x) (CALL m OK s).
  Proof.
    intros [->| ->] i; cbn; auto using logs_ok_nil.
  Qed.
  (** [let* st' := CALL st s in if stops st' then a else b] *)
  Lemma good_CALLif X U (sel : X -> Status) s a b :
    okerr s -> quiet (fun x => sel x = Error) (a Error) -> good U sel (b OK) ->
    good U sel (bind (CALL m OK s) (fun st => if stops st then a st else b st)).
  Proof.
    intros Hs Ha Hb. eapply good_bind2; [apply good_CALL, Hs| |]; intros ? ->; cbn; auto.
  Qed.
  Lemma good_BEGIN X U mask (x : X) k : good U fst k -> good U fst (BEGIN m env mask x k).
  Proof.
    intros Hk. unfold BEGIN, allowedState.
    intros i. unfold bind at 1 2. cbn [getC].
    destruct (N.eqb (N.land (bit3 (mode (ctl i))) mask) 0).
    - pose proof (quiet_logError i) as HL. unfold bind at 1.
      destruct (logError m env i) as [[[y i1] t1]| |]; auto. cbn.
      destruct HL as (_ & E & HL). rewrite E, ?app_nil_r. auto.
    - cbn. specialize (Hk i). destruct (k i) as [[[y i2] t2]| |]; auto.
  Qed.
  Lemma good_BEGIN2 X U mask (x : X) k : good U fst k -> good U fst (BEGIN2 m env mask x k).
  Proof.
    intros Hk. unfold BEGIN2, allowedState2.
    intros i. unfold bind at 1 2. cbn [getC].
    destruct (N.eqb (N.land (bit2 (mode (ctl i))) mask) 0).
    - pose proof (quiet_logError i) as HL. unfold bind at 1.
      destruct (logError m env i) as [[[y i1] t1]| |]; auto. cbn.
      destruct HL as (_ & E & HL). rewrite E, ?app_nil_r. auto.
    - cbn. specialize (Hk i). destruct (k i) as [[[y i2] t2]| |]; auto.
  Qed.
  Lemma good_ASSERT T X U (p : option T) (x : X) k :
    good U fst k -> good U fst (ASSERT_NOT_NULL m env p x k).
  Proof.
    intros Hk. unfold ASSERT_NOT_NULL. destruct p; auto.
    intros i. pose proof (quiet_logError i) as HL. unfold bind at 1.
    destruct (logError m env i) as [[[y i1] t1]| |]; auto. cbn.
    destruct HL as (_ & E & HL). rewrite E, app_nil_r. auto.
  Qed.
  Lemma good_refresh X U (x : X) k : good U fst (k OK) -> good U fst (refresh m env OK x k).
  Proof.
    intro Hk. unfold refresh. eapply good_bind; [apply quiet_getM|]. intros u _.
    destruct (dirty u); auto. eapply good_bind; [apply quiet_call, (l_calc L)|].
    intros s Hs. apply good_CALLk; auto. eapply good_bind; [apply quiet_modM|]. auto.
  Qed.
  Lemma good_failE X U (x : X) : good U fst (bind (logError m env) (fun _ => CALLk m OK Error x (fun st => ret (st, x)))).
  Proof.
    eapply good_bind; [apply quiet_logError|]. intros _ _ i. cbn. split; auto using logs_ok_nil.
  Qed.

  Lemma good_get_loop t n : forall vrs v nv i,
    good id (fun r => fst (fst r)) (get_loop m env t vrs n v nv i OK).
  Proof.
    induction n; intros; cbn.
    - apply good_ret; auto.
    - destruct vrs as [|vr vrs]; [apply good_ub|].
      eapply good_bind; [apply quiet_call, (l_get L)|]. intros [[s v'] i'] Hs.
      apply (@good_CALLif _ id (fun r => fst (fst r)) s (fun st => ret (st, v', i'))
               (fun st => get_loop m env t vrs n v' nv i' st)); auto.
      now apply quiet_ret.
  Qed.
  Lemma good_set_loop t n : forall vrs v nv i,
    good id (fun r => fst r) (set_loop m env t vrs n v nv i OK).
  Proof.
    induction n; intros; cbn.
    - apply good_ret; auto.
    - destruct vrs as [|vr vrs]; [apply good_ub|].
      eapply good_bind; [apply quiet_call, (l_set L)|]. intros [s i'] Hs.
      apply (@good_CALLif _ id fst s (fun st => ret (st, i'))
               (fun st => set_loop m env t vrs n v nv i' st)); auto.
      now apply quiet_ret.
  Qed.
  Lemma good_setBinary_loop n : forall vrs s v nv i,
    good id (fun r => fst r) (setBinary_loop m env vrs n s v nv i OK).
  Proof.
    induction n; intros; cbn.
    - apply good_ret; auto.
    - destruct vrs as [|vr vrs]; [apply good_ub|].
      eapply good_bind; [apply quiet_call, (l_setBinary L)|]. intros [s0 i'] Hs.
      apply (@good_CALLif _ id fst s0 (fun st => ret (st, i'))
               (fun st => setBinary_loop m env vrs n s v nv i' st)); auto.
      now apply quiet_ret.
  Qed.
  Lemma good_getBinary_loop n : forall vrs s v nv i,
    good id fst (getBinary_loop m env vrs n s v nv i OK).
  Proof.
    induction n; intros; cbn.
    - apply good_ret; auto.
    - destruct vrs as [|vr vrs]; [apply good_ub|].
      eapply good_bind; [apply quiet_call, (l_getBinary L)|]. intros [[[s0 s'] v'] i'] Hs.
      apply good_CALLk; auto.
  Qed.
  Lemma good_getClock_loop n : forall vrs i v, good id fst (getClock_loop m env vrs n i v OK).
  Proof.
    induction n; intros; cbn.
    - apply good_ret; auto.
    - eapply good_bind; [apply quiet_rd|]. intros vr _.
      eapply good_bind; [apply quiet_call, (l_getClock L)|]. intros r Hr.
      eapply (@good_bind _ _ (fun _ => True)).
      { destruct (snd r); [apply quiet_wr | now apply quiet_ret]. }
      intros v' _. apply good_CALLk; auto.
  Qed.
  Lemma good_setClock_loop n : forall vrs i v, good id fst (setClock_loop m env vrs n i v OK).
  Proof.
    induction n; intros; cbn.
    - apply good_ret; auto.
    - eapply good_bind; [apply quiet_rd|]. intros b _. destruct b; auto.
      eapply good_bind; [apply quiet_rd|]. intros vr _.
      eapply good_bind; [apply quiet_call, (l_activateClock L)|]. intros r Hr.
      apply good_CALLk; auto.
  Qed.
  Lemma good_interval_loop n : forall vrs i v q, good id fst (interval_loop m env vrs n i v q OK).
  Proof.
    induction n; intros; cbn.
    - apply good_ret; auto.
    - eapply good_bind; [apply quiet_rd|]. intros vr _.
      eapply good_bind; [apply quiet_call, (l_getInterval L)|]. intros [[s iv] qv] Hr.
      eapply (@good_bind _ _ (fun _ => True)).
      { destruct iv; [apply quiet_wr | now apply quiet_ret]. }
      intros v' _.
      eapply (@good_bind _ _ (fun _ => True)).
      { destruct qv; [apply quiet_wr | now apply quiet_ret]. }
      intros q' _. apply good_CALLk; auto.
  Qed.
  Lemma good_deriv_row pd others n :
    (forall o, gd (fun r => okerr (fst r)) (pd o)) ->
    forall j seed acc, good id fst (deriv_row m env pd others n j seed acc OK).
  Proof.
    intro Hpd. induction n; intros; cbn.
    - apply good_ret; auto.
    - eapply good_bind; [apply quiet_rd|]. intros o _.
      eapply good_bind; [apply quiet_call, Hpd|]. intros r Hr.
      apply (@good_CALLif _ id fst (fst r) (fun st => ret (st, acc))
               (fun st => bind (rd seed j) (fun w =>
                  deriv_row m env pd others n (S j) seed (nadd acc (nmul (snd r) w)) st))); auto.
      + now apply quiet_ret.
      + eapply good_bind; [apply quiet_rd|]. auto.
  Qed.
  Lemma good_deriv_rows pd n :
    (forall r o, gd (fun r => okerr (fst r)) (pd r o)) ->
    forall rows i others no seed sens, good id fst (deriv_rows m env pd rows n i others no seed sens OK).
  Proof.
    intro Hpd. induction n; intros; cbn.
    - apply good_ret; auto.
    - eapply good_bind; [apply quiet_wr|]. intros s1 _.
      destruct (Nat.eqb no 0); auto.
      eapply good_bind; [apply quiet_rd|]. intros r _.
      eapply good_bind2; [apply good_deriv_row, Hpd| |]; intros [st acc] Hst; cbn in Hst; subst st.
      + eapply good_bind; [apply quiet_wr|]. intros s2 _. cbn. auto.
      + eapply quiet_bind; [apply quiet_wr|]. intros s2 _. cbn. now apply quiet_ret.
  Qed.
  Lemma good_outputDerivative_loop n : forall vrs i o v, good id fst (outputDerivative_loop m env vrs n i o v OK).
  Proof.
    induction n; intros; cbn.
    - apply good_ret; auto.
    - eapply good_bind; [apply quiet_rd|]. intros vr _.
      eapply good_bind; [apply quiet_rd|]. intros od _.
      destruct (isNull v && negb (Nat.eqb i 0)); [apply good_ub|].
      eapply good_bind; [apply quiet_call, (l_outDeriv L)|]. intros r Hr.
      eapply (@good_bind _ _ (fun _ => True)).
      { destruct (snd r); [apply quiet_wr | now apply quiet_ret]. }
      intros v' _. apply good_CALLk; auto.
  Qed.
  Lemma good_getBoolean_loop n : forall vrs i nvr v, good id fst (getBoolean_loop m env vrs n i nvr v OK).
  Proof.
    induction n; intros; cbn.
    - apply good_ret; auto.
    - eapply good_bind; [apply quiet_rd|]. intros vr _.
      eapply good_bind; [apply quiet_call, (l_get L TBoolean)|]. intros [[s b] j] Hr.
      apply good_CALLk; auto.
      eapply good_bind; [apply quiet_rd|]. intros b' _.
      eapply good_bind; [apply quiet_wr|]. auto.
  Qed.
  Lemma good_setBoolean_loop n : forall vrs i nvr v, good id fst (setBoolean_loop m env vrs n i nvr v OK).
  Proof.
    induction n; intros; cbn.
    - apply good_ret; auto.
    - eapply good_bind; [apply quiet_rd|]. intros b _.
      eapply good_bind; [apply quiet_rd|]. intros vr _.
      eapply good_bind; [apply quiet_call, (l_set L TBoolean)|]. intros r Hr.
      apply good_CALLk; auto.
  Qed.

  Lemma quiet_configurate : quiet okerr (configurate m env).
  Proof.
    unfold configurate, CALLc. apply quiet_bind with (P := okerr).
    - unfold configurate_z. destruct (Nat.ltb 0 (m_maxZ m)); [|apply quiet_ret; left; auto].
      eapply quiet_bind; [apply quiet_getM|]. intros u _.
      eapply quiet_bind; [apply quiet_modSol|]. intros _ _.
      eapply quiet_bind; [apply quiet_getSol|]. intros s _.
      eapply quiet_bind; [apply quiet_call, (l_indicators L)|]. intros r Hr.
      destruct (snd r); [|apply quiet_ub].
      eapply quiet_bind; [apply quiet_modSol|]. intros _ _. now apply quiet_ret.
    - intros s Hs. destruct Hs as [->| ->]; [|apply quiet_ret; right; auto].
      unfold configurate_x. eapply (@quiet_bind _ _ (fun _ => True)).
      + destruct (Nat.ltb 0 (m_maxX m)); [|apply quiet_ret; auto].
        eapply quiet_bind; [apply quiet_getM|]. intros u _. apply quiet_modSol.
      + intros _ _. apply quiet_ret. left; auto.
  Qed.
End Frame.
