(** SafeApi.v -- no call of the API that keeps the contract is undefined, for every model whose own
    functions are not (C26). *)
From Coq Require Import List NArith ZArith Bool Arith Lia.
From Verif Require Import Base Instance ModelIface Core Fmi3 Fmi2 Api Logic Calls SpecSafe Safe SafeCalls.
Import ListNotations.
Set Implicit Arguments.

Lemma enough_blen T n (b : Buf T) : enough n b -> n <= blen b.
Proof. destruct b; cbn; lia. Qed.
Lemma enough_given T n (b : Buf T) : enough_or_null n b -> b <> None -> n <= blen b.
Proof. destruct b; cbn; [auto|congruence]. Qed.
Lemma or_null T n (b : Buf T) : n <= blen b -> enough_or_null n b.
Proof. destruct b; cbn; auto. Qed.
Lemma not_stopped s st' : st' = smax OK s -> stops st' = false -> s = OK \/ s = Error -> s = OK /\ st' = OK.
Proof. intros -> H [-> | ->]; [auto|discriminate]. Qed.

Section Api.
  Context {F : Type} {NF : Num F} (m : Model F) (szof : N).
  Notation D := (md m).
  Variable W : option bytes -> Mut F D -> Prop.
  Variable room : Mut F D -> Prop.
  Variable one : VType -> Prop.
  Variable part : N -> F -> Ctl F -> Mut F D -> Prop.
  Hypothesis L : SafeLaws m W room one part.
  Hypothesis ONE : forall t, one t -> t <> TFloat64.

  Section Pres.
  Variable l : option bytes.
  Variable v : bool.
  Notation J0 := (fun _ : Mut F D => True).
  Notation pr := (@pres F m W l v J0 _).
  Notation prA := (@pres F m W l v J0 _ anyr).
  Lemma J0R : forall u u' : Mut F D, same_room m room u u' -> J0 u -> J0 u'. Proof. auto. Qed.
  Lemma J0D : forall (u : Mut F D) (b : bool), J0 u -> J0 (set_dirty b u). Proof. auto. Qed.
  Lemma a_ret X (x : X) : prA (ret x). Proof. apply p_ret. exact I. Qed.
  Lemma a_CALLk X st s (x : X) k : (forall st', st' = smax st s -> stops st' = false -> prA (k st')) -> prA (CALLk m st s x k).
  Proof. intro H. apply p_CALLk; [intros; exact I|exact H]. Qed.
  Lemma a_call X env (f : MF F D X) : (forall c u, W (resourceLocation c) u -> msafe (fun _ => W (resourceLocation c)) f env c u) -> prA (call m env f).
  Proof.
    intro H. apply p_call. intros c u <- A _. eapply ms_conseq; [apply (H c u A)|]. intros x s R. split; [split; [exact R|exact I]|exact I].
  Qed.
  Lemma a_dirty b : pr (fun _ => True) (modM m (set_dirty b)).
  Proof. eapply p_dirty; [exact L|]. auto. Qed.
  Lemma a_refresh env X st (x : X) k : (forall st', prA (k st')) -> prA (refresh m env st x k).
  Proof.
    intro H. unfold refresh. eapply p_bind; [apply p_getM|]. intros u _. destruct (dirty u); [|apply H].
    eapply p_bind; [apply a_call; intros c u' A; now apply (sf_calc L)|]. intros s _. apply a_CALLk. intros st' _ _.
    eapply p_bind; [apply a_dirty|]. intros; apply H.
  Qed.

  Lemma a_get_loop env t nv : forall n vrs b ix st, n <= length vrs -> nv <= blen b -> prA (get_loop m env t vrs n b nv ix st).
  Proof.
    induction n as [|n IH]; intros vrs b ix st A B; cbn [get_loop]; [apply a_ret|].
    destruct vrs as [|vr vrs]; cbn [length] in A; [lia|].
    eapply p_bind with (Q1 := fun r : GetRes (val F t) => shape b (snd (fst r))).
    { apply p_call. intros c u <- A' _. eapply ms_conseq; [apply (sf_get L); [exact B|exact A']|]. intros r u' [H1 H2]. auto. }
    intros [[s b'] ix'] S. cbn [fst snd] in S. eapply p_bind; [apply p_CALL|]. intros st' _. destruct (stops st'); [apply a_ret|].
    apply IH; [lia|]. rewrite (shape_blen _ _ S). exact B.
  Qed.
  Lemma a_set_loop env t nv b : nv <= blen b -> strings_given t b -> forall n vrs ix, n <= length vrs -> (one t -> ix + n <= nv) ->
    prA (set_loop m env t vrs n b nv ix OK).
  Proof.
    intros B Sb. induction n as [|n IH]; intros vrs ix A O; cbn [set_loop]; [apply a_ret|].
    destruct vrs as [|vr vrs]; cbn [length] in A; [lia|].
    eapply p_bind with (Q1 := fun r : SetRes => (fst r = OK \/ fst r = Error) /\ (fst r = OK -> one t -> snd r = S ix)).
    { apply p_call. intros c u <- A' _. eapply ms_conseq; [apply (sf_set L); [exact B|exact Sb| |exact A']|].
      - intro o. specialize (O o). lia.
      - intros r u' (H1 & H2 & H3). auto. }
    intros [s ix'] [S1 S]. cbn [fst snd] in S1, S. eapply p_bind; [apply p_CALL|]. intros st' E. destruct (stops st') eqn:Es; [apply a_ret|].
    destruct (not_stopped E Es S1) as [E1 ->]. apply IH; [lia|]. intro o. rewrite (S E1 o). specialize (O o). lia.
  Qed.
  Lemma a_bin_loop env nv : forall n vrs z b ix st, n <= length vrs -> nv <= blen z -> nv <= blen b -> prA (getBinary_loop m env vrs n z b nv ix st).
  Proof.
    induction n as [|n IH]; intros vrs z b ix st A B B'; cbn [getBinary_loop]; [apply a_ret|].
    destruct vrs as [|vr vrs]; cbn [length] in A; [lia|].
    eapply p_bind with (Q1 := fun r : Status * Buf nat * Buf bytes * nat => shape z (snd (fst (fst r))) /\ shape b (snd (fst r))).
    { apply p_call. intros c u <- A' _. eapply ms_conseq; [apply (sf_bin L); [exact B|exact B'|exact A']|]. intros r u' [H1 H2]. auto. }
    intros [[[s z'] b'] ix'] [S1 S2]. cbn [fst snd] in S1, S2. apply a_CALLk. intros st' _ _.
    apply IH; [lia| |]; [rewrite (shape_blen _ _ S1)|rewrite (shape_blen _ _ S2)]; auto.
  Qed.
  Lemma a_setBin_loop env nv z b : nv <= blen z -> nv <= blen b -> binaries_given z b -> forall n vrs ix, n <= length vrs -> ix + n <= nv ->
    prA (setBinary_loop m env vrs n z b nv ix OK).
  Proof.
    intros B B' G. induction n as [|n IH]; intros vrs ix A O; cbn [setBinary_loop]; [apply a_ret|].
    destruct vrs as [|vr vrs]; cbn [length] in A; [lia|].
    eapply p_bind with (Q1 := fun r : SetRes => (fst r = OK \/ fst r = Error) /\ (fst r = OK -> snd r = S ix)).
    { apply p_call. intros c u <- A' _. eapply ms_conseq; [apply (sf_setBin L); [exact B|exact B'|exact G|lia|exact A']|].
      intros r u' (H1 & H2 & H3). auto. }
    intros [s ix'] [S1 S]. cbn [fst snd] in S1, S. eapply p_bind; [apply p_CALL|]. intros st' E. destruct (stops st') eqn:Es; [apply a_ret|].
    destruct (not_stopped E Es S1) as [E1 ->]. apply IH; [lia|]. rewrite (S E1). lia.
  Qed.
  Lemma a_opt T (o : option T) (b : Buf T) i : i < blen b -> pr (shape b) (match o with Some w => wr b i w | None => ret b end).
  Proof. intro H. destruct o; [now apply p_wr|apply p_ret, shape_refl]. Qed.
  Lemma a_clock_loop env vrs : forall n i b st, i + n <= blen vrs -> i + n <= blen b -> prA (getClock_loop m env vrs n i b st).
  Proof.
    induction n as [|n IH]; intros i b st A B; cbn [getClock_loop]; [apply a_ret|].
    eapply p_bind; [apply p_rd; lia|]. intros vr _. eapply p_bind; [apply a_call; intros; now apply (sf_clock L)|]. intros r _.
    eapply p_bind; [apply a_opt; lia|]. intros b' S. apply a_CALLk. intros st' _ _. apply IH; [lia|]. rewrite (shape_blen _ _ S). lia.
  Qed.
  Lemma a_setClock_loop env vrs b : forall n i st, i + n <= blen vrs -> i + n <= blen b -> prA (setClock_loop m env vrs n i b st).
  Proof.
    induction n as [|n IH]; intros i st A B; cbn [setClock_loop]; [apply a_ret|].
    eapply p_bind; [apply p_rd; lia|]. intros w _. destruct w; [|apply IH; lia].
    eapply p_bind; [apply p_rd; lia|]. intros vr _. eapply p_bind; [apply a_call; intros; now apply (sf_activate L)|]. intros r _.
    apply a_CALLk. intros st' _ _. apply IH; lia.
  Qed.
  Lemma a_interval_loop env vrs : forall n i b q st, i + n <= blen vrs -> i + n <= blen b -> i + n <= blen q -> prA (interval_loop m env vrs n i b q st).
  Proof.
    induction n as [|n IH]; intros i b q st A B C; cbn [interval_loop]; [apply a_ret|].
    eapply p_bind; [apply p_rd; lia|]. intros vr _. eapply p_bind; [apply a_call; intros; now apply (sf_interval L)|]. intros [[s iv] qu] _.
    eapply p_bind; [apply a_opt; lia|]. intros b' S. eapply p_bind; [apply a_opt; lia|]. intros q' S'.
    apply a_CALLk. intros st' _ _. apply IH; [lia| |]; [rewrite (shape_blen _ _ S)|rewrite (shape_blen _ _ S')]; lia.
  Qed.
  Lemma a_row env pd others seed : (forall o c u, W (resourceLocation c) u -> msafe (fun _ => W (resourceLocation c)) (pd o) env c u) ->
    forall n j acc st, j + n <= blen others -> j + n <= blen seed -> prA (deriv_row m env pd others n j seed acc st).
  Proof.
    intro G. induction n as [|n IH]; intros j acc st A B; cbn [deriv_row]; [apply a_ret|].
    eapply p_bind; [apply p_rd; lia|]. intros o _. eapply p_bind; [apply a_call, G|]. intros r _.
    eapply p_bind; [apply p_CALL|]. intros st' _. destruct (stops st'); [apply a_ret|].
    eapply p_bind; [apply p_rd; lia|]. intros w _. apply IH; lia.
  Qed.
  Lemma a_rows env pd rows others nO seed : (forall r o c u, W (resourceLocation c) u -> msafe (fun _ => W (resourceLocation c)) (pd r o) env c u) ->
    nO <= blen others -> nO <= blen seed ->
    forall n i sens st, i + n <= blen rows -> i + n <= blen sens -> prA (deriv_rows m env pd rows n i others nO seed sens st).
  Proof.
    intros G O1 O2. induction n as [|n IH]; intros i sens st A B; cbn [deriv_rows]; [apply a_ret|].
    eapply p_bind; [apply p_wr; lia|]. intros s1 S1. apply shape_blen in S1.
    destruct (Nat.eqb nO 0); [apply IH; lia|].
    eapply p_bind; [apply p_rd; lia|]. intros r _. eapply p_bind; [apply a_row; [apply G| |]; lia|]. intros [st' acc] _.
    eapply p_bind; [apply p_wr; lia|]. intros s2 S2. apply shape_blen in S2.
    destruct (stops st'); [apply a_ret|]. apply IH; lia.
  Qed.
  Lemma a_output_loop env vrs orders : m_outputDerivative m = true -> forall n i b st, i + n <= blen vrs -> i + n <= blen orders -> i + n <= blen b ->
    prA (outputDerivative_loop m env vrs n i orders b st).
  Proof.
    intro G. induction n as [|n IH]; intros i b st A B C; cbn [outputDerivative_loop]; [apply a_ret|].
    eapply p_bind; [apply p_rd; lia|]. intros vr _. eapply p_bind; [apply p_rd; lia|]. intros o _.
    assert (N : isNull b = false) by (destruct b; [reflexivity|cbn in C; lia]). rewrite N. cbn [andb].
    eapply p_bind; [apply a_call; intros; now apply (sf_output L G)|]. intros r _.
    eapply p_bind; [apply a_opt; lia|]. intros b' S. apply a_CALLk. intros st' _ _. apply IH; [lia|lia|]. rewrite (shape_blen _ _ S). lia.
  Qed.
  Lemma a_getBoolean_loop env vrs nvr : forall n i b st, i + n <= blen vrs -> i + n <= blen b -> prA (getBoolean_loop m env vrs n i nvr b st).
  Proof.
    induction n as [|n IH]; intros i b st A B; cbn [getBoolean_loop]; [apply a_ret|].
    eapply p_bind; [apply p_rd; lia|]. intros vr _.
    eapply p_bind with (Q1 := fun r : GetRes bool => shape (Some [false]) (snd (fst r))).
    { apply p_call. intros c u <- A' _. eapply ms_conseq; [apply (sf_get1 L); exact A'|]. intros r u' [H1 H2]. auto. }
    intros [[s w] ix'] S. cbn [fst snd] in S. apply shape_blen in S. change (blen (Some [false])) with 1 in S. apply a_CALLk. intros st' _ _.
    eapply p_bind; [apply p_rd; cbn [val]; lia|]. intros x _. eapply p_bind; [apply p_wr; lia|]. intros b' S'. apply shape_blen in S'. apply IH; lia.
  Qed.
  Lemma a_setBoolean_loop env vrs nvr b : forall n i st, i + n <= blen vrs -> i + n <= blen b -> prA (setBoolean_loop m env vrs n i nvr b st).
  Proof.
    induction n as [|n IH]; intros i st A B; cbn [setBoolean_loop]; [apply a_ret|].
    eapply p_bind; [apply p_rd; lia|]. intros x _. eapply p_bind; [apply p_rd; lia|]. intros vr _.
    eapply p_bind; [apply a_call; intros; now apply (sf_set1 L)|]. intros r _. apply a_CALLk. intros st' _ _. apply IH; lia.
  Qed.
  Lemma a_debug_loop env on : forall n cats, n <= length cats -> prA (setDebugLogging_loop m env on cats n).
  Proof.
    induction n as [|n IH]; intros cats A; cbn [setDebugLogging_loop]; [apply a_ret|].
    destruct cats as [|[c|] cats]; cbn [length] in A; [lia| |eapply p_bind; [apply p_log|intros; apply a_ret]].
    destruct (streq c s_logEvents); [eapply p_bind; [apply p_modC; intro; split; reflexivity|intros; apply IH; lia]|].
    destruct (streq c s_logStatusError); [eapply p_bind; [apply p_modC; intro; split; reflexivity|intros; apply IH; lia]|].
    eapply p_bind; [apply p_log|intros; apply a_ret].
  Qed.
  Lemma a_reset env : prA (reset m env).
  Proof.
    unfold reset. repeat (eapply p_bind; [first [apply p_setMode|apply p_modC; intro; split; reflexivity]|intros _ _]).
    eapply p_bind; [apply a_call; intros; now apply (sf_start L)|intros _ _]. eapply p_bind; [apply a_dirty|intros _ _]. apply a_ret.
  Qed.
  Lemma a_configurate env : prA (configurate m env).
  Proof. exact (p_configurate L J0R env). Qed.
  Lemma a_filled env f b n :
    (forall e c u, enough_or_null n b -> W (resourceLocation c) u ->
      msafe (filled (fun u' => W (resourceLocation c) u' /\ same_room m room u u') b) (f b n) e c u) ->
    enough_or_null n b -> prA (call m env (f b n)).
  Proof. intros H B. eapply p_conseq; [apply (p_filled (room := room)); [exact J0R|exact H|exact B]|]. intros; exact I. Qed.
  Lemma a_ended env b n : enough_or_null n b -> prA (call m env (m_setContinuousStates m b n)).
  Proof. intros B. eapply p_conseq; [apply (p_ended L); [exact J0R|exact B]|]. intros; exact I. Qed.
  Lemma a_part env vr t i : ok m W l v J0 i -> part vr t (ctl i) (mut i) -> safe (fun _ _ => True) (call m env (m_activateModelPartition m vr t) i).
  Proof.
    intros (A & B & C & E & G) P. assert (S : msafe (fun _ _ => True) (m_activateModelPartition m vr t) env (ctl i) (mut i)).
    { apply (sf_part L); [now rewrite A|exact P]. }
    unfold msafe in S. unfold call. destruct (m_activateModelPartition m vr t env (ctl i) (mut i)) as [[[x u] tr]| |]; auto.
  Qed.

  (** *** DoStep *)
  Definition hoare (J J' : Mut F D -> Prop) {X} (Q : X -> Prop) (f : AF F D X) : Prop :=
    forall i, ok m W l v J i -> safe (fun x i' => ok m W l v J' i' /\ Q x) (f i).
  Lemma ok_weak (J J' : Mut F D -> Prop) i : (forall u, W l u -> J u -> J' u) -> ok m W l v J i -> ok m W l v J' i.
  Proof. intros H (A & B & C & E & G). unfold ok. auto 10. Qed.
  Lemma h_bind (J J1 J2 : Mut F D -> Prop) X Y (Q1 : X -> Prop) (Q : Y -> Prop) f k : hoare J J1 Q1 f -> (forall x, Q1 x -> hoare J1 J2 Q (k x)) -> hoare J J2 Q (bind f k).
  Proof. intros H K i I. apply safe_bind. eapply safe_conseq; [apply H, I|]. intros x s [A B]. now apply K. Qed.
  Lemma h_of (J : Mut F D -> Prop) X (Q : X -> Prop) f : @pres F m W l v J X Q f -> hoare J J Q f.
  Proof. intro H. exact H. Qed.
  Lemma h_done J X (x : X) : hoare J J0 anyr (ret x).
  Proof. intros i I. cbn. split; [|exact Logic.I]. eapply ok_weak; [|exact I]. auto. Qed.
  Lemma h_pre (J1 J J' : Mut F D -> Prop) X (Q : X -> Prop) f : (forall u, W l u -> J1 u -> J u) -> hoare J J' Q f -> hoare J1 J' Q f.
  Proof. intros H K i I. apply K. eapply ok_weak; eauto. Qed.
  Definition JB (u : Mut F D) : Prop := terminateSimulation u = false -> room u.
  Definition JX (u : Mut F D) : Prop := JB u /\ (v = false -> room u).
  Lemma roomR u u' : same_room m room u u' -> room u -> room u'.
  Proof. intros [_ H]. exact H. Qed.
  Lemma JBR u u' : same_room m room u u' -> JB u -> JB u'.
  Proof. intros [E H] K T. apply H, K. congruence. Qed.
  Lemma JXR u u' : same_room m room u u' -> JX u -> JX u'.
  Proof. intros R [A B]. split; [eapply JBR; eauto|]. intro V. eapply roomR; eauto. Qed.
  Lemma h_event env : m_eventUpdate m = true -> hoare room JB (fun s => s = OK \/ s = Error) (call m env (m_eventUpdateF m)).
  Proof.
    intros G i (A & B & C & E & S).
    assert (H : msafe (fun s u' => (W (resourceLocation (ctl i)) u' /\ (terminateSimulation u' = false -> room u')) /\ (s = OK \/ s = Error)) (m_eventUpdateF m) env (ctl i) (mut i)).
    { apply (sf_event L G); [now rewrite A|exact E]. }
    unfold msafe in H. unfold call. destruct (m_eventUpdateF m env (ctl i) (mut i)) as [[[x u] t]| |]; cbn in *; auto.
    destruct H as [[H1 H2] H3]. rewrite A in H1. unfold ok; cbn. auto 8.
  Qed.
  Lemma h_rest X (a b : AF F D X) : hoare JB J0 anyr a -> hoare room J0 anyr b ->
    hoare JB J0 anyr (bind (getM m) (fun u => if terminateSimulation u then a else b)).
  Proof.
    intros A B i H. apply safe_bind. cbn. destruct (terminateSimulation (mut i)) eqn:T; [now apply A|].
    apply B. destruct H as (H1 & H2 & H3 & H4 & H5). unfold ok. auto 10.
  Qed.
  Lemma h_doStep env ncp : forall fuel ehn, (ehn = true -> v = true) -> hoare room J0 anyr (doStep_loop m env fuel ncp ehn OK).
  Proof.
    induction fuel as [|fuel IH]; intros ehn V; cbn [doStep_loop]; [intros i _; exact I|].
    eapply h_bind; [apply h_of, p_getC|]. intros c [_ Ec]. cbv zeta.
    destruct (pointReached m ncp c || _); [apply h_done|].
    eapply h_bind with (J1 := JX) (Q1 := fun e => e = true -> v = true).
    { destruct (m_eventUpdate m && ehn) eqn:G.
      - apply andb_true_iff in G as [G E]. subst ehn. eapply h_bind; [apply (h_event env G)|].
        intros s _ i H. cbn. split; [|discriminate]. eapply ok_weak; [|exact H]. intros u _ B. split; [exact B|]. rewrite (V eq_refl). discriminate.
      - intros i H. cbn. split; [|exact V]. eapply ok_weak; [|exact H]. intros u _ B. split; [intro; exact B|intro; exact B]. }
    clear ehn V. intros ehn V. eapply h_bind; [apply h_of, (p_fixedStep L); exact JXR|]. intros [[s se] te] S.
    eapply h_bind; [apply h_of, p_CALL|]. intros st E. destruct (stops st) eqn:Es; [apply h_done|].
    assert (S' : s = OK /\ exists a b, (s, se, te) = (OK, Some a, Some b)).
    { destruct S as [S|S]; [exact S|]. cbn in S. subst s. subst st. discriminate. }
    destruct S' as (-> & a & b & S'). injection S' as -> ->. subst st. change (smax OK OK) with OK. clear Es S.
    assert (XB : forall u, W l u -> JX u -> JB u) by (intros u _ X; apply X).
    assert (REST : forall e, (e = true -> v = true) -> hoare JB J0 anyr (let* u := getM m in
          if terminateSimulation u then ret (OK, e, pointReached m ncp c) else doStep_loop m env fuel ncp e OK)).
    { intros e He. apply h_rest; [apply h_done|now apply IH]. }
    destruct (m_eventUpdate m) eqn:G; [|eapply h_pre; [exact XB|now apply REST]].
    assert (EV : (if a then Some true else Some b) = Some (a || b)) by (destruct a; reflexivity).
    rewrite EV. destruct (a || b); [|eapply h_pre; [exact XB|now apply REST]].
    rewrite Ec. destruct v eqn:Ev.
    - destruct (earlyReturnAllowed c); [apply h_done|]. eapply h_pre; [exact XB|]. apply REST. auto.
    - eapply h_pre with (J := room); [intros u _ X; now apply X|].
      eapply h_bind; [apply (h_event env G)|]. intros s Hs.
      eapply h_bind; [apply h_of, p_CALL|]. intros st E. destruct (stops st) eqn:Es; [apply h_done|].
      destruct (not_stopped E Es Hs) as [_ ->].
      assert (LAST : hoare JB J0 anyr (if earlyReturnAllowed c then ret (OK, ehn, pointReached m ncp c) else
           (let* u := getM m in if terminateSimulation u then ret (OK, ehn, pointReached m ncp c) else doStep_loop m env fuel ncp ehn OK))).
      { destruct (earlyReturnAllowed c); [apply h_done|]. now apply REST. }
      destruct (Nat.ltb 0 (m_maxZ m)); [|exact LAST].
      eapply h_bind; [apply h_of, p_getSol|]. intros o (A1 & A2 & A3 & _).
      eapply h_bind; [apply h_of, (p_filled (m := m) (room := room)); [exact JBR|apply (sf_indicators L)|cbn; lia]|].
      intros r [S St].
      eapply h_bind; [apply h_of; eapply p_into; [exact A2|exact S|exact (@sized_prez F m)]|]. intros _ _.
      eapply h_bind; [apply h_of, p_CALL|]. intros st E2. destruct (stops st) eqn:Es2; [apply h_done|].
      destruct (not_stopped E2 Es2 St) as [_ ->]. exact LAST.
  Qed.
  Lemma h_doStep2 env ncp : forall fuel, hoare room J0 anyr (doStep2_loop m env fuel ncp OK).
  Proof.
    induction fuel as [|fuel IH]; cbn [doStep2_loop]; [intros i _; exact I|].
    eapply h_bind; [apply h_of, p_getC|]. intros c [_ Ec]. cbv zeta.
    destruct (pointReached m ncp c); [apply h_done|].
    eapply h_bind; [apply h_of, (p_fixedStep L); exact roomR|]. intros [[s se] te] S.
    eapply h_bind; [apply h_of, p_CALL|]. intros st E. destruct (stops st) eqn:Es; [apply h_done|].
    assert (S' : s = OK /\ exists a b, (s, se, te) = (OK, Some a, Some b)).
    { destruct S as [S|S]; [exact S|]. cbn in S. subst s. subst st. discriminate. }
    destruct S' as (-> & a & b & S'). injection S' as -> ->. subst st. change (smax OK OK) with OK. clear Es S.
    assert (XB : forall u, W l u -> room u -> JB u) by (intros u _ X T; exact X).
    assert (REST : hoare JB J0 anyr (let* u := getM m in
          if terminateSimulation u then ret (Discard, false) else doStep2_loop m env fuel ncp OK)).
    { apply h_rest; [apply h_done|exact IH]. }
    destruct (m_eventUpdate m) eqn:G; [|eapply h_pre; [exact XB|exact REST]].
    assert (EV : (if a then Some true else Some b) = Some (a || b)) by (destruct a; reflexivity).
    rewrite EV. destruct (a || b); [|eapply h_pre; [exact XB|exact REST]].
    eapply h_bind; [apply (h_event env G)|]. intros s Hs.
    eapply h_bind; [apply h_of, p_CALL|]. intros st E. destruct (stops st) eqn:Es; [apply h_done|].
    destruct (not_stopped E Es Hs) as [_ ->]. exact REST.
  Qed.
  End Pres.

  (** *** The calls *)
  Definition fine_sys (s : Sys F D) : Prop :=
    W (resourceLocation (ctl (sinst s))) (mut (sinst s)) /\ sized m (sol (sinst s)) /\
    forall i, In (Some i) (heap s) -> sized m (sol i).
  Lemma fine_ok (J : Mut F D -> Prop) s : fine_sys s -> J (mut (sinst s)) ->
    ok m W (resourceLocation (ctl (sinst s))) (eventModeUsed (ctl (sinst s))) J (sinst s).
  Proof. intros (A & B & _) H. unfold ok. auto 10. Qed.
  Lemma out_not X (f : AF F D (Status * X)) o s (Q : Status * X -> Inst F D -> Prop) : safe Q (f (sinst s)) -> outI m f o s <> UB.
  Proof. intros H. rewrite outI_eq. destruct (f (sinst s)) as [[[[st x] j] t]| |]; cbn in H; [discriminate|contradiction|discriminate]. Qed.
  Lemma out_pres X (f : AF F D (Status * X)) o s : fine_sys s -> (forall l v, pres m W l v (fun _ => True) anyr f) -> outI m f o s <> UB.
  Proof. intros H K. eapply out_not. apply K, fine_ok; [exact H|exact I]. Qed.
  Lemma out_hoare X (f : AF F D (Status * X)) o s : fine_sys s -> room (mut (sinst s)) -> (forall l v, hoare l v room (fun _ => True) anyr f) -> outI m f o s <> UB.
  Proof. intros H R K. eapply out_not. apply K, fine_ok; auto. Qed.

  (** Functions on the system. *)
  Definition ssafe {X} (Q : X -> Sys F D -> Prop) (f : SF m X) (s : Sys F D) : Prop := safe Q (f s).
  Lemma ss_onInst X (q : X -> Prop) (f : AF F D X) (Q : X -> Sys F D -> Prop) s : (forall l v, pres m W l v (fun _ => True) q f) -> fine_sys s ->
    (forall x i, fine_sys (mkSys i (heap s)) -> q x -> Q x (mkSys i (heap s))) -> ssafe Q (onInst m f) s.
  Proof.
    intros H A K. pose proof (H _ _ _ (@fine_ok (fun _ => True) s A I)) as P. unfold ssafe, onInst.
    destruct (f (sinst s)) as [[[x i] t]| |]; cbn in *; auto. destruct P as ((P1 & P2 & P3 & P4 & P5) & P6). apply K; [|exact P6].
    split; [cbn; rewrite P1; exact P3|]. split; [exact P5|]. exact (proj2 (proj2 A)).
  Qed.
  Lemma ss_bind X Y (f : SF m X) (k : X -> SF m Y) (Q : Y -> Sys F D -> Prop) s : ssafe (fun x s' => ssafe Q (k x) s') f s -> ssafe Q (bind f k) s.
  Proof. apply safe_bind. Qed.
  Lemma ss_store h c (Q : unit -> Sys F D -> Prop) s : handle s (Some h) -> (forall s', sinst s' = sinst s -> Q tt s') -> ssafe Q (store m h c) s.
  Proof. intros [i E] K. unfold ssafe, store. rewrite E. cbn. now apply K. Qed.
  Lemma ss_out X (f : SF m (Status * X)) o s : ssafe (fun _ _ => True) f s -> outS f o s <> UB.
  Proof.
    intro H. rewrite outS_eq. unfold ssafe in H. destruct (f s) as [[[[st x] s'] t]| |]; cbn in H; [discriminate|contradiction|discriminate].
  Qed.
  Lemma ss_BEGIN3 X env mask (x : X) k s : fine_sys s -> (forall i, fine_sys (mkSys i (heap s)) -> ssafe (fun _ _ => True) k (mkSys i (heap s))) ->
    ssafe (fun _ _ => True) (BEGIN3S (m := m) env mask x k) s.
  Proof.
    intros A K. unfold BEGIN3S. eapply ss_bind, ss_onInst; [intros; apply p_allowed|exact A|]. intros b i A' _.
    destruct b; [now apply K|]. eapply ss_onInst with (q := anyr); auto. intros. apply a_CALLk. intros. apply a_ret.
  Qed.
  Lemma ss_BEGIN2 X env mask (x : X) k s : fine_sys s -> (forall i, fine_sys (mkSys i (heap s)) -> ssafe (fun _ _ => True) k (mkSys i (heap s))) ->
    ssafe (fun _ _ => True) (BEGIN2S (m := m) env mask x k) s.
  Proof.
    intros A K. unfold BEGIN2S. eapply ss_bind, ss_onInst; [intros; apply p_allowed2|exact A|]. intros b i A' _.
    destruct b; [now apply K|]. eapply ss_onInst with (q := anyr); auto. intros. apply a_CALLk. intros. apply a_ret.
  Qed.
  Lemma ss_get p h s : p = true -> handle s h -> ssafe (fun _ _ => True) (let* h' := getFMUState m p h in ret (OK, h')) s.
  Proof.
    intros -> H. apply ss_bind. unfold getFMUState. cbn [negb]. apply ss_bind. cbn. destruct h as [h|].
    - apply ss_bind, ss_store; [exact H|]. intros s' _. exact I.
    - exact I.
  Qed.
  Lemma ss_free p h s : p = true -> handle s h -> ssafe (fun _ _ => True) (let* h' := freeFMUState m p h in ret (OK, h')) s.
  Proof.
    intros -> H. apply ss_bind. unfold freeFMUState. cbn [negb]. destruct h as [h|]; [|exact I].
    apply ss_bind, ss_store; [exact H|]. intros s' _. exact I.
  Qed.
  Lemma ss_set env h s (Q : Status -> Sys F D -> Prop) : fine_sys s -> handle s h -> (forall st s', Q st s') -> ssafe Q (setFMUStateS m env h) s.
  Proof.
    intros A H K. unfold setFMUStateS. destruct h as [h|].
    - destruct H as [i E]. apply ss_bind. unfold ssafe at 1, deref. rewrite E. cbn [safe]. unfold ssafe, onInst, setFMUState.
      apply nth_error_In in E. apply (proj2 (proj2 A)) in E. destruct A as (_ & (A1 & A2 & A3 & A4 & A5 & A6) & _).
      destruct E as (E1 & E2 & E3 & E4 & E5 & E6). unfold restoreSol, copyn. rewrite A1, A2, A4, A5, E1, E2, E4, E5.
      apply Nat.leb_le in E3, E6. rewrite E3, E6. cbn. apply K.
    - eapply ss_onInst with (q := anyr); auto. intros. unfold setFMUState. eapply p_bind; [apply p_log|]. intros. apply a_ret.
  Qed.
  Lemma p_invalid l v env a b : pres m W l v (fun _ => True) (fun r => r = negb (N.eqb a b)) (invalidNumber m env a b).
  Proof.
    unfold invalidNumber. destruct (N.eqb a b); [now apply p_ret|].
    repeat (eapply p_bind; [first [apply p_log|apply p_setMode]|intros _ _]). now apply p_ret.
  Qed.
  Lemma p_null l v env T (p : option T) : pres m W l v (fun _ => True) (fun r => r = match p with None => true | Some _ => false end) (nullPointer m env p).
  Proof.
    unfold nullPointer. destruct p; [now apply p_ret|].
    repeat (eapply p_bind; [first [apply p_log|apply p_setMode]|intros _ _]). now apply p_ret.
  Qed.
  Lemma ss_serialize env h dst size s : fine_sys s -> handle s h -> (exists d, dst = Some d /\ (size <= bsize d)%N) ->
    ssafe (fun _ _ => True) (serializeFMUState m szof env h dst size) s.
  Proof.
    intros A H (d & -> & Sz). unfold serializeFMUState.
    eapply ss_bind, ss_onInst; [intros; apply p_null|exact A|]. intros b i A' ->. destruct h as [h|]; [|exact I].
    eapply ss_bind, ss_onInst; [intros; apply p_invalid|exact A'|]. intros b i' A2 ->.
    destruct (N.eqb_spec size szof) as [<-|]; [|exact I].
    cbn [negb]. destruct H as [j E]. apply ss_bind. unfold ssafe at 1, deref. cbn [heap]. rewrite E. cbn [safe].
    destruct (N.ltb_spec (bsize d) size); [lia|exact I].
  Qed.
  Lemma ss_deserialize env src size p h s : fine_sys s -> p = true -> handle s h ->
    (exists b, src = Some b /\ (size <= bsize b)%N /\ bimage b <> None) ->
    ssafe (fun _ _ => True) (deserializeFMUState m szof env src size p h) s.
  Proof.
    intros A -> H (d & -> & Sz & Im). unfold deserializeFMUState.
    eapply ss_bind, ss_onInst; [intros; apply p_invalid|exact A|]. intros b i' A2 ->.
    destruct (N.eqb_spec size szof) as [<-|]; [|exact I]. cbn [negb]. destruct (bimage d) as [j|]; [|congruence].
    destruct (N.ltb_spec (bsize d) size); [lia|]. destruct h as [h|]; [|exact I].
    apply ss_bind, ss_store; [exact H|]. intros s' _. exact I.
  Qed.

  Ltac pp := match goal with
    | |- pres _ _ _ _ _ _ (BEGIN _ _ _ _ _) => apply p_BEGIN
    | |- pres _ _ _ _ _ _ (BEGIN2 _ _ _ _ _) => apply p_BEGIN2
    | |- pres _ _ _ _ _ _ (ASSERT_NOT_NULL _ _ _ _ _) => apply p_notnull; intro
    | |- pres _ _ _ _ _ _ (CALLk _ _ _ _ _) => apply a_CALLk; intros
    | |- pres _ _ _ _ _ _ (refresh _ _ _ _ _) => apply a_refresh; intro
    | |- pres _ _ _ _ _ _ (ret _) => apply a_ret
    | |- pres _ _ _ _ _ _ (bind (logError _ _) _) => eapply p_bind; [apply p_log|intros _ _]
    | |- pres _ _ _ _ _ _ (bind (setMode _ _) _) => eapply p_bind; [apply p_setMode|intros _ _]
    | |- pres _ _ _ _ _ _ (bind (modC _ _) _) => eapply p_bind; [apply p_modC; intro; split; reflexivity|intros _ _]
    | |- pres _ _ _ _ _ _ (bind (modM _ (set_dirty _)) _) => eapply p_bind; [apply a_dirty|intros _ _]
    | |- pres _ _ _ _ _ _ (bind (getC _) _) => eapply p_bind; [apply p_getC|intros ? _]
    | |- pres _ _ _ _ _ _ (bind (getM _) _) => eapply p_bind; [apply p_getM|intros ? _]
    | |- pres _ _ _ _ _ _ (bind (nullPointer _ _ _) _) => eapply p_bind; [apply p_nullPointer|intros ? _]
    | |- pres _ _ _ _ _ _ (bind (configurate _ _) _) => eapply p_bind; [apply a_configurate|intros ? _]
    | |- pres _ _ _ _ _ _ (bind (reset _ _) _) => eapply p_bind; [apply a_reset|intros ? _]
    | |- pres _ _ _ _ _ _ (bind _ _) => eapply p_bind
    | |- pres _ _ _ _ _ _ (if ?b then _ else _) => destruct b eqn:?
    end; cbv zeta.
  (** What the model needs beyond the contract of the API. *)
  Definition limits3 (i : Inst F D) (o : Op3 F D) : Prop :=
    match o with
    | O3DoStep _ _ _ _ _ _ | O3UpdateDiscreteStates => room (mut i)
    | O3ActivateModelPartition vr t => part vr t (ctl i) (mut i)
    | _ => True
    end.
  Definition limits2 (i : Inst F D) (o : Op2 F D) : Prop :=
    match o with
    | O2DoStep _ _ | O2NewDiscreteStates _ => room (mut i)
    | _ => True
    end.
  Ltac pt := intros; eapply p_bind with (Q1 := anyr); [|intros ? _].
  Lemma a_debug l v env on n cats : enough_or_null n cats -> pres m W l v (fun _ => True) anyr (setDebugLogging m env on n cats).
  Proof.
    intro C. unfold setDebugLogging. pp; [destruct cats as [cats|]|]; [now apply a_debug_loop|repeat pp|repeat pp].
  Qed.
  Lemma a_Get l v env t vrs nvr b nv : enough_or_null nvr vrs -> enough_or_null nv b -> pres m W l v (fun _ => True) anyr (fmi3Get m env t vrs nvr b nv).
  Proof.
    intros C1 C2. unfold fmi3Get. pp. pp; [pp|]. pp. destruct vrs as [vrs|]; [|congruence]. cbn in C1.
    assert (B : nv <= blen b -> pres m W l v (fun _ => True) anyr (refresh m env OK b (fun st =>
        let* r := get_loop m env t vrs nvr b nv 0 st in
        let '(st, values', index) := r in
        if stops st then ret (st, values') else
        if negb (Nat.eqb index nv) then logError m env ;;; CALLk m st Error values' (fun st => ret (st, values'))
        else ret (st, values')))).
    { intro H0. pp. pt; [apply a_get_loop; auto|]. destruct x as [[st x] ix]. repeat pp. }
    destruct (Nat.ltb_spec 0 nv).
    - pp. apply B. now apply enough_given.
    - apply B. lia.
  Qed.
  Lemma a_Set l v env t vrs nvr b nv : enough_or_null nvr vrs -> enough nv b -> (t <> TFloat64 -> nvr <= nv) -> strings_given t b ->
    pres m W l v (fun _ => True) anyr (fmi3Set m env t vrs nvr b nv).
  Proof.
    intros C1 C2 C3 C4. unfold fmi3Set. pp. pp; [pp|]. pp. destruct vrs as [vrs|]; [|congruence]. cbn in C1.
    pt; [apply a_set_loop; [now apply enough_blen|exact C4|exact C1|intro O; exact (C3 (ONE O))]|].
    destruct x as [st ix]. repeat pp.
  Qed.
  Lemma a_GetBin l v env vrs nvr z b nv : enough_or_null nvr vrs -> enough nv z -> enough_or_null nv b ->
    pres m W l v (fun _ => True) anyr (fmi3GetBinary m env vrs nvr z b nv).
  Proof.
    intros C1 C2 C3. unfold fmi3GetBinary. pp. pp; [pp|]. pp. destruct vrs as [vrs|]; [|congruence]. cbn in C1. apply enough_blen in C2.
    destruct (Nat.ltb_spec 0 nv).
    - pp. pp. apply a_bin_loop; auto. now apply enough_given.
    - pp. apply a_bin_loop; auto. lia.
  Qed.
  Lemma a_SetBin l v env vrs nvr z b nv : enough_or_null nvr vrs -> enough nv z -> enough nv b -> nvr <= nv -> binaries_given z b ->
    pres m W l v (fun _ => True) anyr (fmi3SetBinary m env vrs nvr z b nv).
  Proof.
    intros C1 C2 C3 C4 C5. unfold fmi3SetBinary. pp. pp; [pp|]. pp. destruct vrs as [vrs|]; [|congruence]. cbn in C1.
    pt; [apply a_setBin_loop; auto using enough_blen|]. destruct x as [st ix]. repeat pp.
  Qed.
  Lemma a_Array l v env f x n :
    (forall e c u, enough_or_null n x -> W (resourceLocation c) u ->
      msafe (filled (fun u' => W (resourceLocation c) u' /\ same_room m room u u') x) (f x n) e c u) ->
    enough_or_null n x -> pres m W l v (fun _ => True) anyr (fmi3GetArray m env f x n).
  Proof. intros H C. unfold fmi3GetArray. pp. pt; [now apply a_filled|]. repeat pp. Qed.
  Lemma h_BEGIN l v X env mask (x : X) k : hoare l v room (fun _ => True) anyr k -> hoare l v room (fun _ => True) anyr (BEGIN m env mask x k).
  Proof.
    intro H. unfold BEGIN. eapply h_bind; [apply h_of, p_allowed|]. intros b _. destruct b; [exact H|]. unfold CALLk.
    eapply h_bind; [apply h_of, p_CALL|]. intros st' _. destruct (stops st'); [apply h_done|exact H].
  Qed.
  Lemma h_BEGIN2 l v X env mask (x : X) k : hoare l v room (fun _ => True) anyr k -> hoare l v room (fun _ => True) anyr (BEGIN2 m env mask x k).
  Proof.
    intro H. unfold BEGIN2. eapply h_bind; [apply h_of, p_allowed2|]. intros b _. destruct b; [exact H|]. unfold CALLk.
    eapply h_bind; [apply h_of, p_CALL|]. intros st' _. destruct (stops st'); [apply h_done|exact H].
  Qed.
  Lemma h_pres l v (J : Mut F D -> Prop) X (f : AF F D X) : pres m W l v (fun _ => True) anyr f -> hoare l v J (fun _ => True) anyr f.
  Proof. intros H. apply h_pre with (J := fun _ => True); [auto|]. apply h_of, H. Qed.
  Lemma ss_callk st s' X (x : X) s : ssafe (fun _ _ => True) (onInst m (CALLk m st s' x (fun st' => ret (st', x)))) s.
  Proof. unfold ssafe, onInst, CALLk, CALL. cbv zeta. destruct (smax st s'); exact I. Qed.
  Theorem exec3_safe fuel env o s : fine_sys s -> callable3 s o -> limits3 (sinst s) o -> exec3 m szof fuel env o s <> UB.
  Proof.
    intros A C Lm. destruct o; cbn [exec3]; cbn [callable3] in C; cbn [limits3] in Lm.
    - apply out_pres; [exact A|intros l v]. unfold fmi3SetDebugLogging. pp. pt; [now apply a_debug|repeat pp].
    - apply out_pres; [exact A|intros l v]. unfold fmi3EnterInitializationMode. repeat pp.
    - apply out_pres; [exact A|intros l v]. unfold fmi3ExitInitializationMode. repeat pp.
    - apply out_pres; [exact A|intros l v]. unfold fmi3EnterEventMode. repeat pp.
    - apply out_pres; [exact A|intros l v]. unfold fmi3Terminate. repeat pp.
    - apply out_pres; [exact A|intros l v]. unfold fmi3Reset. repeat pp.
    - apply out_pres; [exact A|intros l v]. now apply a_Get.
    - apply out_pres; [exact A|intros l v]. now apply a_Set.
    - apply out_pres; [exact A|intros l v]. now apply a_GetBin.
    - apply out_pres; [exact A|intros l v]. now apply a_SetBin.
    - apply out_pres; [exact A|intros l v]. destruct C. unfold fmi3GetClock. pp. apply a_clock_loop; now apply enough_blen.
    - apply out_pres; [exact A|intros l v]. destruct C. unfold fmi3SetClock. pp. apply a_setClock_loop; now apply enough_blen.
    - apply ss_out. apply ss_BEGIN3; [exact A|]. intros i A'. destruct C; now apply ss_get.
    - apply ss_out. apply ss_BEGIN3; [exact A|]. intros i A'. apply ss_bind. apply ss_set; [exact A'|exact C|]. intros. apply ss_callk.
    - apply ss_out. apply ss_BEGIN3; [exact A|]. intros i A'. destruct C; now apply ss_free.
    - apply ss_out. apply ss_BEGIN3; [exact A|]. intros i A'. rewrite C. exact I.
    - apply ss_out. apply ss_BEGIN3; [exact A|]. intros i A'. destruct C. now apply ss_serialize.
    - apply ss_out. apply ss_BEGIN3; [exact A|]. intros i A'. destruct C as (C1 & C2 & C3). now apply ss_deserialize.
    - apply out_pres; [exact A|intros l v]. destruct C as (C1 & C2 & C3 & C4). unfold fmi3GetDirectionalDerivative. pp.
      apply a_rows; auto using enough_blen. intros; now apply (sf_partial L).
    - apply out_pres; [exact A|intros l v]. destruct C as (C1 & C2 & C3 & C4). unfold fmi3GetAdjointDerivative. pp.
      apply a_rows; auto using enough_blen. intros; now apply (sf_partial L).
    - apply out_pres; [exact A|intros l v]. unfold fmi3EnterConfigurationMode. repeat pp.
    - apply out_pres; [exact A|intros l v]. unfold fmi3ExitConfigurationMode. repeat pp.
    - apply out_pres; [exact A|intros l v]. destruct C as (C1 & C2 & C3). unfold fmi3GetIntervalDecimal. pp.
      apply a_interval_loop; now apply enough_blen.
    - apply out_pres; [exact A|intros l v]. unfold fmi3NotImplemented, NOT_IMPLEMENTED. pt; repeat pp.
    - apply out_hoare; [exact A|exact Lm|intros l v]. unfold fmi3UpdateDiscreteStates. apply h_BEGIN. cbv zeta.
      destruct (m_eventUpdate m) eqn:G; [|apply h_pres; repeat pp].
      eapply h_bind; [apply (h_event (l := l) (v := v) env G)|]. intros st _. apply h_pres. repeat pp.
    - apply out_pres; [exact A|intros l v]. unfold fmi3EnterContinuousTimeMode. repeat pp.
    - apply out_pres; [exact A|intros l v]. unfold fmi3CompletedIntegratorStep. repeat pp.
    - apply out_pres; [exact A|intros l v]. unfold fmi3SetTime. repeat pp.
    - apply out_pres; [exact A|intros l v]. unfold fmi3SetContinuousStates. pp. pt; [now apply a_ended|]. repeat pp.
    - apply out_pres; [exact A|intros l v]. apply a_Array; [apply (sf_derivs L)|exact C].
    - apply out_pres; [exact A|intros l v]. apply a_Array; [apply (sf_indicators L)|exact C].
    - apply out_pres; [exact A|intros l v]. apply a_Array; [apply (sf_states L)|exact C].
    - apply out_pres; [exact A|intros l v]. apply a_Array; [apply (sf_nominals L)|exact C].
    - apply out_pres; [exact A|intros l v]. rewrite C. unfold fmi3GetNumberOfEventIndicators, fmi3GetNumber. repeat pp.
    - apply out_pres; [exact A|intros l v]. rewrite C. unfold fmi3GetNumberOfContinuousStates, fmi3GetNumber. repeat pp.
    - apply out_pres; [exact A|intros l v]. unfold fmi3EnterStepMode. repeat pp.
    - apply out_pres; [exact A|intros l v]. destruct C as (C1 & C2 & C3). unfold fmi3GetOutputDerivatives, NOT_IMPLEMENTED. pp.
      destruct (m_outputDerivative m) eqn:G; [|pt; repeat pp]. apply a_output_loop; auto using enough_blen.
    - apply out_hoare; [exact A|exact Lm|intros l v]. destruct C as (-> & -> & -> & ->). unfold fmi3DoStep. cbv zeta. apply h_BEGIN.
      eapply h_bind; [apply h_of, p_getC|]. intros c _.
      destruct (negb (isClose ccp (nextCommunicationPoint c))); [apply h_pres; repeat pp|].
      destruct (nle h nzero); [apply h_pres; repeat pp|].
      destruct (nlt (stopTime c) (nadd ccp h) && _); [apply h_pres; repeat pp|]. cbn [negb andb].
      eapply h_bind; [apply h_doStep; discriminate|]. intros [[st ehn] reached] _. apply h_pres. repeat pp.
    - eapply (@out_not _ _ _ _ (fun _ _ => True)). unfold fmi3ActivateModelPartition.
      destruct (N.eq_dec (N.land (bit3 (mode (ctl (sinst s)))) MASK_ActivateModelPartition) 0) as [E|E].
      + unfold BEGIN, allowedState, bind at 1. rewrite bind_getC, E. cbn [N.eqb]. unfold bind at 1. rewrite logError_eq. cbn. exact I.
      + rewrite BEGIN_pass by exact E. apply safe_bind. eapply safe_conseq.
        * eapply a_part; [exact (@fine_ok (fun _ => True) s A I)|exact Lm].
        * intros st i _. unfold CALLk, CALL. cbv zeta. destruct (smax OK st); exact I.
  Qed.

  Lemma a_Get2 l v env t vrs nvr b : enough_or_null nvr vrs -> enough_or_null nvr b -> pres m W l v (fun _ => True) anyr (fmi2GetV m env t vrs nvr b).
  Proof.
    intros C1 C2. unfold fmi2GetV. pp. pp; [pp|]. pp. pp. destruct vrs as [vrs|]; [|congruence]. cbn in C1. cbn [lst].
    pp. pt; [apply a_get_loop; [exact C1|now apply enough_given]|]. destruct x as [[st x] ix]. repeat pp.
  Qed.
  Lemma a_Set2 l v env t vrs nvr b : enough_or_null nvr vrs -> enough_or_null nvr b -> strings_given t b -> pres m W l v (fun _ => True) anyr (fmi2SetV m env t vrs nvr b).
  Proof.
    intros C1 C2 C3. unfold fmi2SetV. pp. pp; [pp|]. pp. pp. destruct vrs as [vrs|]; [|congruence]. cbn in C1. cbn [lst].
    pt; [apply a_set_loop; [now apply enough_given|exact C3|exact C1|auto]|]. destruct x as [st ix]. repeat pp.
  Qed.
  Lemma a_Array2 l v env mask f x n :
    (forall e c u, enough_or_null n x -> W (resourceLocation c) u ->
      msafe (filled (fun u' => W (resourceLocation c) u' /\ same_room m room u u') x) (f x n) e c u) ->
    enough_or_null n x -> pres m W l v (fun _ => True) anyr (fmi2GetArray m env mask f x n).
  Proof. intros H C. unfold fmi2GetArray. pp. pt; [now apply a_filled|]. repeat pp. Qed.
  Theorem exec2_safe fuel env o s : fine_sys s -> callable2 s o -> limits2 (sinst s) o -> exec2 m szof fuel env o s <> UB.
  Proof.
    intros A C Lm. destruct o; cbn [exec2]; cbn [callable2] in C; cbn [limits2] in Lm.
    - apply out_pres; [exact A|intros l v]. unfold fmi2SetDebugLogging. pp. pt; [now apply a_debug|repeat pp].
    - apply out_pres; [exact A|intros l v]. unfold fmi2SetupExperiment. repeat pp.
    - apply out_pres; [exact A|intros l v]. unfold fmi2EnterInitializationMode. repeat pp.
    - apply out_pres; [exact A|intros l v]. unfold fmi2ExitInitializationMode. repeat pp.
    - apply out_pres; [exact A|intros l v]. unfold fmi2Terminate. repeat pp.
    - apply out_pres; [exact A|intros l v]. unfold fmi2Reset. repeat pp.
    - apply out_pres; [exact A|intros l v]. now apply a_Get2.
    - apply out_pres; [exact A|intros l v]. now apply a_Set2.
    - apply out_pres; [exact A|intros l v]. destruct C. unfold fmi2GetBoolean. pp. apply a_getBoolean_loop; now apply enough_blen.
    - apply out_pres; [exact A|intros l v]. destruct C. unfold fmi2SetBoolean. pp. apply a_setBoolean_loop; now apply enough_blen.
    - apply ss_out. apply ss_BEGIN2; [exact A|]. intros i A'. destruct C; now apply ss_get.
    - apply ss_out. apply ss_BEGIN2; [exact A|]. intros i A'. apply ss_bind. apply ss_set; [exact A'|exact C|]. intros. exact I.
    - apply ss_out. apply ss_BEGIN2; [exact A|]. intros i A'. destruct C; now apply ss_free.
    - apply ss_out. apply ss_BEGIN2; [exact A|]. intros i A'. rewrite C. exact I.
    - apply ss_out. apply ss_BEGIN2; [exact A|]. intros i A'. destruct C. now apply ss_serialize.
    - apply ss_out. apply ss_BEGIN2; [exact A|]. intros i A'. destruct C as (C1 & C2 & C3). now apply ss_deserialize.
    - apply out_pres; [exact A|intros l v]. destruct C as (C1 & C2 & C3 & C4). unfold fmi2GetDirectionalDerivative. pp.
      apply a_rows; auto using enough_blen. intros; now apply (sf_partial L).
    - apply out_pres; [exact A|intros l v]. unfold fmi2SetRealInputDerivatives. repeat pp.
    - apply out_pres; [exact A|intros l v]. destruct C as (C1 & C2 & C3). unfold fmi2GetRealOutputDerivatives. pp.
      destruct (m_outputDerivative m) eqn:G; [|repeat pp]. apply a_output_loop; auto using enough_blen.
    - apply out_pres; [exact A|intros l v]. unfold fmi2CancelStep. repeat pp.
    - apply out_hoare; [exact A|exact Lm|intros l v]. unfold fmi2DoStep. cbv zeta. apply h_BEGIN2.
      eapply h_bind; [apply h_of, p_getC|]. intros c _.
      destruct (negb (isClose ccp (nextCommunicationPoint c))); [apply h_pres; repeat pp|].
      destruct (nle h nzero); [apply h_pres; repeat pp|].
      destruct (nlt (stopTime c) (nadd ccp h) && _); [apply h_pres; repeat pp|].
      eapply h_bind; [apply h_doStep2|]. intros [st finished] _. apply h_pres. repeat pp.
    - apply out_pres; [exact A|intros l v]. unfold fmi2GetStatus, getStatus. pp. pt; repeat pp.
    - apply out_pres; [exact A|intros l v]. rewrite C. unfold fmi2GetRealStatus, getStatus. pp. destruct k; first [repeat pp; fail|pt; repeat pp].
    - apply out_pres; [exact A|intros l v]. rewrite C. unfold fmi2GetBooleanStatus, getStatus. pp. destruct k; first [repeat pp; fail|pt; repeat pp].
    - apply out_pres; [exact A|intros l v]. unfold fmi2EnterEventMode. repeat pp.
    - apply out_hoare; [exact A|exact Lm|intros l v]. rewrite C. unfold fmi2NewDiscreteStates. apply h_BEGIN2. cbv zeta.
      destruct (m_eventUpdate m) eqn:G; [|apply h_pres; repeat pp].
      eapply h_bind; [apply (h_event (l := l) (v := v) env G)|]. intros st _. apply h_pres. repeat pp.
    - apply out_pres; [exact A|intros l v]. unfold fmi2EnterContinuousTimeMode. repeat pp.
    - apply out_pres; [exact A|intros l v]. unfold fmi2CompletedIntegratorStep. repeat pp.
    - apply out_pres; [exact A|intros l v]. unfold fmi2SetTime. repeat pp.
    - apply out_pres; [exact A|intros l v]. unfold fmi2SetContinuousStates. pp. pt; [now apply a_ended|]. repeat pp.
    - apply out_pres; [exact A|intros l v]. apply a_Array2; [apply (sf_derivs L)|exact C].
    - apply out_pres; [exact A|intros l v]. apply a_Array2; [apply (sf_indicators L)|exact C].
    - apply out_pres; [exact A|intros l v]. apply a_Array2; [apply (sf_states L)|exact C].
    - apply out_pres; [exact A|intros l v]. apply a_Array2; [apply (sf_nominals L)|exact C].
  Qed.
  Lemma create_safe env lg iu e n t r lo ty : W (option_map cstr r) (mkMut false false false false false nzero false false (md0 m)) ->
    createModelInstance m env lg iu e n t r lo ty <> UB.
  Proof.
    intro H. unfold createModelInstance. cbv zeta. destruct n as [n|]; [|discriminate].
    destruct (Nat.eqb (strlen n) 0); [discriminate|]. destruct t as [t|]; [|discriminate].
    destruct (Nat.eqb (strlen t) 0); [discriminate|]. destruct (negb (streq t (m_token m))); [discriminate|].
    set (b := blank _ _ _ _ _ _ _ _).
    assert (S : msafe (fun _ => W (resourceLocation (ctl b))) (m_setStartValues m) env (ctl b) (mut b)) by (apply (sf_start L); exact H).
    unfold msafe in S. unfold bind, call. destruct (m_setStartValues m env (ctl b) (mut b)) as [[[x u] t1]| |]; [discriminate|contradiction|discriminate].
  Qed.
End Api.
