(** SafeCalls.v -- absence of undefined behaviour of the API functions, from the absence of
    undefined behaviour of the functions of the model (C26). *)
From Coq Require Import List NArith ZArith Bool Arith Lia.
From Verif Require Import Base Instance ModelIface Core Fmi3 Fmi2 Api Logic Calls SpecSafe Safe.
Import ListNotations.
Set Implicit Arguments.

Section Laws.
  Context {F : Type} {NF : Num F} (m : Model F).
  Notation D := (md m).
  Definition same_room (room : Mut F D -> Prop) (u u' : Mut F D) : Prop :=
    terminateSimulation u' = terminateSimulation u /\ (room u -> room u').
  Record SafeLaws (W : option bytes -> Mut F D -> Prop) (room : Mut F D -> Prop) (one : VType -> Prop)
         (part : N -> F -> Ctl F -> Mut F D -> Prop) : Prop := mkSafeLaws {
    sf_dirty : forall l u b, W l u -> W l (set_dirty b u);
    sf_start : forall e c u, W (resourceLocation c) u -> msafe (fun _ => W (resourceLocation c)) (m_setStartValues m) e c u;
    sf_calc : forall e c u, W (resourceLocation c) u -> msafe (fun _ => W (resourceLocation c)) (m_calculateValues m) e c u;
    sf_get : forall t vr values nv ix e c u, nv <= blen values -> W (resourceLocation c) u ->
      msafe (got (W (resourceLocation c)) values) (m_get m t vr values nv ix) e c u;
    sf_get1 : forall vr b nv e c u, W (resourceLocation c) u ->
      msafe (got (W (resourceLocation c)) (Some [b])) (m_get m TBoolean vr (Some [b]) nv 0) e c u;
    sf_set : forall t vr values nv ix e c u, nv <= blen values -> strings_given t values -> (one t -> ix < nv) -> W (resourceLocation c) u ->
      msafe (wrote (W (resourceLocation c)) (one t) ix) (m_set m t vr values nv ix) e c u;
    sf_set1 : forall vr b nv e c u, W (resourceLocation c) u ->
      msafe (fun _ => W (resourceLocation c)) (m_set m TBoolean vr (Some [b]) nv 0) e c u;
    sf_bin : forall vr z b nv ix e c u, nv <= blen z -> nv <= blen b -> W (resourceLocation c) u ->
      msafe (fun r u' => W (resourceLocation c) u' /\ shape z (snd (fst (fst r))) /\ shape b (snd (fst r))) (m_getBinary m vr z b nv ix) e c u;
    sf_setBin : forall vr z b nv ix e c u, nv <= blen z -> nv <= blen b -> binaries_given z b -> ix < nv -> W (resourceLocation c) u ->
      msafe (wrote (W (resourceLocation c)) True ix) (m_setBinary m vr z b nv ix) e c u;
    sf_activate : forall vr e c u, W (resourceLocation c) u -> msafe (fun _ => W (resourceLocation c)) (m_activateClock m vr) e c u;
    sf_clock : forall vr e c u, W (resourceLocation c) u -> msafe (fun _ => W (resourceLocation c)) (m_getClock m vr) e c u;
    sf_interval : forall vr e c u, W (resourceLocation c) u -> msafe (fun _ => W (resourceLocation c)) (m_getInterval m vr) e c u;
    sf_partial : forall a b e c u, W (resourceLocation c) u -> msafe (fun _ => W (resourceLocation c)) (m_getPartialDerivative m a b) e c u;
    sf_part : forall vr t e c u, W (resourceLocation c) u -> part vr t c u -> msafe (fun _ _ => True) (m_activateModelPartition m vr t) e c u;
    sf_output : m_outputDerivative m = true -> forall vr o e c u, W (resourceLocation c) u ->
      msafe (fun _ => W (resourceLocation c)) (m_getOutputDerivative m false vr o) e c u;
    sf_states : forall b n e c u, enough_or_null n b -> W (resourceLocation c) u ->
      msafe (filled (fun u' => W (resourceLocation c) u' /\ same_room room u u') b) (m_getContinuousStates m b n) e c u;
    sf_derivs : forall b n e c u, enough_or_null n b -> W (resourceLocation c) u ->
      msafe (filled (fun u' => W (resourceLocation c) u' /\ same_room room u u') b) (m_getDerivatives m b n) e c u;
    sf_indicators : forall b n e c u, enough_or_null n b -> W (resourceLocation c) u ->
      msafe (filled (fun u' => W (resourceLocation c) u' /\ same_room room u u') b) (m_getEventIndicators m b n) e c u;
    sf_nominals : forall b n e c u, enough_or_null n b -> W (resourceLocation c) u ->
      msafe (filled (fun u' => W (resourceLocation c) u' /\ same_room room u u') b) (m_getNominals m b n) e c u;
    sf_setStates : forall b n e c u, enough_or_null n b -> W (resourceLocation c) u ->
      msafe (ended (fun u' => W (resourceLocation c) u' /\ same_room room u u')) (m_setContinuousStates m b n) e c u;
    sf_event : m_eventUpdate m = true -> forall e c u, W (resourceLocation c) u -> room u ->
      msafe (fun s u' => (W (resourceLocation c) u' /\ (terminateSimulation u' = false -> room u')) /\ (s = OK \/ s = Error)) (m_eventUpdateF m) e c u;
    sf_nx : forall l u, W l u -> m_nx m u <= m_maxX m;
    sf_nz : forall l u, W l u -> m_nz m u <= m_maxZ m }.
End Laws.

Section Calls.
  Context {F : Type} {NF : Num F} (m : Model F).
  Notation D := (md m).
  Variable W : option bytes -> Mut F D -> Prop.
  Variable room : Mut F D -> Prop.
  Variable one : VType -> Prop.
  Variable part : N -> F -> Ctl F -> Mut F D -> Prop.
  Hypothesis L : SafeLaws m W room one part.

  Definition sized (o : Sol F) : Prop :=
    length (za o) = m_maxZ m /\ length (prez o) = m_maxZ m /\ nz o <= m_maxZ m /\
    length (xa o) = m_maxX m /\ length (dxa o) = m_maxX m /\ nx o <= m_maxX m.

  Section Pres.
  Variable l : option bytes.
  Variable v : bool.
  Variable J : Mut F D -> Prop.
  Definition ok (i : Inst F D) : Prop :=
    resourceLocation (ctl i) = l /\ eventModeUsed (ctl i) = v /\ W l (mut i) /\ J (mut i) /\ sized (sol i).
  Definition pres {X} (Q : X -> Prop) (f : AF F D X) : Prop :=
    forall i, ok i -> safe (fun x i' => ok i' /\ Q x) (f i).
  Lemma p_conseq X (Q Q' : X -> Prop) f : pres Q f -> (forall x, Q x -> Q' x) -> pres Q' f.
  Proof. intros H K i I. eapply safe_conseq; [apply H, I|]. intros x s [A B]. auto. Qed.
  Lemma p_ret X (Q : X -> Prop) x : Q x -> pres Q (ret x).
  Proof. intros H i I. cbn. auto. Qed.
  Lemma p_bind X Y (Q1 : X -> Prop) (Q : Y -> Prop) f k : pres Q1 f -> (forall x, Q1 x -> pres Q (k x)) -> pres Q (bind f k).
  Proof. intros H K i I. apply safe_bind. eapply safe_conseq; [apply H, I|]. intros x s [A B]. now apply K. Qed.
  Lemma p_getC : pres (fun c => resourceLocation c = l /\ eventModeUsed c = v) (getC m).
  Proof. intros i I. cbn. split; [exact I|]. split; apply I. Qed.
  Lemma p_getM : pres (fun u => W l u /\ J u) (getM m).
  Proof. intros i I. cbn. split; [exact I|]. split; apply I. Qed.
  Lemma p_getSol : pres sized (getSol m).
  Proof. intros i I. cbn. split; [exact I|]. apply I. Qed.
  Lemma p_modC f : (forall c, resourceLocation (f c) = resourceLocation c /\ eventModeUsed (f c) = eventModeUsed c) -> pres (fun _ => True) (modC m f).
  Proof.
    intros H i (A & B & C & E & G). cbn. destruct (H (ctl i)) as [H1 H2]. split; [|exact I].
    split; [cbn; congruence|]. split; [cbn; congruence|]. auto.
  Qed.
  Lemma p_modSol f : (forall o, sized o -> sized (f o)) -> pres (fun _ => True) (modSol m f).
  Proof. intros H i (A & B & C & E & G). cbn. split; [|exact I]. unfold ok. cbn. auto 10. Qed.
  Lemma p_dirty b : (forall u b, J u -> J (set_dirty b u)) -> pres (fun _ => True) (modM m (set_dirty b)).
  Proof. intros H i (A & B & C & E & G). cbn. split; [|exact I]. unfold ok. cbn. split; [auto|]. split; [auto|]. split; [now apply (sf_dirty L)|auto]. Qed.
  Lemma p_tell ev : pres (fun _ => True) (tell ev).
  Proof. intros i I. cbn. auto. Qed.
  Lemma p_nofuel X (Q : X -> Prop) : pres Q nofuelM.
  Proof. intros i I. exact Logic.I. Qed.
  Lemma p_rd T (b : Buf T) k : k < blen b -> pres (fun w => nth_error (items b) k = Some w) (rd b k).
  Proof. intros H i I. apply safe_rd; auto. Qed.
  Lemma p_wr T (b : Buf T) k w : k < blen b -> pres (fun b' => shape b b') (wr b k w).
  Proof. intros H i I. apply safe_wr; auto. Qed.
  Lemma p_call X (Q : X -> Prop) env (f : MF F D X) :
    (forall c u, resourceLocation c = l -> W l u -> J u -> msafe (fun x u' => (W l u' /\ J u') /\ Q x) f env c u) -> pres Q (call m env f).
  Proof.
    intros H i (A & B & C & E & G). specialize (H (ctl i) (mut i) A C E). unfold msafe in H. unfold call.
    destruct (f env (ctl i) (mut i)) as [[[x u] t]| |]; cbn in *; auto. destruct H as [[H1 H2] H3]. unfold ok; cbn; auto 8.
  Qed.
  Lemma p_log env : pres (fun _ => True) (logError m env).
  Proof.
    apply p_call. intros c u A B C. apply ms_log. auto.
  Qed.
  Lemma p_setMode s : pres (fun _ => True) (setMode m s).
  Proof. apply p_modC. intro c. split; reflexivity. Qed.
  Lemma p_CALL st s : pres (fun st' => st' = smax st s) (CALL m st s).
  Proof.
    unfold CALL. cbv zeta. destruct (smax st s);
      first [apply p_ret; reflexivity|eapply p_bind; [apply p_setMode|intros; apply p_ret; reflexivity]].
  Qed.
  Lemma p_CALLk X (Q : Status * X -> Prop) st s (x : X) k :
    (forall st', st' = smax st s -> stops st' = true -> Q (st', x)) ->
    (forall st', st' = smax st s -> stops st' = false -> pres Q (k st')) -> pres Q (CALLk m st s x k).
  Proof.
    intros H K. unfold CALLk. eapply p_bind; [apply p_CALL|]. intros st' E. destruct (stops st') eqn:S; [apply p_ret; auto|auto].
  Qed.
  Lemma p_allowed env mask : pres (fun _ => True) (allowedState m env mask).
  Proof. unfold allowedState. eapply p_bind; [apply p_getC|]. intros c _. destruct (N.eqb _ _); [eapply p_bind; [apply p_log|intros]|]; apply p_ret; auto. Qed.
  Lemma p_allowed2 env mask : pres (fun _ => True) (allowedState2 m env mask).
  Proof. unfold allowedState2. eapply p_bind; [apply p_getC|]. intros c _. destruct (N.eqb _ _); [eapply p_bind; [apply p_log|intros]|]; apply p_ret; auto. Qed.
  Definition anyr {X} : X -> Prop := fun _ => True.
  Lemma p_BEGIN X env mask (x : X) k : pres anyr k -> pres anyr (BEGIN m env mask x k).
  Proof.
    intro H. unfold BEGIN. eapply p_bind; [apply p_allowed|]. intros b _. destruct b; [exact H|]. apply p_CALLk; [exact (fun _ _ _ => I)|auto].
  Qed.
  Lemma p_BEGIN2 X env mask (x : X) k : pres anyr k -> pres anyr (BEGIN2 m env mask x k).
  Proof.
    intro H. unfold BEGIN2. eapply p_bind; [apply p_allowed2|]. intros b _. destruct b; [exact H|]. apply p_CALLk; [exact (fun _ _ _ => I)|auto].
  Qed.
  Lemma p_notnull T X env (p : option T) (x : X) k : (p <> None -> pres anyr k) -> pres anyr (ASSERT_NOT_NULL m env p x k).
  Proof.
    intro H. unfold ASSERT_NOT_NULL. destruct p; [apply H; discriminate|].
    eapply p_bind; [apply p_log|intros]. eapply p_bind; [apply p_setMode|intros]. apply p_ret. exact I.
  Qed.
  Lemma p_nullPointer T env (p : option T) : pres (fun _ => True) (nullPointer m env p).
  Proof.
    unfold nullPointer. destruct p; [now apply p_ret|].
    eapply p_bind; [apply p_setMode|intros]. eapply p_bind; [apply p_log|intros]. now apply p_ret.
  Qed.

  Hypothesis JR : forall u u', same_room m room u u' -> J u -> J u'.
  Hypothesis JD : forall u b, J u -> J (set_dirty b u).
  Lemma p_call0 X env (f : MF F D X) : (forall c u, resourceLocation c = l -> W l u -> J u -> msafe (fun _ u' => W l u' /\ J u') f env c u) -> pres anyr (call m env f).
  Proof. intro H. apply p_call. intros c u A B C. eapply ms_conseq; [apply (H c u A B C)|]. intros x s R. split; [exact R|exact I]. Qed.
  (** the functions of the integrator *)
  Definition fine (b : Buf F) (r : Status * Buf F) : Prop := shape b (snd r) /\ (fst r = OK \/ fst r = Error).
  Lemma p_filled env f b n :
    (forall e c u, enough_or_null n b -> W (resourceLocation c) u ->
      msafe (filled (fun u' => W (resourceLocation c) u' /\ same_room m room u u') b) (f b n) e c u) ->
    enough_or_null n b -> pres (fine b) (call m env (f b n)).
  Proof.
    intros H B. apply p_call. intros c u <- A C. eapply ms_conseq; [apply (H env c u B A)|].
    intros r u' ((H1 & H2) & H3 & H4). split; [split; [exact H1|eapply JR; eauto]|]. split; auto.
  Qed.
  Lemma p_ended env b n : enough_or_null n b -> pres (fun r => r = OK \/ r = Error) (call m env (m_setContinuousStates m b n)).
  Proof.
    intros B. apply p_call. intros c u <- A C. eapply ms_conseq; [apply (sf_setStates L); auto|].
    intros r u' ((H1 & H2) & H3). split; [split; [exact H1|eapply JR; eauto]|exact H3].
  Qed.
  Lemma sized_za o x : sized o -> length x = m_maxZ m -> sized (set_za x o).
  Proof. unfold sized; cbn; intuition. Qed.
  Lemma sized_prez o x : sized o -> length x = m_maxZ m -> sized (set_prez x o).
  Proof. unfold sized; cbn; intuition. Qed.
  Lemma sized_xa o x : sized o -> length x = m_maxX m -> sized (set_xa x o).
  Proof. unfold sized; cbn; intuition. Qed.
  Lemma sized_dxa o x : sized o -> length x = m_maxX m -> sized (set_dxa x o).
  Proof. unfold sized; cbn; intuition. Qed.
  Lemma p_into (x : list F) (y : option (list F)) (g : list F -> Sol F -> Sol F) k : length x = k -> shape (Some x) y ->
    (forall o z, sized o -> length z = k -> sized (g z o)) ->
    pres (fun _ => True) (match y with None => ubM | Some z => modSol m (g z) end).
  Proof.
    intros A B C. destruct y as [z|]; [|contradiction]. cbn in B. apply p_modSol. intros o O. apply C; congruence || auto.
  Qed.
  Lemma copyn_fit n (a b : list F) k : length a = k -> length b = k -> n <= k -> exists c, copyn n a b = Some c /\ length c = k.
  Proof.
    intros A B C. unfold copyn. rewrite A, B. apply Nat.leb_le in C as C'. rewrite C'. cbn [andb]. eexists. split; [reflexivity|].
    rewrite app_length, firstn_length, skipn_length. lia.
  Qed.
  Lemma p_configurate env : pres (fun _ => True) (configurate m env).
  Proof.
    unfold configurate, CALLc. eapply p_bind with (Q1 := fun _ => True).
    - unfold configurate_z. destruct (Nat.ltb 0 (m_maxZ m)); [|now apply p_ret].
      eapply p_bind; [apply p_getM|]. intros u [Wu _].
      eapply p_bind; [apply p_modSol|intros _ _].
      { intros o (A & B & C & E & G & H). unfold sized. cbn. split; [auto|]. split; [auto|]. split; [exact (sf_nz L _ _ Wu)|auto]. }
      eapply p_bind; [apply p_getSol|]. intros o (A & B & C & _).
      eapply p_bind; [apply p_filled; [apply (sf_indicators L)|cbn; lia]|]. intros r [S _]. cbn [shape] in S.
      destruct (snd r) as [p|]; [|contradiction]. eapply p_bind; [apply p_modSol|intros; now apply p_ret].
      intros o' O. apply sized_prez; [exact O|congruence].
    - intros s _. destruct s; try now apply p_ret. eapply p_bind with (Q1 := fun _ => True); [|intros; now apply p_ret].
      unfold configurate_x. destruct (Nat.ltb 0 (m_maxX m)); [|apply p_ret; exact I].
      eapply p_bind; [apply p_getM|]. intros u [Wu _]. apply p_modSol.
      intros o (A & B & C & E & G & H). unfold sized. cbn. pose proof (sf_nx L _ _ Wu). auto 8.
  Qed.
  Lemma p_fixed_x env : pres (fun s => s = OK \/ s = Error) (fixedStep_x m env).
  Proof.
    unfold fixedStep_x. eapply p_bind; [apply p_getSol|]. intros o (A1 & A2 & A3 & A4 & A5 & A6).
    destruct (Nat.ltb 0 (nx o)); [|apply p_ret; auto].
    eapply p_bind; [apply p_filled; [apply (sf_states L)|cbn; lia]|]. intros r [S St].
    eapply p_bind; [eapply p_into; [exact A4|exact S|exact sized_xa]|intros _ _].
    destruct St as [-> | ->]; [|apply p_ret; auto].
    eapply p_bind; [apply p_filled; [apply (sf_derivs L)|cbn; lia]|]. intros r' [S' St'].
    eapply p_bind; [eapply p_into; [exact A5|exact S'|exact sized_dxa]|intros _ _].
    destruct St' as [-> | ->]; [|apply p_ret; auto].
    eapply p_bind; [apply p_getSol|]. intros o' (B1 & B2 & B3 & B4 & B5 & B6).
    assert (E : exists x, euler m (nx o') (xa o') (dxa o') = Some x /\ length x = m_maxX m).
    { unfold euler. rewrite B4, B5. apply Nat.leb_le in B6 as B6'. rewrite B6'. cbn [andb]. eexists. split; [reflexivity|].
      rewrite app_length, map_length, combine_length, !firstn_length, skipn_length. lia. }
    destruct E as (x & -> & Ex). eapply p_bind; [apply p_modSol|intros _ _].
    { intros o2 O. now apply sized_xa. }
    apply p_ended. cbn. lia.
  Qed.
  Lemma p_fixed_z env : pres (fun r => fst r = OK \/ fst r = Error) (fixedStep_z m env).
  Proof.
    unfold fixedStep_z. eapply p_bind; [apply p_getSol|]. intros o (A1 & A2 & A3 & A4 & A5 & A6).
    destruct (Nat.ltb 0 (nz o)); [|apply p_ret; auto].
    eapply p_bind; [apply p_filled; [apply (sf_indicators L)|cbn; lia]|]. intros r [S St].
    eapply p_bind; [eapply p_into; [exact A1|exact S|exact sized_za]|intros _ _].
    destruct St as [-> | ->]; [|apply p_ret; auto].
    eapply p_bind; [apply p_getSol|]. intros o' (B1 & B2 & B3 & B4 & B5 & B6).
    unfold crossings. rewrite B1, B2. apply Nat.leb_le in B3 as B3'. rewrite B3'. cbn [andb].
    destruct (@copyn_fit (nz o') (za o') (prez o') (m_maxZ m) B1 B2 B3) as (p & -> & Ep).
    eapply p_bind; [apply p_modSol|intros _ _; apply p_ret; auto]. intros o2 O. now apply sized_prez.
  Qed.
  Definition stepped (r : Status * option bool * option bool) : Prop :=
    (fst (fst r) = OK /\ exists a b, r = (OK, Some a, Some b)) \/ fst (fst r) = Error.
  Lemma p_fixedStep env : pres stepped (doFixedStep m env).
  Proof.
    unfold doFixedStep. eapply p_bind; [apply p_fixed_x|]. intros s St.
    destruct St as [-> | ->]; [|apply p_ret; right; reflexivity].
    eapply p_bind with (Q1 := fun _ => True).
    { unfold fixedStep_time. eapply p_bind; [apply p_modC; intro; split; reflexivity|intros _ _]. apply p_modC; intro; split; reflexivity. }
    intros _ _. eapply p_bind; [apply p_fixed_z|]. intros [s ev] St. cbn [fst] in St.
    destruct St as [-> | ->]; [|apply p_ret; right; reflexivity].
    eapply p_bind; [apply p_getC|]. intros c _. eapply p_bind; [apply p_getM|]. intros u _.
    eapply p_bind with (Q1 := fun _ => True); [destruct (hasIntermediateUpdate c); [apply p_tell|now apply p_ret]|].
    intros _ _. apply p_ret. left. split; [reflexivity|]. eauto.
  Qed.
  End Pres.
End Calls.
