(** SimSys2.v -- the same as SimSys.v for the FMI 2 interface. *)
From Coq Require Import List NArith ZArith Bool Arith Lia.
From Verif Require Import Base Instance ModelIface Core Fmi3 Fmi2 Api Logic SpecModes Gate Effect Reach Calls
  SpecState Sim Sim3 SimSys Sim2.
Import ListNotations.
Set Implicit Arguments.

Section Sys.
  Context {F : Type} {NF : Num F} (m : Model F) (P : Rel (md m)) (szof : N).
  Notation D := (md m).
  (** Depending on the mode, the communication points ([eqE]) and the solver ([eqS]) agree. *)
  Variables eqE eqS : ModelState -> Prop.
  Hypothesis L : SimLaws m P.
  Hypothesis NX : r_cross P = false.

  Definition modeRel2 (i i' : Inst F D) : Prop :=
    In (mode (ctl i)) observable2 /\ instR m P (eqE (mode (ctl i))) (eqS (mode (ctl i))) i i'.
  Definition cellR2 (a b : option (Inst F D)) : Prop :=
    match a, b with Some i, Some j => modeRel2 i j | None, None => True | _, _ => False end.
  Definition heapR2 (n n' : nat) (h h' : list (option (Inst F D))) : Prop :=
    exists p p' t t', h = p ++ t /\ h' = p' ++ t' /\ length p = n /\ length p' = n' /\ Forall2 cellR2 t t'.
  Definition sysR2 (n n' : nat) (s s' : Sys F D) : Prop :=
    modeRel2 (sinst s) (sinst s') /\ heapR2 n n' (heap s) (heap s').

  Lemma heapR_nth2 n n' h h' k : heapR2 n n' h h' ->
    match nth_error h (n + k), nth_error h' (n' + k) with
    | Some a, Some b => cellR2 a b | None, None => True | _, _ => False end.
  Proof.
    intros (p & p' & t & t' & -> & -> & <- & <- & H).
    rewrite !nth_error_app2 by lia. replace (length p + k - length p) with k by lia.
    replace (length p' + k - length p') with k by lia. now apply Forall2_nth.
  Qed.
  Lemma heapR_upd2 n n' h h' k a b : heapR2 n n' h h' -> cellR2 a b -> heapR2 n n' (upd h (n + k) a) (upd h' (n' + k) b).
  Proof.
    intros (p & p' & t & t' & -> & -> & <- & <- & H) Hab. rewrite !upd_app.
    exists p, p', (upd t k a), (upd t' k b). repeat (split; auto). now apply Forall2_upd.
  Qed.
  Lemma heapR_app2 n n' h h' a b : heapR2 n n' h h' -> cellR2 a b -> heapR2 n n' (h ++ [a]) (h' ++ [b]).
  Proof.
    intros (p & p' & t & t' & -> & -> & <- & <- & H) Hab. rewrite <- !app_assoc.
    exists p, p', (t ++ [a]), (t' ++ [b]). repeat (split; auto). apply Forall2_app; auto.
  Qed.
  Lemma heapR_length2 n n' h h' : heapR2 n n' h h' -> length h - n = length h' - n' /\ n <= length h /\ n' <= length h'.
  Proof.
    intros (p & p' & t & t' & -> & -> & <- & <- & H). rewrite !app_length. apply F2_length in H. lia.
  Qed.

  Definition heap2 (o : Op2 F D) : bool :=
    match o with
    | O2GetFMUstate _ _ | O2SetFMUstate _ | O2FreeFMUstate _ _ | O2SerializedFMUstateSize _
    | O2SerializeFMUstate _ _ _ | O2DeSerializeFMUstate _ _ _ _ => true
    | _ => false
    end.
  Definition is_Setup2 (o : Op2 F D) : bool := match o with O2SetupExperiment _ _ _ => true | _ => false end.
  Definition configures2 (o : Op2 F D) : bool :=
    match o with O2ExitInitializationMode => true | _ => false end.
  Definition is_DoStep2 (o : Op2 F D) : bool := match o with O2DoStep _ _ => true | _ => false end.

  (** All calls on the instance keep the relation; entering initialization makes [E] true and
      the calls that configure the solver make [S] true. *)
  Lemma exec2_inst fuel env o s s' E S : r_env P env -> heap2 o = false ->
    instR m P E S (sinst s) (sinst s') ->
    (is_DoStep2 o = true -> mode_of s = StepComplete -> E /\ S) ->
    orel P (fun r r' s1 s1' => r = r' /\ instR m P E S (sinst s1) (sinst s1') /\
              (fst r = OK -> instR m P (E \/ is_Setup2 o = true) (S \/ configures2 o = true) (sinst s1) (sinst s1')) /\
              heap s1 = heap s /\ heap s1' = heap s')
      (exec2 m szof fuel env o s) (exec2 m szof fuel env o s').
  Proof.
    intros He Ho R Hd.
    assert (Same : forall X (f : AF F D (Status * X)) out, same m P E S f -> is_Setup2 o = false -> configures2 o = false ->
      orel P (fun r r' s1 s1' => r = r' /\ instR m P E S (sinst s1) (sinst s1') /\
              (fst r = OK -> instR m P (E \/ is_Setup2 o = true) (S \/ configures2 o = true) (sinst s1) (sinst s1')) /\
              heap s1 = heap s /\ heap s1' = heap s') (outI m f out s) (outI m f out s')).
    { intros X f out H H1 H2. eapply orel_conseq; [apply or_outI; apply (H _ _ R)|].
      intros x y s1 s1' (A & B & C & G). refine (conj A (conj B (conj _ (conj C G)))). intros _. rewrite H1, H2.
      eapply instR_weaken; [| |exact B]; intuition discriminate. }
    destruct o; try discriminate; cbn [exec2];
      try (lazymatch goal with |- context [fmi2DoStep] => fail | |- _ => apply Same; [|reflexivity|reflexivity] end).
    - now apply same2_SetDebugLogging.
    - eapply orel_conseq; [eapply or_outIu; apply (or2_Setup env NX _ _ _ R)|].
      intros x y s1 s1' (A & B & C & G). refine (conj A (conj B (conj _ G))). intro H.
      eapply instR_weaken; [| |exact (C H)]; cbn; intuition discriminate.
    - now apply same2_mod1.
    - eapply orel_conseq; [eapply or_outIu; apply (or2_ExitInit env L He NX R)|].
      intros x y s1 s1' (A & B & C & G). refine (conj A (conj B (conj _ G))). intro H.
      eapply instR_weaken; [| |exact (C H)]; cbn; intuition discriminate.
    - now apply same2_mod1.
    - now apply same2_Reset.
    - now apply same2_Get.
    - now apply same2_Set.
    - apply same2_BEGIN; auto. now apply same2_getBoolean_loop.
    - apply same2_BEGIN; auto. now apply same2_setBoolean_loop.
    - now apply same2_Directional.
    - now apply same2_err.
    - now apply same2_OutputDerivatives.
    - now apply same2_err.
    - eapply orel_conseq; [apply or_outI; apply (or2_DoStep env L He NX _ _ _ R); apply Hd; reflexivity|].
      intros x y s1 s1' (A & B & C & G). refine (conj A (conj B (conj _ (conj C G)))). intros _.
      eapply instR_weaken; [| |exact B]; cbn; intuition discriminate.
    - now apply same2_GetStatus.
    - now apply same2_GetRealStatus.
    - now apply same2_GetBooleanStatus.
    - now apply same2_mod1.
    - now apply same2_New.
    - now apply same2_mod1.
    - now apply same2_Completed.
    - now apply same2_SetTime.
    - now apply same2_SetStates.
    - apply same2_GetArray; auto. apply (sl_derivs L).
    - apply same2_GetArray; auto. apply (sl_indicators L).
    - apply same2_GetArray; auto. apply (sl_states L).
    - apply same2_GetArray; auto. apply (sl_nominals L).
  Qed.

  (** ** Calls on saved states *)
  Section Exec.
  Hypothesis W : Laws m.
  (** the calls considered, depending on the mode *)
  Variable allowed : Op2 F D -> ModelState -> Prop.
  Hypothesis HE : forall (o : Op2 F D) (s : Sys F D), heap2 o = false -> In (mode_of s) (when2 o) ->
    allowed o (mode_of s) -> eqE (next2 o s) -> eqE (mode_of s) \/ is_Setup2 o = true.
  Hypothesis HS : forall (o : Op2 F D) (s : Sys F D), heap2 o = false -> In (mode_of s) (when2 o) ->
    allowed o (mode_of s) -> eqS (next2 o s) -> eqS (mode_of s) \/ configures2 o = true.
  Hypothesis HTE : eqE Terminated -> forall a, eqE a.
  Hypothesis HTS : eqS Terminated -> forall a, eqS a.
  Hypothesis HDE : eqE StepComplete.
  Hypothesis HDS : eqS StepComplete.

  Definition resR2 (n n' : nat) (r r' : Status * Out F D) (s s' : Sys F D) : Prop :=
    fst r' = fst r /\ view n' (snd r') = view n (snd r) /\ sysR2 n n' s s'.

  Lemma next2_modes (o : Op2 F D) (s : Sys F D) : heap2 o = false -> In (mode_of s) observable2 -> In (next2 o s) observable2.
  Proof.
    unfold mode_of. intros Ho H. destruct o; try discriminate Ho; cbn [next2]; try exact H;
      try (unfold observable2; cbn; tauto).
    destruct (itype (ctl (sinst s))); unfold observable2; cbn; tauto.
  Qed.
  Lemma terminated_modes : In Terminated observable2.
  Proof. unfold observable2; cbn; tauto. Qed.

  Lemma or_view_id n n' (out : Out F D) : (forall h, out <> OHandle h) -> (forall b, out <> OBlob b) -> view n out = view n' out.
  Proof. destruct out; intros A B; try reflexivity. destruct (A h eq_refl). Qed.

  Lemma outI_Done X (f : AF F D (Status * X)) (out : X -> Out F D) s r s1 t :
    outI m f out s = Done (r, s1, t) -> exists x, snd r = out x.
  Proof.
    unfold outI, outS, onInst, bind. destruct (f (sinst s)) as [[[[st x] i] t1]| |]; try discriminate.
    cbn. intro H; inversion H; subst. cbn. eauto.
  Qed.
  Lemma exec2_out fuel env o s r s1 t : heap2 o = false -> exec2 m szof fuel env o s = Done (r, s1, t) ->
    (forall h, snd r <> OHandle h) /\ (forall b, snd r <> OBlob b).
  Proof.
    intros Ho E. destruct o; try discriminate Ho; cbn [exec2] in E; apply outI_Done in E as [? ->];
      split; intros; discriminate.
  Qed.

  Lemma exec2_sim_inst fuel env o s s' n n' : r_env P env -> heap2 o = false -> sysR2 n n' s s' ->
    allowed o (mode_of s) ->
    orel P (resR2 n n') (exec2 m szof fuel env o s) (exec2 m szof fuel env o s').
  Proof.
    intros He Ho [[Hm R] H] Al.
    pose proof (@exec2_inst fuel env o s s' _ _ He Ho R) as K.
    unfold orel in K |- *.
    destruct (exec2 m szof fuel env o s) as [[[r s1] t]| |] eqn:E1;
      destruct (exec2 m szof fuel env o s') as [[[r' s1'] t']| |] eqn:E2; try apply K;
      try (intros _ Hd; unfold mode_of in Hd; rewrite Hd; auto).
    destruct K as [(<- & R1 & R2 & G & G') T]; [intros _ Hd; unfold mode_of in Hd; rewrite Hd; auto|].
    split; [|exact T]. split; [reflexivity|].
    destruct (exec2_out _ _ _ _ Ho E1) as [N1 N2]. split; [now apply or_view_id|].
    split; [|rewrite G, G'; exact H].
    destruct r as [st out]. cbn [fst snd] in *.
    destruct (@exec2_mode _ _ _ szof W _ _ _ _ _ _ _ _ E1) as [(-> & Hw & Hn)|[(-> & Hn & _)|(-> & Hn)]].
    - specialize (R2 eq_refl). unfold mode_of in Hn, Hw. split.
      + rewrite Hn. now apply next2_modes.
      + rewrite Hn. eapply instR_weaken; [| |exact R2].
        * apply HE; auto.
        * apply HS; auto.
    - unfold mode_of in Hn. split; rewrite Hn; auto.
    - unfold mode_of in Hn. split; [rewrite Hn; apply terminated_modes|].
      rewrite Hn. eapply instR_weaken; [| |exact R1]; auto.
  Qed.

  Lemma any_pass mode : In mode observable2 -> N.land (bit2 mode) MASK2_FMUstate <> 0%N.
  Proof. unfold observable2. cbn [In]. intros H. destruct mode; try discriminate; intuition discriminate. Qed.
  Lemma sysR_mode2 n n' s s' : sysR2 n n' s s' -> mode (ctl (sinst s')) = mode (ctl (sinst s)).
  Proof. intros [[_ R] _]. apply (same_mode NX R). Qed.

  Lemma or_outS2 n n' X (f g : SF m (Status * X)) (out : X -> Out F D) s s' :
    orel P (fun r r' s1 s1' => fst r' = fst r /\ view n' (out (snd r')) = view n (out (snd r)) /\ sysR2 n n' s1 s1') (f s) (g s') ->
    orel P (resR2 n n') (outS f out s) (outS g out s').
  Proof.
    unfold outS, bind, orel.
    destruct (f s) as [[[[st x] i] t]| |], (g s') as [[[[st' x'] i'] t']| |]; auto.
    cbn. rewrite !app_nil_r. intros [H T]. split; [exact H|exact T].
  Qed.
  Lemma BEGIN2S_any X (env : Env) (x : X) (k : SF m (Status * X)) s : In (mode (ctl (sinst s))) observable2 ->
    BEGIN2S env MASK2_FMUstate x k s = k s.
  Proof. intro H. apply BEGIN2S_pass. now apply any_pass. Qed.

  Lemma sub_add n k : n + k - n = k.
  Proof. lia. Qed.
  Lemma or_alloc2 n n' s s' a b : sysR2 n n' s s' -> modeRel2 a b ->
    orel P (fun k k' s1 s1' => k' - n' = k - n /\ sysR2 n n' s1 s1') (alloc m a s) (alloc m b s').
  Proof.
    intros [R H] Q. unfold alloc. cbn. split; [|apply traceR_refl].
    pose proof (heapR_length2 H). split; [lia|]. split; [exact R|]. cbn. now apply heapR_app2.
  Qed.
  Lemma or_store2 n n' s s' k a b : sysR2 n n' s s' -> cellR2 a b ->
    orel P (fun _ _ s1 s1' => sysR2 n n' s1 s1') (store m (n + k) a s) (store m (n' + k) b s').
  Proof.
    intros [R H] Q. unfold store. pose proof (heapR_nth2 k H) as N.
    destruct (nth_error (heap s) (n + k)) as [[i|]|], (nth_error (heap s') (n' + k)) as [[i'|]|]; cbn in N; try contradiction; try exact I.
    cbn. split; [|apply traceR_refl]. split; [exact R|]. cbn. now apply heapR_upd2.
  Qed.
  Lemma or_deref2 n n' s s' k : sysR2 n n' s s' ->
    orel P (fun i i' s1 s1' => modeRel2 i i' /\ sysR2 n n' s1 s1') (deref m (n + k) s) (deref m (n' + k) s').
  Proof.
    intros [R H]. unfold deref. pose proof (heapR_nth2 k H) as N.
    destruct (nth_error (heap s) (n + k)) as [[i|]|], (nth_error (heap s') (n' + k)) as [[i'|]|]; cbn in N; try contradiction; try exact I.
    cbn. split; [|apply traceR_refl]. split; [exact N|]. split; auto.
  Qed.
  (** instance functions under a lifted relation *)
  Lemma or_onInst2 X n n' (f : AF F D X) s s' (Q : X -> X -> Inst F D -> Inst F D -> Prop) :
    sysR2 n n' s s' -> orel P Q (f (sinst s)) (f (sinst s')) -> (forall x y i j, Q x y i j -> modeRel2 i j) ->
    orel P (fun x y s1 s1' => Q x y (sinst s1) (sinst s1') /\ sysR2 n n' s1 s1') (onInst m f s) (onInst m f s').
  Proof.
    intros [R H] K Qm. unfold onInst. unfold orel in K |- *.
    destruct (f (sinst s)) as [[[x i] t]| |], (f (sinst s')) as [[[y i'] t']| |]; auto.
    destruct K as [K T]. split; [|exact T]. cbn. split; [exact K|]. split; cbn; [eapply Qm; exact K|exact H].
  Qed.
  Lemma mode_invalid a b env (i : Inst F D) x i' t : invalidNumber m env a b i = Done (x, i', t) ->
    (x = false /\ i' = i) \/ (x = true /\ mode (ctl i') = Terminated).
  Proof.
    unfold invalidNumber. destruct (N.eqb a b); [intro H; inversion H; auto|].
    unfold setMode. rewrite bind_modC, bind_logError. cbn. intro H; inversion H; subst. auto.
  Qed.
  Lemma mode_null T (p : option T) env (i : Inst F D) x i' t : nullPointer m env p i = Done (x, i', t) ->
    (x = false /\ i' = i) \/ (x = true /\ mode (ctl i') = Terminated).
  Proof.
    unfold nullPointer. destruct p; [intro H; inversion H; auto|].
    unfold setMode. rewrite bind_modC, bind_logError. cbn. intro H; inversion H; subst. auto.
  Qed.
  Lemma modeRel_upd2 (i j : Inst F D) E S : In (mode (ctl i)) observable2 -> instR m P E S i j ->
    (eqE (mode (ctl i)) -> E) -> (eqS (mode (ctl i)) -> S) -> modeRel2 i j.
  Proof. intros Hm R A B. split; auto. eapply instR_weaken; [| |exact R]; auto. Qed.

  Lemma or_invalid2 n n' env a b s s' : sysR2 n n' s s' ->
    orel P (fun x y s1 s1' => x = y /\ sysR2 n n' s1 s1') (onInst m (invalidNumber m env a b) s) (onInst m (invalidNumber m env a b) s').
  Proof.
    intros R. eapply orel_conseq.
    - apply (@or_onInst2 _ n n' (invalidNumber m env a b) s s' (fun x y i j => x = y /\ modeRel2 i j) R).
      + destruct R as [[Hm R] H]. pose proof (or_invalidNumber env a b R) as K.
        pose proof (@mode_invalid a b env (sinst s)) as M. unfold orel in K |- *.
        destruct (invalidNumber m env a b (sinst s)) as [[[x i] t]| |];
          destruct (invalidNumber m env a b (sinst s')) as [[[y j] t']| |]; auto.
        destruct K as [[-> K] T]. split; [|exact T]. split; [reflexivity|].
        destruct (M _ _ _ eq_refl) as [[-> ->]|[-> Ht]].
        * eapply modeRel_upd2; [exact Hm|exact K|auto|auto].
        * eapply modeRel_upd2; [rewrite Ht; apply terminated_modes|exact K|rewrite Ht; auto|rewrite Ht; auto].
      + intros x y i j [_ Q]; exact Q.
    - intros x y s1 s1' [[A _] B]. auto.
  Qed.
  Lemma or_null2 T n n' env (p p' : option T) s s' : (p = None <-> p' = None) -> sysR2 n n' s s' ->
    orel P (fun x y s1 s1' => x = y /\ sysR2 n n' s1 s1') (onInst m (nullPointer m env p) s) (onInst m (nullPointer m env p') s').
  Proof.
    intros Hp R. assert (E : nullPointer m env p' = nullPointer m env p).
    { unfold nullPointer. destruct p, p'; auto; destruct Hp as [A B]; [discriminate B|discriminate A]; reflexivity. }
    rewrite E. clear E Hp p'. eapply orel_conseq.
    - apply (@or_onInst2 _ n n' (nullPointer m env p) s s' (fun x y i j => x = y /\ modeRel2 i j) R).
      + destruct R as [[Hm R] H]. pose proof (or_nullPointer env p R) as K.
        pose proof (@mode_null T p env (sinst s)) as M. unfold orel in K |- *.
        destruct (nullPointer m env p (sinst s)) as [[[x i] t]| |];
          destruct (nullPointer m env p (sinst s')) as [[[y j] t']| |]; auto.
        destruct K as [[-> K] T']. split; [|exact T']. split; [reflexivity|].
        destruct (M _ _ _ eq_refl) as [[-> ->]|[-> Ht]].
        * eapply modeRel_upd2; [exact Hm|exact K|auto|auto].
        * eapply modeRel_upd2; [rewrite Ht; apply terminated_modes|exact K|rewrite Ht; auto|rewrite Ht; auto].
      + intros x y i j [_ Q]; exact Q.
    - intros x y s1 s1' [[A _] B]. auto.
  Qed.

  Lemma exec2_sim_heap fuel env o s s' n n' : r_env P env -> heap2 o = true -> sysR2 n n' s s' ->
    (forall i, image2 o = Some i -> modeRel2 i i) ->
    orel P (resR2 n n') (exec2 m szof fuel env (rebase2 n o) s) (exec2 m szof fuel env (rebase2 n' o) s').
  Proof.
    intros He Ho R Im. pose proof (sysR_mode2 R) as Sm. pose proof (proj1 (proj1 R)) as Hm.
    assert (Hm' : In (mode (ctl (sinst s'))) observable2) by now rewrite Sm.
    destruct o; try discriminate Ho; cbn [exec2 rebase2]; apply or_outS2.
    - (* get *) unfold fmi2GetFMUstate. rewrite !BEGIN2S_any by auto. unfold getFMUState.
      destruct (negb p); [exact I|].
      apply (@orel_bind _ _ P _ _ _ _ _ _ (fun k k' s1 s1' => option_map (fun x => x - n') k' = option_map (fun x => x - n) k /\ sysR2 n n' s1 s1')).
      + eapply orel_bind with (Q1 := fun a b s1 s1' => modeRel2 a b /\ sysR2 n n' s1 s1').
        { cbn. split; [|apply traceR_refl]. split; [apply R|exact R]. }
        clear s s' R Sm Hm Hm'. intros a b s s' [Q R]. destruct h as [h|]; cbn [option_map].
        * eapply orel_bind; [apply (@or_store2 n n' _ _ h None None R I)|]. intros ? ? s2 s2' R2.
          eapply orel_bind; [apply (or_alloc2 R2 Q)|]. intros k k' s1 s1' [E R1]. apply orel_ret. cbn. rewrite E. auto.
        * eapply orel_bind; [apply (or_alloc2 R Q)|]. intros k k' s1 s1' [E R1]. apply orel_ret. cbn. rewrite E. auto.
      + intros k k' s1 s1' [E R1]. apply orel_ret. cbn. rewrite E. auto.
    - (* set *) unfold fmi2SetFMUstate. rewrite !BEGIN2S_any by auto. destruct h as [h|]; cbn [option_map setFMUStateS].
      + eapply orel_bind with (Q1 := fun st st' s1 s1' => st = OK /\ st' = OK /\ sysR2 n n' s1 s1').
        * eapply orel_bind; [apply (or_deref2 h R)|]. clear s s' R Sm Hm Hm'. intros i i' s s' [Q R].
          unfold onInst. pose proof (or_restore env (proj2 Q) (proj2 (proj1 R))) as K.
          cbn [setFMUState] in K |- *.
          destruct (restoreSol (sol i) (sol (sinst s))); destruct (restoreSol (sol i') (sol (sinst s'))); cbn in K |- *; try contradiction; try exact I.
          destruct K as [[_ K] T]. split; [|exact T]. split; [reflexivity|]. split; [reflexivity|].
          split; [|apply R]. split; [apply Q|]. cbn. exact K.
        * clear s s' R Sm Hm Hm'. intros st st' s s' (-> & -> & R). unfold onInst, CALLk, CALL, bind. cbn.
          split; [|apply traceR_refl]. split; [reflexivity|]. split; [reflexivity|]. destruct s, s'. exact R.
      + unfold onInst, setFMUState, bind at 1 3. rewrite !bind_logError.
        pose proof (or_logE env (proj2 (proj1 R))) as T. rewrite !logError_eq in T. destruct T as [_ T].
        cbn. rewrite !app_nil_r. split; [|exact T]. split; [reflexivity|]. split; [reflexivity|].
        split; [|apply R]. cbn. eapply modeRel_upd2 with (E := eqE (mode (ctl (sinst s)))) (S := eqS (mode (ctl (sinst s)))); cbn; auto.
        all: apply R.
    - (* free *) unfold fmi2FreeFMUstate. rewrite !BEGIN2S_any by auto. unfold freeFMUState.
      destruct (negb p); [exact I|]. destruct h as [h|]; cbn [option_map].
      + eapply orel_bind with (Q1 := fun k k' s1 s1' => k = None /\ k' = None /\ sysR2 n n' s1 s1').
        * eapply orel_bind; [apply (@or_store2 n n' _ _ h None None R I)|]. intros ? ? s1 s1' R1. apply orel_ret. auto.
        * intros k k' s1 s1' (-> & -> & R1). apply orel_ret. cbn. auto.
      + eapply orel_bind with (Q1 := fun k k' s1 s1' => k = None /\ k' = None /\ sysR2 n n' s1 s1').
        * apply orel_ret. auto.
        * intros k k' s1 s1' (-> & -> & R1). apply orel_ret. cbn. auto.
    - (* size *) unfold fmi2SerializedFMUstateSize. rewrite !BEGIN2S_any by auto. destruct p; [|exact I].
      apply orel_ret. cbn. auto.
    - (* serialize *) unfold fmi2SerializeFMUstate. rewrite !BEGIN2S_any by auto. unfold serializeFMUState.
      eapply orel_bind; [apply (@or_null2 nat n n' env (option_map (Nat.add n) h) (option_map (Nat.add n') h) _ _); [destruct h; cbn; split; congruence|exact R]|].
      clear s s' R Sm Hm Hm'. intros b ? s s' [<- R]. destruct b; [apply orel_ret; cbn; auto|].
      eapply orel_bind; [apply (or_invalid2 env size szof R)|].
      clear s s' R. intros b ? s s' [<- R]. destruct b; [apply orel_ret; cbn; auto|].
      destruct h as [h|]; cbn [option_map]; [|exact I]. destruct dst as [d|]; [|exact I].
      eapply orel_bind; [apply (or_deref2 h R)|]. clear s s' R. intros i i' s s' [Q R].
      destruct (N.ltb (bsize d) szof); [exact I|]. apply orel_ret. cbn. auto.
    - (* deserialize *) unfold fmi2DeSerializeFMUstate. rewrite !BEGIN2S_any by auto. unfold deserializeFMUState.
      eapply orel_bind; [apply (or_invalid2 env size szof R)|].
      clear s s' R Sm Hm Hm'. intros b ? s s' [<- R]. destruct b.
      { apply orel_ret. cbn. destruct h as [h|]; cbn; rewrite ?sub_add; auto. }
      destruct (negb p); [exact I|]. destruct src as [b|]; [|exact I]. destruct (bimage b) as [i|] eqn:Eb; [|exact I].
      destruct (N.ltb (bsize b) szof); [exact I|].
      assert (Q : modeRel2 i i) by (apply Im; exact Eb).
      destruct h as [h|]; cbn [option_map].
      + eapply orel_bind; [apply (@or_store2 n n' _ _ h (Some i) (Some i) R Q)|]. intros ? ? s1 s1' R1. apply orel_ret.
        cbn. rewrite !sub_add. auto.
      + eapply orel_bind; [apply (or_alloc2 R Q)|]. intros k k' s1 s1' [E R1]. apply orel_ret. cbn. rewrite E. auto.
  Qed.

  Lemma rebase2_inst n (o : Op2 F D) : heap2 o = false -> rebase2 n o = o.
  Proof. destruct o; intro H; try discriminate H; reflexivity. Qed.
  Lemma exec2_sim fuel env o s s' n n' : r_env P env -> sysR2 n n' s s' ->
    (forall i, image2 o = Some i -> modeRel2 i i) -> allowed o (mode_of s) ->
    orel P (resR2 n n') (exec2 m szof fuel env (rebase2 n o) s) (exec2 m szof fuel env (rebase2 n' o) s').
  Proof.
    intros He R Im Al. destruct (heap2 o) eqn:Ho.
    - now apply exec2_sim_heap.
    - rewrite !rebase2_inst by auto. now apply exec2_sim_inst.
  Qed.

  (** ** Runs *)
  (** [allowed] holds for every call when it is made *)
  Fixpoint along2 (fuel n : nat) (l : list (Env * Op2 F D)) (s : Sys F D) : Prop :=
    match l with
    | [] => True
    | (e, o) :: l' =>
        allowed o (mode_of s) /\
        match exec2 m szof fuel e (rebase2 n o) s with
        | Done (_, _, s', _) => along2 fuel n l' s'
        | _ => True
        end
    end.
  Lemma run2_sim fuel n n' : forall l s s', sysR2 n n' s s' -> along2 fuel n l s ->
    (forall e o, In (e, o) l -> r_env P e /\ (forall i, image2 o = Some i -> modeRel2 i i)) ->
    same_run (r_log P) n n' (run2 m szof fuel (rebases2 n l) s) (run2 m szof fuel (rebases2 n' l) s').
  Proof.
    unfold run2. induction l as [|[e o] l IH]; intros s s' R Al Hl; cbn [rebases2 map run].
    - cbn. constructor.
    - cbn [fst snd]. destruct Al as [A1 A2]. destruct (Hl e o (or_introl eq_refl)) as [He Im].
      pose proof (exec2_sim fuel e He R Im A1) as K.
      destruct (exec2 m szof fuel e (rebase2 n o) s) as [[[[st out] s1] t]| |];
        destruct (exec2 m szof fuel e (rebase2 n' o) s') as [[[[st' out'] s1'] t']| |]; cbn in K; try contradiction; try exact I.
      destruct K as [(Es & Ev & R1) T]. cbn [fst snd] in Es, Ev.
      assert (Hl' : forall e o, In (e, o) l -> r_env P e /\ (forall i, image2 o = Some i -> modeRel2 i i))
        by (intros e' o' H; apply Hl; now right).
      specialize (IH s1 s1' R1 A2 Hl'). unfold rebases2 in IH. unfold same_run in IH |- *.
      destruct (run _ _ s1) as [[obs s2]| |]; destruct (run _ _ s1') as [[obs' s2']| |]; try contradiction; try exact I.
      constructor; [|exact IH]. cbn. destruct T as [T1 T2]. repeat split; auto.
  Qed.
  Lemma run2_simR fuel n n' : forall l s s', sysR2 n n' s s' -> along2 fuel n l s ->
    (forall e o, In (e, o) l -> r_env P e /\ (forall i, image2 o = Some i -> modeRel2 i i)) ->
    forall obs s2, run2 m szof fuel (rebases2 n l) s = Done (obs, s2) ->
    exists obs' s2', run2 m szof fuel (rebases2 n' l) s' = Done (obs', s2') /\ sysR2 n n' s2 s2'.
  Proof.
    unfold run2. induction l as [|[e o] l IH]; intros s s' R Al Hl obs s2; cbn [rebases2 map run].
    - intro H; inversion H; subst. eauto.
    - cbn [fst snd]. destruct Al as [A1 A2]. destruct (Hl e o (or_introl eq_refl)) as [He Im].
      pose proof (exec2_sim fuel e He R Im A1) as K.
      destruct (exec2 m szof fuel e (rebase2 n o) s) as [[[[st out] s1] t]| |]; try discriminate.
      destruct (exec2 m szof fuel e (rebase2 n' o) s') as [[[[st' out'] s1'] t']| |]; cbn in K; try contradiction.
      destruct K as [(Es & Ev & R1) T]. cbn [fst snd] in Es, Ev.
      assert (Hl' : forall e o, In (e, o) l -> r_env P e /\ (forall i, image2 o = Some i -> modeRel2 i i))
        by (intros e' o' H; apply Hl; now right).
      specialize (IH s1 s1' R1 A2 Hl'). unfold rebases2 in IH.
      destruct (run _ _ s1) as [[obs1 s3]| |]; try discriminate. intro H; inversion H; subst.
      destruct (IH _ _ eq_refl) as (obs' & s2' & E & R2). rewrite E. eauto.
  Qed.
  End Exec.
End Sys.

(** ** Reachable instances are related to themselves. *)
Section Diag.
  Context {F : Type} {NF : Num F} (m : Model F) (P : Rel (md m)) (szof : N).
  Notation D := (md m).
  Hypothesis L : SimLaws m P.
  Hypothesis NX : r_cross P = false.
  Hypothesis W : Laws m.
  Notation yes := (fun _ : ModelState => True).

  Lemma rebase2_0 (o : Op2 F D) : rebase2 0 o = o.
  Proof. destruct o; cbn; try reflexivity; destruct h; reflexivity. Qed.
  Lemma rebases2_0 (l : list (Env * Op2 F D)) : rebases2 0 l = l.
  Proof.
    unfold rebases2. rewrite <- map_id. apply map_ext. intros [e o]. cbn. now rewrite rebase2_0.
  Qed.
  Lemma along2_yes fuel n l s : along2 m szof (fun _ _ => True) fuel n l s.
  Proof.
    revert s. induction l as [|[e o] l IH]; intro s; cbn; auto. split; auto.
    destruct (exec2 m szof fuel e (rebase2 n o) s) as [[[[? ?] ?] ?]| |]; auto.
  Qed.
  Lemma sysR_diag2 s : modeRel2 m P yes yes (sinst s) (sinst s) ->
    (forall i, In (Some i) (heap s) -> modeRel2 m P yes yes i i) -> sysR2 m P yes yes 0 0 s s.
  Proof.
    intros A B. split; [exact A|]. exists [], [], (heap s), (heap s). repeat (split; [reflexivity|]).
    induction (heap s) as [|c h IH]; constructor.
    - destruct c; cbn; auto. apply B. now left.
    - apply IH. intros i Hi. apply B. now right.
  Qed.
  Lemma sysR_diag_inv2 s : sysR2 m P yes yes 0 0 s s ->
    modeRel2 m P yes yes (sinst s) (sinst s) /\ forall i, In (Some i) (heap s) -> modeRel2 m P yes yes i i.
  Proof.
    intros [A (p & p' & t & t' & E & E' & Lp & Lp' & H)]. split; [exact A|].
    destruct p; [|discriminate Lp]. destruct p'; [|discriminate Lp']. cbn in E, E'.
    rewrite <- E, <- E' in H. intros i Hi. apply In_nth_error in Hi as [k Hk].
    pose proof (Forall2_nth k H) as Hn. rewrite Hk in Hn. exact Hn.
  Qed.

  Hypothesis Made : forall i, made2 m i -> modeRel2 m P yes yes i i.
  Hypothesis Envs : forall e, r_env P e.

  Lemma reach2_diag s : reach2 m szof s -> sysR2 m P yes yes 0 0 s s.
  Proof.
    apply (@reach2_mut _ _ m szof (fun s => sysR2 m P yes yes 0 0 s s) (fun i => modeRel2 m P yes yes i i)).
    - intros i Hi. apply sysR_diag2; [now apply Made|intros j []].
    - intros s0 fuel env o st out s' t _ R _ Im E.
      pose proof (@exec2_sim _ _ m P szof yes yes L NX W (fun _ _ => True)) as K.
      specialize (K (fun _ _ _ _ _ _ => or_introl I) (fun _ _ _ _ _ _ => or_introl I) (fun _ _ => I) (fun _ _ => I) I I
                    fuel env o s0 s0 0 0 (Envs env) R Im I).
      rewrite rebase2_0, E in K. apply K.
    - intros s0 i _ R Hi. now apply (sysR_diag_inv2 R).
  Qed.
  Lemma saved2_diag i : saved2 m szof i -> modeRel2 m P yes yes i i.
  Proof. intros [s j R Hj]. now apply (sysR_diag_inv2 (reach2_diag R)). Qed.
End Diag.
