(** Mx.v -- proofs of C49-C51: the arrays of Model Exchange. *)
From Coq Require Import List NArith ZArith Bool Arith Lia.
From Verif Require Import Base Instance ModelIface Core Fmi3 Fmi2 Api Fmus Logic Calls LawsFmus SpecModes SpecCreate SpecState Gate Effect Reach Histories
  FmuBouncingBall FmuDahlquist FmuStair FmuVanDerPol FmuRoberts FmuClocks FmuResource FmuStateSpace FmuFeedthrough
  Sim SimSS SpecVars SpecEqs SpecSteps Vars VarsFmus DataFmus Data Vars2 Data2 Dyn Solver Fits SpecEuler SpecMx.
Import ListNotations.
Set Implicit Arguments.

Section Arrays.
  Context {F : Type} {NF : Num F}.

  (** A getter of the list [X] of the data. *)
  Definition shows v f (g : Buf F -> nat -> MF F (md (model_of (F := F) v f)) (Status * Buf F)) (X : md (model_of (F := F) v f) -> list F) : Prop :=
    forall e c u b n, vl_wf (vars_all v f) (data u) -> n <= length b ->
      if Nat.eqb n (length (X (data u)))
      then exists u', g (Some b) n e c u = Done ((OK, Some (X (data u) ++ skipn n b)), u', [])
      else exists u' t, g (Some b) n e c u = Done ((Error, Some b), u', t).

  Lemma arrGet_err {D} b n k (g : MF F D (Status * Buf F)) e c u : n <> k ->
    arrGet (Some b) n k g e c u = Done ((Error, Some b), u, warn c).
  Proof.
    intro H. unfold arrGet. rewrite (proj2 (Nat.eqb_neq _ _) H). unfold mbind, mlogError, mret, bind, warn.
    destruct (logErrors c && hasLogger c); reflexivity.
  Qed.
  Lemma default_shows v f (g : Buf F -> nat -> MF F (md (model_of (F := F) v f)) (Status * Buf F)) :
    g = states_default -> shows v f g (fun _ => []).
  Proof.
    intros -> e c u b n _ _. unfold states_default. destruct n; cbn [length Nat.eqb].
    - exists u. reflexivity.
    - exists u, (warn c). change (S n =? 0) with false. cbv iota. unfold mbind, mlogError, mret, bind, warn. destruct (logErrors c && hasLogger c); reflexivity.
  Qed.
  Lemma dyn_shows v f g X k :
    (forall u : Mut F (md (model_of v f)), vl_wf (vars_all v f) (data u) -> length (X (data u)) = k (data u)) ->
    (forall e c u b n, n <> k (data u) -> g (Some b) n e c u = Done ((Error, Some b), u, warn c)) ->
    (forall e c u b, vl_wf (vars_all v f) (data u) -> length (X (data u)) <= length b ->
       exists u', g (Some b) (length (X (data u))) e c u = Done ((OK, Some (X (data u) ++ skipn (length (X (data u))) b)), u', [])) ->
    shows v f g X.
  Proof.
    intros Hk He Ho e c u b n W L. destruct (Nat.eqb_spec n (length (X (data u)))) as [->|N].
    - now apply Ho.
    - exists u, (warn c). apply He. now rewrite <- Hk.
  Qed.
  Ltac err := intros e c u b n H; apply arrGet_err; exact H.
  Ltac fill L := intros e c u b W H; eexists; eapply L; [exact I|split; [cbn; lia|exact H]].

  Lemma shows_x v f : shows v f (m_getContinuousStates (model_of v f)) (dy_x (dyn_all v f)).
  Proof.
    destruct f; try (apply default_shows; reflexivity).
    - apply dyn_shows with (k := fun _ => 2); [reflexivity|err|]. fill (dy_getx (bb_dyn (F := F))).
    - apply dyn_shows with (k := fun _ => 1); [reflexivity|err|]. fill (dy_getx (da_dyn (F := F))).
    - apply dyn_shows with (k := fun _ => 2); [reflexivity|err|]. fill (dy_getx (ro_dyn (F := F))).
    - apply dyn_shows with (k := fun d => ss_n d).
      + intros u W. now apply ss_x_length.
      + intros e c u b n H. unfold m_getContinuousStates. cbn [model_of StateSpace_model]. unfold ss_getContinuousStates. rewrite data_ok. now apply arrGet_err.
      + intros e c u b W H. destruct (Nat.eq_dec (length (dy_x (dyn_all v StateSpace) (data u))) 0) as [Z|Z].
        * exists u. change (length (x_ss (data u)) = 0) in Z. change (dy_x (dyn_all v StateSpace) (data u)) with (x_ss (data u)).
          pose proof (ss_x_length W) as Lx. apply length_zero_iff_nil in Z. rewrite Z in *. cbn in Lx. unfold m_getContinuousStates. cbn [model_of StateSpace_model]. unfold ss_getContinuousStates.
          rewrite data_ok. cbn [md StateSpace_model] in *. rewrite <- Lx. reflexivity.
        * eexists. eapply (dy_getx (ss_dyn (F := F))); [exact W|split; [|exact H]]. apply Nat.neq_0_lt_0. exact Z.
    - apply dyn_shows with (k := fun _ => 2); [reflexivity|err|]. fill (dy_getx (vp_dyn (F := F))).
  Qed.
  Lemma shows_dx v f : shows v f (m_getDerivatives (model_of v f)) (dy_dx (dyn_all v f)).
  Proof.
    destruct f; try (apply default_shows; reflexivity).
    - apply dyn_shows with (k := fun _ => 2); [reflexivity|err|]. fill (dy_getdx (bb_dyn (F := F))).
    - apply dyn_shows with (k := fun _ => 1); [reflexivity|err|]. fill (dy_getdx (da_dyn (F := F))).
    - apply dyn_shows with (k := fun _ => 2); [reflexivity|err|]. fill (dy_getdx (ro_dyn (F := F))).
    - apply dyn_shows with (k := fun d => ss_n d).
      + intros u W. now apply dx_ss_length.
      + intros e c u b n H. unfold m_getDerivatives. cbn [model_of StateSpace_model]. unfold ss_getDerivatives. rewrite data_ok. now apply arrGet_err.
      + intros e c u b W H. change (dy_dx (dyn_all v StateSpace) (data u)) with (dx_ss (data u)) in *. pose proof (dx_ss_length W) as Ld. pose proof (ss_x_length W) as Lx.
        destruct (Nat.eq_dec (ss_n (data u)) 0) as [Z|Z].
        * unfold m_getDerivatives. cbn [model_of StateSpace_model]. unfold ss_getDerivatives.
          rewrite data_ok. cbn [md model_of StateSpace_model] in *. rewrite Ld, arrGet_ok. erewrite then_ok by (apply ss_calc_do; exact W). rewrite data_ok.
          cbn [data set_dirty set_data]. rewrite (proj1 (ss_recalc_x W)), Z. rewrite Z in Ld. apply length_zero_iff_nil in Ld. rewrite Ld.
          eexists. unfold sub1. cbn. reflexivity.
        * eexists. pose proof (dy_getdx (ss_dyn (F := F)) e c u b W) as G. change (dy_x (ss_dyn (F := F))) with (x_ss (F := F)) in G.
          change (dy_dx (ss_dyn (F := F))) with (dx_ss (F := F)) in G. cbn [md model_of StateSpace_model] in *. rewrite Lx in G. rewrite Ld in *. apply G. lia.
    - apply dyn_shows with (k := fun _ => 2); [reflexivity|err|]. fill (dy_getdx (vp_dyn (F := F))).
  Qed.
  Lemma shows_z v f : shows v f (m_getEventIndicators (model_of v f)) (dy_z (dyn_all v f)).
  Proof.
    destruct f; try (apply default_shows; reflexivity).
    - apply dyn_shows with (k := fun _ => 1); [reflexivity|err|]. fill (dy_getz (bb_dyn (F := F))).
    - apply dyn_shows with (k := fun _ => 2); [reflexivity|err|]. fill (dy_getz (ro_dyn (F := F))).
  Qed.
  Definition nominals v f (d : md (model_of (F := F) v f)) : list F := nominal_values f (length (dy_x (dyn_all v f) d)).
  Ltac nom := intros e c u b W H; eexists; unfold m_getNominals; cbn [model_of BouncingBall_model Dahlquist_model VanDerPol_model Roberts_model];
    try unfold bb_getNominals; try unfold da_getNominals; try unfold vp_getNominals; try unfold ro_getNominals;
    cbn [length] in H |- *; rewrite arrGet_ok; erewrite then_ok by reflexivity; rewrite out_ok by exact H; reflexivity.
  Lemma shows_n v f : shows v f (m_getNominals (model_of v f)) (nominals v f).
  Proof.
    destruct f; try (apply default_shows; reflexivity).
    - apply dyn_shows with (k := fun _ => 2); [reflexivity|err|nom].
    - apply dyn_shows with (k := fun _ => 1); [reflexivity|err|nom].
    - apply dyn_shows with (k := fun _ => 2); [reflexivity|err|nom].
    - assert (L : forall d, shape d -> length (nominals v StateSpace d) = ss_n d).
      { intros d W. unfold nominals, nominal_values. rewrite repeat_length. now apply ss_x_length. }
      apply dyn_shows with (k := fun d => ss_n d).
      + intros u W. now apply L.
      + intros e c u b n H. unfold m_getNominals. cbn [model_of StateSpace_model]. unfold ss_getNominals. rewrite data_ok. now apply arrGet_err.
      + intros e c u b W H. rewrite L in H |- * by exact W. exists u. unfold m_getNominals. cbn [model_of StateSpace_model]. unfold ss_getNominals. rewrite data_ok.
        cbn [md StateSpace_model] in *. rewrite arrGet_ok. unfold ss_out, nominals, nominal_values. change (dy_x (dyn_all v StateSpace) (data u)) with (x_ss (data u)).
        rewrite (ss_x_length W). rewrite out_ok by (rewrite repeat_length; exact H). now rewrite repeat_length.
    - apply dyn_shows with (k := fun _ => 2); [reflexivity|err|nom].
  Qed.
End Arrays.

Section Reads.
  Context {F : Type} {NF : Num F} (szof : N).

  Lemma peek_x v f env (i : Inst F (md (model_of v f))) : vl_wf (vars_all v f) (data (mut i)) ->
    exists ls : list (list (val F TFloat64)), Forall2 (fun vr l => peek (vars_all v f) env i TFloat64 vr = Some l) (state_vrs f) ls /\ concat ls = dy_x (dyn_all v f) (data (mut i)).
  Proof.
    intro W. destruct f; try (exists []; split; [constructor|reflexivity]).
    - eexists. split; [repeat (apply Forall2_cons; [reflexivity|]); apply Forall2_nil|reflexivity].
    - eexists. split; [repeat (apply Forall2_cons; [reflexivity|]); apply Forall2_nil|reflexivity].
    - eexists. split; [repeat (apply Forall2_cons; [reflexivity|]); apply Forall2_nil|].
      cbn [concat app]. unfold ro_alg. cbn [md model_of Roberts_model] in *. change (ro_y1 (ro_calc (data (mut i))) :: [ro_y2 (ro_calc (data (mut i)))] = [ro_y1 (data (mut i)); ro_y2 (data (mut i))]). now rewrite ro_y1_calc, ro_y2_calc.
    - exists [x_ss (data (mut i))]. split; [apply Forall2_cons; [|apply Forall2_nil]|cbn [concat]; apply app_nil_r].
      change (sub1 (ss_n (ss_recalc (data (mut i)))) (ss_x (ss_recalc (data (mut i)))) = Some (x_ss (data (mut i)))).
      destruct (ss_recalc_x W) as [-> ->]. destruct W. unfold row in *. now rewrite sub1_some by lia.
    - eexists. split; [repeat (apply Forall2_cons; [reflexivity|]); apply Forall2_nil|reflexivity].
  Qed.
  Lemma peek_dx v f env (i : Inst F (md (model_of v f))) : vl_wf (vars_all v f) (data (mut i)) ->
    exists ls : list (list (val F TFloat64)), Forall2 (fun vr l => peek (vars_all v f) env i TFloat64 vr = Some l) (derivative_vrs f) ls /\ concat ls = dy_dx (dyn_all v f) (data (mut i)).
  Proof.
    intro W. destruct f; try (exists []; split; [constructor|reflexivity]).
    - eexists. split; [repeat (apply Forall2_cons; [reflexivity|]); apply Forall2_nil|reflexivity].
    - eexists. split; [repeat (apply Forall2_cons; [reflexivity|]); apply Forall2_nil|reflexivity].
    - eexists. split; [repeat (apply Forall2_cons; [reflexivity|]); apply Forall2_nil|reflexivity].
    - exists [dx_ss (data (mut i))]. split; [apply Forall2_cons; [|apply Forall2_nil]|cbn [concat]; apply app_nil_r].
      change (sub1 (ss_n (ss_recalc (data (mut i)))) (ss_der_x (ss_recalc (data (mut i)))) = Some (dx_ss (data (mut i)))).
      pose proof (ss_recalc_shape W) as W'. destruct (ss_recalc_x W) as [-> _]. destruct W, W'. unfold row in *. now rewrite sub1_some by lia.
    - eexists. split; [repeat (apply Forall2_cons; [reflexivity|]); apply Forall2_nil|reflexivity].
  Qed.

  Definition depicts (f : FMU) : bool := match f with Resource => false | _ => true end.
  Lemma get3_iff f env s t vr vs : depicts f = true -> reach3 (model_of (F := F) FMI3 f) szof s ->
    get3 (model_of (F := F) FMI3 f) szof env s t vr vs <-> peek (vars_all FMI3 f) env (sinst s) t vr = Some vs.
  Proof.
    intros P R. rewrite (get1_iff (vars_all FMI3 f) szof env s t vr vs (wf_reach _ _ R)). split; [intros (_ & Q); exact Q|].
    intro Q. split; [|exact Q]. split.
    - pose proof (proj1 (reach3_observable (model_laws FMI3 f) R)) as H. unfold mode_of in H. revert H. generalize (mode (ctl (sinst s))). intros md0 H.
      destruct t; cbn in H; repeat (destruct H as [<-|H]; [discriminate|]); destruct H.
    - destruct (dirty (mut (sinst s))).
      + exists []. clear -P. destruct f; try discriminate P; reflexivity.
      + intros _. clear -P. destruct f; try discriminate P; discriminate.
  Qed.
  Lemma get2_iff' f env s t vr x : depicts f = true -> built2 f = true -> reach2 (model_of (F := F) FMI2 f) szof s ->
    get2 (model_of (F := F) FMI2 f) szof env s t vr x <->
    N.land (bit2 (mode_of s)) MASK2_GetReal <> 0%N /\ peek (vars_all FMI2 f) env (sinst s) t vr = Some [x].
  Proof.
    intros P Bf R. rewrite (@get_iff F NF szof f Bf env s t vr x R). split.
    - intros ((M & _) & Q). auto.
    - intros (M & Q). split; [|exact Q]. split; [exact M|]. destruct (dirty (mut (sinst s))).
      + exists []. clear -P. destruct f; try discriminate P; reflexivity.
      + intros _. clear -P. destruct f; try discriminate P; discriminate.
  Qed.
  Lemma vrs_depicts f vr : In vr (state_vrs f ++ derivative_vrs f ++ indicator_vrs f) -> depicts f = true.
  Proof. destruct f; cbn; tauto. Qed.
  Lemma reads3_of f env s vrs xs : (forall vr, In vr vrs -> depicts f = true) -> reach3 (model_of (F := F) FMI3 f) szof s ->
    (exists ls : list (list (val F TFloat64)), Forall2 (fun vr l => peek (vars_all FMI3 f) env (sinst s) TFloat64 vr = Some l) vrs ls /\ concat ls = xs) ->
    reads3 f szof env s vrs xs.
  Proof.
    intros P R (ls & Q & E). exists ls. split; [|exact E]. clear E. revert P. induction Q as [|vr l vrs ls H _ IH]; intro P; constructor.
    - apply get3_iff; auto. apply (P vr). now left.
    - apply IH. intros; apply (P vr0). now right.
  Qed.
  Lemma reads2_of f env s vrs xs : (forall vr, In vr vrs -> depicts f = true) -> built2 f = true -> reach2 (model_of (F := F) FMI2 f) szof s ->
    N.land (bit2 (mode_of s)) MASK2_GetReal <> 0%N ->
    (exists ls : list (list (val F TFloat64)), Forall2 (fun vr l => peek (vars_all FMI2 f) env (sinst s) TFloat64 vr = Some l) vrs ls /\ concat ls = xs) ->
    reads2 f szof env s vrs xs.
  Proof.
    intros P Bf R M (ls & Q & E). subst xs. revert P. induction Q as [|vr l vrs ls H _ IH]; intro P; [constructor|].
    pose proof (@size1 F NF f Bf TFloat64 vr _ _ (vl_vsize (vars_all FMI2 f) TFloat64 vr _ _ H)) as L. destruct l as [|x [|]]; try discriminate L. cbn [concat app]. constructor.
    - apply get2_iff'; auto. apply (P vr). now left.
    - apply IH. intros; apply (P vr0). now right.
  Qed.


  (** The getters through the API. *)
  Lemma array3 f g X b n env s : shows FMI3 f g X -> reach3 (model_of (F := F) FMI3 f) szof s ->
    In (mode_of s) [InitializationMode; EventMode; ContinuousTimeMode; Terminated] -> n <= length b ->
    answers (outI (model_of FMI3 f) (fmi3GetArray (model_of FMI3 f) env g (Some b) n) OFloats s) b n
      (fun n => n = length (X (data (mut (sinst s))))) (fun xs => xs = X (data (mut (sinst s)))).
  Proof.
    intros H R M L. unfold answers. rewrite outI_eq. unfold fmi3GetArray.
    rewrite BEGIN_pass.
    2:{ unfold mode_of in M. cbn [In] in M. destruct M as [M|[M|[M|[M|[]]]]]; rewrite <- M; discriminate. }
    specialize (H env (ctl (sinst s)) (mut (sinst s)) b n (wf_reach _ _ R) L).
    destruct (Nat.eqb_spec n (length (X (data (mut (sinst s)))))) as [N|N].
    - destruct H as (u' & H).
      match goal with |- context [bind (call ?mm env _) ?g ?ii] => pose proof (@bind_call_done _ mm env _ _ _ g ii _ _ H) as G' end.
      rewrite G'. cbn [fst snd]. rewrite CALLk_ok. cbn [ret].
      eexists OK, _, _, _. split; [reflexivity|]. split; [auto|]. split; [tauto|]. intros _. eexists. split; [reflexivity|]. auto.
    - destruct H as (u' & t & H). unfold bind, call. rewrite H. cbn [fst snd]. rewrite CALLk_err.
      eexists Error, _, _, _. split; [reflexivity|]. split; [auto|]. split; [split; [discriminate|intro; contradiction]|discriminate].
  Qed.
  Lemma array2 f g X b n env s mask : shows FMI2 f g X -> reach2 (model_of (F := F) FMI2 f) szof s ->
    N.land (bit2 (mode_of s)) mask <> 0%N -> n <= length b ->
    answers (outI (model_of FMI2 f) (fmi2GetArray (model_of FMI2 f) env mask g (Some b) n) OFloats s) b n
      (fun n => n = length (X (data (mut (sinst s))))) (fun xs => xs = X (data (mut (sinst s)))).
  Proof.
    intros H R M L. unfold answers. rewrite outI_eq. unfold fmi2GetArray.
    rewrite BEGIN2_pass by exact M.
    specialize (H env (ctl (sinst s)) (mut (sinst s)) b n (wf_reach2 _ _ R) L).
    destruct (Nat.eqb_spec n (length (X (data (mut (sinst s)))))) as [N|N].
    - destruct H as (u' & H).
      match goal with |- context [bind (call ?mm env _) ?g ?ii] => pose proof (@bind_call_done _ mm env _ _ _ g ii _ _ H) as G' end.
      rewrite G'. cbn [fst snd]. rewrite CALLk_ok. cbn [ret].
      eexists OK, _, _, _. split; [reflexivity|]. split; [auto|]. split; [tauto|]. intros _. eexists. split; [reflexivity|]. auto.
    - destruct H as (u' & t & H). unfold bind, call. rewrite H. cbn [fst snd]. rewrite CALLk_err.
      eexists Error, _, _, _. split; [reflexivity|]. split; [auto|]. split; [split; [discriminate|intro; contradiction]|discriminate].
  Qed.
  Lemma answers_mono D (r : res (Status * Out F D * Sys F D * list (Event F))) b n (ok ok' : nat -> Prop) (P P' : list F -> Prop) :
    (ok n <-> ok' n) -> (forall xs, P xs -> P' xs) -> answers r b n ok P -> answers r b n ok' P'.
  Proof.
    intros Hk HP (st & out & s' & t & E & O & I & Q). exists st, out, s', t. split; [exact E|]. split; [exact O|]. split; [tauto|].
    intro S. destruct (Q S) as (xs & Q1 & Q2 & Q3). exists xs. auto.
  Qed.

  Lemma any_state f s : reach3 (model_of (F := F) FMI3 f) szof s -> N.land (bit3 (mode (ctl (sinst s)))) MASK_AnyState <> 0%N.
  Proof.
    intro R. pose proof (proj1 (reach3_observable (model_laws FMI3 f) R)) as H. unfold mode_of in H. revert H. generalize (mode (ctl (sinst s))). intros md0 H.
    cbn in H; repeat (destruct H as [<-|H]; [discriminate|]); destruct H.
  Qed.
  Lemma count3 f env s : reach3 (model_of (F := F) FMI3 f) szof s -> forall k,
    states3 f szof env s k <-> k = length (dy_x (dyn_all FMI3 f) (data (mut (sinst s)))).
  Proof.
    intros R k. unfold states3. cbn [exec3]. rewrite outI_eq. unfold fmi3GetNumberOfContinuousStates, fmi3GetNumber.
    rewrite BEGIN_pass by exact (any_state f R). rewrite bind_getM. cbn [ret].
    rewrite (dy_nx (dyn_all FMI3 f)) by (apply wf_dyn_of, (wf_reach _ _ R)). destruct s as [i h]. cbn [sinst heap]. split.
    - intro E. injection E as E. congruence.
    - intros ->. reflexivity.
  Qed.
  Lemma countz3 f env s : reach3 (model_of (F := F) FMI3 f) szof s -> forall k,
    indicators3 f szof env s k <-> k = length (dy_z (dyn_all FMI3 f) (data (mut (sinst s)))).
  Proof.
    intros R k. unfold indicators3. cbn [exec3]. rewrite outI_eq. unfold fmi3GetNumberOfEventIndicators, fmi3GetNumber.
    rewrite BEGIN_pass by exact (any_state f R). rewrite bind_getM. cbn [ret].
    rewrite (dy_nz (dyn_all FMI3 f)) by (apply wf_dyn_of, (wf_reach _ _ R)). destruct s as [i h]. cbn [sinst heap]. split.
    - intro E. injection E as E. congruence.
    - intros ->. reflexivity.
  Qed.
  Definition arrays_allowed : list ModelState := [InitializationMode; EventMode; ContinuousTimeMode; Terminated].

  Theorem states_3 f env fuel s b n : reach3 (model_of (F := F) FMI3 f) szof s ->
    In (mode_of s) [InitializationMode; EventMode; ContinuousTimeMode; Terminated] -> n <= length b ->
    answers (exec3 (model_of FMI3 f) szof fuel env (O3GetContinuousStates (Some b) n) s) b n
      (states3 f szof env s) (reads3 f szof env s (state_vrs f)).
  Proof.
    intros R M L. eapply answers_mono; [| |exact (@array3 f _ _ b n env s (shows_x FMI3 f) R M L)].
    - cbv beta. symmetry. now apply count3.
    - intros xs ->. apply reads3_of; auto.
      + intros vr H. apply (vrs_depicts f vr). apply in_or_app. now left.
      + apply peek_x. apply (wf_reach _ _ R).
  Qed.
  Theorem derivatives_3 f env fuel s b n : reach3 (model_of (F := F) FMI3 f) szof s ->
    In (mode_of s) [InitializationMode; EventMode; ContinuousTimeMode; Terminated] -> n <= length b ->
    answers (exec3 (model_of FMI3 f) szof fuel env (O3GetContinuousStateDerivatives (Some b) n) s) b n
      (states3 f szof env s) (reads3 f szof env s (derivative_vrs f)).
  Proof.
    intros R M L. eapply answers_mono; [| |exact (@array3 f _ _ b n env s (shows_dx FMI3 f) R M L)].
    - cbv beta. rewrite (dy_len (dyn_all FMI3 f)) by (apply wf_dyn_of, (wf_reach _ _ R)). symmetry. now apply count3.
    - intros xs ->. apply reads3_of; auto.
      + intros vr H. apply (vrs_depicts f vr). apply in_or_app. right. apply in_or_app. now left.
      + apply peek_dx. apply (wf_reach _ _ R).
  Qed.
  Lemma fixed_x f (d : md (model_of (F := F) FMI2 f)) : built2 f = true -> length (dy_x (dyn_all FMI2 f) d) = length (state_vrs f).
  Proof. destruct f; intro; try reflexivity; discriminate. Qed.
  Theorem states_2 f env fuel s b n : built2 f = true -> reach2 (model_of (F := F) FMI2 f) szof s ->
    In (mode_of s) [InitializationMode; EventMode; ContinuousTimeMode; Terminated] -> n <= length b ->
    answers (exec2 (model_of FMI2 f) szof fuel env (O2GetContinuousStates (Some b) n) s) b n
      (eq (length (state_vrs f))) (reads2 f szof env s (state_vrs f)).
  Proof.
    intros Bf R M L. assert (M' : forall k, In k [InitializationMode; EventMode; ContinuousTimeMode; Terminated] -> N.land (bit2 k) MASK2_GetContinuousStates <> 0%N /\ N.land (bit2 k) MASK2_GetReal <> 0%N).
    { intros k [<-|[<-|[<-|[<-|[]]]]]; split; discriminate. }
    eapply answers_mono; [| |exact (@array2 f _ _ b n env s _ (shows_x FMI2 f) R (proj1 (M' _ M)) L)].
    - cbv beta. rewrite fixed_x by exact Bf. split; congruence.
    - intros xs ->. apply reads2_of; auto.
      + intros vr H. apply (vrs_depicts f vr). apply in_or_app. now left.
      + apply (M' _ M).
      + apply peek_x. apply (wf_reach2 _ _ R).
  Qed.
  Theorem derivatives_2 f env fuel s b n : built2 f = true -> reach2 (model_of (F := F) FMI2 f) szof s ->
    In (mode_of s) [EventMode; ContinuousTimeMode; Terminated] -> n <= length b ->
    answers (exec2 (model_of FMI2 f) szof fuel env (O2GetDerivatives (Some b) n) s) b n
      (eq (length (state_vrs f))) (reads2 f szof env s (derivative_vrs f)).
  Proof.
    intros Bf R M L. assert (M' : forall k, In k [EventMode; ContinuousTimeMode; Terminated] -> N.land (bit2 k) MASK2_GetDerivatives <> 0%N /\ N.land (bit2 k) MASK2_GetReal <> 0%N).
    { intros k [<-|[<-|[<-|[]]]]; split; discriminate. }
    eapply answers_mono; [| |exact (@array2 f _ _ b n env s _ (shows_dx FMI2 f) R (proj1 (M' _ M)) L)].
    - cbv beta. rewrite (dy_len (dyn_all FMI2 f)) by (apply wf_dyn_of, (wf_reach2 _ _ R)). rewrite fixed_x by exact Bf. split; congruence.
    - intros xs ->. apply reads2_of; auto.
      + intros vr H. apply (vrs_depicts f vr). apply in_or_app. right. apply in_or_app. now left.
      + apply (M' _ M).
      + apply peek_dx. apply (wf_reach2 _ _ R).
  Qed.

  (** Event indicators and nominal values. *)
  Lemma z_values v f env (i : Inst F (md (model_of v f))) :
    indicator_values f (fun vr x => peek (vars_all v f) env i TFloat64 vr = Some [x]) (dy_z (dyn_all v f) (data (mut i))).
  Proof.
    destruct f; try reflexivity.
    - exists (bb_h (data (mut i))), (bb_v (data (mut i))). repeat (split; [reflexivity|]). reflexivity.
    - exists (ro_y1 (data (mut i))), (ro_y3 (ro_calc (data (mut i)))). split; [|split; [reflexivity|reflexivity]].
      change (Some [ro_y1 (ro_calc (data (mut i)))] = Some [ro_y1 (data (mut i))]). now rewrite ro_y1_calc.
  Qed.
  Lemma z_map f (g g' : N -> F -> Prop) zs : (forall vr x, depicts f = true -> g vr x -> g' vr x) -> indicator_values f g zs -> indicator_values f g' zs.
  Proof.
    intros H. destruct f; cbn [indicator_values]; auto.
    - intros (h & v & A & B & C). exists h, v. auto.
    - intros (h & v & A & B & C). exists h, v. auto.
  Qed.
  Theorem indicators_3 f env fuel s b n : reach3 (model_of (F := F) FMI3 f) szof s ->
    In (mode_of s) [InitializationMode; EventMode; ContinuousTimeMode; Terminated] -> n <= length b ->
    answers (exec3 (model_of FMI3 f) szof fuel env (O3GetEventIndicators (Some b) n) s) b n
      (indicators3 f szof env s) (indicator_values f (fun vr x => get3 (model_of FMI3 f) szof env s TFloat64 vr [x])).
  Proof.
    intros R M L. eapply answers_mono; [| |exact (@array3 f _ _ b n env s (shows_z FMI3 f) R M L)].
    - cbv beta. symmetry. now apply countz3.
    - intros xs ->. eapply z_map; [|apply (z_values FMI3 f env (sinst s))]. intros vr x P. cbv beta. now apply get3_iff.
  Qed.
  Theorem nominals_3 f env fuel s b n : reach3 (model_of (F := F) FMI3 f) szof s ->
    In (mode_of s) [InitializationMode; EventMode; ContinuousTimeMode; Terminated] -> n <= length b ->
    answers (exec3 (model_of FMI3 f) szof fuel env (O3GetNominalsOfContinuousStates (Some b) n) s) b n
      (states3 f szof env s) (eq (nominal_values f n)).
  Proof.
    intros R M L. eapply answers_mono with (P := fun xs => length xs = n /\ xs = nominals FMI3 f (data (mut (sinst s)))) (ok := fun n => n = length (nominals FMI3 f (data (mut (sinst s))))).
    - assert (E : length (nominals FMI3 f (data (mut (sinst s)))) = length (dy_x (dyn_all FMI3 f) (data (mut (sinst s))))).
      { unfold nominals, nominal_values. destruct f; try apply repeat_length; reflexivity. }
      rewrite E. symmetry. now apply count3.
    - intros xs (<- & ->). unfold nominals, nominal_values. destruct f; rewrite ?repeat_length; reflexivity.
    - destruct (@array3 f _ _ b n env s (shows_n FMI3 f) R M L) as (st & out & s' & t & E & O & I & Q). exists st, out, s', t.
      split; [exact E|]. split; [exact O|]. split; [exact I|]. intro S. destruct (Q S) as (xs & Q1 & Q2 & Q3). exists xs. auto.
  Qed.
  Lemma fixed_z v f (d : md (model_of (F := F) v f)) : length (dy_z (dyn_all v f) d) = length (indicator_vrs f).
  Proof. destruct f; reflexivity. Qed.
  Theorem indicators_2 f env fuel s b n : built2 f = true -> reach2 (model_of (F := F) FMI2 f) szof s ->
    In (mode_of s) [InitializationMode; EventMode; ContinuousTimeMode; Terminated] -> n <= length b ->
    answers (exec2 (model_of FMI2 f) szof fuel env (O2GetEventIndicators (Some b) n) s) b n
      (eq (length (indicator_vrs f))) (indicator_values f (fun vr x => get2 (model_of FMI2 f) szof env s TFloat64 vr x)).
  Proof.
    intros Bf R M L. assert (M' : forall k, In k [InitializationMode; EventMode; ContinuousTimeMode; Terminated] -> N.land (bit2 k) MASK2_GetEventIndicators <> 0%N /\ N.land (bit2 k) MASK2_GetReal <> 0%N).
    { intros k [<-|[<-|[<-|[<-|[]]]]]; split; discriminate. }
    eapply answers_mono; [| |exact (@array2 f _ _ b n env s _ (shows_z FMI2 f) R (proj1 (M' _ M)) L)].
    - cbv beta. rewrite fixed_z. split; congruence.
    - intros xs ->. eapply z_map; [|apply (z_values FMI2 f env (sinst s))]. intros vr x P Q. cbv beta. apply get2_iff'; auto. split; [apply (M' _ M)|exact Q].
  Qed.
  Theorem nominals_2 f env fuel s b n : built2 f = true -> reach2 (model_of (F := F) FMI2 f) szof s ->
    In (mode_of s) [Instantiated; EventMode; ContinuousTimeMode; Terminated] -> n <= length b ->
    answers (exec2 (model_of FMI2 f) szof fuel env (O2GetNominals (Some b) n) s) b n
      (eq (length (state_vrs f))) (eq (nominal_values f n)).
  Proof.
    intros Bf R M L. assert (M' : forall k, In k [Instantiated; EventMode; ContinuousTimeMode; Terminated] -> N.land (bit2 k) MASK2_GetNominals <> 0%N).
    { intros k [<-|[<-|[<-|[<-|[]]]]]; discriminate. }
    eapply answers_mono with (P := fun xs => length xs = n /\ xs = nominals FMI2 f (data (mut (sinst s)))) (ok := fun n => n = length (nominals FMI2 f (data (mut (sinst s))))).
    - assert (E : length (nominals FMI2 f (data (mut (sinst s)))) = length (dy_x (dyn_all FMI2 f) (data (mut (sinst s))))).
      { unfold nominals, nominal_values. destruct f; try apply repeat_length; reflexivity. }
      rewrite E, fixed_x by exact Bf. split; congruence.
    - intros xs (<- & ->). unfold nominals, nominal_values. destruct f; rewrite ?repeat_length; reflexivity.
    - destruct (@array2 f _ _ b n env s _ (shows_n FMI2 f) R (M' _ M) L) as (st & out & s' & t & E & O & I & Q). exists st, out, s', t.
      split; [exact E|]. split; [exact O|]. split; [exact I|]. intro S. destruct (Q S) as (xs & Q1 & Q2 & Q3). exists xs. auto.
  Qed.
End Reads.

Section Sets.
  Context {F : Type} {NF : Num F} (szof : N).
  Lemma arrSet_err {D} (b : list F) n k (g : MF F D Status) e c u : n <> k -> arrSet (Some b) n k g e c u = Done (Error, u, warn c).
  Proof.
    intro H. unfold arrSet. rewrite (proj2 (Nat.eqb_neq _ _) H). unfold fail, mbind, mlogError, mret, bind, warn.
    destruct (logErrors c && hasLogger c); reflexivity.
  Qed.
  (** SetContinuousStates *)
  Definition sets v f : Prop :=
    forall e c u l n, vl_wf (vars_all v f) (data u) -> n <= length l ->
      if Nat.eqb n (length (dy_x (dyn_all v f) (data u)))
      then exists b, m_setContinuousStates (model_of (F := F) v f) (Some l) n e c u =
             Done (OK, set_dirty b (set_data (dy_put (dyn_all v f) (firstn n l) (data u)) u), []) /\ (depicts f = false -> b = dirty u)
      else m_setContinuousStates (model_of (F := F) v f) (Some l) n e c u = Done (Error, u, warn c).
  Lemma dyn_sets v f (k : md (model_of v f) -> nat) :
    (forall u : Mut F (md (model_of v f)), vl_wf (vars_all v f) (data u) -> length (dy_x (dyn_all v f) (data u)) = k (data u)) ->
    (forall e c u b n, n <> k (data u) -> m_setContinuousStates (model_of (F := F) v f) (Some b) n e c u = Done (Error, u, warn c)) ->
    (forall e c u b, vl_wf (vars_all v f) (data u) -> k (data u) = 0 ->
       exists q, m_setContinuousStates (model_of (F := F) v f) (Some b) 0 e c u = Done (OK, set_dirty q (set_data (dy_put (dyn_all v f) [] (data u)) u), [])) ->
    depicts f = true -> sets v f.
  Proof.
    intros Hk He H0 Hd e c u l n W L. destruct (Nat.eqb_spec n (length (dy_x (dyn_all v f) (data u)))) as [->|N].
    - rewrite (Hk u W) in *. destruct (Nat.eq_dec (k (data u)) 0) as [Z|Z].
      + rewrite Z in *. cbn [firstn]. destruct (H0 e c u l W Z) as (q & E). exists q. split; [exact E|congruence].
      + exists true. split; [|congruence]. assert (Lf : length (firstn (k (data u)) l) = k (data u)) by (rewrite firstn_length; lia).
        assert (E := dy_setx (dyn_all v f) e c u (firstn (k (data u)) l) (skipn (k (data u)) l)).
        rewrite firstn_skipn, Lf in E. apply E.
        * now apply wf_dyn_of.
        * symmetry. now apply Hk.
        * lia.
    - apply He. now rewrite <- Hk.
  Qed.
  Ltac err := intros e c u b n H; apply arrSet_err; exact H.
  Lemma put_nil_ss (d : SSData F) : put_ss [] d = d.
  Proof. now destruct d. Qed.
  Lemma sets_all v f : sets v f.
  Proof.
    destruct f.
    - apply dyn_sets with (k := fun _ => 2); [reflexivity|err|discriminate|reflexivity].
    - intros e c u l n _ _. destruct n; [exists (dirty u); destruct u; split; reflexivity|]. cbv [Nat.eqb m_setContinuousStates model_of setStates_default Clocks_model Feedthrough_model Resource_model Stair_model]; fold Nat.eqb; change (S n =? 0) with false; cbv iota. unfold fail, mbind, mlogError, mret, bind, warn.
      destruct (logErrors c && hasLogger c); reflexivity.
    - apply dyn_sets with (k := fun _ => 1); [reflexivity|err|discriminate|reflexivity].
    - intros e c u l n _ _. destruct n; [exists (dirty u); destruct u; split; reflexivity|]. cbv [Nat.eqb m_setContinuousStates model_of setStates_default Clocks_model Feedthrough_model Resource_model Stair_model]; fold Nat.eqb; change (S n =? 0) with false; cbv iota. unfold fail, mbind, mlogError, mret, bind, warn.
      destruct (logErrors c && hasLogger c); reflexivity.
    - intros e c u l n _ _. destruct n; [exists (dirty u); destruct u; split; reflexivity|]. cbv [Nat.eqb m_setContinuousStates model_of setStates_default Clocks_model Feedthrough_model Resource_model Stair_model]; fold Nat.eqb; change (S n =? 0) with false; cbv iota. unfold fail, mbind, mlogError, mret, bind, warn.
      destruct (logErrors c && hasLogger c); reflexivity.
    - apply dyn_sets with (k := fun _ => 2); [reflexivity|err|discriminate|reflexivity].
    - intros e c u l n _ _. destruct n; [exists (dirty u); destruct u; split; reflexivity|]. cbv [Nat.eqb m_setContinuousStates model_of setStates_default Clocks_model Feedthrough_model Resource_model Stair_model]; fold Nat.eqb; change (S n =? 0) with false; cbv iota. unfold fail, mbind, mlogError, mret, bind, warn.
      destruct (logErrors c && hasLogger c); reflexivity.
    - apply dyn_sets with (k := fun d => ss_n d).
      + intros u W. now apply ss_x_length.
      + intros e c u b n H. unfold m_setContinuousStates. cbn [model_of StateSpace_model]. unfold ss_setContinuousStates. rewrite data_ok. now apply arrSet_err.
      + intros e c u b W Z. exists true. unfold m_setContinuousStates. cbn [model_of StateSpace_model] in *. unfold ss_setContinuousStates. rewrite data_ok. cbn [md StateSpace_model] in *.
        rewrite Z, arrSet_ok. change (takel (Some b) 0 0) with (takel (F := F) (D := SSData F) (Some ([] ++ b)) 0 (length (@nil F))). rewrite takel_all.
        unfold paste1. cbn [length Nat.leb]. reflexivity.
      + reflexivity.
    - apply dyn_sets with (k := fun _ => 2); [reflexivity|err|discriminate|reflexivity].
  Qed.

  (** Which values do not change. *)
  Lemma beside_peek v f env (i : Inst F (md (model_of (F := F) v f))) b l t vr : v = FMI3 \/ built2 f = true ->
    vl_wf (vars_all v f) (data (mut i)) -> length l = length (dy_x (dyn_all v f) (data (mut i))) ->
    declared v f t vr -> beside_states f vr ->
    peek (vars_all v f) env (set_mut (set_dirty b (set_data (dy_put (dyn_all v f) l (data (mut i))) (mut i))) i) t vr =
    peek (vars_all v f) env i t vr.
  Proof.
    intros Hv W L (dims & Dc) (B1 & B2).
    destruct f; try reflexivity.
    - destruct l as [|x [|y [|]]]; try discriminate L. cbn in Dc. repeat (destruct Dc as [Dc|Dc]; [injection Dc as <- <- <-; try (exfalso; apply B1; cbn; tauto); try (exfalso; apply (B2 3%N); cbn; tauto); reflexivity|]). destruct Dc.
    - destruct l as [|x [|]]; try discriminate L. cbn in Dc. repeat (destruct Dc as [Dc|Dc]; [injection Dc as <- <- <-; try (exfalso; apply B1; cbn; tauto); try (exfalso; apply (B2 1%N); cbn; tauto); reflexivity|]). destruct Dc.
    - cbn in Dc. destruct i as [c [u1 u2 u3 u4 u5 u6 u7 u8 d] so]. destruct d as [[] ? ? ? ? ? ? ? ?];
      (destruct l as [|x [|y [|]]]; try discriminate L);
      repeat (destruct Dc as [Dc|Dc]; [injection Dc as <- <- <-; try (exfalso; apply B1; cbn; tauto); try (exfalso; apply (B2 2%N); cbn; tauto);
        reflexivity|]); destruct Dc.
    - assert (W' : shape (put_ss l (data (mut i)))) by (apply (dy_put_ok (ss_dyn (F := F))); assumption).
      unfold peek. cbn [ctl mut set_mut data set_dirty set_data].
      change (ss_value t vr (ctl i) (ss_recalc (put_ss l (data (mut i)))) = ss_value t vr (ctl i) (ss_recalc (data (mut i)))).
      destruct (ss_recalc_eq W') as (dx' & y' & L1' & L2' & E1' & E2' & ->). destruct (ss_recalc_eq W) as (dx & y & L1 & L2 & E1 & E2 & ->).
      cbn in Dc. repeat (destruct Dc as [Dc|Dc]; [injection Dc as <- <- <-; try (exfalso; apply B1; cbn; tauto); try (exfalso; apply (B2 11%N); cbn; tauto); reflexivity|]). destruct Dc.
    - destruct l as [|x [|y [|]]]; try discriminate L. cbn in Dc. repeat (destruct Dc as [Dc|Dc]; [injection Dc as <- <- <-; try (exfalso; apply B1; cbn; tauto); try (exfalso; apply (B2 3%N); cbn; tauto); reflexivity|]). destruct Dc.
  Qed.

  Lemma beside_3 f env (s : Sys F (md (model_of (F := F) FMI3 f))) b l t vr vs :
    reach3 (model_of (F := F) FMI3 f) szof s ->
    length l = length (dy_x (dyn_all FMI3 f) (data (mut (sinst s)))) -> (depicts f = false -> b = dirty (mut (sinst s))) ->
    let i' := set_mut (set_dirty b (set_data (dy_put (dyn_all FMI3 f) l (data (mut (sinst s)))) (mut (sinst s)))) (sinst s) in
    reach3 (model_of (F := F) FMI3 f) szof (mkSys i' (heap s)) ->
    declared FMI3 f t vr -> beside_states f vr -> get3 (model_of FMI3 f) szof env s t vr vs ->
    get3 (model_of FMI3 f) szof env (mkSys i' (heap s)) t vr vs.
  Proof.
    intros R L Hb i' R' Dc B G. destruct (depicts f) eqn:E.
    - apply (@get3_iff _ _ szof f env s t vr vs E R) in G. apply (@get3_iff _ _ szof f env (mkSys i' (heap s)) t vr vs E R').
      rewrite <- G. apply beside_peek; auto. exact (wf_reach _ _ R).
    - destruct f; try discriminate E. specialize (Hb eq_refl). subst b i'. destruct s as [[c u so] h]. destruct u. exact G.
  Qed.
  Theorem set_states_3 f env fuel s x n : reach3 (model_of (F := F) FMI3 f) szof s ->
    mode_of s = ContinuousTimeMode -> n <= length x ->
    exists st s' tr, exec3 (model_of FMI3 f) szof fuel env (O3SetContinuousStates (Some x) n) s = Done (st, ONone, s', tr) /\
      (st = OK \/ st = Error) /\ (st = OK <-> states3 f szof env s n) /\
      (st = OK -> reads3 f szof env s' (state_vrs f) (firstn n x) /\
        forall t vr vs, declared FMI3 f t vr -> beside_states f vr ->
          get3 (model_of FMI3 f) szof env s t vr vs -> get3 (model_of FMI3 f) szof env s' t vr vs).
  Proof.
    intros R M L.
    assert (E : exec3 (model_of FMI3 f) szof fuel env (O3SetContinuousStates (Some x) n) s =
      outI (model_of FMI3 f) (fmi3SetContinuousStates (model_of FMI3 f) env (Some x) n) (fun _ => ONone) s) by reflexivity.
    pose proof (@count3 F NF szof f env s R n) as C.
    assert (W := wf_reach _ _ R).
    rewrite outI_eq in E. unfold fmi3SetContinuousStates in E.
    rewrite BEGIN_pass in E by (unfold mode_of in M; rewrite M; discriminate).
    pose proof (@sets_all FMI3 f env (ctl (sinst s)) (mut (sinst s)) x n W L) as H.
    destruct (Nat.eqb_spec n (length (dy_x (dyn_all FMI3 f) (data (mut (sinst s)))))) as [N|N].
    - destruct H as (b & H & Hb).
      match type of E with context [bind (call ?mm env _) ?g ?ii] => pose proof (@bind_call_done _ mm env _ _ _ g ii _ _ H) as G' end.
      rewrite G' in E. rewrite CALLk_ok in E. cbn [ret] in E.
      match type of E with _ = Done (_, _, ?s', ?t) => exists OK, s', t; assert (R' : reach3 (model_of FMI3 f) szof s') by
        (eapply reach3_call; [exact R| |exact E]; discriminate) end.
      assert (Lf : length (firstn n x) = length (dy_x (dyn_all FMI3 f) (data (mut (sinst s))))) by (rewrite firstn_length; lia).
      split; [exact E|]. split; [auto|]. split; [tauto|]. intros _. split.
      + apply (@reads3_of F NF szof); [|exact R'|].
        * intros vr Hv. apply vrs_depicts with (vr := vr). apply in_or_app. auto.
        * destruct (dy_put_ok (dyn_all FMI3 f) (firstn n x) (data (mut (sinst s))) ltac:(now apply wf_dyn_of) Lf) as (_ & Ex).
          destruct (@peek_x F NF FMI3 f env _ (wf_reach _ _ R')) as (ls & Q & Eq). exists ls. split; [exact Q|]. exact (eq_trans Eq Ex).
      + intros t vr vs. apply beside_3; assumption.
    - unfold bind, call in E. rewrite H in E. rewrite CALLk_err in E.
      eexists Error, _, _. split; [exact E|]. split; [auto|]. split; [split; [discriminate|intro Q; apply C in Q; contradiction]|discriminate].
  Qed.

  Lemma beside_2 f env (s : Sys F (md (model_of (F := F) FMI2 f))) b l t vr y : built2 f = true ->
    reach2 (model_of (F := F) FMI2 f) szof s ->
    length l = length (dy_x (dyn_all FMI2 f) (data (mut (sinst s)))) -> (depicts f = false -> b = dirty (mut (sinst s))) ->
    let i' := set_mut (set_dirty b (set_data (dy_put (dyn_all FMI2 f) l (data (mut (sinst s)))) (mut (sinst s)))) (sinst s) in
    reach2 (model_of (F := F) FMI2 f) szof (mkSys i' (heap s)) ->
    declared FMI2 f t vr -> beside_states f vr -> get2 (model_of FMI2 f) szof env s t vr y ->
    get2 (model_of FMI2 f) szof env (mkSys i' (heap s)) t vr y.
  Proof.
    intros Bf R L Hb i' R' Dc B G. destruct (depicts f) eqn:E.
    - apply (@get2_iff' _ _ szof f env s t vr y E Bf R) in G. apply (@get2_iff' _ _ szof f env (mkSys i' (heap s)) t vr y E Bf R').
      destruct G as (G1 & G). split; [exact G1|].
      rewrite <- G. apply beside_peek; auto. exact (wf_reach2 _ _ R).
    - destruct f; try discriminate E. specialize (Hb eq_refl). subst b i'. destruct s as [[c u so] h]. destruct u. exact G.
  Qed.
  Theorem set_states_2 f env fuel s x n : built2 f = true -> reach2 (model_of (F := F) FMI2 f) szof s ->
    mode_of s = ContinuousTimeMode -> n <= length x ->
    exists st s' tr, exec2 (model_of FMI2 f) szof fuel env (O2SetContinuousStates (Some x) n) s = Done (st, ONone, s', tr) /\
      (st = OK \/ st = Error) /\ (st = OK <-> length (state_vrs f) = n) /\
      (st = OK -> reads2 f szof env s' (state_vrs f) (firstn n x) /\
        forall t vr y, declared FMI2 f t vr -> beside_states f vr ->
          get2 (model_of FMI2 f) szof env s t vr y -> get2 (model_of FMI2 f) szof env s' t vr y).
  Proof.
    intros Bf R M L.
    assert (M2 : N.land (bit2 (mode_of s)) MASK2_GetReal <> 0%N) by (rewrite M; discriminate).
    assert (E : exec2 (model_of FMI2 f) szof fuel env (O2SetContinuousStates (Some x) n) s =
      outI (model_of FMI2 f) (fmi2SetContinuousStates (model_of FMI2 f) env (Some x) n) (fun _ => ONone) s) by reflexivity.
    pose proof (@fixed_x F NF f (data (mut (sinst s))) Bf) as C.
    assert (W := wf_reach2 _ _ R).
    rewrite outI_eq in E. unfold fmi2SetContinuousStates in E.
    rewrite BEGIN2_pass in E by (unfold mode_of in M; rewrite M; discriminate).
    pose proof (@sets_all FMI2 f env (ctl (sinst s)) (mut (sinst s)) x n W L) as H.
    destruct (Nat.eqb_spec n (length (dy_x (dyn_all FMI2 f) (data (mut (sinst s)))))) as [N|N].
    - destruct H as (b & H & Hb).
      match type of E with context [bind (call ?mm env _) ?g ?ii] => pose proof (@bind_call_done _ mm env _ _ _ g ii _ _ H) as G' end.
      rewrite G' in E. rewrite CALLk_ok in E. cbn [ret] in E.
      match type of E with _ = Done (_, _, ?s', ?t) => exists OK, s', t; assert (R' : reach2 (model_of FMI2 f) szof s') by
        (eapply reach2_call; [exact R| |exact E]; discriminate) end.
      assert (Lf : length (firstn n x) = length (dy_x (dyn_all FMI2 f) (data (mut (sinst s))))) by (rewrite firstn_length; lia).
      split; [exact E|]. split; [auto|]. split; [split; [congruence|reflexivity]|]. intros _. split.
      + apply (@reads2_of F NF szof); [|exact Bf|exact R'|exact M2|].
        * intros vr Hv. apply vrs_depicts with (vr := vr). apply in_or_app. auto.
        * destruct (dy_put_ok (dyn_all FMI2 f) (firstn n x) (data (mut (sinst s))) ltac:(now apply wf_dyn_of) Lf) as (_ & Ex).
          destruct (@peek_x F NF FMI2 f env _ (wf_reach2 _ _ R')) as (ls & Q & Eq). exists ls. split; [exact Q|]. exact (eq_trans Eq Ex).
      + intros t vr vs. apply beside_2; assumption.
    - unfold bind, call in E. rewrite H in E. rewrite CALLk_err in E.
      eexists Error, _, _. split; [exact E|]. split; [auto|]. split; [split; [discriminate|congruence]|discriminate].
  Qed.
End Sets.
