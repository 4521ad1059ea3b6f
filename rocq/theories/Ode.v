(** Ode.v -- the solver step of the model is the one of SpecOde.v. *)
From Coq Require Import List NArith ZArith Bool Arith Lia.
From Verif Require Import Base Instance ModelIface Core Fmi3 Fmi2 Api Fmus Logic Calls LawsFmus SpecModes SpecCreate SpecState Reach Histories
  FmuBouncingBall FmuDahlquist FmuStair FmuVanDerPol FmuRoberts FmuClocks FmuResource FmuStateSpace FmuFeedthrough
  SimSS SpecVars SpecEqs SpecSteps VarsFmus DataFmus Dyn Solver Fits Steps StepsFmus StepProps SpecOde.
Import ListNotations.
Set Implicit Arguments.

Section Eqs.
  Context {F : Type} {NF : Num F}.

  Lemma states_eq v f (d : md (model_of (F := F) v f)) : states v f d = dy_x (dyn_all v f) d.
  Proof. destruct f; reflexivity. Qed.
  Lemma indicators_eq v f (d : md (model_of (F := F) v f)) : indicators v f d = dy_z (dyn_all v f) d.
  Proof. destruct f; try reflexivity. destruct d as [[] ? ? ? ? ? ? ? ?]; reflexivity. Qed.
  Lemma events_eq v f : m_eventUpdate (model_of (F := F) v f) = handles_events f.
  Proof. destruct f; reflexivity. Qed.

  Lemma firsts k : forall (r w : list F), k <= length r -> k <= length w ->
    combine (firstn k r) (firstn k w) = map (fun j => (nth j r nzero, nth j w nzero)) (seq 0 k).
  Proof.
    induction k as [|k IH]; intros [|a r] [|b w] A B; cbn in *; try lia; try reflexivity.
    f_equal. rewrite <- seq_shift, map_map. apply IH; lia.
  Qed.
  Lemma fold_map A B C (f : A -> C -> A) (g : B -> C) l : forall a, fold_left f (map g l) a = fold_left (fun a b => f a (g b)) l a.
  Proof. induction l; intros; cbn; auto. Qed.
  Lemma dot_spec k (r w : list F) acc a : dot k r w acc = Some a -> a = sumprod k r w acc.
  Proof.
    unfold dot. destruct (Nat.leb_spec k (length r)), (Nat.leb_spec k (length w)); try discriminate. cbn. intro E. injection E as <-.
    rewrite firsts, fold_map by assumption. reflexivity.
  Qed.
  Lemma lin_spec nx nu (x u : list F) : forall rows P Q l, lin rows nx nu P Q x u = Some l ->
    l = map (fun i => sumprod nu (nth i Q []) u (sumprod nx (nth i P []) x nzero)) (seq 0 rows).
  Proof.
    induction rows as [|rows IH]; intros P Q l E; cbn [lin] in E; [now injection E as <-|].
    destruct P as [|p P], Q as [|q Q]; try discriminate.
    destruct (dot nx p x nzero) as [a|] eqn:Ea; [|discriminate]. destruct (dot nu q u a) as [b|] eqn:Eb; [|discriminate].
    destruct (lin rows nx nu P Q x u) as [l'|] eqn:El; [|discriminate]. injection E as <-.
    cbn [seq map nth]. rewrite (dot_spec _ _ _ _ Eb), (dot_spec _ _ _ _ Ea). f_equal.
    rewrite <- seq_shift, map_map. apply IH. exact El.
  Qed.
  Lemma ders_eq v f (d : md (model_of (F := F) v f)) : wf_dyn v f d -> ss_dims v f d = (3, 3, 3) -> ders v f d = dy_dx (dyn_all v f) d.
  Proof.
    destruct f; try reflexivity.
    - intros _ _. destruct d as [[] ? ? ? ? ? ? ? ?]; reflexivity.
    - intros W Hd. cbn -[ss_recalc ss_n]. unfold dx_ss. cbn in W.
      destruct (ss_recalc_eq W) as (dx & y & L1 & L2 & E1 & E2 & ->). cbn [ss_der_x set_ss_y set_ss_der_x].
      rewrite <- L1 at 2. rewrite firstn_app, firstn_all, Nat.sub_diag. cbn [firstn]. rewrite app_nil_r.
      apply lin_spec in E1. rewrite E1. cbn [ss_dims] in Hd. unfold dims in Hd. injection Hd as H1 H2 H3. now rewrite H1, H3.
  Qed.

  (** the calculations and the assignment of the states keep the rest *)
  Lemma frozen_put v f l (d : md (model_of (F := F) v f)) : frozen v f (dy_put (dyn_all v f) l d) = frozen v f d.
  Proof. destruct f; try reflexivity; cbn; destruct d; destruct l as [|? [|? [|]]]; reflexivity. Qed.
  Lemma frozen_ss (d : SSData F) : shape d -> frozen FMI3 StateSpace (ss_recalc d) = frozen FMI3 StateSpace d.
  Proof. intro W. destruct (ss_recalc_eq W) as (dx & y & _ & _ & _ & _ & ->). reflexivity. Qed.
  Lemma frozen_ro (d : ROData F) : frozen FMI3 Roberts (ro_calc d) = frozen FMI3 Roberts d.
  Proof. destruct d as [[] ? ? ? ? ? ? ? ?]; reflexivity. Qed.
  Lemma frozen_tx v f (u : Mut F (md (model_of (F := F) v f))) : frozen v f (data (dy_tx (dyn_all v f) u)) = frozen v f (data u).
  Proof. destruct f; try reflexivity. apply frozen_ro. Qed.
  Lemma frozen_tdx v f (u : Mut F (md (model_of (F := F) v f))) : wf_dyn v f (data u) -> frozen v f (data (dy_tdx (dyn_all v f) u)) = frozen v f (data u).
  Proof. destruct f; try reflexivity; intro W. apply frozen_ro. now apply frozen_ss. Qed.
  Lemma frozen_tz v f (u : Mut F (md (model_of (F := F) v f))) : frozen v f (data (dy_tz (dyn_all v f) u)) = frozen v f (data u).
  Proof. destruct f; try reflexivity. apply frozen_ro. Qed.
  Lemma frozen_dims v f (d d' : md (model_of (F := F) v f)) : frozen v f d' = frozen v f d -> ss_dims v f d' = ss_dims v f d.
  Proof. destruct f; try reflexivity. intro E. cbn in *. unfold dims. injection E as -> -> -> _ _ _ _ _ _. reflexivity. Qed.
End Eqs.

Section Step.
  Context {F : Type} {NF : Num F} (v : Version) (f : FMU).
  Notation m := (model_of (F := F) v f).
  Notation D := (md m).
  Notation Y := (dyn_all (F := F) v f).
  Definition sane (i : Inst F D) : Prop := fit Y i /\ ss_dims v f (data (mut i)) = (3, 3, 3).

  Lemma flips_spec a b : crossed a b = true <-> flips (F := F) a b.
  Proof.
    unfold crossed, flips. rewrite orb_true_iff, !andb_true_iff. tauto.
  Qed.
  Lemma crosses_spec : forall p z : list F, crosses p z = true <-> exists j a b, nth_error p j = Some a /\ nth_error z j = Some b /\ flips a b.
  Proof.
    unfold crosses. induction p as [|a p IH]; intros [|b z]; cbn.
    - split; [discriminate|]. intros ([|] & ? & ? & E & _); discriminate.
    - split; [discriminate|]. intros ([|] & ? & ? & E & _); discriminate.
    - split; [discriminate|]. intros ([|] & ? & ? & _ & E & _); discriminate.
    - rewrite orb_true_iff, IH, flips_spec. split.
      + intros [H|(j & x & y & A & B & C)]; [now exists 0, a, b|]. now exists (S j), x, y.
      + intros ([|j] & x & y & A & B & C); cbn in A, B; [injection A as <-; injection B as <-; now left|]. right. eauto 10.
  Qed.

  Lemma step_spec (i i' : Inst F D) : sane i -> stepped Y i i' -> solver_step v f i i' /\ sane i'.
  Proof.
    intros (Ft & Hd) [C U Nx Nz P Ft'].
    pose proof (ft_wf Ft) as W.
    destruct (dy_tx_ok Y _ W) as (W1 & X1 & DX1 & d1 & b1 & E1).
    destruct (dy_tdx_ok Y _ W1) as (W2 & X2 & DX2 & Z2 & d2 & b2 & E2).
    assert (Fr1 : frozen v f (data (stepu Y (sol i) (mut i))) = frozen v f (data (mut i))).
    { unfold stepu. destruct (Nat.ltb 0 (nx (sol i))); [|reflexivity]. cbn [data set_dirty set_data].
      rewrite frozen_put, frozen_tdx, frozen_tx by assumption. reflexivity. }
    assert (Su : states v f (data (stepu Y (sol i) (mut i))) =
                 if Nat.ltb 0 (nx (sol i)) then euler_of (m_step m) (states v f (data (mut i))) (ders v f (data (mut i))) else states v f (data (mut i))).
    { unfold stepu. destruct (Nat.ltb 0 (nx (sol i))) eqn:Hn; [|reflexivity]. cbn [data set_dirty set_data].
      rewrite (ders_eq v f (data (mut i)) W Hd), !states_eq.
      destruct (dy_put_ok Y (eul m (dy_x Y (data (mut i))) (dy_dx Y (data (mut i)))) (data (dy_tdx Y (dy_tx Y (mut i)))) W2) as (_ & ->); [|reflexivity].
      rewrite X2, X1. unfold eul. rewrite map_length, combine_length, (dy_len Y _ W). lia. }
    assert (Wu : wf_dyn v f (data (stepu Y (sol i) (mut i)))).
    { unfold stepu. destruct (Nat.ltb 0 (nx (sol i))) eqn:Hn; [|exact W]. cbn [data set_dirty set_data].
      apply (dy_put_ok Y); [exact W2|]. rewrite X2, X1. unfold eul. rewrite map_length, combine_length, (dy_len Y _ W). lia. }
    destruct (dy_tz_ok Y _ Wu) as (W3 & X3 & Z3 & d3 & b3 & E3).
    assert (Sz : states v f (data (mut i')) = states v f (data (stepu Y (sol i) (mut i)))).
    { rewrite U. unfold next_mut, stepz. destruct (Nat.ltb 0 (nz (sol i))); [|reflexivity]. now rewrite !states_eq. }
    assert (Zz : indicators v f (data (mut i')) = indicators v f (data (stepu Y (sol i) (mut i)))).
    { rewrite U. unfold next_mut, stepz. destruct (Nat.ltb 0 (nz (sol i))); [|reflexivity]. now rewrite !indicators_eq. }
    assert (Fr : frozen v f (data (mut i')) = frozen v f (data (mut i))).
    { rewrite U. unfold next_mut, stepz. destruct (Nat.ltb 0 (nz (sol i))); [|exact Fr1]. now rewrite frozen_tz. }
    split.
    - constructor; auto.
      + rewrite C. destruct (ctl i); reflexivity.
      + rewrite C. reflexivity.
      + rewrite C. reflexivity.
      + intro Sv. rewrite Sz, Su. unfold solving in Sv. now rewrite (proj2 (Nat.ltb_lt _ _) Sv).
      + intro Sv. rewrite Sz, Su. unfold solving in Sv. now rewrite (proj2 (Nat.ltb_ge _ _)) by lia.
      + assert (K : forall u : Mut F D, exists d b, stepz Y (sol i) (stepu Y (sol i) (mut i)) = set_dirty b (set_data d (mut i))).
        { intros _. unfold stepz, stepu in *. destruct (Nat.ltb 0 (nx (sol i))), (Nat.ltb 0 (nz (sol i))).
          - rewrite E3, E2, E1. eexists _, _. reflexivity.
          - rewrite E2, E1. eexists _, _. reflexivity.
          - rewrite E3. eexists _, _. reflexivity.
          - exists (data (mut i)), (dirty (mut i)). destruct (mut i); reflexivity. }
        destruct (K (mut i)) as (d & b & Ek). rewrite U. unfold next_mut. rewrite Ek. reflexivity.
      + unfold watching. intro Wt. unfold stored. rewrite Nz, P by lia. now rewrite Zz, indicators_eq.
    - split; [exact Ft'|]. rewrite (frozen_dims v f _ _ Fr). exact Hd.
  Qed.
  Lemma event_spec (i i' : Inst F D) : sane i -> stepped Y i i' -> event_at Y i = true <-> eventful v f i i'.
  Proof.
    intros Sn St. destruct (step_spec Sn St) as (Sv & _). destruct Sn as (Ft & _). destruct St as [C U Nx Nz P Ft'].
    unfold event_at, eventful. rewrite events_eq, andb_true_iff, orb_true_iff.
    assert (A : state_event Y i = true <-> crossing v f i i').
    { unfold state_event, crossing, stored. rewrite andb_true_iff, crosses_spec.
      assert (Z : indicators v f (data (mut i')) = dy_z Y (data (stepu Y (sol i) (mut i)))).
      { rewrite indicators_eq, U. unfold next_mut, stepz. destruct (Nat.ltb 0 (nz (sol i))); [|reflexivity].
        apply (dy_tz_ok Y). pose proof (ft_wf Ft) as W.
        destruct (dy_tx_ok Y _ W) as (W1 & X1 & DX1 & d1 & b1 & E1).
        destruct (dy_tdx_ok Y _ W1) as (W2 & X2 & DX2 & Z2 & d2 & b2 & E2).
        unfold stepu. destruct (Nat.ltb 0 (nx (sol i))) eqn:Hn; [|exact W]. cbn [data set_dirty set_data].
        apply (dy_put_ok Y); [exact W2|]. rewrite X2, X1. unfold eul. rewrite map_length, combine_length, (dy_len Y _ W). lia. }
      rewrite Z. split; [intros (_ & H); exact H|]. intros H. split; [|exact H].
      destruct H as (j & a & b & H & _). apply Nat.ltb_lt. destruct (nz (sol i)); [|lia]. destruct j; discriminate. }
    assert (B : time_event m i = true <-> due v f i i').
    { unfold time_event, due. rewrite andb_true_iff, C. reflexivity. }
    now rewrite A, B.
  Qed.
End Step.

(** ** The passes of the loop of DoStep *)
Section Loop.
  Context {F : Type} {NF : Num F} (v : Version) (f : FMU) (env : Env).
  Notation m := (model_of (F := F) v f).
  Notation D := (md m).
  Notation Y := (dyn_all (F := F) v f).
  Let EV : Events env Y := events_all v f env.

  Lemma event_dims c u x u' t : m_eventUpdate m = true -> m_eventUpdateF m env c u = Done (x, u', t) -> ss_dims v f (data u') = ss_dims v f (data u).
  Proof. destruct f; try reflexivity. intros _ E. cbn in E. injection E as _ <- _. reflexivity. Qed.
  Lemma call_eq (i : Inst F D) x i' t : call m env (m_eventUpdateF m) i = Done (x, i', t) ->
    exists u, m_eventUpdateF m env (ctl i) (mut i) = Done (x, u, t) /\ i' = mkInst (ctl i) u (sol i).
  Proof.
    unfold call. intro E. destruct (m_eventUpdateF m env (ctl i) (mut i)) as [[[y u] t']| |]; try discriminate. injection E as <- <- <-. eauto.
  Qed.
  Lemma call_updated (i i2 : Inst F D) t : sane v f i -> m_eventUpdate m = true -> call m env (m_eventUpdateF m) i = Done (OK, i2, t) -> updated v f env i i2 /\ sane v f i2.
  Proof.
    intros (Ft & Hd) He E. destruct (fit_call EV He Ft E) as (F2 & _). apply call_eq in E as (u & E & ->). split.
    - exists u, t. split; [exact E|]. split; [reflexivity|]. split; [|split; reflexivity].
      exists (dirty u), (data u). split; [destruct u; reflexivity|]. split; reflexivity.
    - split; [exact F2|]. cbn. now rewrite (event_dims _ _ He E).
  Qed.
  Lemma call_handled2 (i i2 : Inst F D) t : sane v f i -> m_eventUpdate m = true -> call m env (m_eventUpdateF m) i = Done (OK, i2, t) -> handled2 v f env i i2.
  Proof.
    intros Sn He E. split; [exact (proj1 (call_updated Sn He E))|]. apply call_eq in E as (u & _ & ->). reflexivity.
  Qed.
  Lemma call_handled (i i2 i3 : Inst F D) t : sane v f i -> m_eventUpdate m = true -> call m env (m_eventUpdateF m) i = Done (OK, i2, t) -> refreshed Y i2 i3 ->
    fit Y i3 -> handled v f env i i3 /\ sane v f i3.
  Proof.
    intros Sn He E Rf F3. destruct (call_updated Sn He E) as (Up & (F2 & D2)). unfold refreshed in Rf.
    destruct (Nat.ltb 0 (m_maxZ m)) eqn:Hz.
    - destruct Rf as (Pz & C & U & Nz & Nx & p & Es & Lp & P).
      destruct (dy_tz_ok Y _ (ft_wf F2)) as (W3 & X3 & Z3 & d3 & b3 & E3).
      assert (Fr : frozen v f (data (mut i3)) = frozen v f (data (mut i2))) by (rewrite U; apply frozen_tz).
      split; [split|].
      + destruct Up as (u & t' & Eu & Cu & (b & d & M & G & S) & Xn & Zn). exists u, t'. split; [exact Eu|].
        split; [congruence|]. split; [|split; congruence].
        exists (dirty (mut i3)), (data (mut i3)). rewrite U. split; [|split].
        * rewrite E3, M. reflexivity.
        * rewrite frozen_tz, M. exact G.
        * rewrite states_eq, X3, M. cbn [data set_dirty set_data]. rewrite <- S. now rewrite states_eq.
      + intros _. unfold stored. rewrite Nz, Es. cbn [prez set_prez]. rewrite P, indicators_eq, U. now rewrite Z3.
      + split; [exact F3|]. now rewrite (frozen_dims v f _ _ Fr).
    - subst i3. split; [|split; assumption]. split; [exact Up|].
      assert (forall d : D, indicators v f d = []) as -> by (clear -Hz; destruct f; intro; try reflexivity; discriminate Hz).
      cbn. lia.
  Qed.

  Lemma quiet_one k i i1 (i' : Inst F D) : sane v f i -> stepped Y i i1 -> event_at Y i = false -> quiet_steps v f k i1 i' -> quiet_steps v f (S k) i i'.
  Proof.
    intros Sn St Ev Q. econstructor; [apply (step_spec Sn St)| |exact Q]. intro H. apply (event_spec Sn St) in H. congruence.
  Qed.

  Definition outcome3 (i : Inst F D) (ncp : F) (e r : bool) (i' : Inst F D) : Prop :=
    (e = false /\ r = true /\ pointReached m ncp (ctl i') = true /\ exists k, quiet_steps v f k i i')
    \/ (e = false /\ r = false /\ terminateSimulation (mut i') = true /\ exists k, quiet_steps v f (S k) i i')
    \/ (e = eventModeUsed (ctl i) /\ r = false /\ exists k j j', quiet_steps v f k i j /\ solver_step v f j j' /\ eventful v f j j' /\
        if eventModeUsed (ctl i) then i' = j' else handled v f env j' i').
  Lemma loop3_early fuel : forall ncp i e r i' t, sane v f i -> earlyReturnAllowed (ctl i) = true ->
    doStep_loop m env fuel ncp false OK i = Done ((OK, e, r), i', t) -> outcome3 i ncp e r i'.
  Proof.
    induction fuel as [|fuel IH]; intros ncp i e r i' t Sn Er E; [discriminate|].
    rewrite loop3_eq in E. cbn [andb] in E. rewrite orb_false_r in E. destruct (pointReached m ncp (ctl i)) eqn:Pr.
    { injection E; intros; subst. left. repeat (split; [reflexivity || assumption|]). exists 0. constructor. }
    unfold bind in E. pose proof (pass3_spec EV false (proj1 Sn)) as Ps.
    destruct (pass3 m env false OK i) as [[[[[st1 e1] go] i1] t1]| |] eqn:Ep; try discriminate. cbn in Ps.
    pose proof (passed3_ok EV (proj1 Sn) Ps) as (_ & Pk).
    inversion Ps as [i0 t0 i1' En Ft0 St Ev|i0 t0 i1' En Ft0 St Ev Em|i0 t0 i1' i2 t2 i3 En Ft0 St Ev Em Ec Rf|i0 t0 i1' i2 t2 En Ft0 St Ev Em Ec t3 Nt]; subst; unfold entered in En; rewrite andb_false_r in En; destruct En as (-> & ->); cbn [andb] in E.
    - destruct (step_spec Sn St) as (Sv & Sn1).
      destruct (terminateSimulation (mut i1)) eqn:Tm; cbn [negb] in E.
      + injection E; intros; subst. right; left. repeat (split; [reflexivity || assumption|]). exists 0. apply (quiet_one Sn St Ev). constructor.
      + destruct (doStep_loop m env fuel ncp false OK i1) as [[[[[st2 e2] r2] i2] t2]| |] eqn:El; try discriminate.
        injection E; intros; subst. assert (C1 : earlyReturnAllowed (ctl i1) = true /\ eventModeUsed (ctl i1) = eventModeUsed (ctl i)) by (rewrite (sd_ctl St); auto).
        destruct C1 as (C1 & C2). specialize (IH _ _ _ _ _ _ Sn1 C1 El). unfold outcome3 in *. rewrite C2 in IH.
        destruct IH as [(A & B & C & k & Q)|[(A & B & C & k & Q)|(A & B & k & j & j' & Q & Z)]].
        * left. repeat (split; [assumption|]). exists (S k). apply (quiet_one Sn St Ev Q).
        * right; left. repeat (split; [assumption|]). exists (S k). apply (quiet_one Sn St Ev Q).
        * right; right. repeat (split; [assumption|]). exists (S k), j, j'. split; [|exact Z]. apply (quiet_one Sn St Ev Q).
    - rewrite Er in E. cbn [negb andb] in E. injection E; intros; subst. right; right. rewrite Em. split; [reflexivity|]. split; [reflexivity|].
      exists 0, i, i'. split; [constructor|]. split; [apply (step_spec Sn St)|]. split; [now apply (event_spec Sn St)|reflexivity].
    - rewrite Er in E. cbn [negb andb] in E. injection E; intros; subst. right; right. rewrite Em. split; [reflexivity|]. split; [reflexivity|].
      exists 0, i, i1'. split; [constructor|]. split; [apply (step_spec Sn St)|]. split; [now apply (event_spec Sn St)|].
      assert (He : m_eventUpdate m = true) by (unfold event_at in Ev; now destruct (m_eventUpdate m)).
      destruct (step_spec Sn St) as (_ & Sn1). destruct Pk as [(_ & Fi & _)|(X & _)]; [|discriminate].
      eapply call_handled; eauto. 
    - discriminate E.
  Qed.

  (** Without event mode: the events are handled on the way.  With early return the loop ends after the first one. *)
  Lemma loop3_inside fuel : forall ncp i e r i' t, sane v f i -> eventModeUsed (ctl i) = false ->
    doStep_loop m env fuel ncp false OK i = Done ((OK, e, r), i', t) ->
    e = false /\ sane v f i' /\ (exists k, k <= fuel /\ steps_with v f (handled v f env) k i i' /\ ctl i' = bumps m k (ctl i)) /\
    (r = true /\ pointReached m ncp (ctl i') = true \/ r = false /\ (earlyReturnAllowed (ctl i) = true \/ terminateSimulation (mut i') = true)).
  Proof.
    induction fuel as [|fuel IH]; intros ncp i e r i' t Sn Em E; [discriminate|].
    rewrite loop3_eq in E. cbn [andb] in E. rewrite orb_false_r in E. destruct (pointReached m ncp (ctl i)) eqn:Pr.
    { injection E; intros; subst. split; [reflexivity|]. split; [exact Sn|]. split; [|auto]. exists 0. split; [lia|]. split; [constructor|reflexivity]. }
    unfold bind in E. pose proof (pass3_spec EV false (proj1 Sn)) as Ps.
    destruct (pass3 m env false OK i) as [[[[[st1 e1] go] i1] t1]| |] eqn:Ep; try discriminate. cbn in Ps.
    assert (K : forall h, ctl i1 = bump m (ctl i) -> sane v f i1 -> e1 = false -> st1 = OK ->
      (go = false -> earlyReturnAllowed (ctl i) = true \/ terminateSimulation (mut i1) = true) ->
      (forall k i', steps_with v f h k i1 i' -> steps_with v f h (S k) i i') -> h = handled v f env ->
      e = false /\ sane v f i' /\ (exists k, k <= S fuel /\ steps_with v f (handled v f env) k i i' /\ ctl i' = bumps m k (ctl i)) /\
      (r = true /\ pointReached m ncp (ctl i') = true \/ r = false /\ (earlyReturnAllowed (ctl i) = true \/ terminateSimulation (mut i') = true))).
    { intros h C Sn1 -> -> Hg Hq ->. destruct go.
      - destruct (doStep_loop m env fuel ncp false OK i1) as [[[[[st2 e2] r2] i2] t2]| |] eqn:El; try discriminate.
        injection E; intros; subst. assert (C1 : eventModeUsed (ctl i1) = false) by (rewrite C; exact Em).
        destruct (IH _ _ _ _ _ _ Sn1 C1 El) as (A & B & (k & Hk & S & Ck) & G). split; [exact A|]. split; [exact B|].
        split; [exists (Datatypes.S k); split; [lia|]; split; [now apply Hq|rewrite Ck, C; reflexivity]|].
        assert (earlyReturnAllowed (ctl i1) = earlyReturnAllowed (ctl i)) as <- by (rewrite C; reflexivity). exact G.
      - injection E; intros; subst. split; [reflexivity|]. split; [exact Sn1|]. split; [exists 1; split; [lia|]; split; [apply Hq; constructor|exact C]|].
        right. split; [reflexivity|]. now apply Hg. }
    pose proof (passed3_ok EV (proj1 Sn) Ps) as (_ & Pk).
    inversion Ps as [i0 t0 i1' En Ft0 St Ev|i0 t0 i1' En Ft0 St Ev Em1|i0 t0 i1' i2 t2 i3 En Ft0 St Ev Em1 Ec Rf|i0 t0 i1' i2 t2 En Ft0 St Ev Em1 Ec t3 Nt]; subst; unfold entered in En; rewrite andb_false_r in En; destruct En as (-> & ->); [| | |discriminate E].
    - destruct Pk as [(_ & Fi & C & G & _)|(X & _)]; [|discriminate]. eapply K; [exact C|apply (step_spec Sn St)|reflexivity|reflexivity|exact G| |reflexivity].
      intros k j W. eapply with_quiet; [apply (step_spec Sn St)| |exact W]. intro H. apply (event_spec Sn St) in H. congruence.
    - congruence.
    - destruct Pk as [(_ & Fi & C & G & _)|(X & _)]; [|discriminate].
      assert (He : m_eventUpdate m = true) by (unfold event_at in Ev; now destruct (m_eventUpdate m)).
      destruct (step_spec Sn St) as (Sv & Sn1). destruct (call_handled Sn1 He Ec Rf Fi) as (Hd & Sn3).
      eapply K; [exact C|exact Sn3|reflexivity|reflexivity|exact G| |reflexivity].
      intros k j W. eapply with_event; [exact Sv|now apply (event_spec Sn St)|exact Hd|exact W].
  Qed.
  Lemma loop2_inside fuel : forall ncp i st r i' t, sane v f i -> st <> Error ->
    doStep2_loop m env fuel ncp OK i = Done ((st, r), i', t) ->
    sane v f i' /\ (exists k, k <= fuel /\ steps_with v f (handled2 v f env) k i i' /\ ctl i' = bumps m k (ctl i) /\ (st = OK -> k = 0 \/ terminateSimulation (mut i') = false)) /\
    (st = OK /\ r = true /\ pointReached m ncp (ctl i') = true \/ st = Discard /\ r = false /\ terminateSimulation (mut i') = true).
  Proof.
    induction fuel as [|fuel IH]; intros ncp i st r i' t Sn Ne E; [discriminate|].
    rewrite loop2_eq in E. destruct (pointReached m ncp (ctl i)) eqn:Pr.
    { injection E; intros; subst. split; [exact Sn|]. split; [|auto]. exists 0. split; [lia|]. split; [constructor|split; [reflexivity|auto]]. }
    unfold bind in E. pose proof (pass2_spec EV (proj1 Sn)) as Ps.
    destruct (pass2 m env OK i) as [[[[st1 go] i1] t1]| |] eqn:Ep; try discriminate. cbn in Ps.
    assert (K : forall h, ctl i1 = bump m (ctl i) -> sane v f i1 -> st1 = (if terminateSimulation (mut i1) then Discard else OK) -> go = negb (terminateSimulation (mut i1)) ->
      (forall k i', steps_with v f h k i1 i' -> steps_with v f h (S k) i i') -> h = handled2 v f env ->
      sane v f i' /\ (exists k, k <= S fuel /\ steps_with v f (handled2 v f env) k i i' /\ ctl i' = bumps m k (ctl i) /\ (st = OK -> k = 0 \/ terminateSimulation (mut i') = false)) /\
      (st = OK /\ r = true /\ pointReached m ncp (ctl i') = true \/ st = Discard /\ r = false /\ terminateSimulation (mut i') = true)).
    { intros h C Sn1 Hs Hg Hq ->. destruct (terminateSimulation (mut i1)) eqn:Tm; cbn [negb] in *; subst go st1.
      - injection E; intros; subst. split; [exact Sn1|]. split; [exists 1; split; [lia|]; split; [apply Hq; constructor|split; [exact C|discriminate]]|]. right. auto.
      - destruct (doStep2_loop m env fuel ncp OK i1) as [[[[st2 r2] i2] t2]| |] eqn:El; try discriminate.
        injection E; intros; subst.
        destruct (IH _ _ _ _ _ _ Sn1 Ne El) as (B & (k & Hk & S & Ck & Kt) & G). split; [exact B|].
        split; [exists (Datatypes.S k); split; [lia|]; split; [now apply Hq|split; [rewrite Ck, C; reflexivity|]]|exact G].
        intro Ho. right. destruct (Kt Ho) as [->|Q]; [|exact Q]. inversion S; subst. exact Tm. }
    inversion Ps as [i1' Ft0 St Ev|i1' i2 t2 Ft0 St Ev Ec|i1' i2 t2 Ft0 St Ev Ec]; subst.
    - destruct (step_spec Sn St) as (Sv & Sn1). eapply K; [exact (sd_ctl St)|exact Sn1|reflexivity|reflexivity| |reflexivity].
      intros k j W. eapply with_quiet; [exact Sv| |exact W]. intro H. apply (event_spec Sn St) in H. congruence.
    - destruct (step_spec Sn St) as (Sv & Sn1).
      assert (He : m_eventUpdate m = true) by (unfold event_at in Ev; now destruct (m_eventUpdate m)).
      destruct (call_updated Sn1 He Ec) as (Up & Sn2).
      eapply K; [|exact Sn2|reflexivity|reflexivity| |reflexivity].
      + destruct (fit_call EV He (proj1 Sn1) Ec) as (_ & C & _). rewrite C. exact (sd_ctl St).
      + intros k j W. eapply with_event; [exact Sv|now apply (event_spec Sn St)|exact (call_handled2 Sn1 He Ec)|exact W].
    - injection E; intros; subst. congruence.
  Qed.
End Loop.

(** ** DoStep *)
Section DoStep3.
  Context {F : Type} {NF : Num F} (szof : N) (f : FMU).
  Notation m := (model_of (F := F) FMI3 f).
  Notation D := (md m).
  Lemma sane_reach s : reach3 m szof s -> mode_of s <> Terminated -> sane FMI3 f (sinst s).
  Proof. intros R M. split; [now apply (@fit_reach _ _ szof f s R)|]. apply (@sized_reach _ _ szof f s R). exact M. Qed.

  Theorem early3 fuel env ccp h p1 p2 p3 p4 s out s' t : reach3 m szof s -> earlyReturnAllowed (ctl (sinst s)) = true ->
    exec3 m szof fuel env (O3DoStep ccp h p1 p2 p3 p4) s = Done (OK, out, s', t) ->
    exists e term early, out = ODoStep (mkDoStepOut (Some e) (Some term) (Some early) (Some (time_of s'))) /\
      term = terminateSimulation (mut (sinst s')) /\
      exists i', sinst s' = set_ctl (set_nextCommunicationPoint (end_of s') (ctl i')) i' /\
      ( (early = false /\ e = false /\ end_of s' = nadd ccp h /\ beyond (nadd (time_of s') (m_step m)) (nadd ccp h) = true /\
         exists k, quiet_steps FMI3 f k (sinst s) i')
        \/ (early = true /\ e = eventModeUsed (ctl (sinst s)) /\ end_of s' = time_of s' /\
            exists k j j', quiet_steps FMI3 f k (sinst s) j /\ solver_step FMI3 f j j' /\ eventful FMI3 f j j' /\
              if eventModeUsed (ctl (sinst s)) then i' = j' else handled FMI3 f env j' i')
        \/ (early = true /\ e = false /\ term = true /\ end_of s' = time_of s' /\ exists k, quiet_steps FMI3 f (S k) (sinst s) i') ).
  Proof.
    intros R Er E. apply dostep3 in E as [(X & _)|(M & A & _ & e & r & i' & k & El & Hk & L & C)]; [discriminate| |exact R].
    destruct C as [(X & _)|(_ & Es & ->)]; [discriminate|].
    assert (Er' : earlyReturnAllowed (ctl i') = true).
    { destruct (lp_end L) as [(_ & _ & -> & _)|[(_ & _ & -> & _)|(X & _)]]; [| |discriminate];
        destruct (bumps_fields m k (ctl (sinst s))) as (_ & _ & _ & _ & -> & _); exact Er. }
    assert (Sn : sane FMI3 f (sinst s)) by (apply sane_reach; [exact R|rewrite M; discriminate]).
    exists e, (terminateSimulation (mut i')), (negb r).
    split. { rewrite Er'. unfold time_of. rewrite Es. reflexivity. }
    split; [rewrite Es; reflexivity|].
    exists i'. assert (En : end_of s' = if r then nadd ccp h else time (ctl i')) by (unfold end_of; rewrite Es; reflexivity).
    assert (Tm : time_of s' = time (ctl i')) by (unfold time_of; rewrite Es; reflexivity).
    split; [rewrite En; exact Es|]. rewrite En, Tm.
    destruct (@loop3_early F NF FMI3 f env fuel _ _ _ _ _ _ Sn Er El) as [(-> & -> & Pr & Q)|[(-> & -> & Tr & Q)|(He & -> & Q)]].
    - left. auto.
    - right; right. repeat (split; [reflexivity || assumption|]). exact Q.
    - right; left. repeat (split; [reflexivity || assumption|]). exact Q.
  Qed.
  Theorem inside3 fuel env ccp h p1 p2 p3 p4 s out s' t : reach3 m szof s -> eventModeUsed (ctl (sinst s)) = false ->
    exec3 m szof fuel env (O3DoStep ccp h p1 p2 p3 p4) s = Done (OK, out, s', t) ->
    exists term early, out = ODoStep (mkDoStepOut (Some false) (Some term) (Some early) (Some (time_of s'))) /\
      term = terminateSimulation (mut (sinst s')) /\
      (earlyReturnAllowed (ctl (sinst s)) = false -> early = false) /\
      exists k i', sinst s' = set_ctl (set_nextCommunicationPoint (end_of s') (ctl i')) i' /\
        steps_with FMI3 f (handled FMI3 f env) k (sinst s) i' /\
        (end_of s' = nadd ccp h /\ beyond (nadd (time_of s') (m_step m)) (nadd ccp h) = true \/ end_of s' = time_of s' /\ (early = true \/ term = true)).
  Proof.
    intros R Em E. apply dostep3 in E as [(X & _)|(M & A & _ & e & r & i' & k & El & Hk & L & C)]; [discriminate| |exact R].
    destruct C as [(X & _)|(_ & Es & ->)]; [discriminate|].
    assert (Er' : earlyReturnAllowed (ctl i') = earlyReturnAllowed (ctl (sinst s))).
    { destruct (lp_end L) as [(_ & _ & -> & _)|[(_ & _ & -> & _)|(X & _)]]; [| |discriminate];
        destruct (bumps_fields m k (ctl (sinst s))) as (_ & _ & _ & _ & -> & _); reflexivity. }
    assert (Sn : sane FMI3 f (sinst s)) by (apply sane_reach; [exact R|rewrite M; discriminate]).
    destruct (@loop3_inside F NF FMI3 f env fuel _ _ _ _ _ _ Sn Em El) as (-> & _ & (k' & _ & W & _) & Z).
    exists (terminateSimulation (mut i')), (earlyReturnAllowed (ctl i') && negb r).
    split. { unfold time_of. rewrite Es. reflexivity. }
    split; [rewrite Es; reflexivity|]. split; [rewrite Er'; now intros ->|].
    exists k', i'. assert (En : end_of s' = if r then nadd ccp h else time (ctl i')) by (unfold end_of; rewrite Es; reflexivity).
    assert (Tm : time_of s' = time (ctl i')) by (unfold time_of; rewrite Es; reflexivity).
    split; [rewrite En; exact Es|]. split; [exact W|]. rewrite En, Tm.
    destruct Z as [(-> & Pr)|(-> & Z)]; [left; auto|]. right. split; [reflexivity|]. rewrite Er'. cbn [negb]. rewrite andb_true_r. exact Z.
  Qed.
End DoStep3.

Section DoStep2.
  Context {F : Type} {NF : Num F} (szof : N) (f : FMU).
  Hypothesis Bf : built2 f = true.
  Notation m := (model_of (F := F) FMI2 f).
  Notation D := (md m).
  Let NS : f <> StateSpace. Proof. intros ->. discriminate. Qed.
  Lemma sane_reach2 s : reach2 m szof s -> sane FMI2 f (sinst s).
  Proof. intros R. split; [now apply (@fit_reach2 _ _ szof f s NS R)|]. destruct f; try reflexivity. discriminate Bf. Qed.
  Theorem inside2 fuel env ccp h s st out s' t : reach2 m szof s -> st <> Error ->
    exec2 m szof fuel env (O2DoStep ccp h) s = Done (st, out, s', t) ->
    exists k i', sinst s' = set_ctl (set_nextCommunicationPoint (end_of s') (ctl i')) i' /\
        steps_with FMI2 f (handled2 FMI2 f env) k (sinst s) i' /\
        (st = OK /\ end_of s' = nadd ccp h /\ beyond (nadd (time_of s') (m_step m)) (nadd ccp h) = true /\ (k = 0 \/ terminateSimulation (mut (sinst s')) = false) \/
         st = Discard /\ end_of s' = end_of s /\ terminateSimulation (mut (sinst s')) = true).
  Proof.
    intros R Ne E. apply (dostep2 NS) in E as [(X & _)|(M & A & _ & r & i' & k & El & Hk & L & Es)]; [congruence| |exact R].
    destruct (@loop2_inside F NF FMI2 f env fuel _ _ _ _ _ _ (sane_reach2 R) Ne El) as (_ & (k' & _ & W & Ck & Kt) & Z).
    exists k', i'. assert (En : end_of s' = if r then nadd ccp h else nextCommunicationPoint (ctl i')) by (unfold end_of; rewrite Es; destruct r; reflexivity).
    assert (Tm : time_of s' = time (ctl i')) by (unfold time_of; rewrite Es; destruct r; reflexivity).
    assert (Mt : mut (sinst s') = mut i') by (rewrite Es; destruct r; reflexivity).
    split; [rewrite En, Es; destruct r; [reflexivity|destruct i' as [[] ? ?]; reflexivity]|]. split; [exact W|]. rewrite En, Tm, Mt.
    destruct Z as [(-> & -> & Pr)|(-> & -> & Z)]; [left; auto|]. right. repeat (split; [reflexivity|]). split; [|exact Z].
    rewrite Ck. apply bumps_fields.
  Qed.
End DoStep2.
