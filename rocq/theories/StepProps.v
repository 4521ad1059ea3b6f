(** StepProps.v -- proofs about DoStep: time, checks, end of the step, termination (C17-C20). *)
From Coq Require Import List NArith ZArith Bool Arith Lia.
From Verif Require Import Base Instance ModelIface Core Fmi3 Fmi2 Api Fmus Logic Calls LawsFmus SpecModes Gate Effect Reach Histories
  Sim SimSS SpecCreate SpecVars SpecEqs Vars DataFmus Data Data2 SpecSteps Dyn Solver Fits Steps StepsFmus.
Import ListNotations.
Set Implicit Arguments.

Section Grid.
  Context {F : Type} {NF : Num F} (h : F).
  Lemma on_grid_same (c c' : Ctl F) : nSteps c' = nSteps c -> time c' = time c -> startTime c' = startTime c -> on_grid h c -> on_grid h c'.
  Proof. unfold on_grid. intros -> -> ->. auto. Qed.
  Definition before_start (c : Ctl F) : Prop := In (mode c) [Instantiated; ConfigurationMode; InitializationMode] -> nSteps c = 0%N.
  Lemma before_term (c c' : Ctl F) : mode c' = Terminated -> before_start c'.
  Proof. intros E H. rewrite E in H. cbn in H. intuition discriminate. Qed.
  Lemma before_same (c c' : Ctl F) : mode c' = mode c -> nSteps c' = nSteps c -> before_start c -> before_start c'.
  Proof. unfold before_start. intros -> ->. auto. Qed.
End Grid.

Section Clock.
  Context {F : Type} {NF : Num F} {D : Type} (h : F).
  Lemma later_later n k k' : later (later n k) k' = later n (k + k').
  Proof. unfold later. rewrite N.add_mod_idemp_l by discriminate. f_equal. lia. Qed.
  Lemma after_after k k' (s s' : Sys F D) : clock h k s s' -> after h k' (ctl (sinst s')) = after h (k + k') (ctl (sinst s)).
  Proof.
    intros (A & B & _ & C). unfold time_of, start_of, steps_of in *. destruct k'; cbn [after]; [rewrite A; f_equal; lia|].
    rewrite B, C. destruct k; [reflexivity|]. now rewrite later_later.
  Qed.
  Lemma clock_trans k k' (s s' s2 : Sys F D) : clock h k s s' -> clock h k' s' s2 -> clock h (k + k') s s2.
  Proof.
    intros A B. pose proof (after_after k' A) as G. destruct A as (A1 & A2 & A3 & A4), B as (B1 & B2 & B3 & B4).
    split; [rewrite B1; exact G|]. split; [congruence|]. split; [congruence|]. rewrite B4, A4.
    destruct k, k'; cbn [Nat.add]; try rewrite Nat.add_0_r; try reflexivity. now rewrite later_later.
  Qed.
  Lemma clock_refl (s s' : Sys F D) : time_of s' = time_of s -> start_of s' = start_of s -> stop_of s' = stop_of s -> steps_of s' = steps_of s -> clock h 0 s s'.
  Proof. intros. repeat split; auto. Qed.
End Clock.

Section Three.
  Context {F : Type} {NF : Num F} (szof : N) (f : FMU).
  Notation m := (model_of (F := F) FMI3 f).
  Notation D := (md m).

  Lemma bumps_on_grid k c : on_grid (m_step m) c -> on_grid (m_step m) (bumps m k c).
  Proof.
    destruct k; [auto|]. intros _. right. rewrite bumps_S. cbn [bump nSteps startTime time set_time set_nSteps]. reflexivity.
  Qed.
  Lemma dostep3_ctl fuel env ccp h p1 p2 p3 p4 s st out s' t : reach3 m szof s ->
    exec3 m szof fuel env (O3DoStep ccp h p1 p2 p3 p4) s = Done (st, out, s', t) ->
    exists k md p, ctl (sinst s') = set_mode md (set_nextCommunicationPoint p (bumps m k (ctl (sinst s)))) /\ k <= fuel /\ md <> Instantiated /\ md <> ConfigurationMode /\ md <> InitializationMode.
  Proof.
    intros R E. apply dostep3 in E as [(-> & _ & _ & -> & _)|(M & _ & _ & e & r & i' & k & _ & Hk & L & C)]; [| |exact R].
    - exists 0, Terminated, (end_of s). cbn [bumps]. split; [unfold end_of; cbn; destruct (ctl (sinst s)); reflexivity|]. split; [lia|]. repeat split; discriminate.
    - assert (K : exists md, ctl i' = set_mode md (bumps m k (ctl (sinst s))) /\ (md = StepMode \/ md = Terminated)).
      { pose proof (bumps_fields m k (ctl (sinst s))) as (_ & _ & B & _). unfold mode_of in M. rewrite M in B.
        destruct (lp_end L) as [(_ & _ & -> & _)|[(_ & _ & -> & _)|(_ & _ & ->)]]; [exists StepMode|exists StepMode|exists Terminated]; (split; [|auto]);
        [rewrite <- B; symmetry; apply set_mode_same|rewrite <- B; symmetry; apply set_mode_same|reflexivity]. }
      destruct K as (md & K & Hm).
      destruct C as [(_ & ->)|(_ & -> & _)].
      + exists k, md, (nextCommunicationPoint (bumps m k (ctl (sinst s)))). split; [rewrite K; destruct (bumps m k (ctl (sinst s))); reflexivity|]. split; [exact Hk|]. destruct Hm; subst; repeat split; discriminate.
      + eexists k, md, _. cbn [ctl set_ctl]. split; [rewrite K at 2; reflexivity|]. split; [exact Hk|]. destruct Hm; subst; repeat split; discriminate.
  Qed.

  Lemma before_exec3 fuel env o s st out s' t : reach3 m szof s -> before_start (ctl (sinst s)) -> all_saved m (fun i => before_start (ctl i)) s ->
    exec3 m szof fuel env o s = Done (st, out, s', t) -> before_start (ctl (sinst s')).
  Proof.
    intros R B A E. pose proof (@reach3_modes _ _ _ szof (@model_laws F NF FMI3 f) _ R) as Hm.
    pose proof (@exec3_mode _ _ m szof (@model_laws F NF FMI3 f) fuel env o s st out s' t Hm E) as W.
    pose proof (proj1 (@exec3_effect _ _ m szof env (@model_laws F NF FMI3 f) fuel o s st out s' t Hm E)) as Ef.
    assert (G : (forall h, o <> O3SetFMUState (Some h)) -> forall c', st = OK /\ In (mode_of s) (when3 o) /\ c' = settings3 o s \/ st = Error /\ c' = set_mode Terminated (ctl (sinst s)) ->
                before_start c').
    { intros Hs c' [(_ & Hw & ->)|(_ & ->)]; [|now apply (@before_term _ (ctl (sinst s)))].
      unfold before_start in *. unfold mode_of in *. destruct o; cbn [settings3 next3 when3 In] in *;
        try (cbn [mode nSteps set_mode] in *; exact B);
        try (cbn [mode nSteps set_mode set_time set_nSteps set_stopTime set_startTime set_nextCommunicationPoint set_istatus] in *; intuition congruence).
      all: try (destruct h; [exfalso; eapply Hs; reflexivity|]; cbn [mode nSteps set_mode]; exact B).
      all: clear W Ef E R Hm A; cbn [mode nSteps set_mode] in *; destruct (mode (ctl (sinst s))); cbn in *; try destruct (itype _); intuition congruence. }
    assert (Sp : (exists h, o = O3SetFMUState (Some h)) \/ (exists a b c d e g, o = O3DoStep a b c d e g) \/ (exists a b c, o = O3SetDebugLogging a b c) \/
      o = O3NotImplemented \/ (exists a b c d, o = O3GetOutputDerivatives a b c d) \/
      (forall h, o <> O3SetFMUState (Some h)) /\ (st = OK /\ ctl (sinst s') = settings3 o s \/ st = Error /\ ctl (sinst s') = set_mode Terminated (ctl (sinst s)))).
    { destruct o; eauto 15; try (do 5 right; split; [discriminate|exact Ef]). destruct h; [eauto|]. do 5 right; split; [discriminate|exact Ef]. }
    destruct Sp as [(h & ->)|[(a & b & c & d & e & g & ->)|[(a & b & c & ->)|[->|[(a & b & c & d & ->)|(Hs & Sp)]]]]].
    - destruct Ef as (i & Hi & _ & ->). apply saved_In in Hi. exact (A _ Hi).
    - apply dostep3_ctl in E as (k & md & p & -> & _ & N1 & N2 & N3); [|exact R]. intro H. cbn in H. intuition congruence.
    - destruct Ef as (ev & er & -> & [(_ & Hd)|(_ & Hd)]); [|now apply (@before_term _ (ctl (sinst s)))].
      unfold before_start. cbn in Hd |- *. rewrite Hd. exact B.
    - destruct Ef as (_ & ->). exact B.
    - destruct Ef as [[(_ & ->)|(_ & ->)]|(_ & _ & _ & ->)]; auto. now apply (@before_term _ (ctl (sinst s))).
    - apply (G Hs). destruct Sp as [(-> & Sp)|Sp]; [|right; exact Sp]. left. split; [reflexivity|]. split; [|exact Sp].
      destruct W as [(_ & W & _)|(W & _)]; [exact W|discriminate].
  Qed.
  Lemma before_reach3 s : reach3 m szof s -> before_start (ctl (sinst s)) /\ all_saved m (fun i => before_start (ctl i)) s.
  Proof.
    intro R. apply (@reach3_mut _ _ m szof (fun s => before_start (ctl (sinst s)) /\ all_saved m (fun i => before_start (ctl i)) s) (fun i => before_start (ctl i))); auto.
    - intros i Hi. split; [|intros j []]. destruct (made3_ctl Hi) as (_ & K). intro. exact K.
    - intros s0 fuel env o st out s' t R0 [P0 A0] _ HI E. split; [eapply before_exec3; eauto|].
      intros i Hi. pose proof (@exec3_heap _ _ m szof env fuel o s0 st out s' t E i Hi) as [H1|[H1|H1]].
      + now apply A0.
      + subst; auto.
      + now apply HI.
    - intros s0 i _ [_ A] Hi. now apply A.
  Qed.

  Lemma on_grid_exec3 fuel env o s st out s' t : reach3 m szof s -> on_grid (m_step m) (ctl (sinst s)) -> all_saved m (fun i => on_grid (m_step m) (ctl i)) s ->
    (forall x, o <> O3SetTime x) -> exec3 m szof fuel env o s = Done (st, out, s', t) -> on_grid (m_step m) (ctl (sinst s')).
  Proof.
    intros R B A Nt E. pose proof (@reach3_modes _ _ _ szof (@model_laws F NF FMI3 f) _ R) as Hm.
    pose proof (@exec3_mode _ _ m szof (@model_laws F NF FMI3 f) fuel env o s st out s' t Hm E) as W.
    pose proof (proj1 (@exec3_effect _ _ m szof env (@model_laws F NF FMI3 f) fuel o s st out s' t Hm E)) as Ef.
    assert (Sp : (exists h, o = O3SetFMUState (Some h)) \/ (exists a b c d e g, o = O3DoStep a b c d e g) \/ (exists a b c, o = O3SetDebugLogging a b c) \/
      o = O3NotImplemented \/ (exists a b c d, o = O3GetOutputDerivatives a b c d) \/ (exists a b c, o = O3EnterInitializationMode a b c) \/ o = O3Reset \/
      (st = OK /\ ctl (sinst s') = set_mode (next3 o s) (ctl (sinst s)) \/ st = Error /\ ctl (sinst s') = set_mode Terminated (ctl (sinst s)))).
    { destruct o; eauto 15; try (do 7 right; exact Ef).
      - destruct h; [eauto|]. do 7 right; exact Ef.
      - exfalso. eapply Nt; reflexivity. }
    destruct Sp as [(h & ->)|[(a & b & c & d & e & g & ->)|[(a & b & c & ->)|[->|[(a & b & c & d & ->)|[(a & b & c & ->)|[->|Sp]]]]]]].
    - destruct Ef as (i & Hi & _ & ->). apply saved_In in Hi. exact (A _ Hi).
    - apply dostep3_ctl in E as (k & md & p & -> & _); [|exact R]. apply (on_grid_same (c := bumps m k (ctl (sinst s)))); try reflexivity. now apply bumps_on_grid.
    - destruct Ef as (ev & er & -> & _). exact B.
    - destruct Ef as (_ & ->). exact B.
    - destruct Ef as [[(_ & ->)|(_ & ->)]|(_ & _ & _ & ->)]; exact B.
    - destruct Ef as [(-> & ->)|(_ & ->)]; [|exact B]. left. split; [|reflexivity].
      destruct W as [(_ & W & _)|(W & _)]; [|discriminate]. apply before_reach3 in R as (R & _). apply R.
      cbn [when3 In] in W. unfold mode_of in W. cbn [In]. tauto.
    - destruct Ef as [(-> & ->)|(_ & ->)]; [left; split; reflexivity|exact B].
    - destruct Sp as [(_ & ->)|(_ & ->)]; exact B.
  Qed.

  (** C17: the internal time lies on the grid. *)
  Lemma on_grid_run3 fuel : forall l s obs s', reach3 m szof s -> on_grid (m_step m) (ctl (sinst s)) -> all_saved m (fun i => on_grid (m_step m) (ctl i)) s ->
    (forall e o, In (e, o) l -> (forall x, o <> O3SetTime x) /\ forall i, image3 o = Some i -> saved3 m szof i /\ on_grid (m_step m) (ctl i)) ->
    run3 m szof fuel l s = Done (obs, s') -> on_grid (m_step m) (ctl (sinst s')).
  Proof.
    induction l as [|[e o] l IH]; intros s obs s' R B A H E.
    - inversion E; subst. exact B.
    - apply run_cons in E as (st & out & s1 & t & obs' & E1 & E2 & ->).
      destruct (H e o (or_introl eq_refl)) as (Nt & Hi).
      assert (R1 : reach3 m szof s1) by (eapply reach3_call; [exact R|intros i Hj; exact (proj1 (Hi i Hj))|exact E1]).
      eapply (IH s1 obs' s'); [exact R1| | |intros e' o' K; apply (H e' o'); now right|exact E2].
      + apply (@on_grid_exec3 fuel e o s st out s1 t); assumption.
      + intros i Hj. pose proof (@exec3_heap _ _ m szof e fuel o s st out s1 t E1 i Hj) as [H1|[H1|H1]].
        * now apply A.
        * subst; auto.
        * exact (proj2 (Hi i H1)).
  Qed.

  Lemma made3_grid i : made3 m i -> on_grid (m_step m) (ctl i).
  Proof.
    intros H. left. revert H.
    intros [(env & n & t & r & b & e & l & tr & H)|[(env & n & t & r & b & ev & er & e & l & iu & tr & H)
      |(env & n & t & r & b & e & l & cu & lo & ul & tr & H)]].
    - unfold fmi3InstantiateModelExchange in H. destruct (m_modelExchange m); [|discriminate].
      apply create_ctl in H as [nm ->]. auto.
    - unfold fmi3InstantiateCoSimulation in H. destruct (negb (m_eventUpdate m) && ev); [discriminate|].
      destruct (createModelInstance _ _ _ _ _ _ _ _ _ _) as [[[j|] t1]| |] eqn:E; try discriminate.
      inversion H; subst; cbn. apply create_ctl in E as [nm ->]. auto.
    - unfold fmi3InstantiateScheduledExecution in H. destruct (m_scheduled m); [|discriminate].
      destruct (createModelInstance _ _ _ _ _ _ _ _ _ _) as [[[j|] t1]| |] eqn:E; try discriminate.
      inversion H; subst; cbn. apply create_ctl in E as [nm ->]. auto.
  Qed.
  Lemma grid3 fuel l i0 obs s' : made3 m i0 ->
    (forall e o, In (e, o) l -> (forall x, o <> O3SetTime x) /\ forall i, image3 o = Some i -> saved3 m szof i /\ on_grid (m_step m) (ctl i)) ->
    run3 m szof fuel l (mkSys i0 []) = Done (obs, s') ->
    steps_of s' = 0%N /\ time_of s' = start_of s' \/ time_of s' = grid (m_step m) (start_of s') (steps_of s').
  Proof.
    intros M H E. eapply (@on_grid_run3 fuel l (mkSys i0 [])); eauto.
    - now apply reach3_new.
    - cbn. now apply made3_grid.
    - intros i [].
  Qed.

  (** C17: what one DoStep call does to the clock. *)
  Lemma bumps_at k (c : Ctl F) : startTime (bumps m k c) = startTime c /\ stopTime (bumps m k c) = stopTime c.
  Proof. destruct (bumps_fields m k c) as (A & B & _). auto. Qed.
  Lemma clock_of k (s s' : Sys F D) md p : ctl (sinst s') = set_mode md (set_nextCommunicationPoint p (bumps m k (ctl (sinst s)))) -> clock (m_step m) k s s'.
  Proof.
    intro E. unfold clock, time_of, start_of, stop_of, steps_of. rewrite E. cbn [time startTime stopTime nSteps set_mode set_nextCommunicationPoint].
    destruct (bumps_at k (ctl (sinst s))) as (A & B). rewrite A, B. split; [apply bumps_time|]. split; [reflexivity|]. split; [reflexivity|].
    destruct k; [reflexivity|]. apply bumps_nSteps. lia.
  Qed.
  Lemma steps3 fuel env ccp h p1 p2 p3 p4 s st out s' t : reach3 m szof s ->
    exec3 m szof fuel env (O3DoStep ccp h p1 p2 p3 p4) s = Done (st, out, s', t) ->
    exists k, k <= fuel /\ clock (m_step m) k s s' /\
      reported t = if hasIntermediateUpdate (ctl (sinst s)) then map (fun j => after (m_step m) j (ctl (sinst s))) (seq 1 k) else [].
  Proof.
    intros R E. pose proof E as E'. apply dostep3 in E as [(-> & _ & _ & -> & ->)|(M & _ & _ & e & r & i' & k & _ & Hk & L & C)]; [| |exact R].
    - exists 0. split; [lia|]. split; [repeat split|]. unfold refusal. destruct (_ && _), (hasIntermediateUpdate _); reflexivity.
    - exists k. split; [exact Hk|].
      assert (K : exists md p, ctl (sinst s') = set_mode md (set_nextCommunicationPoint p (bumps m k (ctl (sinst s))))).
      { assert (K : exists md, ctl i' = set_mode md (bumps m k (ctl (sinst s)))).
        { destruct (lp_end L) as [(_ & _ & -> & _)|[(_ & _ & -> & _)|(_ & _ & ->)]]; eexists; [symmetry; apply set_mode_same|symmetry; apply set_mode_same|reflexivity]. }
        destruct K as (md & K). destruct C as [(_ & ->)|(_ & -> & _)].
        - exists md, (nextCommunicationPoint (bumps m k (ctl (sinst s)))). rewrite K. destruct (bumps m k (ctl (sinst s))); reflexivity.
        - eexists md, _. cbn [ctl set_ctl]. rewrite K at 2. reflexivity. }
      destruct K as (md & p & K). split; [eapply clock_of; exact K|].
      change (reported t) with (updates t). rewrite (lp_updates L). unfold announced, times.
      destruct (hasIntermediateUpdate _); [|reflexivity]. rewrite <- seq_shift, map_map. apply map_ext. intro j. apply bumps_time.
  Qed.

  Lemma keeps_clock3 fuel env o s st out s' t : reach3 m szof s -> sets_clock3 o = false -> is_DoStep3 o = false ->
    exec3 m szof fuel env o s = Done (st, out, s', t) -> clock (m_step m) 0 s s'.
  Proof.
    intros R Nt Nd E. pose proof (@reach3_modes _ _ _ szof (@model_laws F NF FMI3 f) _ R) as Hm.
    pose proof (proj1 (@exec3_effect _ _ m szof env (@model_laws F NF FMI3 f) fuel o s st out s' t Hm E)) as Ef.
    assert (exists md ev er, ctl (sinst s') = set_mode md (set_logErrors er (set_logEvents ev (ctl (sinst s))))) as (md & ev & er & K).
    { destruct o; try discriminate Nt; try discriminate Nd; cbn [effect3 settings3] in Ef.
      1: destruct Ef as (ev & er & -> & _); eauto.
      all: exists (mode (ctl (sinst s'))), (logEvents (ctl (sinst s))), (logErrors (ctl (sinst s)));
        assert (Q : exists md, ctl (sinst s') = set_mode md (ctl (sinst s)));
        [intuition eauto using set_mode_same; exists (mode (ctl (sinst s))); rewrite set_mode_same; assumption
        |destruct Q as (md & ->); destruct (ctl (sinst s)); reflexivity]. }
    apply clock_refl; unfold time_of, start_of, stop_of, steps_of; rewrite K; reflexivity.
  Qed.
  Lemma clock_run3 fuel : forall l s obs s', reach3 m szof s ->
    (forall e o, In (e, o) l -> sets_clock3 o = false /\ forall i, image3 o = Some i -> saved3 m szof i) ->
    run3 m szof fuel l s = Done (obs, s') -> exists k, clock (m_step m) k s s'.
  Proof.
    induction l as [|[e o] l IH]; intros s obs s' R H E.
    - inversion E; subst. exists 0. now apply clock_refl.
    - apply run_cons in E as (st & out & s1 & t & obs' & E1 & E2 & ->).
      destruct (H e o (or_introl eq_refl)) as (Nt & Hi).
      assert (R1 : reach3 m szof s1) by (eapply reach3_call; [exact R|exact Hi|exact E1]).
      destruct (IH s1 obs' s' R1) as (k' & C'); [intros e' o' K; apply (H e' o'); now right|exact E2|].
      assert (exists k, clock (m_step m) k s s1) as (k & C).
      { destruct (is_DoStep3 o) eqn:Di.
        - destruct o; try discriminate Di. apply steps3 in E1 as (k & _ & C & _); eauto.
        - exists 0. eapply keeps_clock3; eauto. }
      exists (k + k'). eapply clock_trans; eauto.
  Qed.
  Lemma hiu_run3 fuel env o s st out s' t : reach3 m szof s -> is_DoStep3 o = true -> exec3 m szof fuel env o s = Done (st, out, s', t) ->
    hasIntermediateUpdate (ctl (sinst s')) = hasIntermediateUpdate (ctl (sinst s)).
  Proof.
    intros R Di E. pose proof (@reach3_modes _ _ _ szof (@model_laws F NF FMI3 f) _ R) as Hm.
    pose proof (proj1 (@exec3_effect _ _ m szof env (@model_laws F NF FMI3 f) fuel o s st out s' t Hm E)) as Ef.
    destruct o; try discriminate Di. destruct Ef as (a & b & c & -> & _). reflexivity.
  Qed.
  Lemma dosteps_run3 fuel : forall l s obs s', reach3 m szof s -> (forall e o, In (e, o) l -> is_DoStep3 o = true) ->
    run3 m szof fuel l s = Done (obs, s') -> exists k, clock (m_step m) k s s' /\
      flat_map (fun x => reported (snd x)) obs =
      if hasIntermediateUpdate (ctl (sinst s)) then map (fun j => after (m_step m) j (ctl (sinst s))) (seq 1 k) else [].
  Proof.
    induction l as [|[e o] l IH]; intros s obs s' R H E.
    - inversion E; subst. exists 0. split; [now apply clock_refl|]. now destruct (hasIntermediateUpdate _).
    - apply run_cons in E as (st & out & s1 & t & obs' & E1 & E2 & ->).
      pose proof (H e o (or_introl eq_refl)) as Di.
      assert (R1 : reach3 m szof s1) by (eapply reach3_call; [exact R| |exact E1]; destruct o; try discriminate Di; discriminate).
      destruct (IH s1 obs' s' R1) as (k' & C' & T'); [intros e' o' K; apply (H e' o'); now right|exact E2|].
      pose proof (@hiu_run3 fuel e o s st out s1 t R Di E1) as Hi. rewrite Hi in T'.
      destruct o; try discriminate Di. apply steps3 in E1 as (k & _ & C & T); [|exact R].
      exists (k + k'). split; [eapply clock_trans; eauto|]. cbn [flat_map snd]. rewrite T, T'.
      destruct (hasIntermediateUpdate (ctl (sinst s))); [|reflexivity].
      rewrite seq_app, map_app. f_equal. rewrite (Nat.add_comm 1 k).
      replace (seq (k + 1) k') with (map (fun j => k + j) (seq 1 k')).
      2:{ clear. generalize 1. induction k'; intro a; cbn; [reflexivity|]. f_equal. rewrite (IHk' (S a)). f_equal. lia. }
      rewrite map_map. apply map_ext. intro j. apply after_after. exact C.
  Qed.

  (** C18 *)
  Lemma refused3 fuel env ccp h p1 p2 p3 p4 s : reach3 m szof s -> mode_of s = StepMode -> ~ acceptable s ccp h ->
    exists out s' t, exec3 m szof fuel env (O3DoStep ccp h p1 p2 p3 p4) s = Done (Error, out, s', t) /\
      s' = with_mode Terminated s /\ t = refusal s /\ time_of s' = time_of s /\ steps_of s' = steps_of s /\
      forall e, reads_same m szof e s s'.
  Proof.
    intros R M A. do 3 eexists. split; [apply dostep3_refused; assumption|]. repeat (split; [reflexivity|]). intro e.
    pose proof (@wf_reach F NF FMI3 f szof s R) as W.
    apply (@alike_reads F NF f szof e s); [exact W| |right; reflexivity].
    now apply alike_mode.
  Qed.
  Lemma accepted3 fuel env ccp h p1 p2 p3 p4 s out s' t : reach3 m szof s ->
    exec3 m szof fuel env (O3DoStep ccp h p1 p2 p3 p4) s = Done (OK, out, s', t) -> mode_of s = StepMode /\ acceptable s ccp h.
  Proof. intros R E. apply dostep3 in E as [(X & _)|(M & A & _)]; [discriminate| |exact R]; auto. Qed.

  (** C18, C19: the end of the step. *)
  Lemma ended3 fuel env ccp h p1 p2 p3 p4 s out s' t : reach3 m szof s ->
    exec3 m szof fuel env (O3DoStep ccp h p1 p2 p3 p4) s = Done (OK, out, s', t) ->
    exists e term early, out = ODoStep (mkDoStepOut (Some e) (Some term) (Some early) (Some (time_of s'))) /\
      (end_of s' = nadd ccp h \/ end_of s' = time_of s' /\ (early = true \/ term = true)) /\
      (early = true -> end_of s' = time_of s').
  Proof.
    intros R E. apply dostep3 in E as [(X & _)|(M & A & _ & e & r & i' & k & _ & Hk & L & C)]; [discriminate| |exact R].
    destruct C as [(X & _)|(_ & Es & ->)]; [discriminate|].
    exists e, (terminateSimulation (mut i')), (earlyReturnAllowed (ctl i') && negb r).
    unfold time_of, end_of. rewrite Es. cbn [ctl set_ctl time set_nextCommunicationPoint nextCommunicationPoint]. split; [reflexivity|].
    destruct r; cbn [negb].
    - split; [left; reflexivity|]. rewrite andb_false_r. discriminate.
    - split; [|reflexivity]. right. split; [reflexivity|].
      destruct (lp_end L) as [(_ & _ & _ & X & _)|[(_ & _ & Hc & _ & H)|(X & _)]]; try discriminate.
      rewrite Hc. destruct (bumps_fields m k (ctl (sinst s))) as (_ & _ & _ & _ & -> & _). rewrite andb_true_r. exact H.
  Qed.
  Lemma other_end3 fuel env o s st out s' t : reach3 m szof s -> sets_clock3 o = false -> is_DoStep3 o = false ->
    exec3 m szof fuel env o s = Done (st, out, s', t) -> end_of s' = end_of s.
  Proof.
    intros R Nt Nd E. pose proof (@reach3_modes _ _ _ szof (@model_laws F NF FMI3 f) _ R) as Hm.
    pose proof (proj1 (@exec3_effect _ _ m szof env (@model_laws F NF FMI3 f) fuel o s st out s' t Hm E)) as Ef.
    unfold end_of. destruct o; try discriminate Nt; try discriminate Nd; cbn [effect3 settings3] in Ef.
    1: destruct Ef as (ev & er & -> & _); reflexivity.
    all: assert (Q : exists md, ctl (sinst s') = set_mode md (ctl (sinst s)));
        [intuition eauto using set_mode_same; exists (mode (ctl (sinst s))); rewrite set_mode_same; assumption
        |destruct Q as (md & ->); reflexivity].
  Qed.
  Lemma init_end3 fuel env a b e s out s' t : reach3 m szof s -> exec3 m szof fuel env (O3EnterInitializationMode a b e) s = Done (OK, out, s', t) ->
    end_of s' = a /\ time_of s' = a /\ start_of s' = a /\ steps_of s' = 0%N /\ stop_of s' = if b then e else ninf.
  Proof.
    intros R E. pose proof (@reach3_modes _ _ _ szof (@model_laws F NF FMI3 f) _ R) as Hm.
    pose proof (@exec3_mode _ _ m szof (@model_laws F NF FMI3 f) fuel env _ s _ out s' t Hm E) as W.
    pose proof (proj1 (@exec3_effect _ _ m szof env (@model_laws F NF FMI3 f) fuel _ s _ out s' t Hm E)) as Ef.
    destruct Ef as [(_ & Ef)|(X & _)]; [|discriminate]. unfold end_of, time_of, start_of, steps_of, stop_of. rewrite Ef. cbn.
    repeat (split; [reflexivity|]). split; [|reflexivity].
    destruct W as [(_ & W & _)|(X & _)]; [|discriminate]. apply before_reach3 in R as (R & _). apply R.
    cbn [when3 In] in W. unfold mode_of in W. cbn [In]. tauto.
  Qed.

  (** C19 *)
  Lemma reaches3 fuel env ccp h p1 p2 p3 p4 s e term early last s' t : reach3 m szof s ->
    exec3 m szof fuel env (O3DoStep ccp h p1 p2 p3 p4) s = Done (OK, ODoStep (mkDoStepOut e term early last), s', t) ->
    last = Some (time_of s') /\
    (early = Some false -> term = Some false ->
     end_of s' = nadd ccp h /\ exists k, clock (m_step m) k s s' /\
       (forall j, 1 <= j <= k -> beyond (nadd (after (m_step m) (j - 1) (ctl (sinst s))) (m_step m)) (nadd ccp h) = false) /\
       beyond (nadd (time_of s') (m_step m)) (nadd ccp h) = true).
  Proof.
    intros R E. pose proof E as E'. apply dostep3 in E as [(X & _)|(M & A & _ & e' & r & i' & k & _ & Hk & L & C)]; [discriminate| |exact R].
    destruct C as [(X & _)|(_ & Es & Ho)]; [discriminate|]. injection Ho as -> -> -> ->.
    unfold time_of, end_of. rewrite Es. cbn [ctl set_ctl time set_nextCommunicationPoint nextCommunicationPoint]. split; [reflexivity|].
    intros He Ht. injection He as He. injection Ht as Ht.
    destruct (lp_end L) as [(_ & _ & Hc & -> & Hp)|[(_ & _ & Hc & -> & H)|(X & _)]]; [| |discriminate].
    2:{ exfalso. rewrite Hc in He. destruct (bumps_fields m k (ctl (sinst s))) as (_ & _ & _ & _ & X & _). rewrite X in He. cbn in He. rewrite andb_true_r in He. destruct H; congruence. }
    split; [reflexivity|]. exists k. split.
    { apply (@clock_of k s s' (mode (bumps m k (ctl (sinst s)))) (nadd ccp h)). rewrite Es. cbn. rewrite Hc. destruct (bumps m k _); reflexivity. }
    split.
    - intros j Hj. pose proof (lp_before L (j := j-1)) as B. rewrite reached_beyond, bumps_time in B. apply B. lia.
    - rewrite <- reached_beyond. exact Hp.
  Qed.

  (** C20: the loop ends as soon as a point of the solver grid lies beyond the end of the step. *)
  Lemma returns3 fuel env ccp h p1 p2 p3 p4 s K : reach3 m szof s -> K < fuel ->
    beyond (nadd (after (m_step m) K (ctl (sinst s))) (m_step m)) (nadd ccp h) = true ->
    exec3 m szof fuel env (O3DoStep ccp h p1 p2 p3 p4) s <> NoFuel.
  Proof. intros R HK B E. apply dostep3_fuel in E as (_ & _ & H); [|exact R]. rewrite (H K HK) in B. discriminate. Qed.
End Three.

Section Two.
  Context {F : Type} {NF : Num F} (szof : N) (f : FMU) (Bf : built2 f = true).
  Notation m := (model_of (F := F) FMI2 f).
  Notation D := (md m).
  Let NS : f <> StateSpace.
  Proof. intros ->. discriminate. Qed.

  Definition before2 (c : Ctl F) : Prop := In (mode c) [Instantiated; InitializationMode] -> nSteps c = 0%N.
  Lemma before2_term (c' : Ctl F) : mode c' = Terminated -> before2 c'.
  Proof. intros E H. rewrite E in H. cbn in H. intuition discriminate. Qed.
  Lemma bumps_on_grid2 k c : on_grid (m_step m) c -> on_grid (m_step m) (bumps m k c).
  Proof. destruct k; [auto|]. intros _. right. rewrite bumps_S. reflexivity. Qed.
  Lemma dostep2_ctl fuel env ccp h s st out s' t : reach2 m szof s ->
    exec2 m szof fuel env (O2DoStep ccp h) s = Done (st, out, s', t) ->
    exists k md p, ctl (sinst s') = set_mode md (set_nextCommunicationPoint p (bumps m k (ctl (sinst s)))) /\ k <= fuel /\ md <> Instantiated /\ md <> InitializationMode.
  Proof.
    intros R E. apply (dostep2 NS) in E as [(-> & _ & -> & _)|(M & _ & _ & r & i' & k & _ & Hk & L & C)]; [| |exact R].
    - exists 0, Terminated, (end_of s). cbn [bumps]. split; [unfold end_of; cbn; destruct (ctl (sinst s)); reflexivity|]. split; [lia|]. split; discriminate.
    - assert (K : exists md, ctl i' = set_mode md (bumps m k (ctl (sinst s))) /\ (md = StepComplete \/ md = Terminated)).
      { pose proof (bumps_fields m k (ctl (sinst s))) as (_ & _ & B & _). unfold mode_of in M. rewrite M in B.
        destruct (lq_end L) as [(_ & _ & -> & _)|[(_ & _ & -> & _)|(_ & _ & ->)]]; [exists StepComplete|exists StepComplete|exists Terminated]; (split; [|auto]);
        [rewrite <- B; symmetry; apply set_mode_same|rewrite <- B; symmetry; apply set_mode_same|reflexivity]. }
      destruct K as (md & K & Hm). rewrite C. destruct r.
      + eexists k, md, _. cbn [ctl set_ctl]. split; [rewrite K; reflexivity|]. split; [exact Hk|]. destruct Hm; subst; split; discriminate.
      + exists k, md, (nextCommunicationPoint (bumps m k (ctl (sinst s)))). split; [rewrite K; destruct (bumps m k (ctl (sinst s))); reflexivity|]. split; [exact Hk|]. destruct Hm; subst; split; discriminate.
  Qed.
  Lemma before_exec2 fuel env o s st out s' t : reach2 m szof s -> before2 (ctl (sinst s)) -> all_saved m (fun i => before2 (ctl i)) s ->
    exec2 m szof fuel env o s = Done (st, out, s', t) -> before2 (ctl (sinst s')).
  Proof.
    intros R B A E.
    pose proof (@exec2_mode _ _ m szof (@model_laws F NF FMI2 f) fuel env o s st out s' t E) as W.
    pose proof (proj1 (@exec2_effect _ _ m szof env (@model_laws F NF FMI2 f) fuel o s st out s' t E)) as Ef.
    assert (W1 : st = OK -> In (mode_of s) (when2 o)) by (intros ->; destruct W as [(_ & W & _)|[(W & _)|(W & _)]]; [exact W|discriminate|discriminate]).
    clear W. unfold mode_of in W1. unfold before2 in B.
    destruct o; cbn [effect2 settings2 next2] in Ef;
      try (destruct Ef as [[(-> & ->)|(_ & ->)]|(_ & ->)]; [exact B|now apply before2_term|exact B]);
      try (destruct Ef as [(-> & ->)|(_ & ->)]; [|now apply before2_term]; specialize (W1 eq_refl); cbn [when2 In] in W1; unfold before2;
           cbn [mode nSteps set_mode set_time set_nSteps set_stopTime set_startTime set_nextCommunicationPoint set_istatus In] in *;
           try destruct (itype _); solve [exact B|intuition congruence|intros; reflexivity]).
    - destruct Ef as (ev & er & -> & [(_ & Hd)|(_ & Hd)]); [|now apply before2_term].
      unfold before2. cbn in Hd |- *. rewrite Hd. exact B.
    - destruct h as [h|].
      + destruct Ef as [(i & Hi & _ & ->)|(_ & ->)]; [|now apply before2_term]. apply saved_In in Hi. exact (A _ Hi).
      + destruct Ef as [(_ & ->)|(_ & ->)]; [|now apply before2_term]. exact B.
    - apply dostep2_ctl in E as (k & md & p & -> & _ & N1 & N2); [|exact R]. intro H. cbn in H. intuition congruence.
  Qed.
  Lemma before_reach2 s : reach2 m szof s -> before2 (ctl (sinst s)) /\ all_saved m (fun i => before2 (ctl i)) s.
  Proof.
    intro R. apply (@reach2_mut _ _ m szof (fun s => before2 (ctl (sinst s)) /\ all_saved m (fun i => before2 (ctl i)) s) (fun i => before2 (ctl i))); auto.
    - intros i Hi. split; [|intros j []]. destruct (made2_ctl Hi) as (_ & K). intro. exact K.
    - intros s0 fuel env o st out s' t R0 [P0 A0] _ HI E. split; [eapply before_exec2; eauto|].
      intros i Hi. pose proof (@exec2_heap _ _ m szof env fuel o s0 st out s' t E i Hi) as [H1|[H1|H1]].
      + now apply A0.
      + subst; auto.
      + now apply HI.
    - intros s0 i _ [_ A] Hi. now apply A.
  Qed.
  Lemma on_grid_exec2 fuel env o s st out s' t : reach2 m szof s -> on_grid (m_step m) (ctl (sinst s)) -> all_saved m (fun i => on_grid (m_step m) (ctl i)) s ->
    (forall x, o <> O2SetTime x) -> exec2 m szof fuel env o s = Done (st, out, s', t) -> on_grid (m_step m) (ctl (sinst s')).
  Proof.
    intros R B A Nt E.
    pose proof (@exec2_mode _ _ m szof (@model_laws F NF FMI2 f) fuel env o s st out s' t E) as W.
    pose proof (proj1 (@exec2_effect _ _ m szof env (@model_laws F NF FMI2 f) fuel o s st out s' t E)) as Ef.
    assert (W1 : st = OK -> In (mode_of s) (when2 o)) by (intros ->; destruct W as [(_ & W & _)|[(W & _)|(W & _)]]; [exact W|discriminate|discriminate]).
    clear W.
    destruct o; cbn [effect2 settings2] in Ef;
      try (destruct Ef as [[(-> & ->)|(_ & ->)]|(_ & ->)]; exact B);
      try (destruct Ef as [(-> & ->)|(_ & ->)]; [|exact B]; solve [exact B|left; split; reflexivity]).
    - destruct Ef as (ev & er & -> & _). exact B.
    - destruct Ef as [(-> & ->)|(_ & ->)]; [|exact B]. left. split; [|reflexivity]. apply before_reach2 in R as (R & _). apply R.
      specialize (W1 eq_refl). cbn [when2 In] in W1. unfold mode_of in W1. cbn [In]. tauto.
    - destruct h as [h|].
      + destruct Ef as [(i & Hi & _ & ->)|(_ & ->)]; [|exact B]. apply saved_In in Hi. exact (A _ Hi).
      + destruct Ef as [(_ & ->)|(_ & ->)]; exact B.
    - apply dostep2_ctl in E as (k & md & p & -> & _); [|exact R]. apply (on_grid_same (c := bumps m k (ctl (sinst s)))); try reflexivity. now apply bumps_on_grid2.
    - exfalso. eapply Nt; reflexivity.
  Qed.
  Lemma grid2 fuel l i0 obs s' : made2 m i0 ->
    (forall e o, In (e, o) l -> (forall x, o <> O2SetTime x) /\ forall i, image2 o = Some i -> saved2 m szof i /\ on_grid (m_step m) (ctl i)) ->
    run2 m szof fuel l (mkSys i0 []) = Done (obs, s') ->
    steps_of s' = 0%N /\ time_of s' = start_of s' \/ time_of s' = grid (m_step m) (start_of s') (steps_of s').
  Proof.
    intros M H. assert (R : reach2 m szof (mkSys i0 [])) by now apply reach2_new.
    assert (B : on_grid (m_step m) (ctl (sinst (mkSys i0 [])))).
    { left. destruct M as (env & n & ty & t & r & e & lo & b & tr & M). unfold fmi2Instantiate in M.
      destruct lo; [|discriminate]. apply create_ctl in M as [nm M]. cbn [sinst]. rewrite M. auto. }
    assert (A : all_saved m (fun i => on_grid (m_step m) (ctl i)) (mkSys i0 [])) by intros i [].
    clear M. revert R B A H. generalize (mkSys i0 []). revert obs. induction l as [|[e o] l IH]; intros obs s R B A H E.
    - inversion E; subst. exact B.
    - apply run_cons in E as (st & out & s1 & t & obs' & E1 & E2 & ->).
      destruct (H e o (or_introl eq_refl)) as (Nt & Hi).
      assert (R1 : reach2 m szof s1) by (eapply reach2_call; [exact R|intros i Hj; exact (proj1 (Hi i Hj))|exact E1]).
      eapply (IH obs' s1); [exact R1| | |intros e' o' K; apply (H e' o'); now right|exact E2].
      + apply (@on_grid_exec2 fuel e o s st out s1 t); assumption.
      + intros i Hj. pose proof (@exec2_heap _ _ m szof e fuel o s st out s1 t E1 i Hj) as [H1|[H1|H1]].
        * now apply A.
        * subst; auto.
        * exact (proj2 (Hi i H1)).
  Qed.
  Lemma clock_of2 k (s s' : Sys F D) md p : ctl (sinst s') = set_mode md (set_nextCommunicationPoint p (bumps m k (ctl (sinst s)))) -> clock (m_step m) k s s'.
  Proof.
    intro E. unfold clock, time_of, start_of, stop_of, steps_of. rewrite E. cbn [time startTime stopTime nSteps set_mode set_nextCommunicationPoint].
    destruct (bumps_fields m k (ctl (sinst s))) as (A & B & _). rewrite A, B. split; [apply bumps_time|]. split; [reflexivity|]. split; [reflexivity|].
    destruct k; [reflexivity|]. apply bumps_nSteps. lia.
  Qed.
  Lemma steps2 fuel env ccp h s st out s' t : reach2 m szof s ->
    exec2 m szof fuel env (O2DoStep ccp h) s = Done (st, out, s', t) -> exists k, k <= fuel /\ clock (m_step m) k s s'.
  Proof. intros R E. apply dostep2_ctl in E as (k & md & p & E & Hk & _); [|exact R]. exists k. split; [exact Hk|]. eapply clock_of2; exact E. Qed.
  Lemma keeps2 fuel env o s st out s' t : reach2 m szof s -> sets_clock2 o = false -> is_DoStep2 o = false ->
    exec2 m szof fuel env o s = Done (st, out, s', t) -> clock (m_step m) 0 s s' /\ end_of s' = end_of s.
  Proof.
    intros R Nt Nd E.
    pose proof (proj1 (@exec2_effect _ _ m szof env (@model_laws F NF FMI2 f) fuel o s st out s' t E)) as Ef.
    assert (exists md ev er, ctl (sinst s') = set_mode md (set_logErrors er (set_logEvents ev (ctl (sinst s))))) as (md & ev & er & K).
    { destruct o; try discriminate Nt; try discriminate Nd; cbn [effect2 settings2] in Ef.
      1: destruct Ef as (ev & er & -> & _); eauto.
      all: exists (mode (ctl (sinst s'))), (logEvents (ctl (sinst s))), (logErrors (ctl (sinst s)));
        assert (Q : exists md, ctl (sinst s') = set_mode md (ctl (sinst s)));
        [intuition eauto using set_mode_same; exists (mode (ctl (sinst s))); rewrite set_mode_same; assumption
        |destruct Q as (md & ->); destruct (ctl (sinst s)); reflexivity]. }
    split; [apply clock_refl|]; unfold time_of, start_of, stop_of, steps_of, end_of; rewrite K; reflexivity.
  Qed.
  Lemma clock_run2 fuel : forall l s obs s', reach2 m szof s ->
    (forall e o, In (e, o) l -> sets_clock2 o = false /\ forall i, image2 o = Some i -> saved2 m szof i) ->
    run2 m szof fuel l s = Done (obs, s') -> exists k, clock (m_step m) k s s'.
  Proof.
    induction l as [|[e o] l IH]; intros s obs s' R H E.
    - inversion E; subst. exists 0. now apply clock_refl.
    - apply run_cons in E as (st & out & s1 & t & obs' & E1 & E2 & ->).
      destruct (H e o (or_introl eq_refl)) as (Nt & Hi).
      assert (R1 : reach2 m szof s1) by (eapply reach2_call; [exact R|exact Hi|exact E1]).
      destruct (IH s1 obs' s' R1) as (k' & C'); [intros e' o' K; apply (H e' o'); now right|exact E2|].
      assert (exists k, clock (m_step m) k s s1) as (k & C).
      { destruct (is_DoStep2 o) eqn:Di.
        - destruct o; try discriminate Di. apply steps2 in E1 as (k & _ & C); eauto.
        - exists 0. eapply keeps2; eauto. }
      exists (k + k'). eapply clock_trans; eauto.
  Qed.
  Lemma refused2 fuel env ccp h s : reach2 m szof s -> mode_of s = StepComplete -> ~ acceptable s ccp h ->
    exists s' t, exec2 m szof fuel env (O2DoStep ccp h) s = Done (Error, ONone, s', t) /\
      s' = with_mode Terminated s /\ t = refusal s /\ time_of s' = time_of s /\ steps_of s' = steps_of s /\
      forall e, reads_same2 m szof e s s'.
  Proof.
    intros R M A. pose proof (@dostep2_refused F NF szof f fuel env ccp h s M A) as E.
    do 2 eexists. split; [exact E|]. repeat (split; [reflexivity|]). intro e.
    pose proof (@wf_reach2 F NF FMI2 f szof s R) as W.
    assert (R' : reach2 m szof (with_mode Terminated s)) by (eapply reach2_call; [exact R| |exact E]; discriminate).
    apply (@alike_reads2 F NF szof f Bf e s); [exact R|exact R'| |right; reflexivity].
    now apply alike_mode.
  Qed.
  (** FMI 2: OK or Discard only for acceptable arguments. *)
  Lemma accepted2 fuel env ccp h s st out s' t : reach2 m szof s -> st <> Error ->
    exec2 m szof fuel env (O2DoStep ccp h) s = Done (st, out, s', t) -> mode_of s = StepComplete /\ acceptable s ccp h.
  Proof. intros R H E. apply (dostep2 NS) in E as [(X & _)|(M & A & _)]; [congruence| |exact R]; auto. Qed.
  Lemma setup_end2 fuel env a b e s out s' t : reach2 m szof s -> exec2 m szof fuel env (O2SetupExperiment a b e) s = Done (OK, out, s', t) ->
    end_of s' = a /\ time_of s' = a /\ start_of s' = a /\ steps_of s' = 0%N /\ stop_of s' = if b then e else ninf.
  Proof.
    intros R E.
    pose proof (@exec2_mode _ _ m szof (@model_laws F NF FMI2 f) fuel env _ s _ out s' t E) as W.
    pose proof (proj1 (@exec2_effect _ _ m szof env (@model_laws F NF FMI2 f) fuel _ s _ out s' t E)) as Ef.
    destruct Ef as [(_ & Ef)|(X & _)]; [|discriminate]. unfold end_of, time_of, start_of, steps_of, stop_of. rewrite Ef. cbn.
    repeat (split; [reflexivity|]). split; [|reflexivity].
    destruct W as [(_ & W & _)|[(X & _)|(X & _)]]; [|discriminate|discriminate]. apply before_reach2 in R as (R & _). apply R.
    cbn [when2 In] in W. unfold mode_of in W. cbn [In]. tauto.
  Qed.
  (** C19 in FMI 2: OK means that the end was reached; otherwise the next communication point stays. *)
  Lemma reaches2 fuel env ccp h s st out s' t : reach2 m szof s ->
    exec2 m szof fuel env (O2DoStep ccp h) s = Done (st, out, s', t) ->
    (st = OK -> end_of s' = nadd ccp h /\ exists k, clock (m_step m) k s s' /\
       (forall j, 1 <= j <= k -> beyond (nadd (after (m_step m) (j - 1) (ctl (sinst s))) (m_step m)) (nadd ccp h) = false) /\
       beyond (nadd (time_of s') (m_step m)) (nadd ccp h) = true) /\
    (st <> OK -> end_of s' = end_of s) /\
    (st = Discard -> terminateSimulation (mut (sinst s')) = true).
  Proof.
    intros R E. apply (dostep2 NS) in E as [(-> & _ & -> & _)|(M & A & _ & r & i' & k & _ & Hk & L & Es)]; [| |exact R].
    { split; [discriminate|]. split; [reflexivity|discriminate]. }
    destruct (bumps_fields m k (ctl (sinst s))) as (_ & _ & _ & Hn & _).
    destruct (lq_end L) as [(-> & _ & Hc & -> & Hp)|[(-> & _ & Hc & -> & _ & Ht)|(-> & -> & Hc)]].
    - split; [|split; [congruence|discriminate]]. intros _. split; [unfold end_of; rewrite Es; reflexivity|].
      exists k. split.
      { apply (@clock_of2 k s s' (mode (bumps m k (ctl (sinst s)))) (nadd ccp h)). rewrite Es. cbn. rewrite Hc. destruct (bumps m k _); reflexivity. }
      split.
      + intros j Hj. pose proof (lq_before L (j := j-1)) as B. rewrite reached_beyond, bumps_time in B. apply B. lia.
      + unfold time_of. rewrite Es. cbn. rewrite <- reached_beyond. exact Hp.
    - split; [discriminate|]. split; [intros _|intros _; rewrite Es; exact Ht]. unfold end_of. rewrite Es, Hc. exact Hn.
    - split; [discriminate|]. split; [intros _|discriminate]. unfold end_of. rewrite Es, Hc. exact Hn.
  Qed.
  Lemma returns2 fuel env ccp h s K : reach2 m szof s -> K < fuel ->
    beyond (nadd (after (m_step m) K (ctl (sinst s))) (m_step m)) (nadd ccp h) = true ->
    exec2 m szof fuel env (O2DoStep ccp h) s <> NoFuel.
  Proof. intros R HK B E. apply (dostep2_fuel NS) in E as (_ & _ & H); [|exact R]. rewrite (H K HK) in B. discriminate. Qed.
End Two.
