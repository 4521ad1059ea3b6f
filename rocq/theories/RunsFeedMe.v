(** RunsFeedMe.v -- the model exchange program for Feedthrough (C66). *)
From Coq Require Import List NArith ZArith Bool Arith Lia.
From Verif Require Import Base Instance ModelIface Core Fmi3 Fmi2 Api Fmus SpecModes SpecCreate SpecState SpecSteps SpecOde SpecSafe SpecPrograms SpecFeed Programs
  ProgramsFeed Logic Calls Dyn Solver Fits Steps StepsFmus StepProps Ode SafeAll Progress SpecVars Data Reach Histories Runs FmuFeedthrough RunsFeed.
Import ListNotations.
Set Implicit Arguments.

Section FeedMe.
  Context {F : Type} {NF : Num F} (szof : N) (fuel : nat) (env : Env) (narrow : F -> N).
  Notation m := (model_of (F := F) FMI3 Feedthrough).
  Notation D := (md m).
  Notation exec := (exec3 m szof fuel env).
  Notation CALL := (FCALL exec).
  Notation CALLS := (FCALLS exec).
  Notation Sys := (Sys F D).
  Ltac fields s := let hp := fresh "hp" in let c := fresh "c" in let u := fresh "u" in let o := fresh "o" in
    destruct s as [[c u o] hp]; cbn [md model_of Feedthrough_model] in u, hp |- *;
    destruct u as [u1 u2 u3 u4 u5 u6 u7 [] d];
    destruct c as [c1 c2 c3 c4 c5 c6 c7 c8 c9 c10 c11 c12 c13 c14 c15 md c17 c18 c19 c20].
  Ltac computes := lazy -[nle nlt nadd nsub nmul nopp nlit nzero ndblmin nofN ninf ntrunc]; reflexivity.

  (** What the calls between the inputs and the rows leave: the inputs. *)
  Record minv (md : ModelState) (p : Phase) (u : F) (q : N) (s : Sys) : Prop := mkMinv {
    mi_reach : reach3 m szof s;
    mi_mode : mode (ctl (sinst s)) = md;
    mi_type : itype (ctl (sinst s)) = ModelExchange;
    mi_new : newDiscreteStatesNeeded (mut (sinst s)) = false;
    mi_held : holds3 p u q (data (mut (sinst s))) }.

  Ltac through H := unfold holds3, holds in H |- *; cbn in H;
      destruct H as ((-> & -> & -> & -> & -> & -> & ->) & -> & -> & -> & -> & -> & -> & -> & -> & ->).
  Lemma call_inv md md' o out p u q s : image3 o = None ->
    (exists s', CALL o s = Done (inl out, s', []) /\ mode (ctl (sinst s')) = md' /\ itype (ctl (sinst s')) = ModelExchange /\ newDiscreteStatesNeeded (mut (sinst s')) = false /\ holds3 p u q (data (mut (sinst s')))) ->
    minv md p u q s -> exists s', CALL o s = Done (inl out, s', []) /\ minv md' p u q s'.
  Proof.
    intros Im (s' & E & M & Ty & Nw & H) I. exists s'. split; [exact E|]. constructor; [|exact M|exact Ty|exact Nw|exact H]. eapply FCALL_reach; [exact Im|exact (mi_reach I)|exact E].
  Qed.
  Ltac call s I := eapply call_inv; [reflexivity| |exact I]; destruct I as [_ M Ty Nw H]; fields s; match goal with x : FTData _ |- _ => destruct x end; cbn in M, Nw, Ty; subst; through H;
    (eexists; split; [computes|]); do 3 (split; [reflexivity|]); cbn; repeat split.
  Definition quietly (e : EventInfo F) : Prop :=
    ei_terminateSimulation e = false /\ ei_discreteStatesNeedUpdate e = false /\ ei_nextEventTimeDefined e = false.
  Lemma enter_event p u q s : minv ContinuousTimeMode p u q s -> exists s', CALL O3EnterEventMode s = Done (inl ONone, s', []) /\ minv EventMode p u q s'.
  Proof. intro I. call s I. Qed.
  Lemma enter_continuous p u q s : minv EventMode p u q s -> exists s', CALL O3EnterContinuousTimeMode s = Done (inl ONone, s', []) /\ minv ContinuousTimeMode p u q s'.
  Proof. intro I. call s I. Qed.
  Lemma set_time_eq t p u q s : minv ContinuousTimeMode p u q s -> exists s', CALL (O3SetTime t) s = Done (inl ONone, s', []) /\ minv ContinuousTimeMode p u q s'.
  Proof. intro I. call s I. Qed.
  Lemma completed_eq p u q s : minv ContinuousTimeMode p u q s ->
    exists s', CALL (O3CompletedIntegratorStep (Some tt) (Some tt)) s = Done (inl (OFlags (Some (false, false))), s', []) /\ minv ContinuousTimeMode p u q s'.
  Proof. intro I. call s I. Qed.
  Lemma update_eq p u q s : minv EventMode p u q s ->
    exists e s', CALL O3UpdateDiscreteStates s = Done (inl (OEventInfo (Some e)), s', []) /\ quietly e /\ minv EventMode p u q s'.
  Proof.
    intro I.
    assert (G : exists e s', CALL O3UpdateDiscreteStates s = Done (inl (OEventInfo (Some e)), s', []) /\ quietly e /\
      mode (ctl (sinst s')) = EventMode /\ itype (ctl (sinst s')) = ModelExchange /\ newDiscreteStatesNeeded (mut (sinst s')) = false /\ holds3 p u q (data (mut (sinst s')))).
    { destruct I as [_ M Ty Nw H]; fields s; destruct d; cbn in M, Nw, Ty; subst; through H; destruct p;
      (eexists _, _; split; [computes|]); (split; [repeat split|]); do 3 (split; [reflexivity|]); cbn; repeat split. }
    destruct G as (e & s' & E & Q & M & Ty & Nw & H). exists e, s'. split; [exact E|]. split; [exact Q|].
    constructor; [|exact M|exact Ty|exact Nw|exact H]. eapply FCALL_reach; [|exact (mi_reach I)|exact E]. reflexivity.
  Qed.
  Lemma iteration_eq n p u q s : 0 < n -> minv EventMode p u q s ->
    exists x s', feed_iteration3 szof fuel env n s = Done (inl (false, x), s', []) /\ minv EventMode p u q s'.
  Proof.
    intros Hn I. destruct n as [|n]; [lia|]. destruct (update_eq I) as (e & s' & E & (Q1 & Q2 & Q3) & I').
    exists (ei_nextEventTime e), s'. split; [|exact I']. cbn [feed_iteration3]. unfold fbind, bind. rewrite E, Q1, Q2, Q3. reflexivity.
  Qed.

  Lemma record_inv p u q time s : minv ContinuousTimeMode p u q s ->
    exists s', frecord exec outputs3 time s = Done (inl tt, s', [(time, columns3 p u q)]) /\ minv ContinuousTimeMode p u q s'.
  Proof.
    intros I. destruct (@record3 F NF szof fuel env p u q time s (mi_reach I) (or_intror (mi_mode I)) (mi_held I)) as (s' & E & R' & (C & _ & b & d & Em) & H).
    exists s'. split; [exact E|]. constructor; [exact R'|rewrite C; exact (mi_mode I)|rewrite C; exact (mi_type I)|rewrite Em; exact (mi_new I)|exact H].
  Qed.
  Lemma continuous_inv md p u q time e s : md = ContinuousTimeMode \/ md = EventMode \/ md = InitializationMode -> minv md p u q s ->
    exists l s', CALLS (continuous3 narrow time e) s = Done (inl l, s', []) /\ minv md p (ramp time e) (narrow (ramp time e)) s'.
  Proof.
    intros Hm I. destruct (@continuous_eq F NF szof fuel env narrow p u q time e s (mi_reach I)) as (l & s' & E & R' & (C & _ & b & d & Em) & H).
    { unfold inputable. rewrite (mi_mode I). destruct Hm as [->|[->| ->]]; auto. }
    { exact (mi_held I). }
    exists l, s'. split; [exact E|]. constructor; [exact R'|rewrite C; exact (mi_mode I)|rewrite C; exact (mi_type I)|rewrite Em; exact (mi_new I)|exact H].
  Qed.
  Lemma discrete_inv md p u q time s : md = EventMode \/ md = InitializationMode -> minv md p u q s ->
    exists l s', CALLS (discrete3 time) s = Done (inl l, s', []) /\ minv md (phase time) u q s'.
  Proof.
    intros Hm I. destruct (@discrete_eq F NF szof fuel env p u q time s (mi_reach I)) as (l & s' & E & R' & (C & _ & b & d & Em) & H).
    { unfold inputable. rewrite (mi_mode I). destruct Hm as [->| ->]; auto. }
    { exact (mi_held I). }
    exists l, s'. split; [exact E|]. constructor; [exact R'|rewrite C; exact (mi_mode I)|rewrite C; exact (mi_type I)|rewrite Em; exact (mi_new I)|exact H].
  Qed.

  Variables (S : N) (stop : F).
  Lemma me_begin path : exists i t l0 s0 o1 s1,
    fmi3InstantiateModelExchange m env feed_name (Some (m_token m)) (Some path) false S true = Done (Some i, t) /\
    CALLS start3 (mkSys i []) = Done (inl l0, s0, []) /\
    CALL (O3EnterInitializationMode nzero true stop) s0 = Done (inl o1, s1, []) /\ minv InitializationMode Initial nzero 0%N s1.
  Proof.
    assert (G : exists i t l0 s0 o1 s1,
      fmi3InstantiateModelExchange m env feed_name (Some (m_token m)) (Some path) false S true = Done (Some i, t) /\
      CALLS start3 (mkSys i []) = Done (inl l0, s0, []) /\
      CALL (O3EnterInitializationMode nzero true stop) s0 = Done (inl o1, s1, []) /\ (reach3 m szof s1 -> minv InitializationMode Initial nzero 0%N s1)).
    { do 6 eexists. do 3 (split; [computes|]). intro Rs; constructor; [exact Rs|reflexivity|reflexivity|reflexivity|]. unfold holds3, holds; cbn; repeat split. }
    destruct G as (i & t & l0 & s0 & o1 & s1 & E1 & E0 & E2 & K). exists i, t, l0, s0, o1, s1.
    split; [exact E1|]. split; [exact E0|]. split; [exact E2|]. apply K.
    eapply FCALL_reach; [| |exact E2]; [reflexivity|].
    eapply CALLS_reach; [|  |exact E0]; [repeat constructor|]. constructor. left. do 8 eexists. exact E1.
  Qed.
  Lemma exit_init p u q s : minv InitializationMode p u q s ->
    exists s', CALL O3ExitInitializationMode s = Done (inl ONone, s', []) /\ minv EventMode p u q s'.
  Proof.
    intros I. eapply call_inv; [reflexivity| |exact I]; destruct I as [_ M Ty Nw H]; fields s; destruct d; cbn in M, Nw, Ty; subst; through H; destruct p;
    (eexists; split; [computes|]); do 3 (split; [reflexivity|]); cbn; repeat split.
  Qed.

  Lemma event_eq t : nle (nextInputEventTime (F := F) t) t = input_event t. Proof. reflexivity. Qed.
  Notation pt := (instant (F := F) Feedthrough).
  Notation rows := (me_rows3 narrow pt).
  Definition after_phase (k : nat) : Phase := last_phase pt (Datatypes.S k).
  Lemma me_steps N n : (N.of_nat N < two64)%N -> divided (F := F) Feedthrough stop N -> forall k x u q s,
    minv ContinuousTimeMode (last_phase pt k) u q s -> k <= N -> Datatypes.S (N - k) < n ->
    exists s', feed_me_loop3 szof fuel env narrow stop n (N.of_nat k) (pt k) false false x s =
      Done (inr OK, s', tl (rows k) ++ flat_map rows (seq (Datatypes.S k) (N - k))) /\ mode_of s' = ContinuousTimeMode.
  Proof.
    intros Hb (Dn & Db & _). induction n as [|n IH]; intros k x u q s I Hk Hn; [lia|].
    cbn [feed_me_loop3]. rewrite event_eq. cbn [andb]. rewrite orb_false_r, orb_false_r.
    (* the events *)
    assert (Ev : exists s1 r, (if input_event (pt k) then
             fbind (CALL O3EnterEventMode) (fun _ =>
             fbind (if input_event (pt k) then fbind (CALLS (continuous3 narrow (pt k) true)) (fun _ => CALLS (discrete3 (pt k))) else fret []) (fun _ =>
             fbind (feed_iteration3 szof fuel env n) (fun e =>
             fbind (CALL O3EnterContinuousTimeMode) (fun _ =>
             fbind (frecord exec outputs3 (pt k)) (fun _ => fret e)))))
           else fret (false, x)) s = Done (inl (false, r), s1, tl (rows k)) /\ exists u' q', minv ContinuousTimeMode (after_phase k) u' q' s1).
    { unfold after_phase. cbn [last_phase]. unfold me_rows3. cbn [tl]. destruct (input_event (pt k)) eqn:Ie.
      - destruct (enter_event I) as (s1 & E1 & I1).
        destruct (@continuous_inv EventMode _ _ _ (pt k) true s1 (or_intror (or_introl eq_refl)) I1) as (l2 & s2 & E2 & I2).
        destruct (@discrete_inv EventMode _ _ _ (pt k) s2 (or_introl eq_refl) I2) as (l3 & s3 & E3 & I3).
        assert (Hn' : 0 < n) by lia.
        destruct (iteration_eq Hn' I3) as (r & s4 & E4 & I4).
        destruct (enter_continuous I4) as (s5 & E5 & I5).
        destruct (@record_inv _ _ _ (pt k) s5 I5) as (s6 & E6 & I6).
        exists s6, r. split; [|eauto].
        unfold fbind at 1. unfold bind at 1. rewrite E1. unfold fbind at 1. unfold bind at 1. unfold fbind at 1. unfold bind at 1. rewrite E2, E3.
        unfold fbind at 1. unfold bind at 1. rewrite E4. unfold fbind at 1. unfold bind at 1. rewrite E5. unfold fbind, bind. rewrite E6. reflexivity.
      - exists s, x. split; [reflexivity|eauto]. }
    destruct Ev as (s1 & r & E1 & u1 & q1 & I1). unfold fbind at 1. unfold bind at 1. rewrite E1.
    destruct (Nat.eq_dec k N) as [->|Hne].
    - rewrite Dn. replace (N - N) with 0 by lia. cbn [seq flat_map]. exists s1. split; [reflexivity|exact (mi_mode I1)].
    - rewrite (Db k) by lia. rewrite next_step by lia.
      change (nmul (nofN (N.of_nat (Datatypes.S k))) (m_step m)) with (pt (Datatypes.S k)).
      destruct (set_time_eq (pt (Datatypes.S k)) I1) as (s2 & E2 & I2).
      destruct (@continuous_inv ContinuousTimeMode _ _ _ (pt (Datatypes.S k)) false s2 (or_introl eq_refl) I2) as (l3 & s3 & E3 & I3).
      destruct (completed_eq I3) as (s4 & E4 & I4).
      destruct (@record_inv _ _ _ (pt (Datatypes.S k)) s4 I4) as (s5 & E5 & I5).
      destruct (IH (Datatypes.S k) r _ _ s5 I5 ltac:(lia) ltac:(lia)) as (s6 & E6 & M6).
      exists s6. split; [|exact M6].
      unfold fbind at 1. unfold bind at 1. rewrite E2. unfold fbind at 1. unfold bind at 1. rewrite E3. unfold fbind at 1. unfold bind at 1. rewrite E4.
      unfold fbind at 1. unfold bind at 1. rewrite E5. rewrite E6. cbn [app].
      replace (N - k) with (Datatypes.S (N - Datatypes.S k)) by lia. reflexivity.
  Qed.

  Theorem feed_me3_rows path N n : (N.of_nat N < two64)%N -> divided (F := F) Feedthrough stop N -> Datatypes.S N < n ->
    exists s, feed_me3 szof fuel env narrow S stop path n = Done (OK, flat_map rows (seq 0 (Datatypes.S N)), Some s).
  Proof.
    intros Hb Dv Hn. destruct (me_begin path) as (i & t & l0 & s0 & o1 & s1 & E1 & E0 & E2 & I1).
    destruct (@continuous_inv InitializationMode _ _ _ nzero false s1 (or_intror (or_intror eq_refl)) I1) as (l3 & s3 & E3 & I3).
    destruct (@discrete_inv InitializationMode _ _ _ nzero s3 (or_intror eq_refl) I3) as (l4 & s4 & E4 & I4).
    destruct (exit_init I4) as (s5 & E5 & I5).
    destruct (@iteration_eq n _ _ _ s5 ltac:(lia) I5) as (x & s6 & E6 & I6).
    destruct (enter_continuous I6) as (s7 & E7 & I7).
    destruct (@record_inv _ _ _ nzero s7 I7) as (s8 & E8 & I8).
    destruct (@me_steps N n Hb Dv 0 x _ _ s8 I8 ltac:(lia) ltac:(lia)) as (s9 & E9 & M9).
    exists (with_mode Terminated s9). unfold feed_me3, fprogram. rewrite E1.
    unfold fbind at 1. unfold bind at 1. rewrite E0. unfold fbind at 1. unfold bind at 1. rewrite E2. unfold fbind at 1. unfold bind at 1. rewrite E3.
    unfold fbind at 1. unfold bind at 1. rewrite E4. unfold fbind at 1. unfold bind at 1. rewrite E5. unfold fbind at 1. unfold bind at 1. rewrite E6.
    unfold fbind at 1. unfold bind at 1. rewrite E7. unfold fbind at 1. unfold bind at 1. rewrite E8. cbn [fst snd].
    change (N.of_nat 0) with 0%N in E9. change (pt 0) with (nzero (F := F)) in E9. rewrite E9. cbn [app].
    rewrite fterm_eq by auto. rewrite Nat.sub_0_r. reflexivity.
  Qed.
End FeedMe.
