(** EulerMe.v -- the fixed-step solver does what an importer does through Model Exchange. *)
From Coq Require Import List NArith ZArith Bool Arith Lia.
From Verif Require Import Base Instance ModelIface Core Fmi3 Fmi2 Api Fmus Logic Calls LawsFmus SpecModes SpecCreate SpecState Gate Effect Reach Histories
  FmuBouncingBall FmuDahlquist FmuStair FmuVanDerPol FmuRoberts FmuClocks FmuResource FmuStateSpace FmuFeedthrough
  Sim SimSS SpecVars SpecEqs SpecSteps VarsFmus DataFmus Dyn Solver Fits Steps StepsFmus StepProps SpecOde Ode Crossing SpecEuler.
Import ListNotations.
Set Implicit Arguments.

Section Det.
  Context {F : Type} {NF : Num F} (f : FMU).
  Notation m := (model_of (F := F) FMI3 f).
  Notation D := (md m).

  Lemma nth_first (a : F) : forall n j (l : list F), j < n -> nth j (firstn n l) a = nth j l a.
  Proof. induction n; intros [|j] [|x l] H; cbn; try lia; auto. apply IHn. lia. Qed.
  Lemma sumprod_ext n (row v v' : list F) acc : firstn n v = firstn n v' -> sumprod n row v acc = sumprod n row v' acc.
  Proof.
    intro H. unfold sumprod. assert (G : forall j, In j (seq 0 n) -> nth j v nzero = nth j v' nzero).
    { intros j Hj. apply in_seq in Hj. rewrite <- (nth_first nzero v (n := n)), <- (nth_first nzero v' (n := n)), H by lia. reflexivity. }
    revert acc G. induction (seq 0 n) as [|j l IH]; intros acc G; [reflexivity|]. cbn. rewrite (G j) by now left. apply IH. intros; apply G; now right.
  Qed.
  (** the states and the rest that does not change determine the derivatives and the indicators *)
  Definition agree (d d' : D) : Prop := states FMI3 f d' = states FMI3 f d /\ frozen FMI3 f d' = frozen FMI3 f d.
  Lemma agree_refl d : agree d d.
  Proof. split; reflexivity. Qed.
  Lemma agree_sym d d' : agree d d' -> agree d' d.
  Proof. intros (A & B); split; congruence. Qed.
  Lemma agree_trans d d' d'' : agree d d' -> agree d' d'' -> agree d d''.
  Proof. intros (A & B) (A' & B'); split; congruence. Qed.
  Lemma ders_det d d' : agree d d' -> ss_dims FMI3 f d = (3, 3, 3) -> ders FMI3 f d' = ders FMI3 f d.
  Proof.
    intros (A & B). destruct f; try reflexivity.
    - destruct d, d'. cbn in *. intros _. congruence.
    - destruct d, d'. cbn in *. intros _. congruence.
    - destruct d as [[] ? ? ? ? ? ? ? ?], d' as [[] ? ? ? ? ? ? ? ?]; cbn in *; intros _; unfold ro_third; cbn; congruence.
    - intros Hd. cbn in *. unfold dims in Hd. injection Hd as H1 H2 H3. destruct d, d'; cbn in *. injection B; intros; subst. apply map_ext. intro i.
      f_equal. now apply sumprod_ext.
    - destruct d, d'. cbn in *. intros _. congruence.
  Qed.
  Lemma indicators_det d d' : agree d d' -> indicators FMI3 f d' = indicators FMI3 f d.
  Proof.
    intros (A & B). destruct f; try reflexivity.
    - destruct d, d'. cbn in *. injection A as -> ->. reflexivity.
    - destruct d as [[] ? ? ? ? ? ? ? ?], d' as [[] ? ? ? ? ? ? ? ?]; cbn in *; unfold ro_third; cbn; congruence.
  Qed.
  Lemma event_det env c c' u u1 t u' : continuous f = true -> handles_events f = true -> agree (data u) (data u') ->
    m_eventUpdateF m env c u = Done (OK, u1, t) ->
    nextEventTimeDefined u1 = false /\ exists u1' t', m_eventUpdateF m env c' u' = Done (OK, u1', t') /\ agree (data u1) (data u1').
  Proof.
    intros Hc He (A & B) E. unfold agree. destruct f; try discriminate Hc; try discriminate He.
    - assert (data u' = data u) as Q by (destruct u as [? ? ? ? ? ? ? ? []], u' as [? ? ? ? ? ? ? ? []]; cbn in *; congruence).
      cbn -[bb_bounces bb_bounce] in E |- *. unfold bb_eventUpdate, mbind, bind, mdata, mget in *. cbn -[bb_bounces bb_bounce] in *. rewrite Q.
      destruct (bb_bounces (data u)); cbn -[bb_bounce] in *; injection E; intros; subst; (split; [reflexivity|]); eexists _, _; (split; [reflexivity|]); cbn -[bb_bounce]; rewrite Q; split; reflexivity.
    - cbn in E. injection E; intros; subst. split; [reflexivity|]. eexists _, _. split; [cbn; reflexivity|]. split; assumption.
  Qed.
End Det.

Section Me.
  Context {F : Type} {NF : Num F} (szof : N) (f : FMU) (env : Env).
  Notation m := (model_of (F := F) FMI3 f).
  Notation D := (md m).
  Notation Y := (dyn_all (F := F) FMI3 f).
  Notation nxf := (length (states FMI3 f (md0 m))).

  (** an instance in Continuous-Time Mode the data of which agree with [d] *)
  Definition ready (md : ModelState) (d : D) (s : Sys F D) : Prop :=
    sane FMI3 f (sinst s) /\ mode_of s = md /\ agree f d (data (mut (sinst s))).

  Lemma fill (x : list F) n : x ++ skipn n (repeat nzero n) = x.
  Proof. rewrite skipn_all2 by (rewrite repeat_length; lia). apply app_nil_r. Qed.

  Lemma dy_fit (i : Inst F D) u' : sane FMI3 f i -> wf_dyn FMI3 f (data u') -> agree f (data (mut i)) (data u') -> sane FMI3 f (set_mut u' i).
  Proof.
    intros ([W Sz Hx Hz] & Hd) W' (A & B). split.
    - constructor; cbn; auto.
      + destruct Hx as [Hx|Hx]; [left; exact Hx|right]. rewrite Hx. rewrite <- !states_eq in *. now rewrite A.
      + destruct Hz as [Hz|Hz]; [left; exact Hz|right]. rewrite Hz. apply (dy_zlen Y).
    - cbn. rewrite <- Hd. now apply frozen_dims.
  Qed.

  Lemma me_getx d s : ready ContinuousTimeMode d s -> 0 < length (states FMI3 f d) ->
    exists s', ask3 m szof env O3GetContinuousStates (length (states FMI3 f d)) s = Some (states FMI3 f d, s') /\ ready ContinuousTimeMode d s' /\ time_of s' = time_of s.
  Proof.
    intros (Sn & M & Ag) Hl. destruct Ag as (Ax & Af). pose proof Sn as ([W Sz Hx Hz] & Hd). rewrite <- Ax in Hl |- *.
    unfold ask3. cbn [exec3]. rewrite outI_eq. unfold fmi3GetContinuousStates, fmi3GetArray.
    rewrite BEGIN_pass by (unfold mode_of in M; rewrite M; discriminate).
    rewrite states_eq in Hl |- *. set (x := dy_x Y (data (mut (sinst s)))) in *.
    pose proof (dy_getx Y env (ctl (sinst s)) (mut (sinst s)) (repeat nzero (length x)) W) as G.
    rewrite repeat_length in G. fold x in G. specialize (G (conj Hl (le_n _))). rewrite fill in G.
    match goal with |- context [bind (call m env _) ?g ?ii] => pose proof (@bind_call_done _ m env _ _ _ g ii _ _ G) as G' end.
    rewrite G'. cbn [fst snd]. rewrite CALLk_ok. cbn [ret].
    destruct (dy_tx_ok Y _ W) as (W1 & X1 & _ & d1 & b1 & E1).
    assert (Ag' : agree f (data (mut (sinst s))) (data (dy_tx Y (mut (sinst s))))).
    { split; [rewrite !states_eq; exact X1|apply frozen_tx]. }
    eexists. split; [reflexivity|]. split; [|reflexivity]. split; [|split].
    - cbn [sinst]. now apply dy_fit.
    - exact M.
    - eapply agree_trans; [|exact Ag']. split; assumption.
  Qed.
  Lemma me_getdx d s : ready ContinuousTimeMode d s -> 0 < length (states FMI3 f d) ->
    exists s', ask3 m szof env O3GetContinuousStateDerivatives (length (states FMI3 f d)) s = Some (ders FMI3 f d, s') /\ ready ContinuousTimeMode d s' /\ time_of s' = time_of s.
  Proof.
    intros (Sn & M & Ag) Hl. pose proof Ag as (Ax & Af). pose proof Sn as ([W Sz Hx Hz] & Hd). rewrite <- Ax in Hl |- *.
    assert (Hd0 : ss_dims FMI3 f d = (3, 3, 3)) by (rewrite <- Hd; symmetry; now apply frozen_dims).
    rewrite <- (ders_det Ag Hd0), (ders_eq _ _ _ W Hd).
    unfold ask3. cbn [exec3]. rewrite outI_eq. unfold fmi3GetContinuousStateDerivatives, fmi3GetArray.
    rewrite BEGIN_pass by (unfold mode_of in M; rewrite M; discriminate).
    rewrite states_eq in Hl |- *. set (x := dy_x Y (data (mut (sinst s)))) in *.
    pose proof (dy_getdx Y env (ctl (sinst s)) (mut (sinst s)) (repeat nzero (length x)) W) as G.
    rewrite repeat_length in G. fold x in G. specialize (G (conj Hl (le_n _))).
    rewrite fill in G.
    match goal with |- context [bind (call m env _) ?g ?ii] => pose proof (@bind_call_done _ m env _ _ _ g ii _ _ G) as G' end.
    rewrite G'. cbn [fst snd]. rewrite CALLk_ok. cbn [ret].
    destruct (dy_tdx_ok Y _ W) as (W1 & X1 & _).
    assert (Ag' : agree f (data (mut (sinst s))) (data (dy_tdx Y (mut (sinst s))))).
    { split; [rewrite !states_eq; exact X1|now apply frozen_tdx]. }
    eexists. split; [reflexivity|]. split; [|reflexivity]. split; [|split].
    - cbn [sinst]. now apply dy_fit.
    - exact M.
    - eapply agree_trans; [exact Ag|exact Ag'].
  Qed.
  Lemma me_getz d s : ready ContinuousTimeMode d s ->
    exists s', ask3 m szof env O3GetEventIndicators (length (indicators FMI3 f d)) s = Some (indicators FMI3 f d, s') /\ ready ContinuousTimeMode d s' /\ time_of s' = time_of s.
  Proof.
    intros (Sn & M & Ag). pose proof Ag as (Ax & Af). pose proof Sn as ([W Sz Hx Hz] & Hd).
    rewrite <- (indicators_det Ag).
    unfold ask3. cbn [exec3]. rewrite outI_eq. unfold fmi3GetEventIndicators, fmi3GetArray.
    rewrite BEGIN_pass by (unfold mode_of in M; rewrite M; discriminate).
    rewrite indicators_eq. set (z := dy_z Y (data (mut (sinst s)))) in *.
    destruct (Nat.eq_dec (length z) 0) as [L|L].
    - assert (G : m_getEventIndicators m (Some (repeat nzero (length z))) (length z) env (ctl (sinst s)) (mut (sinst s)) = Done ((OK, Some z), mut (sinst s), [])).
      { apply length_zero_iff_nil in L. rewrite L. clear -L. unfold z in L. destruct f; try reflexivity; discriminate L. }
      match goal with |- context [bind (call m env _) ?g ?ii] => pose proof (@bind_call_done _ m env _ _ _ g ii _ _ G) as G' end.
      rewrite G'. cbn [fst snd]. rewrite CALLk_ok. cbn [ret].
      eexists. split; [reflexivity|]. split; [|reflexivity]. split; [|split; [exact M|exact Ag]]. cbn [sinst]. apply dy_fit; auto. apply agree_refl.
    - pose proof (dy_getz Y env (ctl (sinst s)) (mut (sinst s)) (repeat nzero (length z)) W) as G.
      rewrite repeat_length in G. fold z in G. specialize (G ltac:(lia)). rewrite fill in G.
      match goal with |- context [bind (call m env _) ?g ?ii] => pose proof (@bind_call_done _ m env _ _ _ g ii _ _ G) as G' end.
      rewrite G'. cbn [fst snd]. rewrite CALLk_ok. cbn [ret].
      destruct (dy_tz_ok Y _ W) as (W1 & X1 & _).
      assert (Ag' : agree f (data (mut (sinst s))) (data (dy_tz Y (mut (sinst s))))).
      { split; [rewrite !states_eq; exact X1|now apply frozen_tz]. }
      eexists. split; [reflexivity|]. split; [|reflexivity]. split; [|split; [exact M|eapply agree_trans; [exact Ag|exact Ag']]].
      cbn [sinst]. now apply dy_fit.
  Qed.
  Lemma me_set d x d' s : ready ContinuousTimeMode d s -> 0 < length (states FMI3 f d) -> length x = length (states FMI3 f d) ->
    states FMI3 f d' = x -> frozen FMI3 f d' = frozen FMI3 f d ->
    exists s', call3 m szof env (O3SetContinuousStates (Some x) (length (states FMI3 f d))) s = Some s' /\ ready ContinuousTimeMode d' s' /\ time_of s' = time_of s.
  Proof.
    intros (Sn & M & Ag) Hl Lx Hs Hf. pose proof Ag as (Ax & Af). pose proof Sn as ([W Sz Hx Hz] & Hd). rewrite <- Lx in *.
    unfold call3. cbn [exec3]. rewrite outI_eq. unfold fmi3SetContinuousStates.
    rewrite BEGIN_pass by (unfold mode_of in M; rewrite M; discriminate).
    assert (Lx' : length x = length (dy_x Y (data (mut (sinst s))))) by (rewrite <- states_eq, Ax; exact Lx).
    pose proof (dy_setx Y env (ctl (sinst s)) (mut (sinst s)) x [] W Lx' Hl) as G. rewrite app_nil_r in G.
    match goal with |- context [bind (call m env _) ?g ?ii] => pose proof (@bind_call_done _ m env _ _ _ g ii _ _ G) as G' end.
    rewrite G', CALLk_ok. cbn [ret]. destruct (dy_put_ok Y x _ W Lx') as (W1 & X1).
    eexists. split; [reflexivity|]. split; [|reflexivity]. split; [|split; [exact M|]].
    - cbn [sinst]. split.
      + constructor; cbn; auto.
        * destruct Hx as [Hx|Hx]; [left; exact Hx|right]. rewrite Hx, X1. now symmetry.
        * destruct Hz as [Hz|Hz]; [left; exact Hz|right]. rewrite Hz. apply (dy_zlen Y).
      + cbn. rewrite <- Hd. apply frozen_dims. apply frozen_put.
    - split; cbn.
      + rewrite states_eq, X1. congruence.
      + rewrite frozen_put. congruence.
  Qed.
  Lemma me_time d tm s : ready ContinuousTimeMode d s -> exists s', call3 m szof env (O3SetTime tm) s = Some s' /\ ready ContinuousTimeMode d s' /\ time_of s' = tm.
  Proof.
    intros (Sn & M & Ag). unfold call3. cbn [exec3]. rewrite outI_eq. unfold fmi3SetTime.
    rewrite BEGIN_pass by (unfold mode_of in M; rewrite M; discriminate). rewrite bind_modC. cbn [ret].
    eexists. split; [reflexivity|]. split; [|reflexivity]. split; [|split; [exact M|exact Ag]].
    cbn [sinst]. destruct Sn as ([W Sz Hx Hz] & Hd). split; [constructor; cbn; auto|exact Hd].
  Qed.
  Lemma me_enter d s : ready ContinuousTimeMode d s -> exists s', call3 m szof env O3EnterEventMode s = Some s' /\ ready EventMode d s' /\ time_of s' = time_of s.
  Proof.
    intros (Sn & M & Ag). unfold call3. cbn [exec3]. rewrite outI_eq. unfold fmi3EnterEventMode.
    rewrite BEGIN_pass by (unfold mode_of in M; rewrite M; discriminate). unfold setMode. rewrite bind_modC. cbn [ret].
    eexists. split; [reflexivity|]. split; [|reflexivity]. split; [|split; [reflexivity|exact Ag]].
    cbn [sinst]. destruct Sn as ([W Sz Hx Hz] & Hd). split; [constructor; cbn; auto|exact Hd].
  Qed.
  Lemma me_leave d s : ready EventMode d s -> exists s', call3 m szof env O3EnterContinuousTimeMode s = Some s' /\ ready ContinuousTimeMode d s' /\ time_of s' = time_of s.
  Proof.
    intros (Sn & M & Ag). unfold call3. cbn [exec3]. rewrite outI_eq. unfold fmi3EnterContinuousTimeMode.
    rewrite BEGIN_pass by (unfold mode_of in M; rewrite M; discriminate). unfold setMode. rewrite bind_modC. cbn [ret].
    eexists. split; [reflexivity|]. split; [|reflexivity]. split; [|split; [reflexivity|exact Ag]].
    cbn [sinst]. destruct Sn as ([W Sz Hx Hz] & Hd). split; [constructor; cbn; auto|exact Hd].
  Qed.
  Lemma me_nothing d s : handles_events f = false -> ready EventMode d s ->
    exists s', call3 m szof env O3UpdateDiscreteStates s = Some s' /\ ready EventMode d s' /\ time_of s' = time_of s.
  Proof.
    intros He (Sn & M & Ag). unfold call3. cbn [exec3]. rewrite outI_eq. unfold fmi3UpdateDiscreteStates.
    rewrite BEGIN_pass by (unfold mode_of in M; rewrite M; discriminate). rewrite events_eq, He. rewrite bind_getM. cbn [ret].
    eexists. split; [reflexivity|]. split; [|reflexivity]. split; [exact Sn|split; [exact M|exact Ag]].
  Qed.
  Lemma me_update d c u u1 t s : continuous f = true -> handles_events f = true -> data u = d ->
    m_eventUpdateF m env c u = Done (OK, u1, t) -> ready EventMode d s ->
    exists s', call3 m szof env O3UpdateDiscreteStates s = Some s' /\ ready EventMode (data u1) s' /\ time_of s' = time_of s.
  Proof.
    intros Hc He Hu E (Sn & M & Ag). unfold call3. cbn [exec3]. rewrite outI_eq. unfold fmi3UpdateDiscreteStates.
    rewrite BEGIN_pass by (unfold mode_of in M; rewrite M; discriminate). rewrite events_eq, He. subst d.
    destruct (@event_det F NF f env c (ctl (sinst s)) u u1 t (mut (sinst s)) Hc He Ag E) as (_ & u1' & t' & E' & Ag').
    assert (Ec : call m env (m_eventUpdateF m) (sinst s) = Done (OK, set_mut u1' (sinst s), t')) by (unfold call; rewrite E'; reflexivity).
    unfold bind at 1. rewrite Ec. rewrite CALLk_ok. rewrite bind_getM. cbn [ret].
    eexists. split; [reflexivity|]. split; [|reflexivity]. split; [|split; [exact M|exact Ag']].
    assert (He' : m_eventUpdate m = true) by (rewrite events_eq; exact He).
    cbn [sinst]. exact (proj2 (@call_updated F NF FMI3 f env _ _ _ Sn He' Ec)).
  Qed.

  Lemma combine_flips (z z' : list F) :
    changed z z' = true <-> exists j a b, nth_error z j = Some a /\ nth_error z' j = Some b /\ flips a b.
  Proof.
    unfold changed, flips. revert z'. induction z as [|a z IH]; intros [|b z']; cbn.
    1-3: split; [discriminate|intros ([|j] & x & y & A & B & _); discriminate].
    rewrite orb_true_iff, IH. split.
    - intros [H|(j & x & y & A & B & C)].
      + exists 0, a, b. repeat (split; [reflexivity|]). rewrite orb_true_iff, !andb_true_iff in H. exact H.
      + exists (S j), x, y. auto.
    - intros ([|j] & x & y & A & B & C).
      + injection A as <-. injection B as <-. left. rewrite orb_true_iff, !andb_true_iff. exact C.
      + right. exists j, x, y. auto.
  Qed.
  Definition nxs (d : D) := length (states FMI3 f d).
  Definition nzs (d : D) := length (indicators FMI3 f d).

  (** the rest of the step after the states were set *)
  Lemma euler_len h (x dx : list F) : length dx = length x -> length (euler_of h x dx) = length x.
  Proof. intro H. unfold euler_of. rewrite map_length, combine_length. lia. Qed.

  Lemma me_step tm (i i1 : Inst F D) s : solving FMI3 f i -> set_up FMI3 f i -> solver_step FMI3 f i i1 ->
    ready ContinuousTimeMode (data (mut i)) s ->
    length (states FMI3 f (data (mut i1))) = length (states FMI3 f (data (mut i))) /\
    exists s1, ready ContinuousTimeMode (data (mut i1)) s1 /\ time_of s1 = tm /\
      forall z, importer_step m szof env (nxs (data (mut i))) (nzs (data (mut i))) (m_step m) tm z s =
        if changed z (indicators FMI3 f (data (mut i1))) then
          match call3 m szof env O3EnterEventMode s1 with None => None | Some s =>
          match call3 m szof env O3UpdateDiscreteStates s with None => None | Some s =>
          match call3 m szof env O3EnterContinuousTimeMode s with None => None | Some s =>
            ask3 m szof env O3GetEventIndicators (nzs (data (mut i))) s end end end
        else Some (indicators FMI3 f (data (mut i1)), s1).
  Proof.
    intros So (Sx & Sz) Sv Rd.
    assert (Hl : 0 < length (states FMI3 f (data (mut i)))) by (red in So; lia).
    destruct (me_getx Rd Hl) as (s1 & E1 & R1 & T1). destruct (me_getdx R1 Hl) as (s2 & E2 & R2 & T2).
    assert (L : length (euler_of (m_step m) (states FMI3 f (data (mut i))) (ders FMI3 f (data (mut i)))) = length (states FMI3 f (data (mut i)))).
    { apply euler_len. destruct R2 as (([W _ _ _] & Hd) & _ & Ag).
      assert (Hd0 : ss_dims FMI3 f (data (mut i)) = (3, 3, 3)) by (rewrite <- Hd; symmetry; apply frozen_dims; apply Ag).
      rewrite <- (ders_det Ag Hd0), (ders_eq _ _ _ W Hd), (dy_len Y _ W), <- states_eq. now rewrite (proj1 Ag). }
    split; [rewrite (sv_euler Sv So); exact L|].
    destruct (me_set _ R2 Hl L (sv_euler Sv So) (sv_frozen Sv)) as (s3 & E3 & R3 & T3).
    destruct (me_time tm R3) as (s4 & E4 & R4 & T4). destruct (me_getz R4) as (s5 & E5 & R5 & T5).
    exists s5. split; [exact R5|]. split; [congruence|]. intro z. unfold importer_step, nxs, nzs. rewrite E1, E2, E3, E4.
    rewrite (indicators_len FMI3 f (data (mut i)) (data (mut i1))) at 1. rewrite E5. reflexivity.
  Qed.

  Lemma steps_me k (i i' : Inst F D) : continuous f = true -> solving FMI3 f i ->
    nextEventTimeDefined (mut i) = false -> current FMI3 f i -> set_up FMI3 f i ->
    steps_with FMI3 f (handled FMI3 f env) k i i' -> forall tm s, ready ContinuousTimeMode (data (mut i)) s ->
    nextEventTimeDefined (mut i') = false /\
    exists s', importer m szof env (nxs (data (mut i))) (nzs (data (mut i))) (m_step m) k tm (indicators FMI3 f (data (mut i))) s = Some (indicators FMI3 f (data (mut i')), s') /\
      ready ContinuousTimeMode (data (mut i')) s' /\ time_of s' = match k with O => time_of s | _ => tm k end.
  Proof.
    intros Hc So Ned Cu Su W. induction W as [i|k i i1 i' Sv Ne W IH|k i i1 i2 i' Sv Ev Hd W IH]; intros tm s Rd.
    - split; [exact Ned|]. exists s. split; [reflexivity|]. auto.
    - destruct (me_step (tm 1) So Su Sv Rd) as (L1 & s1 & R1 & T1 & E1). destruct Su as (Sx & Sz).
      destruct (step_current Sz Sv) as (Cu1 & Sz1 & Nx).
      assert (Su1 : set_up FMI3 f i1) by (split; [rewrite Nx, Sx; symmetry; exact L1|exact Sz1]).
      assert (So1 : solving FMI3 f i1) by (red; rewrite Nx; exact So).
      assert (Ned1 : nextEventTimeDefined (mut i1) = false) by (rewrite (sv_mut Sv); exact Ned).
      assert (Ln : nxs (data (mut i)) = nxs (data (mut i1)) /\ nzs (data (mut i)) = nzs (data (mut i1))) by (unfold nxs, nzs; split; [now symmetry|apply indicators_len]).
      assert (Q : exists s2, importer_step m szof env (nxs (data (mut i))) (nzs (data (mut i))) (m_step m) (tm 1) (indicators FMI3 f (data (mut i))) s
                  = Some (indicators FMI3 f (data (mut i1)), s2) /\ ready ContinuousTimeMode (data (mut i1)) s2 /\ time_of s2 = tm 1).
      { rewrite E1. destruct (changed (indicators FMI3 f (data (mut i))) (indicators FMI3 f (data (mut i1)))) eqn:Ch; [|exists s1; auto].
        destruct (handles_events f) eqn:He.
        { exfalso. apply Ne. split; [exact He|]. left. apply combine_flips in Ch. unfold crossing. rewrite Cu. exact Ch. }
        destruct (me_enter R1) as (s2 & E2 & R2 & T2). destruct (me_nothing He R2) as (s3 & E3 & R3 & T3).
        destruct (me_leave R3) as (s4 & E4 & R4 & T4). destruct (me_getz R4) as (s5 & E5 & R5 & T5).
        rewrite E2, E3, E4. exists s5. rewrite (proj2 Ln). unfold nzs. split; [exact E5|]. split; [exact R5|congruence]. }
      destruct Q as (s2 & E2 & R2 & T2). specialize (IH So1 Ned1 Cu1 Su1 (fun j => tm (S j)) s2 R2) as (Nd & s' & E' & R' & T').
      split; [exact Nd|]. exists s'. cbn [importer]. rewrite E2, (proj1 Ln), (proj2 Ln). split; [exact E'|]. split; [exact R'|].
      rewrite T'. destruct k; [exact T2|reflexivity].
    - destruct (me_step (tm 1) So Su Sv Rd) as (L1 & s1 & R1 & T1 & E1). destruct Su as (Sx & Sz).
      destruct (step_current Sz Sv) as (Cu1 & Sz1 & Nx).
      destruct (@handled_current F NF FMI3 f env _ _ Sz1 Hd) as (Cu2 & Sz2 & Nx2). destruct Hd as ((u & t & Eu & Cc & (b & d & Mu & Fr & St) & _ & _) & _).
      destruct Ev as (He & Ev).
      assert (Ned1 : nextEventTimeDefined (mut i1) = false) by (rewrite (sv_mut Sv); exact Ned).
      destruct (@event_det F NF f env _ (ctl i1) _ u t (mut i1) Hc He (agree_refl f _) Eu) as (Nu & _).
      assert (Ag2 : agree f (data u) (data (mut i2))) by (rewrite Mu; split; assumption).
      assert (L2 : length (states FMI3 f (data (mut i2))) = length (states FMI3 f (data (mut i1)))).
      { rewrite (proj1 Ag2). clear -Eu Hc He. destruct f; try discriminate Hc; try discriminate He; [reflexivity|]. cbn in Eu. injection Eu as <- _. reflexivity. }
      assert (Ln : nxs (data (mut i)) = nxs (data (mut i2)) /\ nzs (data (mut i)) = nzs (data (mut i2))) by (unfold nxs, nzs; split; [congruence|apply indicators_len]).
      assert (Ch : changed (indicators FMI3 f (data (mut i))) (indicators FMI3 f (data (mut i1))) = true).
      { apply combine_flips. destruct Ev as [Ev|(X & _)]; [|congruence]. unfold crossing in Ev. rewrite Cu in Ev. exact Ev. }
      destruct (me_enter R1) as (s2 & E2 & R2 & T2). destruct (@me_update _ _ _ u t _ Hc He eq_refl Eu R2) as (s3 & E3 & R3 & T3).
      destruct (me_leave R3) as (s4 & E4 & R4 & T4).
      assert (R4' : ready ContinuousTimeMode (data (mut i2)) s4).
      { destruct R4 as (A & B & C). split; [exact A|]. split; [exact B|]. eapply agree_trans; [apply agree_sym; exact Ag2|exact C]. }
      destruct (me_getz R4') as (s5 & E5 & R5 & T5).
      specialize (IH ltac:(red; rewrite Nx2, Nx; exact So) ltac:(rewrite Mu; exact Nu) Cu2 ltac:(split; [rewrite Nx2, Nx, Sx; congruence|exact Sz2]) (fun j => tm (S j)) s5 R5) as (Nd & s' & E' & R' & T').
      split; [exact Nd|]. exists s'. cbn [importer]. rewrite E1, Ch, E2, E3, E4, (proj1 Ln), (proj2 Ln). unfold nzs at 1. rewrite E5.
      split; [exact E'|]. split; [exact R'|]. rewrite T'. destruct k; [congruence|reflexivity].
  Qed.
End Me.

Section Euler.
  Context {F : Type} {NF : Num F} (szof : N) (f : FMU).
  Notation m := (model_of (F := F) FMI3 f).
  Notation D := (md m).

  Lemma importer_app env nx nz h : forall k1 k2 tm z s z1 s1, importer m szof env nx nz h k1 tm z s = Some (z1, s1) ->
    importer m szof env nx nz h (k1 + k2) tm z s = importer m szof env nx nz h k2 (fun j => tm (k1 + j)) z1 s1.
  Proof.
    induction k1 as [|k1 IH]; intros k2 tm z s z1 s1 E; cbn [importer Nat.add] in *.
    - injection E as <- <-. reflexivity.
    - destruct (importer_step _ _ _ _ _ _ _ _ _) as [[z0 s0]|]; [|discriminate]. rewrite (IH _ _ _ _ _ _ E). reflexivity.
  Qed.

  Lemma euler_one fuel env ccp h p1 p2 p3 p4 s out s' t sm tm : continuous f = true ->
    reach3 m szof s -> eventModeUsed (ctl (sinst s)) = false -> set_up FMI3 f (sinst s) -> current FMI3 f (sinst s) ->
    nextEventTimeDefined (mut (sinst s)) = false ->
    exec3 m szof fuel env (O3DoStep ccp h p1 p2 p3 p4) s = Done (OK, out, s', t) ->
    ready f ContinuousTimeMode (data (mut (sinst s))) sm ->
    eventModeUsed (ctl (sinst s')) = false /\ nextEventTimeDefined (mut (sinst s')) = false /\
    nxs f (data (mut (sinst s'))) = nxs f (data (mut (sinst s))) /\
    exists k sm', clock (m_step m) k s s' /\
      importer m szof env (nxs f (data (mut (sinst s)))) (nzs f (data (mut (sinst s)))) (m_step m) k tm (indicators FMI3 f (data (mut (sinst s)))) sm
        = Some (indicators FMI3 f (data (mut (sinst s'))), sm') /\
      ready f ContinuousTimeMode (data (mut (sinst s'))) sm' /\ time_of sm' = match k with O => time_of sm | _ => tm k end.
  Proof.
    intros Hc R Em Su Cu Ned E Rd. destruct (@current3 F NF szof f fuel env ccp h p1 p2 p3 p4 s out s' t R Su E) as (Su' & _).
    apply dostep3 in E as [(X & _)|(M & A & _ & e & r & i' & k0 & El & Hk & L & C)]; [discriminate| |exact R].
    destruct C as [(X & _)|(_ & Es & ->)]; [discriminate|].
    assert (Sn : sane FMI3 f (sinst s)) by (apply (@sane_reach F NF szof f s R); rewrite M; discriminate).
    assert (Hl : 0 < length (states FMI3 f (data (mut (sinst s))))).
    { destruct Sn as ([W _ _ _] & Hd). rewrite states_eq, <- (dy_nx _ _ W). clear -Hc Hd. destruct f; try discriminate Hc; cbn; try lia. cbn in Hd. unfold dims in Hd. injection Hd as _ -> _. lia. }
    assert (So : solving FMI3 f (sinst s)) by (red; rewrite (proj1 Su); exact Hl).
    destruct (@loop3_inside F NF FMI3 f env fuel _ _ _ _ _ _ Sn Em El) as (_ & _ & (k & _ & W & Ck) & _).
    destruct (@steps_me F NF szof f env k (sinst s) i' Hc So Ned Cu Su W tm sm Rd) as (Nd & sm' & E' & R' & T').
    assert (Mt : mut (sinst s') = mut i' /\ sol (sinst s') = sol i') by (rewrite Es; auto). destruct Mt as (Mt & Ms).
    split. { rewrite Es. cbn. rewrite Ck. destruct (bumps_fields m k (ctl (sinst s))) as (_ & _ & _ & _ & _ & -> & _). exact Em. }
    split; [rewrite Mt; exact Nd|]. split.
    { unfold nxs. destruct Su' as (Q & _). rewrite <- Q, Ms, <- (proj1 Su). destruct (@loop3_current F NF FMI3 f env fuel _ _ _ _ _ _ _ Sn (proj2 Su) El) as (_ & P & _). exact P. }
    exists k, sm'. split.
    { apply (@clock_of F NF f k s s' (mode (ctl i')) (if r then nadd ccp h else time (ctl i'))). rewrite Es. cbn [ctl set_ctl]. rewrite <- Ck. destruct (ctl i'); reflexivity. }
    rewrite Mt. auto.
  Qed.

  Theorem euler3 fuel env : forall l s obs s' sm, continuous f = true ->
    reach3 m szof s -> eventModeUsed (ctl (sinst s)) = false -> set_up FMI3 f (sinst s) -> current FMI3 f (sinst s) ->
    nextEventTimeDefined (mut (sinst s)) = false ->
    Forall (fun o => is_DoStep3 o = true) l ->
    run3 m szof fuel (map (fun o => (env, o)) l) s = Done (obs, s') -> Forall (fun x => fst (fst x) = OK) obs ->
    ready f ContinuousTimeMode (data (mut (sinst s))) sm ->
    forall tm, exists k sm', clock (m_step m) k s s' /\
      importer m szof env (nxs f (data (mut (sinst s)))) (nzs f (data (mut (sinst s)))) (m_step m) k tm (indicators FMI3 f (data (mut (sinst s)))) sm
        = Some (indicators FMI3 f (data (mut (sinst s'))), sm') /\
      ready f ContinuousTimeMode (data (mut (sinst s'))) sm' /\ time_of sm' = match k with O => time_of sm | _ => tm k end.
  Proof.
    induction l as [|o l IH]; intros s obs s' sm Hc R Em Su Cu Ned Fl E Ok Rd tm.
    - cbn in E. injection E as <- <-. exists 0, sm. split; [apply clock_refl; reflexivity|]. auto.
    - inversion Fl as [|o0 l0 Ho Hl]; subst. destruct o; try discriminate Ho. cbn [map] in E.
      apply run_cons in E as (st & out & s1 & t1 & obs1 & E1 & E2 & ->).
      inversion Ok as [|x0 l0 Hs Ok1]; subst. cbn in Hs. subst st.
      destruct (@euler_one fuel env _ _ _ _ _ _ s out s1 t1 sm tm Hc R Em Su Cu Ned E1 Rd) as (Em1 & Ned1 & Nx1 & k & sm1 & C1 & I1 & R1 & T1).
      destruct (@current3 F NF szof f fuel env _ _ _ _ _ _ s _ s1 _ R Su E1) as (Su1 & Cu1).
      assert (R1' : reach3 m szof s1) by (eapply reach3_call; [exact R| |exact E1]; discriminate).
      destruct (IH _ _ _ sm1 Hc R1' Em1 Su1 (Cu1 (or_introl Cu)) Ned1 Hl E2 Ok1 R1 (fun j => tm (k + j))) as (k2 & sm2 & C2 & I2 & R2 & T2).
      exists (k + k2), sm2. split; [eapply clock_trans; eassumption|]. split.
      + rewrite (importer_app _ _ _ _ _ _ _ _ _ I1). rewrite <- Nx1. unfold nzs. rewrite (indicators_len FMI3 f (data (mut (sinst s))) (data (mut (sinst s1)))). exact I2.
      + split; [exact R2|]. rewrite T2. destruct k2; [rewrite Nat.add_0_r; exact T1|]. rewrite Nat.add_succ_r. reflexivity.
  Qed.
End Euler.

Section Statement.
  Context {F : Type} {NF : Num F} (szof : N) (f : FMU).
  Notation m := (model_of (F := F) FMI3 f).
  Notation D := (md m).
  Theorem same_as_importer fuel env l s obs s' sm tm : continuous f = true ->
    reach3 m szof s -> eventModeUsed (ctl (sinst s)) = false -> set_up FMI3 f (sinst s) -> current FMI3 f (sinst s) ->
    nextEventTimeDefined (mut (sinst s)) = false ->
    Forall (fun o => is_DoStep3 o = true) l ->
    run3 m szof fuel (map (fun o => (env, o)) l) s = Done (obs, s') -> Forall (fun x => fst (fst x) = OK) obs ->
    reach3 m szof sm -> mode_of sm = ContinuousTimeMode ->
    states FMI3 f (data (mut (sinst sm))) = states FMI3 f (data (mut (sinst s))) ->
    frozen FMI3 f (data (mut (sinst sm))) = frozen FMI3 f (data (mut (sinst s))) ->
    exists k z sm', clock (m_step m) k s s' /\
      importer m szof env (length (states FMI3 f (data (mut (sinst s))))) (length (indicators FMI3 f (data (mut (sinst s)))))
        (m_step m) k tm (indicators FMI3 f (data (mut (sinst s)))) sm = Some (z, sm') /\
      states FMI3 f (data (mut (sinst sm'))) = states FMI3 f (data (mut (sinst s'))) /\
      frozen FMI3 f (data (mut (sinst sm'))) = frozen FMI3 f (data (mut (sinst s'))) /\
      z = indicators FMI3 f (data (mut (sinst s'))) /\
      (0 < k -> time_of sm' = tm k).
  Proof.
    intros Hc R Em Su Cu Ned Fl E Ok Rm M Hs Hf.
    assert (Rd : ready f ContinuousTimeMode (data (mut (sinst s))) sm).
    { split; [apply (@sane_reach F NF szof f sm Rm); rewrite M; discriminate|]. split; [exact M|]. split; assumption. }
    destruct (@euler3 F NF szof f fuel env l s obs s' sm Hc R Em Su Cu Ned Fl E Ok Rd tm) as (k & sm' & C & I & (_ & _ & A & B) & T).
    exists k, (indicators FMI3 f (data (mut (sinst s')))), sm'. split; [exact C|]. split; [exact I|]. split; [exact A|]. split; [exact B|]. split; [reflexivity|].
    intro Hk. rewrite T. destruct k; [lia|reflexivity].
  Qed.
End Statement.
