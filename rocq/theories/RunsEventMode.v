(** RunsEventMode.v -- the program with event mode (C68). *)
From Coq Require Import List NArith ZArith Bool Arith Lia Reals Lra.
From Verif Require Import Base Instance ModelIface Core Fmi3 Api Fmus NumR SpecModes SpecCreate SpecState SpecSteps SpecOde SpecSafe SpecPrograms SpecBall SpecEventMode Programs
  Logic Calls Dyn Solver Fits Steps StepsFmus StepProps StepReal Ode Progress Reach Histories Flags Runs RunsReal RunsMe RunsEarly RunsBall RunsBallReal FmuBouncingBall.
From Verif Require Import SpecPrograms SpecBall.
Import ListNotations.
Set Implicit Arguments.

Section Fly.
  Context {F : Type} {NF : Num F} (szof : N) (fuel : nat) (env : Env).
  Notation B := BouncingBall.
  Notation m := (model_of (F := F) FMI3 B).
  Notation D := (md m).
  Notation glideB := (glide (F := F) B).

  Definition gr (x : list F) : F := ground (nth 0 x nzero) (nth 1 x nzero).
  (** The values of the ball and the indicator the solver compares with *)
  Definition flying (x : list F) (p : F) (i : Inst F D) : Prop :=
    held B x (data (mut i)) /\ set_up FMI3 B i /\ stored FMI3 B i = [p] /\ nextEventTimeDefined (mut i) = false /\ terminateSimulation (mut i) = false.

  Lemma fly_step x p (i i1 : Inst F D) : length x = 3 -> flying x p i -> solver_step FMI3 B i i1 ->
    flying (glideB x) (gr (glideB x)) i1 /\ (eventful FMI3 B i i1 <-> changes_sign p (gr (glideB x)) = true).
  Proof.
    intros Lx ((Hs & Hf) & Su & Sp & Nd & Tm) Sv. destruct x as [|a [|b [|c [|]]]]; try discriminate Lx.
    assert (Sl : solving FMI3 B i) by (unfold solving; rewrite (proj1 Su); cbn; lia).
    assert (Wa : watching FMI3 B i) by (unfold watching; rewrite (proj2 Su); cbn; lia).
    pose proof (sv_euler Sv Sl) as E1. pose proof (sv_frozen Sv) as E2. pose proof (sv_mut Sv) as E3. pose proof (sv_stored Sv Wa) as E6.
    cbn in Hs, Hf. injection Hs as H1 H2. injection Hf as H3 H4.
    assert (Cr : crossing FMI3 B i i1 <-> changes_sign p (ground (bb_h (data (mut i1))) (bb_v (data (mut i1)))) = true).
    { unfold crossing. rewrite Sp. unfold changes_sign. rewrite orb_true_iff, !andb_true_iff. split.
      - intros ([|[|j]] & a' & b' & A & B' & C); cbn in A, B'; try discriminate. injection A as <-. injection B' as <-. exact C.
      - intro C. exists 0, p, (ground (bb_h (data (mut i1))) (bb_v (data (mut i1)))). split; [reflexivity|]. split; [reflexivity|exact C]. }
    pose proof E1 as E1'. pose proof E2 as E2'.
    cbn in E1. injection E1 as E4 E5. rewrite H1, H2, H3 in *. change bb_step with (nlit (F := F) 1 (-3)) in *.
    cbn [md model_of BouncingBall_model] in Cr. rewrite E4, E5 in Cr.
    split.
    - split; [|split; [|split; [|split]]].
      + split; [cbn; rewrite E4, E5; reflexivity|]. cbn in E2 |- *. injection E2 as E7 E8. rewrite E7, E8, H3, H4. reflexivity.
      + destruct Su as (A & B'). split; [rewrite (sv_nx Sv), A|rewrite (sv_nz Sv), B']; reflexivity.
      + rewrite E6. unfold gr. cbn. rewrite E4, E5. reflexivity.
      + rewrite E3. exact Nd.
      + rewrite E3. exact Tm.
    - unfold eventful. cbn [handles_events]. unfold gr. cbn [glide nth]. rewrite <- Cr. split.
      + intros (_ & [X|(X & _)]); [exact X|congruence].
      + auto.
  Qed.

  Definition pz (x : list F) (p : F) (k : nat) : F := match k with O => p | S _ => gr (Nat.iter k glideB x) end.
  Definition cross (x : list F) (p : F) (k : nat) : bool := changes_sign (pz x p k) (gr (Nat.iter (S k) glideB x)).
  Lemma iter_in k (x : list F) : Nat.iter k glideB (glideB x) = Nat.iter (S k) glideB x.
  Proof. induction k as [|k IH]; [reflexivity|]. change (glideB (Nat.iter k glideB (glideB x)) = glideB (Nat.iter (S k) glideB x)). now rewrite IH. Qed.
  Lemma pz_in k x p : pz (glideB x) (gr (glideB x)) k = pz x p (S k).
  Proof. destruct k; [reflexivity|]. unfold pz. now rewrite iter_in. Qed.
  Lemma cross_in k x p : cross (glideB x) (gr (glideB x)) k = cross x p (S k).
  Proof. unfold cross. now rewrite (pz_in k x p), iter_in. Qed.
  Lemma glide_len x : length x = 3 -> length (glideB x) = 3.
  Proof. destruct x as [|a [|b [|c [|]]]]; intro L; try discriminate L; reflexivity. Qed.

  Lemma loop3_fly n : forall ncp i x p e r i' t, sane FMI3 B i -> eventModeUsed (ctl i) = true -> earlyReturnAllowed (ctl i) = true ->
    length x = 3 -> flying x p i ->
    doStep_loop m env n ncp false OK i = Done ((OK, e, r), i', t) ->
    exists k, flying (Nat.iter k glideB x) (pz x p k) i' /\ ctl i' = bumps m k (ctl i) /\
      (forall j, j < k -> pointReached m ncp (bumps m j (ctl i)) = false) /\
      (forall j, S j < k -> cross x p j = false) /\
      (e = false /\ r = true /\ pointReached m ncp (ctl i') = true /\ (forall j, j < k -> cross x p j = false) \/
       e = true /\ r = false /\ exists j, k = S j /\ cross x p j = true).
  Proof.
    induction n as [|n IH]; intros ncp i x p e r i' t Sn Em Er Lx Fl E; [discriminate|].
    rewrite loop3_eq in E. cbn [andb] in E. rewrite orb_false_r in E. destruct (pointReached m ncp (ctl i)) eqn:Pr.
    { injection E; intros; subst. exists 0. cbn [Nat.iter bumps pz]. split; [exact Fl|]. split; [reflexivity|].
      split; [intros; lia|]. split; [intros; lia|]. left. split; [reflexivity|]. split; [reflexivity|]. split; [exact Pr|intros; lia]. }
    unfold bind in E. pose proof (pass3_spec (events_all FMI3 B env) false (proj1 Sn)) as Ps.
    destruct (pass3 m env false OK i) as [[[[[st1 e1] go] i1] t1]| |] eqn:Ep; try discriminate. cbn in Ps.
    inversion Ps as [i0 t0 i1' En Ft0 St Ev|i0 t0 i1' En Ft0 St Ev Em1|i0 t0 i1' i2 t2 i3 En Ft0 St Ev Em1 Ec Rf|i0 t0 i1' i2 t2 En Ft0 St Ev Em1 Ec t3 Nt]; subst; unfold entered in En; rewrite andb_false_r in En; destruct En as (-> & ->); cbn [andb] in E; [| |exfalso; exact (eq_true_false_abs _ Em Em1)|exfalso; exact (eq_true_false_abs _ Em Em1)].
    - change (@BouncingBall_model F NF) with (model_of (F := F) FMI3 B) in *. destruct (step_spec Sn St) as (Sv & Sn1). destruct (fly_step Lx Fl Sv) as (Fl1 & Ev1).
      assert (Nc : cross x p 0 = false).
      { apply not_true_is_false. intro X. apply Ev1 in X. apply (event_spec Sn St) in X. exact (eq_true_false_abs _ X Ev). }
      rewrite (proj2 (proj2 (proj2 (proj2 Fl1)))) in E. cbn [negb] in E.
      destruct (doStep_loop m env n ncp false OK i1) as [[[[[st2 e2] r2] i2] t2]| |] eqn:El; try discriminate.
      injection E; intros; subst.
      assert (C : ctl i1 = bump m (ctl i)) by exact (sd_ctl St).
      assert (C1 : eventModeUsed (ctl i1) = true) by (rewrite C; exact Em). assert (C2 : earlyReturnAllowed (ctl i1) = true) by (rewrite C; exact Er).
      destruct (IH _ _ _ _ _ _ _ _ Sn1 C1 C2 (glide_len x Lx) Fl1 El) as (k & B1 & B3 & B4 & B5 & B6).
      exists (S k). rewrite iter_in, (pz_in k x p) in B1. split; [exact B1|]. split; [rewrite B3, C; reflexivity|]. split; [|split].
      + intros [|j] Hj; [exact Pr|]. cbn [bumps]. rewrite <- C. apply B4. lia.
      + intros [|j] Hj; [exact Nc|]. rewrite <- (cross_in j x p). apply B5. lia.
      + destruct B6 as [(B7 & B8 & B9 & B10)|(B7 & B8 & j & -> & B9)].
        * left. split; [exact B7|]. split; [exact B8|]. split; [exact B9|]. intros [|j] Hj; [exact Nc|]. rewrite <- (cross_in j x p). apply B10. lia.
        * right. split; [exact B7|]. split; [exact B8|]. exists (S j). split; [reflexivity|]. rewrite <- (cross_in j x p). exact B9.
    - change (@BouncingBall_model F NF) with (model_of (F := F) FMI3 B) in *. destruct (step_spec Sn St) as (Sv & Sn1). destruct (fly_step Lx Fl Sv) as (Fl1 & Ev1). apply (event_spec Sn St) in Ev. apply Ev1 in Ev.
      rewrite Er in E. cbn [negb andb] in E. injection E; intros; subst. exists 1. cbn [Nat.iter bumps pz]. split; [exact Fl1|]. split; [exact (sd_ctl St)|].
      split; [intros [|j] Hj; [exact Pr|lia]|]. split; [intros; lia|]. right. split; [reflexivity|]. split; [reflexivity|]. exists 0. split; [reflexivity|exact Ev].
  Qed.

  (** ** The calls around the steps *)
  Notation call := (CALL (F := F) B szof fuel env).
  Ltac opened s :=
    destruct s as [[c u o] hp]; cbn [md model_of BouncingBall_model] in u, hp |- *;
    destruct u as [u1 u2 u3 u4 u5 u6 u7 [] [dh dv dg de]]; destruct c as [c1 c2 c3 c4 c5 c6 c7 c8 c9 c10 c11 c12 c13 c14 c15 md c17 c18 c19 c20];
    cbn in *; subst md.
  Ltac done6 := lazy -[nle nlt nadd nmul nopp nsub nlit nzero ndblmin nofN ninf ntrunc cstr]; reflexivity.
  Lemma fly_update h v g p s : reach3 m szof s -> mode_of s = EventMode -> eventModeUsed (ctl (sinst s)) = true -> flying [h; v; g] p (sinst s) ->
    exists e s2 o3 s3, call O3UpdateDiscreteStates s = Done (inl (OEventInfo (Some e)), s2, []) /\
      call O3EnterStepMode s2 = Done (inl o3, s3, []) /\
      ei_terminateSimulation e = false /\ ei_discreteStatesNeedUpdate e = false /\
      reach3 m szof s3 /\ ctl (sinst s3) = set_mode StepMode (ctl (sinst s)) /\ flying (bounced h v g) p (sinst s3).
  Proof.
    intros Rs M Em Fl. pose proof (proj1 (proj1 (@flags_reach3 F NF szof FMI3 B s Rs))) as Nw.
    assert (G : exists e s2 o3 s3, call O3UpdateDiscreteStates s = Done (inl (OEventInfo (Some e)), s2, []) /\
      call O3EnterStepMode s2 = Done (inl o3, s3, []) /\
      ei_terminateSimulation e = false /\ ei_discreteStatesNeedUpdate e = false /\ ctl (sinst s3) = set_mode StepMode (ctl (sinst s)) /\ flying (bounced h v g) p (sinst s3)).
    { clear Rs. unfold mode_of, flying, held, set_up, stored in *. destruct Fl as ((H1 & H2) & (H3 & H4) & H5 & H6 & H7). opened s;
      injection H1 as -> ->; injection H2 as -> ->; unfold bounced;
      (destruct (nle h nzero) eqn:Q1; [destruct (nlt v nzero) eqn:Q2; [destruct (nlt (nmul (nopp v) (nlit 7 (-1))) (nlit 1 (-1))) eqn:Q3|]|]);
      do 4 eexists;
      (split; [lazy -[nle nlt nadd nmul nopp nsub nlit nzero ndblmin nofN ninf ntrunc cstr]; rewrite ?Q1, ?Q2, ?Q3; reflexivity|]);
      (split; [done6|]); (split; [reflexivity|]); (split; [exact Nw|]); (split; [reflexivity|]); repeat split; auto. }
    destruct G as (e & s2 & o3 & s3 & E2 & E3 & T1 & T2 & C & Fl').
    exists e, s2, o3, s3. repeat split; auto; try apply Fl'.
    eapply CALL_reach; [| |exact E3]; [reflexivity|]. eapply CALL_reach; [| |exact E2]; [reflexivity|]. exact Rs.
  Qed.
  Lemma fly_enter x p s : reach3 m szof s -> mode_of s = StepMode -> eventModeUsed (ctl (sinst s)) = true -> flying x p (sinst s) ->
    exists o1 s1, call O3EnterEventMode s = Done (inl o1, s1, []) /\ reach3 m szof s1 /\ ctl (sinst s1) = set_mode EventMode (ctl (sinst s)) /\ flying x p (sinst s1).
  Proof.
    intros Rs M Em Fl.
    assert (G : exists o1 s1, call O3EnterEventMode s = Done (inl o1, s1, []) /\ ctl (sinst s1) = set_mode EventMode (ctl (sinst s)) /\ flying x p (sinst s1)).
    { clear Rs. unfold mode_of, flying, held, set_up, stored in *. opened s; do 2 eexists; (split; [done6|]); (split; [reflexivity|]); exact Fl. }
    destruct G as (o1 & s1 & E1 & C & Fl'). exists o1, s1. repeat split; auto; try apply Fl'. eapply CALL_reach; [| |exact E1]; [reflexivity|exact Rs].
  Qed.
  Lemma fly_event n h v g p s : reach3 m szof s -> mode_of s = StepMode -> eventModeUsed (ctl (sinst s)) = true -> flying [h; v; g] p (sinst s) ->
    exists o1 s1 s2 o3 s3, call O3EnterEventMode s = Done (inl o1, s1, []) /\
      step_events B szof fuel env (S n) s1 = Done (inl false, s2, []) /\
      call O3EnterStepMode s2 = Done (inl o3, s3, []) /\ reach3 m szof s3 /\ ctl (sinst s3) = ctl (sinst s) /\ flying (bounced h v g) p (sinst s3).
  Proof.
    intros Rs M Em Fl. destruct (fly_enter Rs M Em Fl) as (o1 & s1 & E1 & R1 & C1 & Fl1).
    assert (M1 : mode_of s1 = EventMode) by (unfold mode_of; rewrite C1; reflexivity).
    assert (Em1 : eventModeUsed (ctl (sinst s1)) = true) by (rewrite C1; exact Em).
    destruct (fly_update R1 M1 Em1 Fl1) as (e & s2 & o3 & s3 & E2 & E3 & T1 & T2 & R3 & C3 & Fl3).
    exists o1, s1, s2, o3, s3. split; [exact E1|]. split; [cbn [step_events]; rewrite (pbind_quiet _ _ _ E2); cbv beta iota; rewrite T1, T2; reflexivity|].
    split; [exact E3|]. split; [exact R3|]. split; [|exact Fl3]. rewrite C3, C1. unfold mode_of in M. destruct (ctl (sinst s)); cbn in *; subst; reflexivity.
  Qed.
  Lemma fly_recalculated x p (i i' : Inst F D) : recalculated B i i' -> flying x p i -> flying x p i'.
  Proof.
    intros (C & So & b & d & Em & Es & Ef) ((H1 & H2) & Su & Sp & Nd & Tm). unfold flying, held, set_up, stored in *.
    rewrite So, Em. cbn [data set_data set_dirty nextEventTimeDefined terminateSimulation]. rewrite Es, Ef. auto.
  Qed.
  Lemma event_begin S (stop : F) n : 0 < n -> nle (F := F) (nlit 1 0) nzero = false -> exists i t o1 s1 o2 s2 r s3 o4 s4,
    newCS B env S None true true false = Done (Some i, t) /\
    call (O3EnterInitializationMode nzero true stop) (mkSys i []) = Done (inl o1, s1, []) /\
    call O3ExitInitializationMode s1 = Done (inl o2, s2, []) /\
    event_iteration B szof fuel env n false false s2 = Done (inl r, s3, []) /\
    call O3EnterStepMode s3 = Done (inl o4, s4, []) /\ reach3 m szof s4 /\ mode_of s4 = StepMode /\ eventModeUsed (ctl (sinst s4)) = true /\ earlyReturnAllowed (ctl (sinst s4)) = true /\
    flying (solution B 0) (gr (solution B 0)) (sinst s4) /\ steps_of s4 = 0%N /\ start_of s4 = nzero /\ stop_of s4 = stop /\ end_of s4 = nzero /\ time_of s4 = nzero.
  Proof.
    intros Hn H1.
    assert (G : exists i t o1 s1 o2 s2,
      newCS B env S None true true false = Done (Some i, t) /\
      call (O3EnterInitializationMode nzero true stop) (mkSys i []) = Done (inl o1, s1, []) /\
      call O3ExitInitializationMode s1 = Done (inl o2, s2, []) /\
      mode_of s2 = EventMode /\ eventModeUsed (ctl (sinst s2)) = true /\ earlyReturnAllowed (ctl (sinst s2)) = true /\
      flying (solution B 0) (gr (solution B 0)) (sinst s2) /\ steps_of s2 = 0%N /\ start_of s2 = nzero /\ stop_of s2 = stop /\ end_of s2 = nzero /\ time_of s2 = nzero).
    { do 6 eexists. split; [done6|]. split; [done6|]. split; [done6|]. repeat split; reflexivity. }
    destruct G as (i & t & o1 & s1 & o2 & s2 & E1 & E2 & E3 & M & Em & Er & Fl & K1 & K2 & K3 & K4 & K5).
    assert (R2 : reach3 m szof s2).
    { eapply CALL_reach; [| |exact E3]; [reflexivity|]. eapply CALL_reach; [| |exact E2]; [reflexivity|]. constructor.
      right; left. unfold newCS in E1. do 11 eexists. exact E1. }
    assert (Bq : bounced (F := F) (nlit 1 0) nzero (nopp (nlit 981 (-2))) = solution B 0) by (unfold bounced; rewrite H1; reflexivity).
    destruct (@fly_update (nlit 1 0) nzero (nopp (nlit 981 (-2))) _ s2 R2 M Em Fl) as (e & s3 & o4 & s4 & E4 & E5 & T1 & T2 & R4 & C4 & Fl4).
    rewrite Bq in Fl4. destruct n as [|n]; [lia|].
    exists i, t, o1, s1, o2, s2. do 4 eexists. split; [exact E1|]. split; [exact E2|]. split; [exact E3|].
    split; [cbn [event_iteration]; rewrite (pbind_quiet _ _ _ E4); cbv beta iota; rewrite T1, T2; reflexivity|]. split; [exact E5|].
    unfold mode_of, steps_of, start_of, stop_of, end_of, time_of in *. rewrite C4. repeat split; auto; apply Fl4.
  Qed.

  (** An FMU without event updates refuses to be instantiated for event mode. *)
  Lemma no_event_mode f S (stop : F) n : m_eventUpdate (model_of (F := F) FMI3 f) = false -> cs_event_mode f szof fuel env S stop n = Done (Error, [], None).
  Proof. destruct f; intro X; try discriminate X; reflexivity. Qed.
End Fly.

Section EventR.
  Variable inf : R.
  Local Hint Extern 0 (Num R) => exact (NR inf) : typeclass_instances.
  Local Open Scope R_scope.
  Variables (szof : N) (fuel : nat) (env : Env) (S : N) (stop : R).
  Notation B := BouncingBall.
  Notation m := (model_of (F := R) FMI3 B).
  Notation h := (m_step m).
  Notation sol_ := (solution (F := R) B).
  Notation hits k := (bounces (F := R) B (sol_ k)).
  Let Rc : recorded B = true := eq_refl.

  Record vinv (k : nat) (x : list R) (p : R) (s : Sys R (md m)) : Prop := mkVinv {
    vi_reach : reach3 m szof s;
    vi_mode : mode_of s = StepMode;
    vi_ev : eventModeUsed (ctl (sinst s)) = true;
    vi_er : earlyReturnAllowed (ctl (sinst s)) = true;
    vi_fly : flying x p (sinst s);
    vi_steps : steps_of s = N.of_nat k;
    vi_start : start_of s = 0;
    vi_stop : stop_of s = stop;
    vi_end : end_of s = INR k * h;
    vi_time : time_of s = INR k * h }.
  (** The indicator the solver compares with: that of the point, or the one from before the bounce. *)
  Definition compares (k : nat) (b : bool) (p : R) : Prop := if b then p <= 0 /\ rising (sol_ k) else p = gr (sol_ k).

  Lemma gr_up x : above x -> 0 < gr x.
  Proof. destruct x as [|a [|v [|g [|]]]]; try contradiction. intros (H & _). unfold gr. cbn [nth]. rewrite (@ground_pos inf a v H). exact H. Qed.
  Lemma iter_sol k j : (forall i, (i < j)%nat -> hits (k + i) = false) -> Nat.iter j (glide (F := R) B) (sol_ k) = sol_ (k + j).
  Proof.
    induction j as [|j IH]; intro Q; [now rewrite Nat.add_0_r|]. change (Nat.iter (Datatypes.S j) (glide (F := R) B) (sol_ k)) with (glide B (Nat.iter j (glide (F := R) B) (sol_ k))).
    rewrite IH by (intros; apply Q; lia). rewrite Nat.add_succ_r. symmetry. apply sol_glide. apply Q. lia.
  Qed.
  Lemma cross_sol k j : (forall i, (i < j)%nat -> hits (k + i) = false) -> cross (sol_ k) (gr (sol_ k)) j = hits (k + j).
  Proof.
    intro Q. unfold cross. replace (pz (sol_ k) (gr (sol_ k)) j) with (gr (Nat.iter j (glide (F := R) B) (sol_ k))) by (destruct j; reflexivity).
    change (Nat.iter (Datatypes.S j) (glide (F := R) B) (sol_ k)) with (glide B (Nat.iter j (glide (F := R) B) (sol_ k))). rewrite (iter_sol _ Q), bounces_glide. reflexivity.
  Qed.
  Lemma cross_none k j : (forall i, (i < j)%nat -> cross (sol_ k) (gr (sol_ k)) i = false) -> forall i, (i < j)%nat -> hits (k + i) = false.
  Proof.
    intro Q. induction j as [|j IH]; intros i Hi; [lia|]. assert (P : forall i, (i < j)%nat -> hits (k + i) = false) by (apply IH; intros; apply Q; lia).
    destruct (Nat.eq_dec i j) as [->|]; [|apply P; lia]. rewrite <- (cross_sol _ P). apply Q. lia.
  Qed.
  Lemma no_hit k : rising (sol_ k) -> hits k = false.
  Proof.
    destruct (sol_ k) as [|a [|v [|g [|]]]]; try contradiction. intros (Ha & Hv). rewrite (@bounces_above inf a v g Ha), zero_R. apply Rleb_false. nra.
  Qed.
  Lemma echoes k p : compares k true p -> cross (sol_ k) p 0 = true.
  Proof.
    intros (Hp & Ri). unfold cross. cbn [pz]. change (Nat.iter 1 (glide (F := R) B) (sol_ k)) with (glide (F := R) B (sol_ k)).
    rewrite <- (@sol_glide R (NR inf) k (no_hit k Ri)). pose proof (gr_up _ (always_above inf (Datatypes.S k))) as G.
    unfold changes_sign. rewrite zero_R. apply orb_true_iff. left. apply andb_true_iff. split; [apply nle_R; exact Hp|apply nlt_R; exact G].
  Qed.

  Lemma event_step k b p s : vinv k (sol_ k) p s -> compares k b p -> (N.of_nat (k + 11) < 100000)%N -> (11 <= fuel)%nat -> INR k * h + 10 * h <= stop ->
    exists j out s' t, exec3 m szof fuel env (O3DoStep (INR k * h) (10 * h) true true true true) s = Done (OK, out, s', t) /\
      (1 <= j <= 10)%nat /\ last_time B (INR k * h) out = INR (k + j) * h /\
      (has_event B out = false /\ wants_end B out = false /\ j = 10%nat /\ b = false /\ (forall i, (i < 10)%nat -> hits (k + i) = false) /\ vinv (k + j) (sol_ (k + j)) (gr (sol_ (k + j))) s' \/
       exists i, j = Datatypes.S i /\ has_event B out = true /\ vinv (k + j) (glide B (sol_ (k + i))) (gr (glide B (sol_ (k + i)))) s' /\
         if b then i = 0%nat else hits (k + i) = true /\ forall i', (i' < i)%nat -> hits (k + i') = false).
  Proof.
    intros I Cp Hk Hf Hs. pose proof (step_R inf B Rc) as Hh.
    assert (B64 : (N.of_nat (k + 11) < two64)%N) by (unfold two64; lia).
    assert (Ac : acceptable s (INR k * h) (10 * h)).
    { split; [rewrite (vi_end I); apply isClose_refl_R|]. split.
      - rewrite zero_R. cbn [nle NR NumR]. apply Rleb_false. lra.
      - rewrite (vi_stop I). apply (beyond_false_R inf). cbn [nadd NR NumR]. pose proof (tol_pos (INR k * h + 10 * h) stop). lra. }
    assert (Su : set_up FMI3 B (sinst s)) by apply (vi_fly I).
    assert (Tj : forall j, (j <= 11)%nat -> nSteps (bumps m j (ctl (sinst s))) = N.of_nat (k + j) /\ time (bumps m j (ctl (sinst s))) = INR (k + j) * h).
    { intros j Hj. apply bumps_R; [apply (vi_steps I)|apply (vi_start I)|apply (vi_time I)|]. unfold two64 in *. lia. }
    assert (P : exists out s' t, exec3 m szof fuel env (O3DoStep (INR k * h) (10 * h) true true true true) s = Done (OK, out, s', t)).
    { apply (@progress3 R _ szof B fuel env (INR k * h) (10 * h) s 10); auto; try discriminate.
      - apply (vi_reach I).
      - apply (vi_mode I).
      - rewrite <- bumps_time. apply (proj2 (@reached_R inf B Rc k 10 Hk ltac:(lia) (bumps m 10 (ctl (sinst s))) (proj2 (Tj 10%nat ltac:(lia))))). reflexivity. }
    destruct P as (out & s' & t & E). pose proof E as E'.
    apply dostep3 in E as [(X & _)|(_ & _ & _ & e & r & i' & k0 & El & _ & L & [(X & _)|(_ & Es & Eo)])]; [discriminate|discriminate| |exact (vi_reach I)].
    assert (Sn : sane FMI3 B (sinst s)) by (apply (@sane_reach R _ szof B s (vi_reach I)); rewrite (vi_mode I); discriminate).
    destruct (@loop3_fly R _ env fuel _ _ _ _ _ _ _ _ Sn (vi_ev I) (vi_er I) (solution_len B k) (vi_fly I) El) as (j & H1 & C1 & Bf & Q & En).
    change (nadd (INR k * h) (10 * h)) with (INR k * h + 10 * h) in *.
    assert (J10 : (j <= 10)%nat).
    { destruct (Nat.le_gt_cases j 10) as [|X]; [assumption|]. exfalso. specialize (Bf 10%nat X).
      rewrite (proj2 (@reached_R inf B Rc k 10 Hk ltac:(lia) _ (proj2 (Tj 10%nat ltac:(lia)))) eq_refl) in Bf. discriminate. }
    destruct (Tj j ltac:(lia)) as (T1 & T2).
    assert (J1 : (1 <= j)%nat /\ (r = true -> j = 10%nat)).
    { destruct En as [(_ & -> & X & _)|(_ & -> & j0 & -> & X)]; [|split; [lia|discriminate]].
      rewrite C1 in X. apply (proj1 (@reached_R inf B Rc k j Hk J10 _ T2)) in X. lia. }
    assert (Ep : nextCommunicationPoint (ctl (sinst s')) = INR (k + j) * h).
    { rewrite Es. cbn [ctl set_ctl nextCommunicationPoint set_nextCommunicationPoint]. destruct r; [|rewrite C1; exact T2].
      rewrite (proj2 J1 eq_refl), plus_INR. replace (INR 10) with 10 by (cbn; lra). lra. }
    destruct (bumps_fields m j (ctl (sinst s))) as (F1 & F2 & F3 & _ & F5 & F6 & _).
    assert (V : vinv (k + j) (Nat.iter j (glide B) (sol_ k)) (pz (sol_ k) p j) s').
    { constructor.
      + eapply reach3_call; [exact (vi_reach I)| |exact E']. intros ? X; discriminate X.
      + unfold mode_of. rewrite Es. cbn [ctl set_ctl set_nextCommunicationPoint mode]. rewrite C1, F3. exact (vi_mode I).
      + rewrite Es. cbn [ctl set_ctl set_nextCommunicationPoint eventModeUsed]. rewrite C1, F6. exact (vi_ev I).
      + rewrite Es. cbn [ctl set_ctl set_nextCommunicationPoint earlyReturnAllowed]. rewrite C1, F5. exact (vi_er I).
      + rewrite Es. exact H1.
      + unfold steps_of. rewrite Es. cbn [ctl set_ctl set_nextCommunicationPoint nSteps]. rewrite C1. exact T1.
      + unfold start_of. rewrite Es. cbn [ctl set_ctl set_nextCommunicationPoint startTime]. rewrite C1, F1. exact (vi_start I).
      + unfold stop_of. rewrite Es. cbn [ctl set_ctl set_nextCommunicationPoint stopTime]. rewrite C1, F2. exact (vi_stop I).
      + exact Ep.
      + unfold time_of. rewrite Es. cbn [ctl set_ctl set_nextCommunicationPoint time]. rewrite C1. exact T2. }
    exists j, out, s', t. split; [exact E'|]. split; [lia|]. rewrite Eo. cbn [wants_end has_event last_time o_eventHandlingNeeded o_terminateSimulation o_lastSuccessfulTime].
    split; [rewrite C1; exact T2|]. destruct En as [(-> & -> & _ & X)|(-> & -> & i & -> & X)].
    - left. pose proof (proj2 J1 eq_refl) as J. split; [reflexivity|]. split; [apply H1|]. split; [exact J|].
      destruct b. { specialize (X 0%nat ltac:(lia)). rewrite (echoes Cp) in X. discriminate X. }
      cbn [compares] in Cp. subst p. pose proof (cross_none _ X) as Y. split; [reflexivity|]. rewrite J in *. split; [exact Y|].
      change (pz (sol_ k) (gr (sol_ k)) 10) with (gr (Nat.iter 10 (glide (F := R) B) (sol_ k))) in V. rewrite (iter_sol _ Y) in V. exact V.
    - right. exists i. split; [reflexivity|]. split; [reflexivity|].
      assert (Z : Nat.iter i (glide (F := R) B) (sol_ k) = sol_ (k + i) /\ if b then i = 0%nat else hits (k + i) = true /\ forall i', (i' < i)%nat -> hits (k + i') = false).
      { destruct b.
        - destruct i as [|i]; [rewrite Nat.add_0_r; split; reflexivity|]. specialize (Q 0%nat ltac:(lia)). rewrite (echoes Cp) in Q. discriminate Q.
        - cbn [compares] in Cp. subst p. assert (Y : forall i', (i' < i)%nat -> hits (k + i') = false) by (apply cross_none; intros; apply Q; lia).
          split; [exact (iter_sol _ Y)|]. split; [rewrite <- (cross_sol _ Y); exact X|exact Y]. }
      destruct Z as (Z1 & Z2). split; [|exact Z2]. cbn [pz] in V. change (Nat.iter (Datatypes.S i) (glide (F := R) B) (sol_ k)) with (glide B (Nat.iter i (glide (F := R) B) (sol_ k))) in V.
      rewrite Z1 in V. exact V.
  Qed.

  Lemma record_v k x p s : vinv k x p s -> exists s1, recordVariables B szof fuel env (INR k * h) s = Done (inl tt, s1, [(INR k * h, OVals TFloat64 (Some (shown B x)))]) /\ vinv k x p s1.
  Proof.
    intro I. destruct (@record_eq R _ B szof fuel env (INR k * h) s Rc (vi_reach I) (or_introl (vi_mode I))) as (s1 & E1 & Rec & R1).
    exists s1. split; [rewrite E1, (proj1 (proj1 (vi_fly I))); reflexivity|].
    pose proof (fly_recalculated Rec (vi_fly I)) as Fl. pose proof Rec as (C1 & _).
    constructor; auto; unfold mode_of, steps_of, start_of, stop_of, end_of, time_of; rewrite C1.
    - exact (vi_mode I). - exact (vi_ev I). - exact (vi_er I). - exact (vi_steps I). - exact (vi_start I). - exact (vi_stop I). - exact (vi_end I). - exact (vi_time I).
  Qed.
  Lemma handle_v n k x y v g p s : vinv k x p s -> x = [y; v; g] ->
    exists o1 s1 s2 o3 s3, CALL B szof fuel env O3EnterEventMode s = Done (inl o1, s1, []) /\
      step_events B szof fuel env (Datatypes.S n) s1 = Done (inl false, s2, []) /\
      CALL B szof fuel env O3EnterStepMode s2 = Done (inl o3, s3, []) /\ vinv k (bounced y v g) p s3.
  Proof.
    intros I ->. destruct (@fly_event R _ szof fuel env n y v g p s (vi_reach I) (vi_mode I) (vi_ev I) (vi_fly I)) as (o1 & s1 & s2 & o3 & s3 & E1 & E2 & E3 & R3 & C3 & Fl).
    exists o1, s1, s2, o3, s3. split; [exact E1|]. split; [exact E2|]. split; [exact E3|].
    constructor; auto; unfold mode_of, steps_of, start_of, stop_of, end_of, time_of; rewrite C3.
    - exact (vi_mode I). - exact (vi_ev I). - exact (vi_er I). - exact (vi_steps I). - exact (vi_start I). - exact (vi_stop I). - exact (vi_end I). - exact (vi_time I).
  Qed.
  Lemma glided k : exists y v g, glide (F := R) B (sol_ k) = [y; v; g].
  Proof. destruct (@shape R (NR inf) k) as (a & b & c & ->). do 3 eexists. reflexivity. Qed.
  Lemma at_k k : (INR k * h, OVals TFloat64 (Some (shown B (sol_ k)))) = row (F := R) B (point B) (solution B) k.
  Proof. unfold row. rewrite (point_R inf). reflexivity. Qed.
  Lemma late_R k : late stop k <-> stop < INR k * h + 10 * h.
  Proof.
    unfold late. rewrite (point_R inf), (@ten_R inf B). apply nlt_R.
  Qed.

  Lemma event_steps M n : (N.of_nat M + 1 < 100000)%N -> (11 <= fuel)%nat -> stop < INR M * h -> forall k b p s, vinv k (sol_ k) p s -> compares k b p -> (M <= k + n)%nat -> (0 < n)%nat ->
    exists l s', event_loop B szof fuel env stop n (INR k * h) false s = Done (inl tt, s', l) /\ mode_of s' = StepMode /\ event_visits stop k b l.
  Proof.
    intros HM Hf Hs. pose proof (step_R inf B Rc) as Hh. induction n as [|n IH]; intros k b p s I Cp Hn Hp; [lia|].
    destruct (record_v I) as (s1 & E1 & I1). rewrite at_k in E1. cbn [event_loop]. unfold pbind at 1. unfold bind at 1. rewrite E1. cbn [orb].
    unfold stepSize. rewrite (@ten_R inf B). change (nadd (INR k * h) (10 * h)) with (INR k * h + 10 * h).
    destruct (nlt stop (INR k * h + 10 * h)) eqn:El.
    - eexists. exists s1. split; [reflexivity|]. split; [exact (vi_mode I1)|]. apply ev_end. apply late_R. now apply nlt_R in El.
    - assert (NL : ~ late stop k) by (rewrite late_R; intro X; apply (nlt_R inf) in X; congruence).
      assert (Ls : INR k * h + 10 * h <= stop) by (rewrite late_R in NL; lra).
      assert (Lk : (k + 10 < M)%nat).
      { apply INR_lt. rewrite plus_INR. replace (INR 10) with 10 by (cbn; lra). apply Rmult_lt_reg_r with h; lra. }
      destruct (@event_step k b p s1 I1 Cp ltac:(lia) Hf Ls) as (j & out & s2 & t & E2 & Hj & Lt & Ca).
      unfold pbind at 1, bind at 1. unfold CALL at 1. rewrite E2. cbv beta iota zeta. rewrite Lt.
      destruct Ca as [(He & We & Hj1 & -> & Q & I2)|(i & Hi & He & I2 & Cb)]; rewrite He.
      + rewrite We. destruct (IH (k + j)%nat false _ s2 I2 eq_refl ltac:(lia) ltac:(lia)) as (l & s3 & E3 & M3 & V3).
        rewrite E3. eexists. exists s3. split; [reflexivity|]. split; [exact M3|]. subst j. apply ev_quiet; [exact NL| |exact V3].
        intros i Hi. specialize (Q (i - k)%nat ltac:(lia)). replace (k + (i - k))%nat with i in Q by lia. exact Q.
      + destruct (record_v I2) as (s3 & E3 & I3). destruct (glided (k + i)) as (y & v & g & Y).
        destruct n as [|n]; [lia|]. destruct (handle_v n I3 Y) as (o1 & s4 & s5 & o3 & s6 & E4 & E5 & E6 & I6).
        pose proof (always_above inf (Datatypes.S (k + i))) as Ab.
        assert (Z : exists b', bounced (F := R) y v g = sol_ (Datatypes.S (k + i)) /\ compares (Datatypes.S (k + i)) b' (gr (glide B (sol_ (k + i)))) /\
          b' = hits (k + i)).
        { destruct (hits (k + i)) eqn:Hb; eexists; (split; [|split; [|reflexivity]]).
          - symmetry. exact (sol_bounced (k + i) Hb Y).
          - split; [|exact (proj2 (@next_above inf _ (always_above inf (k + i))) Hb)].
            destruct (@shape R (NR inf) (k + i)) as (a & w & c & Sh). pose proof (always_above inf (k + i)) as Ab0. rewrite Sh in *. destruct Ab0 as (Ha & _).
            rewrite (@bounces_above inf a w c Ha) in Hb. unfold gr. cbn [glide nth]. pose proof (@ground_sign inf (a + nlit (F := R) 1 (-3) * w) (w + nlit (F := R) 1 (-3) * c)) as Gs.
            rewrite (proj1 (lits inf)) in Gs at 3. rewrite Hb in Gs. apply (nle_R inf) in Gs. rewrite zero_R in Gs. exact Gs.
          - rewrite <- (sol_glide _ Hb) in Y. rewrite Y in *. unfold bounced. destruct Ab as (Ha & _).
            replace (nle y nzero) with false by (symmetry; rewrite zero_R; apply Rleb_false; lra). reflexivity.
          - cbn [compares]. rewrite (sol_glide _ Hb). reflexivity. }
        destruct Z as (b' & Z1 & Z2 & Z3). rewrite Hi in *. rewrite Nat.add_succ_r in *. rewrite Z1 in I6.
        destruct (IH (Datatypes.S (k + i)) b' _ s6 I6 Z2 ltac:(lia) ltac:(lia)) as (l & s7 & E7 & M7 & V7).
        unfold pbind at 1, bind at 1. rewrite E3. cbv beta iota. rewrite (pbind_quiet _ _ _ E4). cbv beta. rewrite (pbind_quiet _ _ _ E5). cbv beta. rewrite (pbind_quiet _ _ _ E6). cbv beta.
        rewrite E7. eexists. exists s7. split; [reflexivity|]. split; [exact M7|]. cbn [app].
        assert (Bf : (INR (Datatypes.S (k + i)) * h, OVals TFloat64 (Some (shown B (glide B (sol_ (k + i)))))) = before_bounce (F := R) B (point B) (k + i)) by (unfold before_bounce; rewrite (point_R inf); reflexivity).
        destruct b.
        * subst i. rewrite Nat.add_0_r in *. assert (Hb : hits k = false) by (apply no_hit; apply Cp). rewrite Hb in Z3. subst b'. rewrite <- (sol_glide _ Hb), at_k. now apply ev_echo.
        * destruct Cb as (Cb1 & Cb2). rewrite Cb1 in Z3. subst b'. rewrite Bf. apply ev_bounce; [exact NL|lia| |exact Cb1|exact V7].
          intros i0 H0. specialize (Cb2 (i0 - k)%nat ltac:(lia)). replace (k + (i0 - k))%nat with i0 in Cb2 by lia. exact Cb2.
  Qed.

  Theorem cs_event_mode_R M n : (N.of_nat M + 1 < 100000)%N -> (11 <= fuel)%nat -> stop < INR M * h -> (M <= n)%nat -> (0 < n)%nat ->
    exists l s, cs_event_mode B szof fuel env S stop n = Done (OK, l, Some s) /\ event_visits stop 0 false l.
  Proof.
    intros HM Hf Hs Hn Hp. assert (X : nle (F := R) (nlit 1 0) nzero = false) by (rewrite (proj1 (proj2 (lits inf))), zero_R; apply Rleb_false; lra).
    destruct (@event_begin R _ szof fuel env S stop n Hp X) as (i & t & o1 & s1 & o2 & s2 & r & s3 & o4 & s4 & E1 & E2 & E3 & E4 & E5 & R4 & M4 & K1 & K2 & K3 & K4 & K5 & K6 & K7 & K8).
    assert (I : vinv 0 (sol_ 0) (gr (sol_ 0)) s4).
    { constructor; auto; [rewrite K5; apply zero_R|rewrite K7, zero_R; cbn; lra|rewrite K8, zero_R; cbn; lra]. }
    destruct (@event_steps M n HM Hf Hs 0 false _ s4 I eq_refl Hn Hp) as (l & s5 & E6 & M5 & V).
    replace (INR 0 * h) with (nzero (F := R)) in E6 by (rewrite zero_R; cbn; lra).
    exists l. unfold cs_event_mode, program. rewrite E1. rewrite (pbind_quiet _ _ _ E2). cbv beta. rewrite (pbind_quiet _ _ _ E3). cbv beta. rewrite (pbind_quiet _ _ _ E4). cbv beta. rewrite (pbind_quiet _ _ _ E5). cbv beta.
    rewrite E6. rewrite term_eq by auto. eexists. split; [reflexivity|exact V].
  Qed.

  (** Each bounce is followed by an event at which nothing changes. *)
  Lemma late_mono a b : (a <= b)%nat -> late stop a -> late stop b.
  Proof. intro H. rewrite !late_R. pose proof (step_R inf B Rc). apply le_INR in H. nra. Qed.
  Lemma event_echo k b l : event_visits (F := R) stop k b l -> (b = true -> (0 < k)%nat /\ hits (pred k) = true) -> forall j, (k <= j)%nat -> hits j = true -> ~ late stop (Datatypes.S j) ->
    exists l1 l2, l = l1 ++ before_bounce B (point B) j :: row B (point B) (solution B) (Datatypes.S j) ::
      row B (point B) (solution B) (Datatypes.S (Datatypes.S j)) :: row B (point B) (solution B) (Datatypes.S (Datatypes.S j)) :: l2.
  Proof.
    intro V. induction V as [k b La|k l NL Q V IH|k j0 l NL Hj Q Hb V IH|k l NL V IH]; intros Hf j Hk Hh Hl.
    - exfalso. apply Hl. apply (@late_mono k); [lia|exact La].
    - destruct (Nat.lt_ge_cases j (k + 10)) as [X|X]; [rewrite Q in Hh by lia; discriminate|].
      destruct (IH ltac:(discriminate) j X Hh Hl) as (l1 & l2 & ->). eexists (_ :: l1), l2. reflexivity.
    - destruct (Nat.lt_trichotomy j j0) as [X|[->|X]].
      + rewrite Q in Hh by lia. discriminate.
      + inversion V; subst; [contradiction|]. match goal with H : event_visits _ _ false _ |- _ => inversion H; subst end;
        eexists [_], _; reflexivity.
      + destruct (IH ltac:(intros _; split; [lia|exact Hb]) j ltac:(lia) Hh Hl) as (l1 & l2 & ->). eexists (_ :: _ :: l1), l2. reflexivity.
    - destruct (Nat.eq_dec j k) as [->|].
      + destruct (Hf eq_refl) as (X & Y). exfalso. destruct k as [|k]; [lia|]. cbn [pred] in Y.
        pose proof (proj2 (@next_above inf _ (always_above inf k)) Y) as Ri. apply (no_hit (Datatypes.S k)) in Ri. congruence.
      + destruct (IH ltac:(discriminate) j ltac:(lia) Hh Hl) as (l1 & l2 & ->). eexists (_ :: _ :: l1), l2. reflexivity.
  Qed.
End EventR.

Theorem second_event :
  forall (inf : R) stop l, let NF := NumR inf in
    event_visits (F := R) stop 0 false l ->
    forall j, bounces (F := R) BouncingBall (solution BouncingBall j) = true -> ~ late stop (S j) ->
    let at_ := row (F := R) BouncingBall (point BouncingBall) (solution BouncingBall) in
    exists l1 l2, l = l1 ++ before_bounce BouncingBall (point BouncingBall) j :: at_ (S j) :: at_ (S (S j)) :: at_ (S (S j)) :: l2.
Proof. intros inf stop l NF V j H1 H2. apply (@event_echo inf stop 0 false l V); [discriminate|lia|exact H1|exact H2]. Qed.
Theorem equal_rows :
  forall (inf : R), let NF := NumR inf in
    exists szof fuel env S n (stop : R) l s, cs_event_mode BouncingBall szof fuel env S stop n = Done (OK, l, Some s) /\
      exists l1 r l2, l = l1 ++ r :: r :: l2.
Proof.
  intros inf NF. assert (St : m_step (model_of (F := R) FMI3 BouncingBall) = (1 / 1000)%R) by (exact (proj1 (RunsBallReal.lits inf))).
  assert (H1 : (1 / 2 < INR 501 * m_step (model_of (F := R) FMI3 BouncingBall))%R) by (rewrite St, INR_IZR_INZ; cbn [Z.of_nat Pos.of_succ_nat Pos.succ]; lra).
  destruct (@cs_event_mode_R inf 64%N 11 {| env_file := fun _ => None |} 0%N (1 / 2)%R 501 501 ltac:(reflexivity) ltac:(lia) H1 ltac:(lia) ltac:(lia)) as (l & s & E & V).
  exists 64%N, 11, {| env_file := fun _ => None |}, 0%N, 501, (1 / 2)%R, l, s. split; [exact E|].
  destruct (@event_echo inf (1 / 2)%R 0 false l V ltac:(discriminate) 452 ltac:(lia) (proj1 (@first_bounce inf))) as (l1 & l2 & ->).
  { intro X. apply (@late_R inf) in X. rewrite INR_IZR_INZ in X. change (NR inf) with NF in X. rewrite St in X. cbn [Z.of_nat Pos.of_succ_nat Pos.succ] in X. lra. }
  exists (l1 ++ [before_bounce BouncingBall (point BouncingBall) 452; row BouncingBall (point BouncingBall) (solution BouncingBall) 453]). do 2 eexists. rewrite <- app_assoc. reflexivity.
Qed.
