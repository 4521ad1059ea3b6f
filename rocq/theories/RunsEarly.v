(** RunsEarly.v -- the program with early return (C58). *)
From Coq Require Import List NArith ZArith Bool Arith Lia Reals Lra.
From Verif Require Import Base Instance ModelIface Core Fmi3 Api Fmus NumR SpecModes SpecCreate SpecState SpecSteps SpecOde SpecSafe SpecPrograms Programs
  Logic Calls Dyn Solver Fits Steps StepsFmus StepProps StepReal Ode Progress Reach Histories Runs RunsReal RunsMe FmuBouncingBall FmuDahlquist FmuVanDerPol.
Import ListNotations.
Set Implicit Arguments.

Section Until.
  Context {F : Type} {NF : Num F} (f : FMU) (szof : N) (fuel : nat) (env : Env).
  Notation m := (model_of (F := F) FMI3 f).
  Notation D := (md m).

  Lemma bounces_iff x (i i1 : Inst F D) : recorded f = true -> length x = length (begin f) -> held f x (data (mut i)) -> going f i ->
    solver_step FMI3 f i i1 -> eventful FMI3 f i i1 <-> bounces f x = true.
  Proof.
    intros Rc Lx (Hs & Hf) (Su & Cu & Nd & Tm) Sv.
    destruct f; try discriminate Rc; try (split; [intros (X & _); discriminate X|intro X; discriminate X]).
    destruct x as [|a [|b [|c [|]]]]; try discriminate Lx.
    assert (Sl : solving FMI3 BouncingBall i) by (unfold solving; rewrite (proj1 Su); cbn; lia).
    pose proof (sv_euler Sv Sl) as E1. cbn in Hs, Hf, E1.
    injection Hs as H1 H2. injection Hf as H3 H4. injection E1 as E4 E5.
    rewrite H1, H2, H3 in *. change bb_step with (nlit (F := F) 1 (-3)) in *.
    pose proof (crossing_bb i1 Cu) as Cr. cbn [md model_of BouncingBall_model] in Cr. rewrite E4, E5, H1, H2 in Cr.
    unfold eventful. cbn [handles_events bounces]. rewrite <- Cr. split.
    - intros (_ & [X|(X & _)]); [exact X|congruence].
    - auto.
  Qed.

  Lemma loop3_until n : recorded f = true -> forall ncp i x e r i' t, sane FMI3 f i -> eventModeUsed (ctl i) = false -> earlyReturnAllowed (ctl i) = true ->
    length x = length (begin f) -> held f x (data (mut i)) -> going f i ->
    doStep_loop m env n ncp false OK i = Done ((OK, e, r), i', t) ->
    e = false /\ exists k, held f (Nat.iter k (next f) x) (data (mut i')) /\ going f i' /\ ctl i' = bumps m k (ctl i) /\
      (forall j, j < k -> pointReached m ncp (bumps m j (ctl i)) = false) /\
      (forall j, S j < k -> bounces f (Nat.iter j (next f) x) = false) /\
      (r = true /\ pointReached m ncp (ctl i') = true /\ (forall j, j < k -> bounces f (Nat.iter j (next f) x) = false) \/
       r = false /\ exists j, k = S j /\ bounces f (Nat.iter j (next f) x) = true).
  Proof.
    intro Rc. induction n as [|n IH]; intros ncp i x e r i' t Sn Em Er Lx Hh Go E; [discriminate|].
    rewrite loop3_eq in E. cbn [andb] in E. rewrite orb_false_r in E. destruct (pointReached m ncp (ctl i)) eqn:Pr.
    { injection E; intros; subst. split; [reflexivity|]. exists 0. cbn [Nat.iter bumps]. split; [exact Hh|]. split; [exact Go|]. split; [reflexivity|].
      split; [intros; lia|]. split; [intros; lia|]. left. split; [reflexivity|]. split; [exact Pr|intros; lia]. }
    unfold bind in E. pose proof (pass3_spec (events_all FMI3 f env) false (proj1 Sn)) as Ps.
    destruct (pass3 m env false OK i) as [[[[[st1 e1] go] i1] t1]| |] eqn:Ep; try discriminate. cbn in Ps.
    pose proof (passed3_ok (events_all FMI3 f env) (proj1 Sn) Ps) as (_ & Pk).
    inversion Ps as [i0 t0 i1' En Ft0 St Ev|i0 t0 i1' En Ft0 St Ev Em1|i0 t0 i1' i2 t2 i3 En Ft0 St Ev Em1 Ec Rf|i0 t0 i1' i2 t2 En Ft0 St Ev Em1 Ec t3 Nt]; subst; unfold entered in En; rewrite andb_false_r in En; destruct En as (-> & ->); cbn [andb] in E; [| | |discriminate E].
    - destruct (step_spec Sn St) as (Sv & Sn1).
      assert (Ne : ~ eventful FMI3 f i i1) by (intro H; apply (event_spec Sn St) in H; congruence).
      assert (Nb : bounces f x = false) by (apply not_true_is_false; intro X; apply Ne; now apply (bounces_iff Rc Lx Hh Go Sv)).
      assert (W : steps_with FMI3 f (handled FMI3 f env) 1 i i1) by (eapply with_quiet; [exact Sv|exact Ne|constructor]).
      destruct (next_held Rc Lx Hh Go W) as (Hh1 & Go1).
      rewrite (proj2 (proj2 (proj2 Go1))) in E. cbn [negb] in E.
      destruct (doStep_loop m env n ncp false OK i1) as [[[[[st2 e2] r2] i2] t2]| |] eqn:El; try discriminate.
      injection E; intros; subst.
      assert (C : ctl i1 = bump m (ctl i)) by exact (sd_ctl St).
      assert (C1 : eventModeUsed (ctl i1) = false) by (rewrite C; exact Em). assert (C2 : earlyReturnAllowed (ctl i1) = true) by (rewrite C; exact Er).
      destruct (IH _ _ _ _ _ _ _ Sn1 C1 C2 (next_len f x Lx) Hh1 Go1 El) as (A & k & B1 & B2 & B3 & B4 & B5 & B6).
      assert (It : forall j, Nat.iter j (next f) (next f x) = Nat.iter (S j) (next f) x) by (clear; intro j; induction j as [|j IHj]; [reflexivity|]; change (next f (Nat.iter j (next f) (next f x)) = next f (Nat.iter (S j) (next f) x)); now rewrite IHj).
      split; [exact A|]. exists (S k). rewrite It in B1. split; [exact B1|]. split; [exact B2|]. split; [rewrite B3, C; reflexivity|]. split; [|split].
      + intros [|j] Hj; [exact Pr|]. cbn [bumps]. rewrite <- C. apply B4. lia.
      + intros [|j] Hj; [exact Nb|]. rewrite <- It. apply B5. lia.
      + destruct B6 as [(B7 & B8 & B9)|(B7 & j & -> & B8)].
        * left. split; [exact B7|]. split; [exact B8|]. intros [|j] Hj; [exact Nb|]. rewrite <- It. apply B9. lia.
        * right. split; [exact B7|]. exists (S j). split; [reflexivity|]. rewrite <- It. exact B8.
    - congruence.
    - assert (He : m_eventUpdate m = true) by (unfold event_at in Ev; now destruct (m_eventUpdate m)).
      destruct (step_spec Sn St) as (Sv & Sn1). destruct Pk as [(_ & Fi & C & _)|(X & _)]; [|discriminate].
      destruct (call_handled env Sn1 He Ec Rf Fi) as (Hd & Sn3). apply (event_spec Sn St) in Ev.
      match type of Hd with handled _ _ _ ?a ?b => assert (W : steps_with FMI3 f (handled FMI3 f env) 1 i b) by (eapply with_event; [exact Sv|exact Ev|exact Hd|constructor]) end.
      destruct (next_held Rc Lx Hh Go W) as (Hh1 & Go1).
      rewrite Er in E. cbn [negb andb] in E. injection E; intros; subst. split; [reflexivity|].
      exists 1. cbn [Nat.iter bumps]. split; [exact Hh1|]. split; [exact Go1|]. split; [exact C|]. split; [intros [|j] Hj; [exact Pr|lia]|].
      split; [intros; lia|]. right. split; [reflexivity|]. exists 0. split; [reflexivity|]. now apply (bounces_iff Rc Lx Hh Go Sv).
  Qed.
End Until.

Lemma solution_add {F} {NF : Num F} f k j : Nat.iter j (next f) (solution (F := F) f k) = solution f (k + j).
Proof.
  induction j as [|j IH]; [now rewrite Nat.add_0_r|]. rewrite Nat.add_succ_r. change (next f (Nat.iter j (next f) (solution f k)) = next f (solution f (k + j))). now rewrite IH.
Qed.
Lemma visits_bounces {F} {NF : Num F} f (stop : F) k l : visits f stop k l -> forall i, k <= i -> bounces f (solution f i) = true -> S i <= last l 0 -> In (S i) l.
Proof.
  induction 1 as [k E|k j l E Hj Q B V IH]; intros i Hi Hb Hl.
  - cbn in Hl. lia.
  - assert (Hd : hd 0 l = j) by now inversion V. assert (Ln : l <> []) by (inversion V; discriminate).
    destruct (Nat.lt_ge_cases (S i) j) as [X|X]; [rewrite (Q i Hi X) in Hb; discriminate|].
    right. destruct (Nat.eq_dec (S i) j) as [Y|Y].
    + destruct l; [contradiction|]. cbn in Hd. left. lia.
    + apply IH; [lia|exact Hb|]. destruct l; [contradiction|exact Hl].
Qed.

Section EarlyR.
  Variable inf : R.
  Local Hint Extern 0 (Num R) => exact (NR inf) : typeclass_instances.
  Local Open Scope R_scope.
  Variables (f : FMU) (szof : N) (fuel : nat) (env : Env) (S : N) (stop : R).
  Hypothesis Rc : recorded f = true.
  Notation m := (model_of (F := R) FMI3 f).
  Notation h := (m_step m).

  Record einv (k : nat) (s : Sys R (md m)) : Prop := mkEinv {
    ei_reach : reach3 m szof s;
    ei_mode : mode_of s = StepMode;
    ei_ev : eventModeUsed (ctl (sinst s)) = false;
    ei_er : earlyReturnAllowed (ctl (sinst s)) = true;
    ei_going : going f (sinst s);
    ei_held : held f (solution f k) (data (mut (sinst s)));
    ei_steps : steps_of s = N.of_nat k;
    ei_start : start_of s = 0;
    ei_stop : stop_of s = stop;
    ei_end : end_of s = INR k * h;
    ei_time : time_of s = INR k * h }.

  Lemma bumps_R k j (c : Ctl R) : nSteps c = N.of_nat k -> startTime c = 0 -> time c = INR k * h -> (N.of_nat (k + j) < two64)%N ->
    nSteps (bumps m j c) = N.of_nat (k + j) /\ time (bumps m j c) = INR (k + j) * h.
  Proof.
    intros E1 E2 E3. induction j as [|j IH]; intro Hb.
    - rewrite Nat.add_0_r. cbn [bumps]. auto.
    - destruct IH as (A & B); [lia|]. rewrite bumps_S. unfold bump. cbn [nSteps time set_time set_nSteps].
      rewrite A, (proj1 (bumps_fields m j c)), E2, next_step by (rewrite Nat.add_succ_r in Hb; exact Hb). rewrite Nat.add_succ_r. split; [reflexivity|].
      cbn [nadd nmul nofN NR NumR]. rewrite nat_N_Z, <- INR_IZR_INZ. lra.
  Qed.

  Lemma ten_R : nmul (nlit (F := R) 10 0) h = 10 * h.
  Proof. cbn [nmul nlit NR NumR]. f_equal. cbn. lra. Qed.
  Lemma reached_R k j : (N.of_nat (k + 11) < 100000)%N -> (j <= 10)%nat -> forall c, time c = INR (k + j) * h ->
    (pointReached m (INR k * h + 10 * h) c = true <-> j = 10%nat).
  Proof.
    intros Hk Hj c Ht. pose proof (step_R inf f Rc) as Hh. change (pointReached m (INR k * h + 10 * h) c) with (beyond (time c + h) (INR k * h + 10 * h)).
    rewrite Ht, plus_INR. rewrite (beyond_R inf). assert (P : 0 <= INR k) by apply pos_INR.
    assert (K : INR k + 11 < 100000) by (rewrite INR_IZR_INZ, <- plus_IZR; apply IZR_lt; lia).
    split; intro X.
    - destruct (Nat.eq_dec j 10) as [|Ne]; [assumption|]. exfalso.
      assert (J : INR j <= 9) by (replace 9 with (INR 9) by (cbn; lra); apply le_INR; lia).
      pose proof (tol_pos ((INR k + INR j) * h + h) (INR k * h + 10 * h)). nra.
    - subst j. replace (INR 10) with 10 by (cbn; lra). unfold tol. rewrite !Rabs_pos_eq by nra.
      rewrite (Rmax_left ((INR k + 10) * h + h)) by nra. unfold Rmax. destruct (Rle_dec 1 _); nra.
  Qed.

  Lemma early_step k s : einv k s -> (N.of_nat (k + 11) < 100000)%N -> (11 <= fuel)%nat -> INR k * h + 10 * h <= stop ->
    exists j out s' t, exec3 m szof fuel env (O3DoStep (INR k * h) (10 * h) true true true true) s = Done (OK, out, s', t) /\
      (1 <= j <= 10)%nat /\ wants_end f out = false /\ last_time f (INR k * h) out = INR (k + j) * h /\ einv (k + j) s' /\
      (forall i, (Datatypes.S i < j)%nat -> bounces (F := R) f (solution f (k + i)) = false) /\
      (j = 10%nat \/ bounces (F := R) f (solution f (pred (k + j))) = true).
  Proof.
    intros I Hk Hf Hs. pose proof (step_R inf f Rc) as Hh.
    assert (B64 : (N.of_nat (k + 11) < two64)%N) by (unfold two64; lia).
    assert (Ac : acceptable s (INR k * h) (10 * h)).
    { split; [rewrite (ei_end I); apply isClose_refl_R|]. split.
      - rewrite zero_R. cbn [nle NR NumR]. apply Rleb_false. lra.
      - rewrite (ei_stop I). apply (beyond_false_R inf). cbn [nadd NR NumR]. pose proof (tol_pos (INR k * h + 10 * h) stop). lra. }
    assert (Su : set_up FMI3 f (sinst s)) by apply (ei_going I).
    assert (Tj : forall j, (j <= 11)%nat -> nSteps (bumps m j (ctl (sinst s))) = N.of_nat (k + j) /\ time (bumps m j (ctl (sinst s))) = INR (k + j) * h).
    { intros j Hj. apply bumps_R; [apply (ei_steps I)|apply (ei_start I)|apply (ei_time I)|]. unfold two64 in *. lia. }
    assert (P : exists out s' t, exec3 m szof fuel env (O3DoStep (INR k * h) (10 * h) true true true true) s = Done (OK, out, s', t)).
    { apply (@progress3 R _ szof f fuel env (INR k * h) (10 * h) s 10); auto.
      - intros X. pose proof Rc as Y. rewrite X in Y. discriminate Y.
      - apply (ei_reach I).
      - intros X. pose proof Rc as Y. rewrite X in Y. discriminate Y.
      - apply (ei_mode I).
      - rewrite <- bumps_time. apply (proj2 (@reached_R k 10 Hk ltac:(lia) (bumps m 10 (ctl (sinst s))) (proj2 (Tj 10%nat ltac:(lia))))). reflexivity. }
    destruct P as (out & s' & t & E). pose proof E as E'.
    apply dostep3 in E as [(X & _)|(_ & _ & _ & e & r & i' & k0 & El & _ & L & [(X & _)|(_ & Es & Eo)])]; [discriminate|discriminate| |exact (ei_reach I)].
    assert (Sn : sane FMI3 f (sinst s)) by (apply (@sane_reach R _ szof f s (ei_reach I)); rewrite (ei_mode I); discriminate).
    destruct (@loop3_until R _ f env fuel Rc _ _ _ _ _ _ _ Sn (ei_ev I) (ei_er I) (solution_len f k) (ei_held I) (ei_going I) El) as (He & j & H1 & G1 & C1 & Bf & Q & En).
    rewrite solution_add in H1. change (nadd (INR k * h) (10 * h)) with (INR k * h + 10 * h) in *.
    assert (J10 : (j <= 10)%nat).
    { destruct (Nat.le_gt_cases j 10) as [|X]; [assumption|]. exfalso. specialize (Bf 10%nat X).
      rewrite (proj2 (@reached_R k 10 Hk ltac:(lia) _ (proj2 (Tj 10%nat ltac:(lia)))) eq_refl) in Bf. discriminate. }
    destruct (Tj j ltac:(lia)) as (T1 & T2).
    assert (J1 : (1 <= j)%nat /\ (j = 10%nat \/ bounces (F := R) f (solution f (pred (k + j))) = true)).
    { destruct En as [(_ & X & _)|(_ & j0 & -> & X)].
      - rewrite C1 in X. apply (proj1 (@reached_R k j Hk J10 _ T2)) in X. lia.
      - split; [lia|]. right. rewrite solution_add in X. rewrite Nat.add_succ_r, Nat.pred_succ. exact X. }
    assert (Ep : nextCommunicationPoint (ctl (sinst s')) = INR (k + j) * h).
    { rewrite Es. cbn [ctl set_ctl nextCommunicationPoint set_nextCommunicationPoint].
      destruct En as [(-> & X & _)|(-> & _)].
      - rewrite C1 in X. apply (proj1 (@reached_R k j Hk J10 _ T2)) in X. rewrite X, plus_INR. replace (INR 10) with 10 by (cbn; lra). lra.
      - rewrite C1. exact T2. }
    destruct (bumps_fields m j (ctl (sinst s))) as (F1 & F2 & F3 & _ & F5 & F6 & _).
    exists j, out, s', t. split; [exact E'|]. split; [lia|]. rewrite Eo. cbn [wants_end last_time o_terminateSimulation o_lastSuccessfulTime].
    split; [apply G1|]. split; [rewrite C1; exact T2|]. split; [|split].
    - constructor.
      + eapply reach3_call; [exact (ei_reach I)| |exact E']. intros ? X; discriminate X.
      + unfold mode_of. rewrite Es. cbn [ctl set_ctl set_nextCommunicationPoint mode]. rewrite C1, F3. exact (ei_mode I).
      + rewrite Es. cbn [ctl set_ctl set_nextCommunicationPoint eventModeUsed]. rewrite C1, F6. exact (ei_ev I).
      + rewrite Es. cbn [ctl set_ctl set_nextCommunicationPoint earlyReturnAllowed]. rewrite C1, F5. exact (ei_er I).
      + rewrite Es. exact G1.
      + rewrite Es. exact H1.
      + unfold steps_of. rewrite Es. cbn [ctl set_ctl set_nextCommunicationPoint nSteps]. rewrite C1. exact T1.
      + unfold start_of. rewrite Es. cbn [ctl set_ctl set_nextCommunicationPoint startTime]. rewrite C1, F1. exact (ei_start I).
      + unfold stop_of. rewrite Es. cbn [ctl set_ctl set_nextCommunicationPoint stopTime]. rewrite C1, F2. exact (ei_stop I).
      + exact Ep.
      + unfold time_of. rewrite Es. cbn [ctl set_ctl set_nextCommunicationPoint time]. rewrite C1. exact T2.
    - intros i Hi. specialize (Q i Hi). now rewrite solution_add in Q.
    - apply J1.
  Qed.

  Lemma recalculated_einv k s s1 : recalculated f (sinst s) (sinst s1) -> reach3 m szof s1 -> einv k s -> einv k s1.
  Proof.
    intros Rec R1 I. destruct (recalculated_keeps Rec Rc (ei_going I) (ei_held I)) as (G1 & H1). pose proof Rec as (C1 & _).
    constructor; auto; unfold mode_of, steps_of, start_of, stop_of, end_of, time_of; rewrite C1.
    - exact (ei_mode I). - exact (ei_ev I). - exact (ei_er I). - exact (ei_steps I). - exact (ei_start I). - exact (ei_stop I). - exact (ei_end I). - exact (ei_time I).
  Qed.

  Lemma early_steps M n : (N.of_nat M + 1 < 100000)%N -> (11 <= fuel)%nat -> stop < INR M * h -> forall k s, einv k s -> (M <= k + n)%nat -> (0 < n)%nat ->
    exists l s', early_loop f szof fuel env stop n (INR k * h) false s = Done (inl tt, s', map (row f (point f) (solution f)) l) /\ mode_of s' = StepMode /\ visits f stop k l.
  Proof.
    intros HM Hf Hs. pose proof (step_R inf f Rc) as Hh. induction n as [|n IH]; intros k s I Hn Hp; [lia|].
    destruct (@record_eq R _ f szof fuel env (INR k * h) s Rc (ei_reach I) (or_introl (ei_mode I))) as (s1 & E1 & Rec & R1).
    pose proof (recalculated_einv Rec R1 I) as I1.
    assert (Er : (INR k * h, OVals TFloat64 (Some (states FMI3 f (data (mut (sinst s)))))) = row (F := R) f (point f) (solution f) k).
    { unfold row. rewrite (point_R inf), (proj1 (ei_held I)). reflexivity. }
    cbn [early_loop]. unfold pbind at 1. unfold bind at 1. rewrite E1. cbn [orb].
    unfold stepSize. rewrite ten_R. change (nadd (INR k * h) (10 * h)) with (INR k * h + 10 * h).
    assert (V : nlt stop (nadd (point (F := R) f k) (nmul (nlit 10 0) h)) = nlt stop (INR k * h + 10 * h)) by (rewrite (point_R inf), ten_R; reflexivity).
    destruct (nlt stop (INR k * h + 10 * h)) eqn:El.
    - exists [k], s1. split; [rewrite Er; reflexivity|]. split; [exact (ei_mode I1)|]. constructor. exact V.
    - assert (Ls : INR k * h + 10 * h <= stop).
      { cbn [nlt NR NumR] in El. unfold Rltb in El. destruct (Rlt_dec stop (INR k * h + 10 * h)); [discriminate|lra]. }
      assert (Lk : (k + 10 < M)%nat).
      { apply INR_lt. rewrite plus_INR. replace (INR 10) with 10 by (cbn; lra). apply Rmult_lt_reg_r with h; lra. }
      destruct (@early_step k s1 I1 ltac:(lia) Hf Ls) as (j & out & s2 & t & E2 & Hj & We & Lt & I2 & Q & Bn).
      destruct (IH (k + j)%nat s2 I2 ltac:(lia) ltac:(lia)) as (l & s3 & E3 & M3 & V3).
      exists (k :: l), s3. unfold pbind, bind, CALL. rewrite E2, We, Lt, E3. split; [rewrite Er; reflexivity|]. split; [exact M3|].
      apply visits_step with (k + j)%nat; [exact V|lia| |destruct Bn as [->|Bn]; [left; reflexivity|right; exact Bn]|exact V3].
      intros i Hi Hl. specialize (Q (i - k)%nat ltac:(lia)). replace (k + (i - k))%nat with i in Q by lia. exact Q.
  Qed.

  Lemma early_begin : exists i t o1 s1 o2 s2,
    newCS f env S None false true false = Done (Some i, t) /\
    CALL f szof fuel env (O3EnterInitializationMode nzero true stop) (mkSys i []) = Done (inl o1, s1, []) /\
    CALL f szof fuel env O3ExitInitializationMode s1 = Done (inl o2, s2, []) /\ einv 0 s2.
  Proof.
    assert (G : exists i t o1 s1 o2 s2,
      newCS f env S None false true false = Done (Some i, t) /\
      CALL f szof fuel env (O3EnterInitializationMode nzero true stop) (mkSys i []) = Done (inl o1, s1, []) /\
      CALL f szof fuel env O3ExitInitializationMode s1 = Done (inl o2, s2, []) /\
      mode_of s2 = StepMode /\ eventModeUsed (ctl (sinst s2)) = false /\ earlyReturnAllowed (ctl (sinst s2)) = true /\ going f (sinst s2) /\
      held f (solution f 0) (data (mut (sinst s2))) /\ steps_of s2 = 0%N /\ start_of s2 = nzero /\ stop_of s2 = stop /\ end_of s2 = nzero /\ time_of s2 = nzero).
    { clear - Rc. generalize (NR inf). intro X. destruct f; try discriminate Rc; do 6 eexists; (split; [lazy -[nle nlt nadd nmul nopp nlit nzero ndblmin nofN ninf ntrunc cstr]; reflexivity|]);
      (split; [lazy -[nle nlt nadd nmul nopp nlit nzero ndblmin nofN ninf ntrunc cstr]; reflexivity|]);
      (split; [lazy -[nle nlt nadd nmul nopp nlit nzero ndblmin nofN ninf ntrunc cstr]; reflexivity|]).
      all: repeat split; reflexivity. }
    destruct G as (i & t & o1 & s1 & o2 & s2 & E1 & E2 & E3 & K1 & K2 & K3 & K4 & K5 & K6 & K7 & K8 & K9 & K10). exists i, t, o1, s1, o2, s2.
    split; [exact E1|]. split; [exact E2|]. split; [exact E3|].
    constructor; auto; [|rewrite K7; apply zero_R|rewrite K9, zero_R; cbn; lra|rewrite K10, zero_R; cbn; lra].
    eapply CALL_reach; [| |exact E3]; [reflexivity|]. eapply CALL_reach; [| |exact E2]; [reflexivity|]. constructor.
    right; left. unfold newCS in E1. do 11 eexists. exact E1.
  Qed.

  Theorem cs_early_return_R M n : (N.of_nat M + 1 < 100000)%N -> (11 <= fuel)%nat -> stop < INR M * h -> (M <= n)%nat -> (0 < n)%nat ->
    exists l s, cs_early_return f szof fuel env S stop n = Done (OK, map (row f (point f) (solution f)) l, Some s) /\ visits f stop 0 l /\
      (forall i, bounces (F := R) f (solution f i) = true -> (Datatypes.S i <= last l 0)%nat -> In (Datatypes.S i) l).
  Proof.
    intros HM Hf Hs Hn Hp. destruct early_begin as (i & t & o1 & s1 & o2 & s2 & E1 & E2 & E3 & I).
    destruct (@early_steps M n HM Hf Hs 0 s2 I Hn Hp) as (l & s3 & E4 & M3 & V).
    replace (INR 0 * h) with (nzero (F := R)) in E4 by (rewrite zero_R; cbn; lra).
    exists l. unfold cs_early_return, program. rewrite E1. unfold pbind, bind at 1. rewrite E2. unfold bind at 1. rewrite E3. rewrite E4.
    cbn [app]. rewrite term_eq by auto. eexists. split; [reflexivity|]. split; [exact V|]. intros i0 Hi Hl. apply (visits_bounces V); auto. lia.
  Qed.
End EarlyR.

(** ** cs_intermediate_update.c (C59) *)
Section UpdateR.
  Variable inf : R.
  Local Hint Extern 0 (Num R) => exact (NR inf) : typeclass_instances.
  Local Open Scope R_scope.
  Variables (f : FMU) (szof : N) (fuel : nat) (env : Env) (S : N) (stop : R).
  Hypothesis Rc : recorded f = true.
  Notation m := (model_of (F := R) FMI3 f).
  Notation h := (m_step m).

  Lemma update_begin : exists i t o1 s1 o2 s2,
    newCS f env S None false false true = Done (Some i, t) /\
    CALL f szof fuel env (O3EnterInitializationMode nzero true stop) (mkSys i []) = Done (inl o1, s1, []) /\
    CALL f szof fuel env O3ExitInitializationMode s1 = Done (inl o2, s2, []) /\ reach3 m szof s2 /\
    mode_of s2 = StepMode /\ set_up FMI3 f (sinst s2) /\
    steps_of s2 = 0%N /\ start_of s2 = nzero /\ stop_of s2 = stop /\ end_of s2 = nzero /\ time_of s2 = nzero.
  Proof.
    assert (G : exists i t o1 s1 o2 s2,
      newCS f env S None false false true = Done (Some i, t) /\
      CALL f szof fuel env (O3EnterInitializationMode nzero true stop) (mkSys i []) = Done (inl o1, s1, []) /\
      CALL f szof fuel env O3ExitInitializationMode s1 = Done (inl o2, s2, []) /\
      mode_of s2 = StepMode /\ set_up FMI3 f (sinst s2) /\
      steps_of s2 = 0%N /\ start_of s2 = nzero /\ stop_of s2 = stop /\ end_of s2 = nzero /\ time_of s2 = nzero).
    { clear - Rc. generalize (NR inf). intro X. destruct f; try discriminate Rc; do 6 eexists; (split; [lazy -[nle nlt nadd nmul nopp nlit nzero ndblmin nofN ninf ntrunc cstr]; reflexivity|]);
      (split; [lazy -[nle nlt nadd nmul nopp nlit nzero ndblmin nofN ninf ntrunc cstr]; reflexivity|]);
      (split; [lazy -[nle nlt nadd nmul nopp nlit nzero ndblmin nofN ninf ntrunc cstr]; reflexivity|]).
      all: repeat split; reflexivity. }
    destruct G as (i & t & o1 & s1 & o2 & s2 & E1 & E2 & E3 & K). exists i, t, o1, s1, o2, s2.
    split; [exact E1|]. split; [exact E2|]. split; [exact E3|]. split; [|exact K].
    eapply CALL_reach; [| |exact E3]; [reflexivity|]. eapply CALL_reach; [| |exact E2]; [reflexivity|]. constructor.
    right; left. unfold newCS in E1. do 11 eexists. exact E1.
  Qed.

  Theorem cs_intermediate_update_R n : (11 <= fuel)%nat -> (2 <= n)%nat -> 20 * h < stop ->
    exists s, cs_intermediate_update f szof fuel env S stop n = Done (Error, nil, Some s).
  Proof.
    intros Hf Hn Hs. pose proof (step_R inf f Rc) as Hh.
    destruct update_begin as (i & t & o1 & s1 & o2 & s & E1 & E2 & E3 & Rs & M & Su & K1 & K2 & K3 & K4 & K5).
    rewrite zero_R in K2, K4, K5.
    assert (Tj : forall j, (j <= 11)%nat -> time (bumps m j (ctl (sinst s))) = INR (0 + j) * h).
    { intros j Hj. apply (@bumps_R inf f 0 j (ctl (sinst s))); [exact K1|exact K2|unfold time_of in K5; rewrite K5; cbn; lra|unfold two64; lia]. }
    assert (Z : INR 0 * h = 0) by (cbn; lra).
    assert (Re : forall j, (j <= 10)%nat -> (pointReached m (0 + 10 * h) (bumps m j (ctl (sinst s))) = true <-> j = 10%nat)).
    { intros j Hj. pose proof (@reached_R inf f Rc 0 j ltac:(reflexivity) Hj _ (Tj j ltac:(lia))) as X. now rewrite Z in X. }
    assert (Ac : acceptable s 0 (10 * h)).
    { split; [rewrite K4; apply isClose_refl_R|]. split.
      - rewrite zero_R. cbn [nle NR NumR]. apply Rleb_false. lra.
      - rewrite K3. apply (beyond_false_R inf). cbn [nadd NR NumR]. pose proof (tol_pos (0 + 10 * h) stop). lra. }
    assert (P : exists out s' t, exec3 m szof fuel env (O3DoStep 0 (10 * h) true true true true) s = Done (OK, out, s', t)).
    { apply (@progress3 R _ szof f fuel env 0 (10 * h) s 10); auto.
      - intros X. pose proof Rc as Y. rewrite X in Y. discriminate Y.
      - intros X. pose proof Rc as Y. rewrite X in Y. discriminate Y.
      - rewrite <- bumps_time. now apply (Re 10%nat). }
    destruct P as (out & s' & t' & E). pose proof E as E'.
    apply dostep3 in E as [(X & _)|(_ & _ & _ & e & r & i' & k & El & _ & L & [(X & _)|(_ & Es & Eo)])]; [discriminate|discriminate| |exact Rs].
    change (nadd 0 (10 * h)) with (0 + 10 * h) in *.
    assert (J10 : (k <= 10)%nat).
    { destruct (Nat.le_gt_cases k 10) as [|X]; [assumption|]. exfalso. pose proof (lp_before L X) as Y. rewrite (proj2 (Re 10%nat ltac:(lia)) eq_refl) in Y. discriminate. }
    assert (Kc : ctl i' = bumps m k (ctl (sinst s)) /\ (r = true -> k = 10%nat)).
    { destruct (lp_end L) as [(_ & _ & C & _ & X)|[(_ & _ & C & X & _)|(X & _)]]; [|split; [exact C|congruence]|discriminate].
      split; [exact C|]. intros _. rewrite C in X. now apply Re. }
    destruct Kc as (C & Kr).
    assert (Kl : INR k <= 10) by (replace 10 with (INR 10) by (cbn; lra); apply le_INR; exact J10).
    assert (Kp : 0 <= INR k) by apply pos_INR.
    assert (T : time (ctl i') = INR k * h) by (rewrite C; apply (Tj k); lia).
    assert (M' : mode_of s' = StepMode).
    { unfold mode_of. rewrite Es. cbn [ctl set_ctl set_nextCommunicationPoint mode]. rewrite C, (proj1 (proj2 (proj2 (bumps_fields m k (ctl (sinst s)))))). exact M. }
    assert (En : end_of s' = INR k * h).
    { unfold end_of. rewrite Es. cbn [ctl set_ctl set_nextCommunicationPoint nextCommunicationPoint]. destruct r; [|exact T].
      rewrite (Kr eq_refl). replace (INR 10) with 10 by (cbn; lra). lra. }
    assert (Na : ~ acceptable s' (INR k * h + 10 * h) (10 * h)).
    { intros (X & _). rewrite En in X. unfold isClose in X. cbn -[EPSILON fmiAbs fmiMax Rleb] in X. rewrite eps_R, !abs_R, !max_R in X.
      replace (INR k * h + 10 * h - INR k * h) with (10 * h) in X by lra. rewrite !Rabs_pos_eq in X by nra.
      rewrite (Rmax_left (INR k * h + 10 * h)) in X by nra. destruct (Rleb (10 * h) (1 / 100000)) eqn:Y; [apply Rleb_spec in Y|apply Rleb_spec in X]; nra. }
    destruct n as [|[|n]]; [lia|lia|].
    unfold cs_intermediate_update, program. rewrite E1. unfold pbind, bind at 1. rewrite E2. unfold bind at 1. rewrite E3.
    cbn [update_loop]. unfold pbind. unfold stepSize. rewrite ten_R, zero_R.
    assert (L1 : nlt 0 stop = true) by (cbn [nlt NR NumR]; unfold Rltb; destruct (Rlt_dec 0 stop); [reflexivity|lra]).
    rewrite L1. unfold bind at 1. unfold CALL at 1. rewrite E'. rewrite Eo. cbn [last_time o_lastSuccessfulTime]. rewrite T.
    change (nadd (INR k * h) (10 * h)) with (INR k * h + 10 * h).
    assert (L2 : nlt (INR k * h + 10 * h) stop = true) by (cbn [nlt NR NumR]; unfold Rltb; destruct (Rlt_dec (INR k * h + 10 * h) stop); [reflexivity|nra]).
    rewrite L2. unfold bind, CALL. rewrite (@dostep3_refused R _ szof f) by assumption. eexists. reflexivity.
  Qed.
End UpdateR.

(** ** The fall of the ball to its first bounce, in exact arithmetic *)
Section Fall.
  Variable inf : R.
  Local Hint Extern 0 (Num R) => exact (NR inf) : typeclass_instances.
  Local Open Scope R_scope.
  Definition falling (n : nat) : list R := [1 - 981 / 200000000 * (INR n * (INR n - 1)); - (981 / 100000) * INR n; - (981 / 100)].
  Lemma lits_R : nlit (F := R) 1 (-3) = 1 / 1000 /\ nlit (F := R) 1 0 = 1 /\ nlit (F := R) 981 (-2) = 981 / 100.
  Proof. cbn. change (Pos.to_nat 3) with 3%nat. change (Pos.to_nat 2) with 2%nat. cbn [pow]. repeat split; lra. Qed.
  Lemma ground_pos h v : 0 < h -> ground (F := R) h v = h.
  Proof.
    intro H. unfold ground. rewrite zero_R. replace (nle h 0) with false by (symmetry; apply Rleb_false; lra). now rewrite andb_false_r.
  Qed.
  Lemma ground_down h v : v <= 0 -> ground (F := R) h v = h.
  Proof.
    intro H. unfold ground. rewrite zero_R. replace (nlt 0 v) with false by (cbn [nlt NR NumR]; unfold Rltb; destruct (Rlt_dec 0 v); [lra|reflexivity]). now rewrite andb_false_r.
  Qed.
  Lemma fall_step n : (n < 452)%nat -> changes_sign (F := R) (1 - 981 / 200000000 * (INR n * (INR n - 1))) (1 - 981 / 200000000 * (INR (S n) * INR n)) = false.
  Proof.
    intro H. unfold changes_sign. rewrite zero_R, S_INR. assert (A : INR n <= 451) by (replace 451 with (INR 451) by (rewrite INR_IZR_INZ; reflexivity); apply le_INR; lia).
    pose proof (pos_INR n).
    replace (nle (1 - 981 / 200000000 * (INR n * (INR n - 1))) 0) with false by (symmetry; apply Rleb_false; nra).
    replace (nle (1 - 981 / 200000000 * ((INR n + 1) * INR n)) 0) with false by (symmetry; apply Rleb_false; nra).
    now rewrite andb_false_r.
  Qed.
  Lemma fall_ground n : (n <= 452)%nat -> forall v w, v <= 0 -> w <= 0 ->
    bounces (F := R) BouncingBall [1 - 981 / 200000000 * (INR n * (INR n - 1)); v; w] =
    changes_sign (F := R) (1 - 981 / 200000000 * (INR n * (INR n - 1))) (1 - 981 / 200000000 * (INR n * (INR n - 1)) + 1 / 1000 * v).
  Proof.
    intros _ v w Hv Hw. cbn [bounces]. rewrite (proj1 lits_R), !ground_down by (cbn [nadd nmul NR NumR]; lra). reflexivity.
  Qed.
  Local Ltac list3 := apply (f_equal2 (@cons R)); [lra|apply (f_equal2 (@cons R)); [lra|apply (f_equal2 (@cons R)); [lra|reflexivity]]].
  Lemma fall n : (n <= 452)%nat -> solution (F := R) BouncingBall n = falling n.
  Proof.
    induction n as [|n IH]; intro H.
    - unfold solution, falling. cbn [Nat.iter begin]. rewrite zero_R, (proj1 (proj2 lits_R)), (proj2 (proj2 lits_R)). cbn [nopp NR NumR INR]. list3.
    - change (solution (F := R) BouncingBall (S n)) with (next (F := R) BouncingBall (solution BouncingBall n)). rewrite IH by lia. unfold falling at 1. cbn [next].
      pose proof (pos_INR n). rewrite (proj1 lits_R), !ground_down by (cbn [nadd nmul NR NumR]; lra). cbn [nadd nmul NR NumR].
      replace (1 - 981 / 200000000 * (INR n * (INR n - 1)) + 1 / 1000 * (- (981 / 100000) * INR n)) with (1 - 981 / 200000000 * (INR (S n) * INR n)) by (rewrite S_INR; lra).
      rewrite fall_step by lia. unfold falling. rewrite S_INR. list3.
  Qed.
  Lemma first_bounce : bounces (F := R) BouncingBall (solution BouncingBall 452) = true /\ forall n, (n < 452)%nat -> bounces (F := R) BouncingBall (solution BouncingBall n) = false.
  Proof.
    split.
    - rewrite fall by lia. unfold falling. rewrite fall_ground; [|lia|pose proof (pos_INR 452); lra|lra].
      replace (INR 452) with 452 by (rewrite INR_IZR_INZ; reflexivity). unfold changes_sign. rewrite zero_R. apply orb_true_iff. right. apply andb_true_iff. split.
      + cbn [nlt NR NumR]. unfold Rltb. destruct (Rlt_dec _ _); [reflexivity|lra].
      + apply Rleb_spec. lra.
    - intros n H. rewrite fall by lia. unfold falling. pose proof (pos_INR n). rewrite fall_ground; [|lia|lra|lra].
      rewrite <- (fall_step H). f_equal. rewrite S_INR. lra.
  Qed.
End Fall.
