(** Runs.v -- the example programs (C56-C61). *)
From Coq Require Import List NArith ZArith Bool Arith Lia Reals.
From Verif Require Import Base Instance ModelIface Core Fmi3 Fmi2 Api Fmus NumR SpecModes SpecCreate SpecState SpecSteps SpecOde SpecSafe SpecPrograms Programs
  Logic Calls Dyn Solver Fits Steps StepsFmus StepProps StepReal Ode SafeAll Progress SpecVars Data Reach Histories
  FmuBouncingBall FmuDahlquist FmuVanDerPol.
Import ListNotations.
Set Implicit Arguments.

Section Runs.
  Context {F : Type} {NF : Num F} (f : FMU) (szof : N) (fuel : nat) (env : Env).
  Notation m := (model_of (F := F) FMI3 f).
  Notation D := (md m).

  Definition recalculated (i i' : Inst F D) : Prop :=
    ctl i' = ctl i /\ sol i' = sol i /\ exists b d, mut i' = set_dirty b (set_data d (mut i)) /\
      states FMI3 f d = states FMI3 f (data (mut i)) /\ frozen FMI3 f d = frozen FMI3 f (data (mut i)).

  Definition observes (s : Sys F D) : Prop := mode_of s = StepMode \/ mode_of s = ContinuousTimeMode.
  Lemma record_eq time s : recorded f = true -> reach3 m szof s -> observes s ->
    exists s', recordVariables f szof fuel env time s = Done (inl tt, s', [(time, OVals TFloat64 (Some (states FMI3 f (data (mut (sinst s))))))]) /\
      recalculated (sinst s) (sinst s') /\ reach3 m szof s'.
  Proof.
    intros Rc Rs M.
    assert (G : exists s', recordVariables f szof fuel env time s = Done (inl tt, s', [(time, OVals TFloat64 (Some (states FMI3 f (data (mut (sinst s))))))]) /\
      recalculated (sinst s) (sinst s')).
    { clear Rs. unfold recalculated. unfold observes, mode_of in M.
      destruct f; try discriminate Rc; destruct s as [[c u o] hp];
      cbn [md model_of BouncingBall_model Dahlquist_model VanDerPol_model] in u, hp |- *; destruct u as [u1 u2 u3 u4 u5 u6 u7 [] d];
      destruct c as [c1 c2 c3 c4 c5 c6 c7 c8 c9 c10 c11 c12 c13 c14 c15 md c17 c18 c19 c20]; cbn in M; destruct M; subst md;
      (eexists; split; [reflexivity|]; split; [reflexivity|]; split; [reflexivity|]; do 2 eexists; split; [reflexivity|]; split; reflexivity). }
    destruct G as (s' & E & Rec). exists s'. split; [exact E|]. split; [exact Rec|]. clear M Rec.
    destruct f; try discriminate Rc; unfold recordVariables, record_values in E.
    all: match type of E with match ?e with _ => _ end = _ => destruct e as [[[[st out] s1] t]| |] eqn:E1; try discriminate end;
      injection E; intros; subst; eapply reach3_call; [exact Rs| |exact E1]; intros ? X; discriminate X.
  Qed.

  (** ** A communication step of one solver step *)
  Lemma loop3_one n ncp (i : Inst F D) e r i' t : sane FMI3 f i -> eventModeUsed (ctl i) = false -> earlyReturnAllowed (ctl i) = false ->
    pointReached m ncp (ctl i) = false -> pointReached m ncp (bump m (ctl i)) = true ->
    doStep_loop m env n ncp false OK i = Done ((OK, e, r), i', t) ->
    e = false /\ steps_with FMI3 f (handled FMI3 f env) 1 i i' /\ ctl i' = bump m (ctl i) /\ (r = true \/ terminateSimulation (mut i') = true).
  Proof.
    intros Sn Em Er P0 P1 E. destruct n as [|n]; [discriminate|].
    rewrite loop3_eq, P0 in E. cbn [andb orb] in E.
    unfold bind in E. pose proof (pass3_spec (events_all FMI3 f env) false (proj1 Sn)) as Ps.
    destruct (pass3 m env false OK i) as [[[[[st1 e1] go] i1] t1]| |] eqn:Ep; try discriminate. cbn in Ps.
    assert (K : ctl i1 = bump m (ctl i) -> e1 = false -> st1 = OK ->
      (go = false -> earlyReturnAllowed (ctl i) = true \/ terminateSimulation (mut i1) = true) ->
      steps_with FMI3 f (handled FMI3 f env) 1 i i1 ->
      e = false /\ steps_with FMI3 f (handled FMI3 f env) 1 i i' /\ ctl i' = bump m (ctl i) /\ (r = true \/ terminateSimulation (mut i') = true)).
    { intros C -> -> Hg Hq. destruct go.
      - destruct n as [|n]; [discriminate|]. rewrite loop3_eq, C, P1 in E. cbn [orb] in E. injection E; intros; subst. auto.
      - injection E; intros; subst. destruct (Hg eq_refl); [congruence|]. auto. }
    pose proof (passed3_ok (events_all FMI3 f env) (proj1 Sn) Ps) as (_ & Pk).
    inversion Ps as [i0 t0 i1' En Ft0 St Ev|i0 t0 i1' En Ft0 St Ev Em1|i0 t0 i1' i2 t2 i3 En Ft0 St Ev Em1 Ec Rf|i0 t0 i1' i2 t2 En Ft0 St Ev Em1 Ec t3 Nt]; subst; unfold entered in En; rewrite andb_false_r in En; destruct En as (-> & ->); [| | |discriminate E].
    - destruct Pk as [(_ & Fi & C & G & _)|(X & _)]; [|discriminate]. apply K; [exact C|reflexivity|reflexivity|exact G|].
      eapply with_quiet; [apply (step_spec Sn St)| |constructor]. intro H. apply (event_spec Sn St) in H. congruence.
    - congruence.
    - destruct Pk as [(_ & Fi & C & G & _)|(X & _)]; [|discriminate].
      assert (He : m_eventUpdate m = true) by (unfold event_at in Ev; now destruct (m_eventUpdate m)).
      destruct (step_spec Sn St) as (Sv & Sn1). destruct (call_handled env Sn1 He Ec Rf Fi) as (Hd & Sn3).
      apply K; [exact C|reflexivity|reflexivity|exact G|].
      eapply with_event; [exact Sv|now apply (event_spec Sn St)|exact Hd|constructor].
  Qed.

  Lemma one3 ccp s : f <> Stair -> reach3 m szof s -> location_fits FMI3 f (resourceLocation (ctl (sinst s))) ->
    mode_of s = StepMode -> set_up FMI3 f (sinst s) -> eventModeUsed (ctl (sinst s)) = false -> earlyReturnAllowed (ctl (sinst s)) = false ->
    acceptable s ccp (m_step m) -> 2 <= fuel ->
    beyond (nadd (time_of s) (m_step m)) (nadd ccp (m_step m)) = false ->
    beyond (nadd (time (bump m (ctl (sinst s)))) (m_step m)) (nadd ccp (m_step m)) = true ->
    exists i' r s' t, exec3 m szof fuel env (O3DoStep ccp (m_step m) true true true true) s =
        Done (OK, ODoStep (mkDoStepOut (Some false) (Some (terminateSimulation (mut i'))) (Some false) (Some (time (ctl i')))), s', t) /\
      reach3 m szof s' /\ steps_with FMI3 f (handled FMI3 f env) 1 (sinst s) i' /\ ctl i' = bump m (ctl (sinst s)) /\
      (r = true \/ terminateSimulation (mut i') = true) /\
      sinst s' = set_ctl (set_nextCommunicationPoint (if r then nadd ccp (m_step m) else time (ctl i')) (ctl i')) i'.
  Proof.
    intros Ns Rs Lf M Su Em Er A Hf B0 B1.
    assert (P : exists out s' t, exec3 m szof fuel env (O3DoStep ccp (m_step m) true true true true) s = Done (OK, out, s', t)).
    { apply (@progress3 F NF szof f fuel env ccp (m_step m) s 1); auto. }
    destruct P as (out & s' & t & E). pose proof E as E'.
    apply dostep3 in E as [(X & _)|(_ & _ & _ & e & r & i' & k & El & _ & L & [(X & _)|(_ & Es & ->)])]; [discriminate|discriminate| |exact Rs].
    assert (Sn : sane FMI3 f (sinst s)) by (apply (@sane_reach F NF szof f s Rs); rewrite M; discriminate).
    destruct (@loop3_one fuel _ _ _ _ _ _ Sn Em Er B0 B1 El) as (-> & Sw & C & Hr).
    exists i', r, s', t. split.
    { rewrite E'. do 3 f_equal. replace (earlyReturnAllowed (ctl i')) with false by (rewrite C; symmetry; exact Er). reflexivity. }
    split; [eapply reach3_call; [exact Rs| |exact E']; intros ? X; discriminate X|]. auto.
  Qed.

End Runs.

(** ** The states of the solution *)
Section Held.
  Context {F : Type} {NF : Num F} (f : FMU).
  Notation m := (model_of (F := F) FMI3 f).
  Notation D := (md m).
  Definition held (x : list F) (d : D) : Prop :=
    states FMI3 f d = shown f x /\
    frozen FMI3 f d =
      match f return md (model_of (F := F) FMI3 f) -> md (model_of (F := F) FMI3 f) with
      | BouncingBall => fun _ => mkBB nzero nzero (nth 2 x nzero) (nlit 7 (-1))
      | Dahlquist => fun _ => mkDA nzero nzero (nlit 1 0)
      | VanDerPol => fun _ => mkVP nzero nzero nzero nzero (nlit 1 0)
      | _ => fun d => d
      end d.
  Definition going (i : Inst F D) : Prop :=
    set_up FMI3 f i /\ current FMI3 f i /\ nextEventTimeDefined (mut i) = false /\ terminateSimulation (mut i) = false.

  Variables (szof : N) (stop : F).
  Record inv (k : nat) (s : Sys F D) : Prop := mkInv {
    in_reach : reach3 m szof s;
    in_mode : mode_of s = StepMode;
    in_ev : eventModeUsed (ctl (sinst s)) = false;
    in_er : earlyReturnAllowed (ctl (sinst s)) = false;
    in_going : going (sinst s);
    in_held : held (solution f k) (data (mut (sinst s)));
    in_steps : steps_of s = N.of_nat k;
    in_start : start_of s = nzero;
    in_stop : stop_of s = stop;
    in_end : end_of s = target f k;
    in_time : time_of s = internal f k }.
End Held.
Arguments inv {F NF} f szof stop k s.
Arguments held {F NF} f x d.
Arguments going {F NF} f i.
Arguments recalculated {F NF} f i i'.

Section Solution.
  Context {F : Type} {NF : Num F} (f : FMU) (szof : N) (fuel : nat) (env : Env).
  Notation m := (model_of (F := F) FMI3 f).
  Notation D := (md m).

  Lemma next_len x : length x = length (begin f) -> length (next f x) = length (begin f).
  Proof.
    destruct f; cbn [begin next length]; destruct x as [|a [|b [|c [|]]]]; cbn [length]; intro L; try discriminate L; try reflexivity.
    destruct (changes_sign _ _); [|reflexivity]. unfold bounced. destruct (_ && _); [|reflexivity]. destruct (nlt _ _); reflexivity.
  Qed.
  Lemma solution_len n : length (solution (F := F) f n) = length (begin (F := F) f).
  Proof. induction n; [reflexivity|]. apply next_len. exact IHn. Qed.

  Lemma crossing_bb (i i' : Inst F (md (model_of (F := F) FMI3 BouncingBall))) : current FMI3 BouncingBall i ->
    crossing FMI3 BouncingBall i i' <->
    changes_sign (ground (bb_h (data (mut i))) (bb_v (data (mut i)))) (ground (bb_h (data (mut i'))) (bb_v (data (mut i')))) = true.
  Proof.
    intro Cu. unfold crossing. rewrite Cu. unfold changes_sign. rewrite orb_true_iff, !andb_true_iff. split.
    - intros ([|[|j]] & a & b & A & B & C); cbn in A, B; try discriminate. injection A as <-. injection B as <-. exact C.
    - intro C. exists 0, (ground (bb_h (data (mut i))) (bb_v (data (mut i)))), (ground (bb_h (data (mut i'))) (bb_v (data (mut i')))).
      split; [reflexivity|]. split; [reflexivity|exact C].
  Qed.

  Lemma next_held x (i i' : Inst F D) : recorded f = true -> length x = length (begin f) -> held f x (data (mut i)) -> going f i ->
    steps_with FMI3 f (handled FMI3 f env) 1 i i' -> held f (next f x) (data (mut i')) /\ going f i'.
  Proof.
    intros Rc Lx (Hs & Hf) (Su & Cu & Nd & Tm) W.
    inversion W as [|k j i1 j' Sv Ne W1|k j i1 i2 j' Sv Ev Hd W1]; subst; inversion W1; subst; clear W W1.
    - assert (Sl : solving FMI3 f i) by (unfold solving; rewrite (proj1 Su); destruct f; try discriminate Rc; cbn; lia).
      pose proof (sv_euler Sv Sl) as E1. pose proof (sv_frozen Sv) as E2. pose proof (sv_mut Sv) as E3.
      assert (Nd' : nextEventTimeDefined (mut i') = false) by (rewrite E3; exact Nd).
      assert (Tm' : terminateSimulation (mut i') = false) by (rewrite E3; exact Tm).
      assert (Su' : set_up FMI3 f i').
      { destruct Su as (A & B). split; [rewrite (sv_nx Sv), A|rewrite (sv_nz Sv), B]; destruct f; try discriminate Rc; reflexivity. }
      assert (Cu' : current FMI3 f i').
      { unfold current. destruct (Nat.eq_dec (nz (sol i)) 0) as [Z|Z]; [|apply (sv_stored Sv); unfold watching; lia].
        unfold SpecOde.stored. rewrite (sv_nz Sv), Z. cbn [firstn]. rewrite (proj2 Su) in Z. destruct f; try discriminate Rc; try reflexivity. discriminate Z. }
      split; [|split; [exact Su'|split; [exact Cu'|split; [exact Nd'|exact Tm']]]].
      unfold going in *; clear Su Su' Cu' Nd' Tm' Sl Sv E3. unfold held in Hs, Hf |- *. rewrite E1, E2.
      destruct f; try discriminate Rc; destruct x as [|a [|b [|c [|]]]]; try discriminate Lx; cbn in Hs, Hf.
      + injection Hs as H1 H2. injection Hf as H3 H4. cbn in E1. injection E1 as E4 E5.
        rewrite H1, H2, H3 in *. change bb_step with (nlit (F := F) 1 (-3)) in *.
        pose proof (proj2 (crossing_bb i' Cu)) as Cr. cbn [md model_of BouncingBall_model] in Cr. rewrite E4, E5, H1, H2 in Cr.
        assert (Cs : changes_sign (ground a b) (ground (nadd a (nmul (nlit 1 (-3)) b)) (nadd b (nmul (nlit 1 (-3)) c))) = false).
        { apply not_true_is_false. intro X. apply Ne. split; [reflexivity|]. left. exact (Cr X). }
        cbn [next shown]. rewrite Cs. cbn. rewrite H1, H2, H3, H4. split; reflexivity.
      + injection Hs as H1. injection Hf as H2. cbn. rewrite H1, H2. split; reflexivity.
      + injection Hs as H1 H2. injection Hf as H3. cbn. rewrite H1, H2, H3. split; reflexivity.
    - unfold going in *. destruct f; try discriminate Rc; destruct Ev as (He & Ev); try discriminate He.
      destruct Ev as [Ev|(X & _)]; [|congruence]. apply (crossing_bb _ Cu) in Ev. cbn [md model_of BouncingBall_model] in Ev.
      assert (Sl : solving FMI3 BouncingBall i) by (unfold solving; rewrite (proj1 Su); cbn; lia).
      pose proof (sv_euler Sv Sl) as E1. pose proof (sv_frozen Sv) as E2.
      destruct x as [|a [|b [|c [|]]]]; try discriminate Lx; cbn in Hs, Hf.
      injection Hs as H1 H2. injection Hf as H3 H4. cbn in E1, E2. injection E1 as E4 E5. injection E2 as E6 E7.
      rewrite H1, H2, H3, H4 in *. rewrite E4, E5 in Ev. change bb_step with (nlit (F := F) 1 (-3)) in *.
      destruct Hd as ((u & t & Ee & _ & (b0 & d0 & Em & Fd & Sd) & Nx & Nz) & St).
      specialize (St ltac:(cbn; lia)).
      assert (G : held BouncingBall (next BouncingBall [a; b; c]) (data u) /\ nextEventTimeDefined u = false /\ terminateSimulation u = false).
      { cbn [next]. rewrite Ev. unfold held. clear St Em Sd Fd Su Cu Nd Tm Sv Sl Ev Nx Nz.
        cbn [m_eventUpdateF model_of BouncingBall_model] in Ee. unfold bb_eventUpdate in Ee.
        cbn [md model_of BouncingBall_model] in i1, u, Ee, E4, E5, E6, E7 |- *.
        destruct i1 as [c1 u1 o1]. destruct u1 as [? ? ? ? ? ? ? ? [h1 v1 g1 e1]]. cbn in E4, E5, E6, E7. subst h1 v1 g1 e1.
        lazy -[nle nlt nadd nmul nopp nlit nzero ndblmin andb] in Ee. unfold bounced.
        destruct (nle (nadd a _) nzero && nlt (nadd b _) nzero); [|injection Ee as <- _; cbn; auto].
        destruct (nlt _ (nlit 1 (-1))); injection Ee as <- _; cbn; auto. }
      destruct G as ((G1 & G2) & G3 & G4).
      split; [split; rewrite Em; cbn [data set_data set_dirty]; [now rewrite Sd|now rewrite Fd]|].
      split; [|split; [exact St|split; rewrite Em; [exact G3|exact G4]]].
      destruct Su as (A & B). split; [rewrite Nx, (sv_nx Sv), A|rewrite Nz, (sv_nz Sv), B]; reflexivity.
  Qed.

  (** ** The co-simulation program *)
  Lemma CALL_reach o s r s' l : image3 o = None -> reach3 m szof s -> CALL f szof fuel env o s = Done (r, s', l) -> reach3 m szof s'.
  Proof.
    intros Im Rs E. unfold CALL in E. destruct (exec3 m szof fuel env o s) as [[[[st out] s1] t]| |] eqn:E1; try discriminate.
    injection E; intros; subst. eapply reach3_call; [exact Rs| |exact E1]. intros i X. congruence.
  Qed.
  Lemma term_eq s rows : mode_of s = StepMode \/ mode_of s = ContinuousTimeMode \/ mode_of s = EventMode ->
    @tearDown F NF f szof fuel env OK s rows = Done (OK, rows, Some (with_mode Terminated s)).
  Proof.
    intros M. unfold tearDown. cbn [status_num Nat.ltb Nat.leb]. unfold mode_of in M. destruct s as [[c u o] hp].
    cbn [ctl sinst] in M. cbn [exec3]. rewrite outI_eq. unfold fmi3Terminate.
    rewrite BEGIN_pass by (cbn [ctl sinst]; destruct M as [M|[M|M]]; rewrite M; discriminate). reflexivity.
  Qed.

  Variables (S : N) (stop : F).
  Lemma cs_begin path : recorded f = true -> exists i t o1 s1 o2 s2,
    newCS f env S (Some path) false false false = Done (Some i, t) /\
    CALL f szof fuel env (O3EnterInitializationMode nzero true stop) (mkSys i []) = Done (inl o1, s1, []) /\
    CALL f szof fuel env O3ExitInitializationMode s1 = Done (inl o2, s2, []) /\ inv f szof stop 0 s2.
  Proof.
    intro Rc.
    assert (G : exists i t o1 s1 o2 s2,
      newCS f env S (Some path) false false false = Done (Some i, t) /\
      CALL f szof fuel env (O3EnterInitializationMode nzero true stop) (mkSys i []) = Done (inl o1, s1, []) /\
      CALL f szof fuel env O3ExitInitializationMode s1 = Done (inl o2, s2, []) /\ (reach3 m szof s2 -> inv f szof stop 0 s2)).
    { destruct f; try discriminate Rc; do 6 eexists; (split; [lazy -[nle nlt nadd nmul nopp nlit nzero ndblmin nofN ninf ntrunc cstr]; reflexivity|]);
      (split; [lazy -[nle nlt nadd nmul nopp nlit nzero ndblmin nofN ninf ntrunc cstr]; reflexivity|]);
      (split; [lazy -[nle nlt nadd nmul nopp nlit nzero ndblmin nofN ninf ntrunc cstr]; reflexivity|]).
      all: intro Rs; constructor; [exact Rs|..]; try reflexivity.
      all: first [split; reflexivity|split; [split; reflexivity|split; [reflexivity|split; reflexivity]]]. }
    destruct G as (i & t & o1 & s1 & o2 & s2 & E1 & E2 & E3 & K). exists i, t, o1, s1, o2, s2.
    split; [exact E1|]. split; [exact E2|]. split; [exact E3|]. apply K.
    eapply CALL_reach; [| |exact E3]; [reflexivity|]. eapply CALL_reach; [| |exact E2]; [reflexivity|]. constructor.
    right; left. unfold newCS in E1. do 11 eexists. exact E1.
  Qed.

  Lemma next_step k : (N.of_nat (Datatypes.S k) < two64)%N -> N.modulo (N.of_nat k + 1) two64 = N.of_nat (Datatypes.S k).
  Proof. intro H. rewrite Nat2N.inj_succ, <- N.add_1_r in *. now apply N.mod_small. Qed.

  Lemma recalculated_keeps i i' x : recalculated f i i' -> recorded f = true -> going f i -> held f x (data (mut i)) -> going f i' /\ held f x (data (mut i')).
  Proof.
    intros (C & So & b & d & Em & Es & Ef) Rc (Su & Cu & Nd & Tm) (H1 & H2). rewrite Em. cbn [data set_data set_dirty].
    assert (Ei : indicators FMI3 f d = indicators FMI3 f (data (mut i))).
    { clear - Es Rc. destruct f; try discriminate Rc; try reflexivity. cbn in Es |- *. injection Es as E1 E2. rewrite E1, E2. reflexivity. }
    split.
    - unfold going, set_up, current, SpecOde.stored in *. rewrite So, Em. cbn [data set_data set_dirty nextEventTimeDefined terminateSimulation].
      rewrite Es, Ei. auto.
    - unfold held. rewrite Es, Ef. split; [exact H1|]. rewrite H2. clear - Rc. destruct f; try discriminate Rc; reflexivity.
  Qed.

  Lemma cs_steps N n : recorded f = true -> precise (F := F) f N -> before f stop N -> (N.of_nat N < two64)%N -> 2 <= fuel -> forall k s, inv f szof stop k s -> k <= N -> N - k < n ->
    (reaches f stop N -> exists s', cs_loop f szof fuel env stop n (N.of_nat k) s = Done (inl tt, s', map (row f (point f) (solution f)) (seq k (Datatypes.S (N - k)))) /\ mode_of s' = StepMode) /\
    (passes f stop N -> exists s', cs_loop f szof fuel env stop n (N.of_nat k) s = Done (inr Error, s', map (row f (point f) (solution f)) (seq k (Datatypes.S (N - k))))).
  Proof.
    intros Rc (Rh & Rk) Be Hb Hf. induction n as [|n IH]; intros k s I Hk Hn; [lia|].
    destruct (@record_eq F NF f szof fuel env (point f k) s Rc (in_reach I) (or_introl (in_mode I))) as (s1 & E1 & Rec & R1).
    destruct (recalculated_keeps Rec Rc (in_going I) (in_held I)) as (G1 & H1). pose proof Rec as (C1 & _).
    assert (Ep : cs_loop f szof fuel env stop (Datatypes.S n) (N.of_nat k) s =
      match (if nle stop (point f k) then pret f tt else
             pbind (CALL f szof fuel env (O3DoStep (point f k) (m_step m) true true true true))
               (fun out => if wants_end f out then pret f tt else cs_loop f szof fuel env stop n (N.modulo (N.of_nat k + 1) two64))) s1 with
      | Done (b, s', t') => Done (b, s', row f (point f) (solution f) k :: t')
      | UB => UB
      | NoFuel => NoFuel
      end).
    { cbn [cs_loop]. change (nmul (nofN (N.of_nat k)) (m_step m)) with (point (F := F) f k). unfold pbind at 1. unfold bind at 1. rewrite E1.
      rewrite (proj1 (in_held I)). reflexivity. }
    rewrite Ep. clear Ep.
    destruct (Nat.eq_dec k N) as [->|Hne].
    - replace (N - N) with 0 by lia. split.
      + intros Rn. unfold reaches in Rn. rewrite Rn. exists s1. split; [reflexivity|]. unfold mode_of; rewrite C1; exact (in_mode I).
      + intros (Rn & Rb). rewrite Rn. unfold pbind, bind, CALL.
        rewrite (@dostep3_refused F NF szof f); [exists (with_mode Terminated s1); reflexivity|unfold mode_of; rewrite C1; exact (in_mode I)|].
        intros (_ & _ & X). unfold stop_of in X. rewrite C1 in X. fold (stop_of s) in X. rewrite (in_stop I) in X.
        change (beyond (target f (Datatypes.S N)) stop = false) in X. congruence.
    - destruct (Rk k ltac:(lia)) as (K2 & K4 & K5). destruct (Be k ltac:(lia)) as (K1 & K3). rewrite K1.
      assert (M1 : mode_of s1 = StepMode) by (unfold mode_of; rewrite C1; exact (in_mode I)).
      assert (Ev1 : eventModeUsed (ctl (sinst s1)) = false) by (rewrite C1; exact (in_ev I)).
      assert (Er1 : earlyReturnAllowed (ctl (sinst s1)) = false) by (rewrite C1; exact (in_er I)).
      assert (Ac : acceptable s1 (point f k) (m_step m)).
      { unfold acceptable, end_of, stop_of. rewrite C1. fold (end_of s) (stop_of s). rewrite (in_end I), (in_stop I). auto. }
      assert (Bc : time (bump m (ctl (sinst s1))) = internal f (Datatypes.S k)).
      { rewrite C1. unfold bump. cbn [time set_time set_nSteps]. fold (start_of s) (steps_of s). rewrite (in_start I), (in_steps I), next_step by lia. reflexivity. }
      destruct (@one3 F NF f szof fuel env (point f k) s1) as (i' & r & s2 & t & E2 & R2 & Sw & Ci & Hr & Es); auto.
      { intros ->. discriminate. }
      { intros X _. rewrite X in Rc. discriminate. }
      { apply G1. }
      { unfold time_of. rewrite C1. fold (time_of s). rewrite (in_time I). exact K4. }
      { rewrite Bc. exact K5. }
      destruct (next_held Rc (solution_len k) H1 G1 Sw) as (H2 & G2).
      assert (Tm : terminateSimulation (mut i') = false) by apply G2.
      assert (r = true) as -> by (destruct Hr; congruence).
      unfold pbind, bind, CALL. rewrite E2. cbn [wants_end o_terminateSimulation]. rewrite Tm.
      rewrite next_step by lia.
      destruct (IH (Datatypes.S k) s2) as (Ok & Err); [|lia|lia|].
      + constructor; auto.
        * unfold mode_of. rewrite Es. cbn [ctl set_ctl]. rewrite Ci. exact M1.
        * rewrite Es. cbn. rewrite Ci. exact Ev1.
        * rewrite Es. cbn. rewrite Ci. exact Er1.
        * rewrite Es. exact G2.
        * rewrite Es. exact H2.
        * unfold steps_of. rewrite Es. cbn. rewrite Ci. unfold bump. cbn. rewrite C1. fold (steps_of s). rewrite (in_steps I). apply next_step. lia.
        * unfold start_of. rewrite Es. cbn. rewrite Ci. cbn. rewrite C1. exact (in_start I).
        * unfold stop_of. rewrite Es. cbn. rewrite Ci. cbn. rewrite C1. exact (in_stop I).
        * unfold end_of. rewrite Es. reflexivity.
        * unfold time_of. rewrite Es. cbn. rewrite Ci. exact Bc.
      + replace (Datatypes.S (N - k)) with (Datatypes.S (Datatypes.S (N - Datatypes.S k))) by lia. split.
        * intro Rn. destruct (Ok Rn) as (s3 & E3 & M3). rewrite E3. exists s3. split; [reflexivity|exact M3].
        * intro Rn. destruct (Err Rn) as (s3 & E3). rewrite E3. exists s3. reflexivity.
  Qed.

  Theorem simulate_cs_rows path N n : recorded f = true -> precise (F := F) f N -> before f stop N -> (N.of_nat N < two64)%N -> 2 <= fuel -> N < n ->
    (reaches f stop N -> exists s, simulate_cs f szof fuel env S stop path n = Done (OK, rows f (point f) (solution f) N, Some s)) /\
    (passes f stop N -> exists s, simulate_cs f szof fuel env S stop path n = Done (Error, rows f (point f) (solution f) N, Some s)).
  Proof.
    intros Rc Pr Be Hb Hf Hn. destruct (cs_begin path Rc) as (i & t & o1 & s1 & o2 & s2 & E1 & E2 & E3 & I).
    destruct (@cs_steps N n Rc Pr Be Hb Hf 0 s2 I ltac:(lia) ltac:(lia)) as (Ok & Err).
    unfold simulate_cs, program. rewrite E1. unfold pbind, bind at 1 3. rewrite E2. unfold bind at 1 2. rewrite E3. cbn [N.of_nat] in Ok, Err.
    rewrite Nat.sub_0_r in Ok, Err. split.
    - intro Rn. destruct (Ok Rn) as (s3 & E4 & M). rewrite E4. cbn [app]. rewrite term_eq by auto. eexists. reflexivity.
    - intro Rn. destruct (Err Rn) as (s3 & E4). rewrite E4. eexists. reflexivity.
  Qed.
End Solution.
