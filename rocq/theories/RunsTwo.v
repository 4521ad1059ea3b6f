(** RunsTwo.v -- the co-simulation programs of both FMI versions side by side (C63). *)
From Coq Require Import List NArith ZArith Bool Arith Lia Reals.
From Verif Require Import Base Instance ModelIface Core Fmi3 Fmi2 Api Fmus Programs Programs2 SpecPrograms SpecModes SpecCreate SpecCross SpecSteps SpecPrograms2
  Logic Calls Dyn Fits Solver Steps StepsFmus Ode Reach Histories FmuBouncingBall FmuDahlquist FmuVanDerPol FmuStair NumB64 NumR CrossFmus Runs.
Local Open Scope nat_scope.
Import ListNotations.
Set Implicit Arguments.

Section Two.
  Context {F : Type} {NF : Num F} (f : FMU) (szof szof' : N) (fuel : nat) (env : Env).
  Notation m2 := (model_of (F := F) FMI2 f).
  Notation m3 := (model_of (F := F) FMI3 f).

  Definition tied (b : bool) (s : Sys F (md m2)) (s' : Sys F (md m3)) : Prop :=
    forall l, forallb (fun p => portable f (snd p)) l = true -> alike m2 m3 szof szof' fuel [] b l s s'.
  Lemma tied_call b c s s' : portable f c = true -> saved' c b [] = [] -> allowed (D := md m2) c (mode (ctl (sinst s))) -> (is_step c = true -> b = false) -> tied b s s' ->
    match do2 m2 szof fuel env c s, do3 m3 szof' fuel env c s' with
    | Done a, Done a' => agree c a a' /\ let '(st, _, s1, _) := a in let '(_, _, s1', _) := a' in tied (stopped' c st [] b) s1 s1'
    | UB, UB => True
    | NoFuel, NoFuel => True
    | _, _ => False
    end.
  Proof.
    intros Pc Sv Al Hb T.
    assert (G : forall l, forallb (fun p => portable f (snd p)) l = true ->
      match do2 m2 szof fuel env c s, do3 m3 szof' fuel env c s' with
      | Done a, Done a' => agree c a a' /\ let '(st, _, s1, _) := a in let '(_, _, s1', _) := a' in alike m2 m3 szof szof' fuel [] (stopped' c st [] b) l s1 s1'
      | UB, UB => True
      | NoFuel, NoFuel => True
      | _, _ => False
      end).
    { intros l Hl. pose proof (T ((env, c) :: l)) as G. cbn [alike] in G. rewrite Sv in G. apply G; [|split; [exact Al|exact Hb]]. cbn [forallb snd]. now rewrite Pc, Hl. }
    destruct (do2 m2 szof fuel env c s) as [[[[st o] s1] t]| |]; destruct (do3 m3 szof' fuel env c s') as [[[[st' o'] s1'] t']| |]; try (apply (G []); reflexivity).
    split; [apply (G [] eq_refl)|]. intros l Hl. apply (G l Hl).
  Qed.

  Notation same_row := (same_row (F := F) f).

  Lemma record2_eq time s : observed f = true -> mode_of s = StepComplete ->
    exists s1 o, recordVariables2 f szof fuel env time s = Done (inl tt, s1, [(time, o)]) /\
      ctl (sinst s1) = ctl (sinst s) /\ terminateSimulation (mut (sinst s1)) = terminateSimulation (mut (sinst s)).
  Proof.
    intros Ob M. unfold mode_of in M.
    destruct f; try discriminate Ob; destruct s as [[c u o] hp];
      cbn [md model_of BouncingBall_model Dahlquist_model VanDerPol_model Stair_model] in u, hp |- *; destruct u as [u1 u2 u3 u4 u5 u6 u7 [] d];
      destruct c as [c1 c2 c3 c4 c5 c6 c7 c8 c9 c10 c11 c12 c13 c14 c15 md c17 c18 c19 c20]; cbn in M; subst md;
      (do 2 eexists; split; [reflexivity|]; split; reflexivity).
  Qed.
  Lemma record_tied b time s s' : observed f = true -> mode_of s = StepComplete -> tied b s s' ->
    exists s1 s1' o o', recordVariables2 f szof fuel env time s = Done (inl tt, s1, [(time, o)]) /\
      recordVariables f szof' fuel env time s' = Done (inl tt, s1', [(time, o')]) /\ shown o o' /\ tied b s1 s1' /\
      ctl (sinst s1) = ctl (sinst s) /\ terminateSimulation (mut (sinst s1)) = terminateSimulation (mut (sinst s)) /\
      mode_of s1' = StepMode /\ time_of s1' = time_of s.
  Proof.
    intros Ob M T. destruct (record2_eq time s Ob M) as (s1 & o & E & C & Tm).
    assert (G : exists t vrs zero, basic t = true /\ portable f (CGet t vrs (repeat zero (length vrs))) = true /\
      recordVariables2 f szof fuel env = record_values2 f szof fuel env t zero vrs /\ recordVariables f szof' fuel env = record_values f szof' fuel env t zero vrs).
    { clear - Ob. destruct f; try discriminate Ob;
      [exists TFloat64, [1; 3]%N, nzero|exists TFloat64, [1]%N, nzero|exists TInt32, [1]%N, 0%Z|exists TFloat64, [1; 3]%N, nzero]; repeat split; reflexivity. }
    destruct G as (t & vrs & zero & Bt & Pc & E2 & E3).
    pose proof (@tied_call b (CGet t vrs (repeat zero (length vrs))) s s' Pc eq_refl) as K.
    assert (Al : allowed (D := md m2) (CGet t vrs (repeat zero (length vrs))) (mode (ctl (sinst s)))).
    { unfold mode_of in M. rewrite M. split; [cbn; tauto|]. destruct t; try discriminate Bt; cbn; tauto. }
    specialize (K Al ltac:(discriminate) T). rewrite E2 in *. rewrite E3. unfold record_values2, record_values in *. unfold do2, do3, next_call, op2, op3 in K.
    destruct (exec2 m2 szof fuel env (O2Get t (Some vrs) (length vrs) (Some (repeat zero (length vrs)))) s) as [[[[st x] s0] tr]| |]; try discriminate E.
    destruct (exec3 m3 szof' fuel env (O3Get t (Some vrs) (length vrs) (Some (repeat zero (length vrs))) (length vrs)) s') as [[[[st' x'] s0'] tr']| |]; try contradiction.
    destruct K as ((_ & Md & Ti & -> & Sh) & Td). injection E; intros; subst. destruct st; try discriminate.
    exists s1, s0', o, x'. split; [reflexivity|]. split; [reflexivity|]. split; [exact Sh|]. split; [exact Td|]. split; [exact C|]. split; [exact Tm|].
    unfold mode_of, time_of in *. rewrite C, M in Md. rewrite C in Ti. auto.
  Qed.

  Lemma loop2_flag n : forall ncp i r i' t, fit (dyn_all FMI2 f) i -> terminateSimulation (mut i) = false ->
    doStep2_loop m2 env n ncp OK i = Done ((OK, r), i', t) -> terminateSimulation (mut i') = false.
  Proof.
    induction n as [|n IH]; intros ncp i r i' t Ft Tm E; [discriminate|].
    rewrite loop2_eq in E. destruct (pointReached m2 ncp (ctl i)); [injection E; intros; subst; exact Tm|].
    unfold bind in E. pose proof (pass2_spec (events_all FMI2 f env) Ft) as Ps.
    destruct (pass2 m2 env OK i) as [[[[st go] i1] t1]| |]; try discriminate. cbn [is_pass2] in Ps.
    destruct (passed2_ok (events_all FMI2 f env) Ft Ps) as (_ & Pk).
    assert (G : go = true -> terminateSimulation (mut i1) = false /\ st = OK).
    { intro H. inversion Ps; subst; try discriminate; destruct (terminateSimulation (mut i1)); try discriminate; auto. }
    destruct go.
    - destruct (G eq_refl) as (T1 & ->). destruct Pk as [(F1 & _)|(_ & X & _)]; [|discriminate].
      destruct (doStep2_loop m2 env n ncp OK i1) as [[[[st2 r2] i2] t2]| |] eqn:E2; try discriminate.
      injection E; intros; subst. eapply IH; eauto.
    - injection E; intros; subst. inversion Ps; subst; destruct (terminateSimulation (mut i')); try discriminate; reflexivity.
  Qed.

  Variable stop : F.
  Variable built : built2 f = true.

  Lemma step_tied ccp h s s' : mode_of s = StepComplete -> terminateSimulation (mut (sinst s)) = false -> reach2 m2 szof s -> tied false s s' ->
    match exec2 m2 szof fuel env (O2DoStep ccp h) s, exec3 m3 szof' fuel env (O3DoStep ccp h true true true true) s' with
    | Done (st, _, s1, _), Done (st', o', s1', _) =>
        match st with
        | OK => st' = OK /\ wants_end f o' = false /\ tied false s1 s1' /\ mode_of s1 = StepComplete /\ terminateSimulation (mut (sinst s1)) = false
        | Discard => st' = OK /\ wants_end f o' = true /\ tied true s1 s1' /\ mode_of s1 = StepComplete /\ terminateSimulation (mut (sinst s1)) = true
        | _ => st = Error /\ st' = Error
        end /\ reach2 m2 szof s1 /\ mode_of s1' = mode3 (mode_of s1) /\ time_of s1' = time_of s1
    | UB, UB => True
    | NoFuel, NoFuel => True
    | _, _ => False
    end.
  Proof.
    intros M Tm Rs T.
    assert (NS : f <> StateSpace) by (intro H; rewrite H in built; discriminate).
    pose proof (@tied_call false (CStep ccp h) s s' eq_refl eq_refl) as K. unfold mode_of in M.
    assert (Al : allowed (F := F) (D := md m2) (CStep ccp h) (mode (ctl (sinst s)))) by (rewrite M; split; cbn; tauto).
    specialize (K Al ltac:(reflexivity) T). unfold do2, do3, next_call, op2, op3 in K.
    destruct (exec2 m2 szof fuel env (O2DoStep ccp h) s) as [[[[st x] s1] tr]| |] eqn:E2;
    destruct (exec3 m3 szof' fuel env (O3DoStep ccp h true true true true) s') as [[[[st' x'] s1'] tr']| |]; try exact K.
    destruct K as ((_ & Md & Ti & _ & Ag) & Td). unfold stopped' in Td. cbn [is_step] in Td.
    assert (R1 : reach2 m2 szof s1) by (eapply reach2_call; [exact Rs| |exact E2]; intros ? X; discriminate X).
    split; [|split; [exact R1|split; [exact Md|exact Ti]]].
    apply (@dostep2 F NF szof f NS) in E2 as [(-> & _)|(_ & _ & _ & r & i' & k & El & _ & L & Es)]; [exact Ag| |exact Rs].
    assert (Ft : fit (dyn_all FMI2 f) (sinst s)) by (apply (@fit_reach2 _ _ szof f s NS Rs)).
    assert (Mi : forall i0 : Inst F (md m2), ctl i0 = bumps m2 k (ctl (sinst s)) -> mode (ctl i0) = StepComplete).
    { intros i0 ->. destruct (bumps_fields m2 k (ctl (sinst s))) as (_ & _ & -> & _). exact M. }
    destruct (lq_end L) as [(-> & _ & C & -> & _)|[(-> & _ & C & -> & _ & T1)|(-> & -> & _)]].
    - destruct Ag as (-> & ->). pose proof (loop2_flag _ _ Ft Tm El) as T1.
      assert (T2 : terminateSimulation (mut (sinst s1)) = false) by (rewrite Es; exact T1).
      cbn [wants_end o_terminateSimulation]. rewrite T2. split; [reflexivity|]. split; [reflexivity|]. split; [exact Td|]. split; [|reflexivity].
      unfold mode_of. rewrite Es. cbn. exact (Mi i' C).
    - destruct Ag as (-> & ->). split; [reflexivity|]. split; [reflexivity|]. split; [exact Td|]. split; [|rewrite Es; exact T1].
      unfold mode_of. rewrite Es. exact (Mi i' C).
    - exact Ag.
  Qed.
  Lemma term2_eq s rows : mode_of s = StepComplete ->
    @tearDown2 F NF f szof fuel env OK s rows = Done (OK, rows, Some (with_mode Terminated s)).
  Proof.
    intros M. unfold tearDown2. cbn [status_num Nat.ltb Nat.leb]. unfold mode_of in M. destruct s as [[c u o] hp].
    cbn [ctl sinst] in M. cbn [exec2]. rewrite outI_eq. unfold fmi2Terminate.
    rewrite BEGIN2_pass by (cbn [ctl sinst]; rewrite M; discriminate). reflexivity.
  Qed.
  Lemma status2_eq s : mode_of s = StepComplete ->
    CALL2 f szof fuel env (O2GetBooleanStatus KTerminated true) s = Done (inl (OBool (Some (terminateSimulation (mut (sinst s))))), s, []) /\
    CALL2 f szof fuel env (O2GetRealStatus LastSuccessfulTime true) s = Done (inl (OReal (Some (time_of s))), s, []).
  Proof.
    intros M. unfold CALL2. unfold mode_of in M. destruct s as [[c u o] hp]. cbn [ctl sinst] in M. cbn [exec2]. rewrite !outI_eq.
    unfold fmi2GetBooleanStatus, fmi2GetRealStatus.
    rewrite !BEGIN2_pass by (cbn [ctl sinst]; rewrite M; discriminate). split; reflexivity.
  Qed.
  Lemma step_same : observed f = true -> m_step m2 = m_step m3.
  Proof. clear. now destruct f. Qed.

  (* how the loops end *)
  Definition ended (s1 : Sys F (md m2)) (rows : list (F * Out F (md m2))) (s1' : Sys F (md m3)) (rows' : list (F * Out F (md m3))) : Prop :=
    mode_of s1 = StepComplete /\ mode_of s1' = StepMode /\
    (terminateSimulation (mut (sinst s1)) = false /\ Forall2 same_row rows rows' \/
     terminateSimulation (mut (sinst s1)) = true /\ Forall (fun r => nle stop (fst r) = false) rows' /\
     exists rows0 o s2' o', rows = rows0 ++ [(time_of s1, o)] /\ Forall2 same_row rows0 rows' /\ time_of s1' = time_of s1 /\
       recordVariables f szof' fuel env (time_of s1) s1' = Done (inl tt, s2', [(time_of s1, o')]) /\ shown o o').
  Definition both (a : res ((unit + Status) * Sys F (md m2) * list (F * Out F (md m2)))) (a' : res ((unit + Status) * Sys F (md m3) * list (F * Out F (md m3)))) : Prop :=
    match a, a' with
    | Done (r, s1, rows), Done (r', s1', rows') =>
        r' = r /\ (r = inr Error /\ Forall2 same_row rows rows' \/ r = inl tt /\ ended s1 rows s1' rows')
    | UB, UB => True
    | NoFuel, NoFuel => True
    | _, _ => False
    end.
  Lemma loops_tied n : observed f = true -> forall step s s', mode_of s = StepComplete -> terminateSimulation (mut (sinst s)) = false ->
    reach2 m2 szof s -> tied false s s' ->
    both (cs_loop2 f szof fuel env stop n step s) (cs_loop f szof' fuel env stop n step s').
  Proof.
    intro Ob. induction n as [|n IH]; intros step s s' M Tm Rs T; [exact I|].
    cbn [cs_loop2 cs_loop]. rewrite <- (step_same Ob). set (x := nmul (nofN step) (m_step m2)).
    destruct (@record_tied false x s s' Ob M T) as (s1 & s1' & o & o' & E & E' & Sh & T1 & C1 & Tm1 & M1' & Ti1).
    unfold pbind2 at 1, pbind at 1, bind. rewrite E, E'.
    assert (M1 : mode_of s1 = StepComplete) by (unfold mode_of in *; now rewrite C1).
    assert (R1 : reach2 m2 szof s1).
    { clear - Ob Rs E. assert (G : exists t vrs zero, recordVariables2 f szof fuel env x s = record_values2 f szof fuel env t zero vrs x s).
      { clear - Ob. destruct f; try discriminate Ob;
        [exists TFloat64, [1; 3]%N, nzero|exists TFloat64, [1]%N, nzero|exists TInt32, [1]%N, 0%Z|exists TFloat64, [1; 3]%N, nzero]; reflexivity. }
      destruct G as (t & vrs & zero & E2). rewrite E2 in E. unfold record_values2 in E.
      match type of E with match ?e with _ => _ end = _ => destruct e as [[[[st out] s0] tr]| |] eqn:E1; try discriminate end.
      injection E; intros; subst. eapply reach2_call; [exact Rs| |exact E1]. intros ? X; discriminate X. }
    destruct (nle stop x) eqn:Hx.
    { cbn. split; [reflexivity|]. right. split; [reflexivity|]. split; [exact M1|]. split; [exact M1'|]. left. split; [congruence|].
      repeat constructor. exact Sh. }
    pose proof (@step_tied x (m_step m2) s1 s1' M1 ltac:(congruence) R1 T1) as St. unfold pbind, bind, CALL. cbv beta iota.
    destruct (exec2 m2 szof fuel env (O2DoStep x (m_step m2)) s1) as [[[[st y] s2] tr]| |];
    destruct (exec3 m3 szof' fuel env (O3DoStep x (m_step m2) true true true true) s1') as [[[[st' y'] s2'] tr']| |]; try exact St; try contradiction.
    destruct St as (St & R2 & M2' & Ti2). destruct st; try (now destruct St as (X & _)).
    - destruct St as (-> & We & T2 & M2 & Tm2). cbv beta iota. rewrite We. specialize (IH (N.modulo (step + 1) two64) s2 s2' M2 Tm2 R2 T2).
      destruct (cs_loop2 f szof fuel env stop n _ s2) as [[[r s3] rows]| |]; destruct (cs_loop f szof' fuel env stop n _ s2') as [[[r' s3'] rows']| |]; try exact IH.
      destruct IH as (-> & IH). split; [reflexivity|]. destruct IH as [(-> & Fa)|(-> & Me & Me' & IH)].
      + left. split; [reflexivity|]. cbn [app]. constructor; [split; [reflexivity|exact Sh]|exact Fa].
      + right. split; [reflexivity|]. split; [exact Me|]. split; [exact Me'|]. cbn [app]. destruct IH as [(Te & Fa)|(Te & Fs & rows0 & p & s4 & p' & -> & Fa & Ti & Er & Sp)].
        * left. split; [exact Te|]. constructor; [split; [reflexivity|exact Sh]|exact Fa].
        * right. split; [exact Te|]. split; [constructor; [exact Hx|exact Fs]|].
          exists ((x, o) :: rows0), p, s4, p'. split; [reflexivity|]. split; [constructor; [split; [reflexivity|exact Sh]|exact Fa]|]. auto.
    - destruct St as (-> & We & T2 & M2 & Tm2). cbv beta iota. rewrite We. destruct (status2_eq s2 M2) as (Eb & Et). rewrite Tm2 in Eb.
      unfold pbind2 at 1. unfold bind. rewrite Eb. unfold pbind2, bind. rewrite Et.
      destruct (@record_tied true (time_of s2) s2 s2' Ob M2 T2) as (s3 & s3' & p & p' & Ep & Ep' & Sp & _ & C3 & Tm3 & _ & Ti3).
      rewrite Ep. cbn. split; [reflexivity|]. right. split; [reflexivity|]. split; [unfold mode_of in *; now rewrite C3|].
      split; [rewrite M2', M2; reflexivity|]. right. split; [congruence|]. split; [constructor; [exact Hx|constructor]|].
      assert (Tt : time_of s3 = time_of s2) by (unfold time_of; now rewrite C3).
      exists [(x, o)], p, s3', p'. rewrite Tt. split; [reflexivity|]. split; [repeat constructor; exact Sh|]. auto.
    - destruct St as (_ & ->). cbn. split; [reflexivity|]. left. split; [reflexivity|]. repeat constructor. exact Sh.
  Qed.

  Variable S : N.
  Lemma begin2 uri : observed f = true -> exists i t o1 s1 o2 s2 o3 s3 t1 t2 t3,
    newFMI2 f env S CoSimulation uri = Done (Some i, t) /\
    exec2 m2 szof fuel env (O2SetupExperiment nzero true stop) (mkSys i []) = Done (OK, o1, s1, t1) /\
    exec2 m2 szof fuel env O2EnterInitializationMode s1 = Done (OK, o2, s2, t2) /\
    exec2 m2 szof fuel env O2ExitInitializationMode s2 = Done (OK, o3, s3, t3) /\
    mode (ctl i) = Instantiated /\ mode_of s2 = InitializationMode /\ mode_of s3 = StepComplete /\ terminateSimulation (mut (sinst s3)) = false.
  Proof.
    clear. intro Ob. destruct f; try discriminate Ob; do 11 eexists;
      (split; [lazy -[nle nlt nadd nmul nopp nlit nzero ndblmin nofN ninf ntrunc cstr]; reflexivity|]);
      (split; [lazy -[nle nlt nadd nmul nopp nlit nzero ndblmin nofN ninf ntrunc cstr]; reflexivity|]);
      (split; [lazy -[nle nlt nadd nmul nopp nlit nzero ndblmin nofN ninf ntrunc cstr]; reflexivity|]);
      (split; [lazy -[nle nlt nadd nmul nopp nlit nzero ndblmin nofN ninf ntrunc cstr]; reflexivity|]); repeat split.
  Qed.

  Lemma record_terminated time s1 s2 rows : observed f = true -> mode_of s1 = StepMode ->
    recordVariables f szof' fuel env time s1 = Done (inl tt, s2, rows) ->
    exists s3, recordVariables f szof' fuel env time (with_mode Terminated s1) = Done (inl tt, s3, rows).
  Proof.
    clear. intros Ob M. unfold mode_of in M.
    destruct f; try discriminate Ob; destruct s1 as [[c u o] hp];
      cbn [md model_of BouncingBall_model Dahlquist_model VanDerPol_model Stair_model] in u, hp |- *; destruct u as [u1 u2 u3 u4 u5 u6 u7 [] d];
      destruct c as [c1 c2 c3 c4 c5 c6 c7 c8 c9 c10 c11 c12 c13 c14 c15 md c17 c18 c19 c20]; cbn in M; subst md;
      (intro E; match type of E with ?a = _ => let b := eval lazy -[nle nlt nadd nmul nopp nlit nzero ndblmin nofN ninf ntrunc] in a in change a with b in E end;
       injection E; intros; subst; eexists; reflexivity).
  Qed.

  Lemma programs_tied uri path n : observed f = true ->
    (forall l, forallb (fun p => portable f (snd p)) l = true ->
       born_alike m2 m3 szof szof' fuel l (newFMI2 f env S CoSimulation uri) (newCS f env S (Some path) false false false)) ->
    written f szof' fuel env stop (simulate_cs2 f szof fuel env S stop uri n) (simulate_cs f szof' fuel env S stop path n).
  Proof.
    intros Ob Born. destruct (@begin2 uri Ob) as (i & t & o1 & s1 & o2 & s2 & o3 & s3 & t1 & t2 & t3 & E0 & E1 & E2 & E3 & Mi & M2 & M3 & Tm).
    assert (R0 : reach2 m2 szof (mkSys i [])) by (apply reach2_new; unfold newFMI2 in E0; do 9 eexists; exact E0).
    assert (R1 : reach2 m2 szof s1) by (eapply reach2_call; [exact R0| |exact E1]; intros ? X; discriminate X).
    assert (R2 : reach2 m2 szof s2) by (eapply reach2_call; [exact R1| |exact E2]; intros ? X; discriminate X).
    assert (R3 : reach2 m2 szof s3) by (eapply reach2_call; [exact R2| |exact E3]; intros ? X; discriminate X).
    unfold simulate_cs2, simulate_cs, program2, program. rewrite E0 in *.
    destruct (newCS f env S (Some path) false false false) as [[[i'|] t']| |]; try (now destruct (Born [] eq_refl)).
    assert (T0 : tied false (mkSys i []) (mkSys i' [])) by (intros l Hl; apply (Born l Hl)).
    pose proof (@tied_call false (CInit nzero true stop) (mkSys i []) (mkSys i' []) eq_refl eq_refl) as K.
    assert (A : allowed (D := md m2) (CInit nzero true stop) (mode (ctl (sinst (mkSys i []))))) by (cbn [sinst]; rewrite Mi; split; cbn; tauto).
    specialize (K A ltac:(discriminate) T0). unfold do2, do3, next_call, op2, op3 in K. rewrite E1, E2 in K.
    unfold pbind2 at 1, pbind at 1, CALL2 at 1, CALL at 1. unfold bind at 1 2. rewrite E1. cbv beta iota. unfold pbind2 at 1. unfold bind at 1. unfold CALL2 at 1. rewrite E2. cbv beta iota.
    destruct (exec3 m3 szof' fuel env (O3EnterInitializationMode nzero true stop) (mkSys i' [])) as [[[[st' x'] s2'] tr']| |]; try contradiction.
    destruct K as ((_ & _ & _ & -> & _) & T2). cbv beta iota. change (stopped' (CInit nzero true stop) OK [] false) with false in T2.
    pose proof (@tied_call false CExitInit s2 s2' eq_refl eq_refl) as K. clear A.
    assert (A : allowed (F := F) (D := md m2) CExitInit (mode (ctl (sinst s2)))) by (unfold mode_of in M2; rewrite M2; split; cbn; tauto).
    specialize (K A ltac:(discriminate) T2). unfold do2, do3, next_call, op2, op3 in K. rewrite E3 in K.
    unfold pbind2, pbind, CALL2, CALL. unfold bind. rewrite E3. cbv beta iota.
    destruct (exec3 m3 szof' fuel env O3ExitInitializationMode s2') as [[[[st' y'] s3'] tr'']| |]; try contradiction.
    destruct K as ((_ & _ & _ & -> & _) & T3). cbv beta iota.
    pose proof (@loops_tied n Ob 0%N s3 s3' M3 Tm R3 T3) as L.
    destruct (cs_loop2 f szof fuel env stop n 0 s3) as [[[r s4] rows]| |]; destruct (cs_loop f szof' fuel env stop n 0 s3') as [[[r' s4'] rows']| |]; try exact L; try contradiction.
    cbn [app]. destruct L as (-> & [(-> & Fa)|(-> & Me & Me' & L)]).
    - split; [reflexivity|]. split; [now right|]. now left.
    - rewrite term2_eq by exact Me. rewrite term_eq by auto. split; [reflexivity|]. split; [now left|].
      destruct L as [(_ & Fa)|(Te & Fs & rows0 & p & s5 & p' & -> & Fa & Ti & Er & Sp)]; [now left|]. right.
      split; [reflexivity|]. split; [exact Te|]. split; [exact Ti|]. split; [exact Fs|].
      destruct (@record_terminated _ _ _ _ Ob Me' Er) as (s6 & E6). exists rows0, p, s6, p'. auto.
  Qed.
End Two.

Section Whole.
  Context {F : Type} {NF : Num F}.
  Lemma observed_built f : observed f = true -> built2 f = true /\ f <> Resource /\ m_token (model_of (F := F) FMI2 f) = m_token (model_of (F := F) FMI3 f).
  Proof. now destruct f. Qed.
  Lemma cs_any (f : FMU) szof szof' fuel env S stop uri path n : observed f = true -> f <> BouncingBall ->
    written f szof' fuel env stop (simulate_cs2 (F := F) f szof fuel env S stop uri n) (simulate_cs f szof' fuel env S stop path n).
  Proof.
    intros Ob Nb. destruct (observed_built f Ob) as (Bu & Nr & Tk). apply programs_tied; auto. intros l Hl.
    unfold newFMI2, newCS. rewrite Tk.
    exact (@born_any F NF f szof szof' fuel env CoSimulation instance1' (Some (m_token (model_of (F := F) FMI3 f))) (Some uri) (Some path) S false l Bu Nr Nb ltac:(discriminate) Hl).
  Qed.
End Whole.
Lemma cs_B64 (f : FMU) szof szof' fuel env S stop uri path n : observed f = true ->
  written f szof' fuel env stop (simulate_cs2 (F := B64) f szof fuel env S stop uri n) (simulate_cs f szof' fuel env S stop path n).
Proof.
  intros Ob. destruct (observed_built (F := B64) f Ob) as (Bu & Nr & Tk). apply programs_tied; auto. intros l Hl.
  unfold newFMI2, newCS. rewrite Tk.
  exact (@born_B64 f szof szof' fuel env CoSimulation instance1' (Some (m_token (model_of (F := B64) FMI3 f))) (Some uri) (Some path) S false l Bu Nr ltac:(discriminate) Hl).
Qed.
Lemma cs_R (inf : R) (f : FMU) szof szof' fuel env S stop uri path n : let NF := NumR inf in observed f = true ->
  written f szof' fuel env stop (simulate_cs2 (F := R) f szof fuel env S stop uri n) (simulate_cs f szof' fuel env S stop path n).
Proof.
  intros NF Ob. destruct (observed_built (F := R) f Ob) as (Bu & Nr & Tk). apply programs_tied; auto. intros l Hl.
  unfold newFMI2, newCS. rewrite Tk.
  exact (@born_R inf f szof szof' fuel env CoSimulation instance1' (Some (m_token (model_of (F := R) FMI3 f))) (Some uri) (Some path) S false l Bu Nr ltac:(discriminate) Hl).
Qed.

Section Same.
  Context {F : Type} {NF : Num F}.
  Lemma row_here (f : FMU) (g : nat -> F) (v : nat -> list F) N : In (row f g v N) (rows f g v N).
  Proof. unfold rows. apply in_map. apply in_seq. lia. Qed.
  Lemma same_end (f : FMU) szof' fuel env stop a N st s' :
    written f szof' fuel env stop a (Done (st, rows f (point (F := F) f) (solution f) N, Some s')) -> st = Error \/ reaches f stop N ->
    exists rows2 s, a = Done (st, rows2, Some s) /\ Forall2 (same_row f) rows2 (rows f (point f) (solution f) N).
  Proof.
    intros W H. destruct a as [[[st0 rows2] [s|]]| |]; try contradiction. destruct W as (-> & _ & [W|(X & _ & _ & Fs & _)]); [eauto|].
    destruct H as [->|H]; [congruence|]. exfalso. rewrite Forall_forall in Fs. specialize (Fs _ (row_here f _ _ N)).
    change (nle stop (point f N) = false) in Fs. unfold reaches in H. congruence.
  Qed.
End Same.
