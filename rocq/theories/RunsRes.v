(** RunsRes.v -- the programs of both FMI versions side by side for Resource (C63, C64). *)
From Coq Require Import List NArith ZArith Bool Arith Lia.
From Verif Require Import Base Instance ModelIface Core Fmi3 Fmi2 Api Fmus Programs Programs2 SpecPrograms SpecModes SpecCreate SpecCross SpecSteps SpecPrograms2
  Logic Calls Solver Steps StepsFmus RunsMore Runs RunsTwo FmuResource ImpResource SpecImporter SpecMore Importer.
Import ListNotations.
Set Implicit Arguments.

Section Res.
  Context {F : Type} {NF : Num F} (szof szof' : N) (fuel : nat) (env : Env) (stop : F) (S : N) (uri path p2 p3 : bytes).
  Notation m2 := (model_of (F := F) FMI2 Resource).
  Notation m3 := (model_of (F := F) FMI3 Resource).
  Hypothesis P2 : path2 (cstr (cstr uri)) = Some p2.
  Hypothesis P3 : path3 (cstr (cstr path)) = Some p3.

  (** ** DoStep counts the time only *)
  Fixpoint walk (n : nat) (ncp : F) (c : Ctl F) : option (Ctl F) :=
    match n with
    | O => None
    | Datatypes.S n => if pointReached m3 ncp c then Some c else walk n ncp (bump m3 c)
    end.
  Lemma pass3_res i : nx (sol i) = 0 -> nz (sol i) = 0 -> terminateSimulation (mut i) = false ->
    exists t, pass3 m3 env false OK i = Done ((OK, false, true), set_ctl (bump m3 (ctl i)) i, t).
  Proof.
    intros X Z T. destruct i as [c u o]. destruct u as [u1 u2 u3 u4 u5 u6 u7 u8 d], o as [nx0 nz0 xa0 dxa0 za0 pz0]. cbn in X, Z, T. subst.
    destruct c as [c1 c2 c3 c4 c5 c6 c7 c8 [] c10 c11 c12 c13 c14 c15 md c17 c18 c19 c20]; eexists; reflexivity.
  Qed.
  Lemma pass2_res i : nx (sol i) = 0 -> nz (sol i) = 0 -> terminateSimulation (mut i) = false ->
    exists t, pass2 m2 env OK i = Done ((OK, true), set_ctl (bump m3 (ctl i)) i, t).
  Proof.
    intros X Z T. destruct i as [c u o]. destruct u as [u1 u2 u3 u4 u5 u6 u7 u8 d], o as [nx0 nz0 xa0 dxa0 za0 pz0]. cbn in X, Z, T. subst.
    destruct c as [c1 c2 c3 c4 c5 c6 c7 c8 [] c10 c11 c12 c13 c14 c15 md c17 c18 c19 c20]; eexists; reflexivity.
  Qed.
  Lemma loop3_res n ncp : forall i, nx (sol i) = 0 -> nz (sol i) = 0 -> terminateSimulation (mut i) = false -> earlyReturnAllowed (ctl i) = false ->
    match walk n ncp (ctl i) with
    | Some c' => exists t, doStep_loop m3 env n ncp false OK i = Done ((OK, false, true), set_ctl c' i, t)
    | None => doStep_loop m3 env n ncp false OK i = NoFuel
    end.
  Proof.
    induction n as [|n IH]; intros i X Z T Er; [reflexivity|]. cbn [walk]. rewrite loop3_eq.
    destruct (pointReached m3 ncp (ctl i)) eqn:P; [exists []; destruct i; reflexivity|]. cbn [andb orb].
    destruct (pass3_res i X Z T) as (t & E). unfold bind. rewrite E.
    specialize (IH (set_ctl (bump m3 (ctl i)) i) X Z T Er). change (ctl (set_ctl (bump m3 (ctl i)) i)) with (bump m3 (ctl i)) in IH.
    destruct (walk n ncp (bump m3 (ctl i))) as [c'|].
    - destruct IH as (t' & ->). eexists. reflexivity.
    - rewrite IH. reflexivity.
  Qed.
  Lemma loop2_res n ncp : forall i, nx (sol i) = 0 -> nz (sol i) = 0 -> terminateSimulation (mut i) = false ->
    match walk n ncp (ctl i) with
    | Some c' => exists t, doStep2_loop m2 env n ncp OK i = Done ((OK, true), set_ctl c' i, t)
    | None => doStep2_loop m2 env n ncp OK i = NoFuel
    end.
  Proof.
    induction n as [|n IH]; intros i X Z T; [reflexivity|]. cbn [walk]. rewrite loop2_eq. change (pointReached m2 ncp (ctl i)) with (pointReached m3 ncp (ctl i)).
    destruct (pointReached m3 ncp (ctl i)) eqn:P; [exists []; destruct i; reflexivity|].
    destruct (pass2_res i X Z T) as (t & E). unfold bind. rewrite E.
    specialize (IH (set_ctl (bump m3 (ctl i)) i) X Z T). change (ctl (set_ctl (bump m3 (ctl i)) i)) with (bump m3 (ctl i)) in IH.
    destruct (walk n ncp (bump m3 (ctl i))) as [c'|].
    - destruct IH as (t' & ->). eexists. reflexivity.
    - rewrite IH. reflexivity.
  Qed.
  Record clocked (c c' : Ctl F) : Prop := mkClocked {
    k_time : time c' = time c; k_steps : nSteps c' = nSteps c; k_start : startTime c' = startTime c; k_stop : stopTime c' = stopTime c }.
  (** What DoStep leaves alone *)
  Record aside (c c' : Ctl F) : Prop := mkAside {
    a_mode : mode c' = mode c; a_loc : resourceLocation c' = resourceLocation c; a_er : earlyReturnAllowed c' = earlyReturnAllowed c;
    a_ev : eventModeUsed c' = eventModeUsed c; a_start : startTime c' = startTime c; a_stop : stopTime c' = stopTime c }.
  Lemma walk_two n ncp : forall c c', clocked c c' ->
    match walk n ncp c, walk n ncp c' with
    | Some d, Some d' => clocked d d' /\ aside c d /\ aside c' d'
    | None, None => True
    | _, _ => False
    end.
  Proof.
    induction n as [|n IH]; intros c c' [A B C E]; [exact I|]. cbn [walk].
    assert (P : pointReached m3 ncp c' = pointReached m3 ncp c) by (unfold pointReached; rewrite A; reflexivity). rewrite P.
    destruct (pointReached m3 ncp c); [repeat split; assumption|].
    assert (K : clocked (bump m3 c) (bump m3 c')).
    { unfold bump. constructor; cbn; congruence. }
    specialize (IH _ _ K). destruct (walk n ncp (bump m3 c)) as [d|], (walk n ncp (bump m3 c')) as [d'|]; try exact IH.
    destruct IH as (H1 & [] & []). split; [exact H1|]. split; constructor; assumption.
  Qed.

  (** ** Two instances *)
  Record two (s : Sys F (md m2)) (s' : Sys F (md m3)) : Prop := mkTwo {
    t_clock : clocked (ctl (sinst s)) (ctl (sinst s'));
    t_next : nextCommunicationPoint (ctl (sinst s')) = nextCommunicationPoint (ctl (sinst s));
    t_mode : mode_of s = StepComplete; t_mode' : mode_of s' = StepMode;
    t_loc : resourceLocation (ctl (sinst s)) = Some (cstr uri); t_loc' : resourceLocation (ctl (sinst s')) = Some (cstr path);
    t_er : earlyReturnAllowed (ctl (sinst s')) = false; t_ev : eventModeUsed (ctl (sinst s')) = false;
    t_x : nx (sol (sinst s)) = 0; t_z : nz (sol (sinst s)) = 0; t_x' : nx (sol (sinst s')) = 0; t_z' : nz (sol (sinst s')) = 0;
    t_t : terminateSimulation (mut (sinst s)) = false; t_t' : terminateSimulation (mut (sinst s')) = false }.

  Lemma dostep2_res ccp h (s : Sys F (md m2)) : mode_of s = StepComplete -> acceptable s ccp h -> nx (sol (sinst s)) = 0 -> nz (sol (sinst s)) = 0 ->
    terminateSimulation (mut (sinst s)) = false ->
    match walk fuel (nadd ccp h) (ctl (sinst s)) with
    | Some d => exists o t, exec2 m2 szof fuel env (O2DoStep ccp h) s = Done (OK, o, mkSys (set_ctl (set_nextCommunicationPoint (nadd ccp h) d) (sinst s)) (heap s), t)
    | None => exec2 m2 szof fuel env (O2DoStep ccp h) s = NoFuel
    end.
  Proof.
    intros M (A1 & A2 & A3) X Z Te. pose proof (@loop2_res fuel (nadd ccp h) (sinst s) X Z Te) as L2.
    unfold end_of, stop_of, beyond in A1, A3.
    destruct (walk fuel (nadd ccp h) (ctl (sinst s))) as [d|].
    all: cbn [exec2]; rewrite outI_eq; unfold fmi2DoStep; rewrite BEGIN2_pass by (unfold mode_of in M; rewrite M; discriminate);
    rewrite bind_getC; rewrite A1, A2, A3; cbn [negb andb]; unfold bind at 1.
    - destruct L2 as (t & ->). cbn [stops]. eexists _, _. reflexivity.
    - rewrite L2. reflexivity.
  Qed.
  Lemma dostep3_res ccp h (s : Sys F (md m3)) : mode_of s = StepMode -> acceptable s ccp h -> nx (sol (sinst s)) = 0 -> nz (sol (sinst s)) = 0 ->
    terminateSimulation (mut (sinst s)) = false -> earlyReturnAllowed (ctl (sinst s)) = false ->
    match walk fuel (nadd ccp h) (ctl (sinst s)) with
    | Some d => exists o t, exec3 m3 szof' fuel env (O3DoStep ccp h true true true true) s
        = Done (OK, o, mkSys (set_ctl (set_nextCommunicationPoint (nadd ccp h) d) (sinst s)) (heap s), t) /\ wants_end Resource o = false
    | None => exec3 m3 szof' fuel env (O3DoStep ccp h true true true true) s = NoFuel
    end.
  Proof.
    intros M (A1 & A2 & A3) X Z Te Er. pose proof (@loop3_res fuel (nadd ccp h) (sinst s) X Z Te Er) as L3.
    unfold end_of, stop_of, beyond in A1, A3.
    destruct (walk fuel (nadd ccp h) (ctl (sinst s))) as [d|].
    all: cbn [exec3]; rewrite outI_eq; unfold fmi3DoStep; rewrite BEGIN_pass by (unfold mode_of in M; rewrite M; discriminate);
    rewrite bind_getC; rewrite A1, A2, A3; cbn [negb andb]; unfold bind at 1.
    - destruct L3 as (t & ->). cbn [stops]. eexists _, _. split; [reflexivity|]. exact Te.
    - rewrite L3. reflexivity.
  Qed.
  Lemma step_two ccp h s s' : two s s' ->
    match exec2 m2 szof fuel env (O2DoStep ccp h) s, exec3 m3 szof' fuel env (O3DoStep ccp h true true true true) s' with
    | Done (st, _, s1, _), Done (st', out, s1', _) => st' = st /\ (st = OK /\ two s1 s1' /\ wants_end Resource out = false \/ st = Error)
    | NoFuel, NoFuel => True
    | _, _ => False
    end.
  Proof.
    intros T. pose proof T as [K Nx M M' L L' Er Ev X Z X' Z' Te Te'].
    assert (Aq : acceptable s ccp h <-> acceptable s' ccp h).
    { unfold acceptable, end_of, stop_of. rewrite Nx, (k_stop K). reflexivity. }
    assert (Dc : {acceptable s ccp h} + {~ acceptable s ccp h}).
    { unfold acceptable. destruct (isClose ccp (end_of s)), (nle h nzero), (beyond (nadd ccp h) (stop_of s));
        first [left; repeat split; reflexivity|right; intros (A & B & C); discriminate]. }
    destruct Dc as [A|A].
    2:{ rewrite (@dostep2_refused F NF szof Resource fuel env ccp h s M A), (@dostep3_refused F NF szof' Resource) by tauto. auto. }
    pose proof (proj1 Aq A) as A'. clear Aq.
    pose proof (@walk_two fuel (nadd ccp h) _ _ K) as W.
    pose proof (@dostep2_res ccp h s M A X Z Te) as L2. pose proof (@dostep3_res ccp h s' M' A' X' Z' Te' Er) as L3.
    destruct (walk fuel (nadd ccp h) (ctl (sinst s))) as [d|], (walk fuel (nadd ccp h) (ctl (sinst s'))) as [d'|]; try contradiction.
    2:{ rewrite L2, L3. exact I. }
    destruct L2 as (o2 & t2 & ->), L3 as (o3 & t3 & -> & Wn). destruct W as (Kd & Ad & Ad').
    split; [reflexivity|]. left. split; [reflexivity|].
    split; [|exact Wn].
    destruct K, Kd, Ad, Ad'. unfold mode_of in *. constructor; cbn [sinst ctl set_ctl mut sol]; try assumption.
    - constructor; assumption.
    - reflexivity.
    - exact (eq_trans a_mode0 M).
    - exact (eq_trans a_mode1 M').
    - exact (eq_trans a_loc0 L).
    - exact (eq_trans a_loc1 L').
    - exact (eq_trans a_er1 Er).
    - exact (eq_trans a_ev1 Ev).
  Qed.

  (** ** The rows *)
  Variable c : Z.
  Hypothesis Fc2 : env_file env p2 = Some c.
  Hypothesis Fc3 : env_file env p3 = Some c.
  Ltac lz := lazy -[nle nlt nadd nmul nopp nlit nzero ndblmin nofN ninf ntrunc cstr path3 path2 env_file app].
  Lemma record2_two time s s' : two s s' ->
    exists s1, recordVariables2 Resource szof fuel env time s = Done (inl tt, s1, [(time, OVals TInt32 (Some [c]))]) /\ two s1 s'.
  Proof.
    intros [K Nx M M' L L' Er Ev X Z X' Z' Te Te'].
    assert (G : exists s1, recordVariables2 Resource szof fuel env time s = Done (inl tt, s1, [(time, OVals TInt32 (Some [c]))]) /\
      ctl (sinst s1) = ctl (sinst s) /\ sol (sinst s1) = sol (sinst s) /\ terminateSimulation (mut (sinst s1)) = false).
    { clear K Nx X Z. unfold mode_of in M. destruct s as [[ct u o] hp]. cbn [md model_of Resource_model] in *. destruct u as [u1 u2 u3 u4 u5 u6 u7 di d].
      destruct ct as [c1 c2 c3 c4 c5 c6 c7 c8 c9 c10 c11 c12 c13 c14 c15 md c17 c18 c19 c20]. cbn in M, L, Te. subst.
      eexists. split.
      - unfold recordVariables2, record_values2. destruct di; do 2 (lz; rewrite ?P2; lz; rewrite ?Fc2); reflexivity.
      - repeat split. }
    destruct G as (s1 & E & C & O & T1). exists s1. split; [exact E|]. unfold mode_of in *. constructor; unfold mode_of; rewrite ?C, ?O; assumption.
  Qed.
  Lemma record3_two time s s' : two s s' ->
    exists s1, recordVariables Resource szof' fuel env time s' = Done (inl tt, s1, [(time, OVals TInt32 (Some [c]))]) /\ two s s1.
  Proof.
    intros [K Nx M M' L L' Er Ev X Z X' Z' Te Te'].
    assert (G : exists s1, recordVariables Resource szof' fuel env time s' = Done (inl tt, s1, [(time, OVals TInt32 (Some [c]))]) /\
      ctl (sinst s1) = ctl (sinst s') /\ sol (sinst s1) = sol (sinst s') /\ terminateSimulation (mut (sinst s1)) = false).
    { clear K Nx X' Z'. unfold mode_of in M'. destruct s' as [[ct u o] hp]. cbn [md model_of Resource_model] in *. destruct u as [u1 u2 u3 u4 u5 u6 u7 di d].
      destruct ct as [c1 c2 c3 c4 c5 c6 c7 c8 c9 c10 c11 c12 c13 c14 c15 md c17 c18 c19 c20]. cbn in M', L', Te', Er, Ev. subst.
      eexists. split.
      - unfold recordVariables, record_values. destruct di; do 2 (lz; rewrite ?P3; lz; rewrite ?Fc3); reflexivity.
      - repeat split. }
    destruct G as (s1 & E & C & O & T1). exists s1. split; [exact E|]. unfold mode_of in *. constructor; unfold mode_of; rewrite ?C, ?O; assumption.
  Qed.

  (** ** The loops *)
  Definition ends (r : unit + Status) : Prop := r = inl tt \/ r = inr Error.
  Lemma loops_two n : forall step s s', two s s' ->
    match cs_loop2 Resource szof fuel env stop n step s, cs_loop Resource szof' fuel env stop n step s' with
    | Done (r, s1, rows), Done (r', s1', rows') =>
        r' = r /\ Forall2 (same_row Resource) rows rows' /\ (r = inl tt /\ two s1 s1' \/ r = inr Error)
    | NoFuel, NoFuel => True
    | _, _ => False
    end.
  Proof.
    induction n as [|n IH]; intros step s s' T; [exact I|]. cbn [cs_loop2 cs_loop]. unfold pbind2, pbind, bind.
    change (m_step m2) with (m_step m3). set (time := nmul (nofN step) (m_step m3)).
    destruct (record2_two time T) as (s1 & -> & T1). destruct (record3_two time T1) as (s1' & -> & T2). cbn [app].
    assert (R0 : Forall2 (same_row Resource) [(time, OVals (F := F) TInt32 (Some [c]))] [(time, OVals TInt32 (Some [c]))]).
    { constructor; [|constructor]. split; reflexivity. }
    destruct (nle stop time).
    { unfold pret2, pret, ret. repeat split; auto. }
    pose proof (@step_two time (m_step m3) _ _ T2) as St. unfold CALL.
    destruct (exec2 m2 szof fuel env (O2DoStep time (m_step m3)) s1) as [[[[st o] s3] t]| |]; try contradiction;
      destruct (exec3 m3 szof' fuel env (O3DoStep time (m_step m3) true true true true) s1') as [[[[st' o'] s3'] t']| |]; try contradiction; [|exact I].
    destruct St as (-> & [(-> & T3 & W)| ->]).
    2:{ unfold ret. repeat split; auto. }
    rewrite W. specialize (IH (N.modulo (step + 1) two64) _ _ T3).
    destruct (cs_loop2 Resource szof fuel env stop n (N.modulo (step + 1) two64) s3) as [[[r s4] rw]| |]; try contradiction;
      destruct (cs_loop Resource szof' fuel env stop n (N.modulo (step + 1) two64) s3') as [[[r' s4'] rw']| |]; try contradiction; [|exact I].
    destruct IH as (-> & Rw & E). repeat split; auto. cbn [app]. constructor; [split; reflexivity|exact Rw].
  Qed.

  Lemma begin2_two : exists i t o1 s1 o2 s2 o3 s3,
    newFMI2 Resource env S CoSimulation uri = Done (Some i, t) /\
    CALL2 Resource szof fuel env (O2SetupExperiment nzero true stop) (mkSys i []) = Done (inl o1, s1, []) /\
    CALL2 Resource szof fuel env O2EnterInitializationMode s1 = Done (inl o2, s2, []) /\
    CALL2 Resource szof fuel env O2ExitInitializationMode s2 = Done (inl o3, s3, []) /\
    exists i' t' o1' s1' o2' s2',
    newCS Resource env S (Some path) false false false = Done (Some i', t') /\
    CALL Resource szof' fuel env (O3EnterInitializationMode nzero true stop) (mkSys i' []) = Done (inl o1', s1', []) /\
    CALL Resource szof' fuel env O3ExitInitializationMode s1' = Done (inl o2', s2', []) /\ two s3 s2'.
  Proof.
    do 8 eexists. split; [lz; reflexivity|]. split; [lz; reflexivity|]. split; [lz; rewrite ?P2; lz; rewrite ?Fc2; reflexivity|]. split; [lz; rewrite ?P2; lz; rewrite ?Fc2; lz; reflexivity|].
    do 6 eexists. split; [lz; reflexivity|]. split; [lz; reflexivity|]. split; [lz; rewrite ?P3; lz; rewrite ?Fc3; lz; reflexivity|].
    repeat constructor.
  Qed.
  Lemma cs_two n : written_same Resource (simulate_cs2 Resource szof fuel env S stop uri n) (simulate_cs Resource szof' fuel env S stop path n).
  Proof.
    destruct begin2_two as (i & t & o1 & s1 & o2 & s2 & o3 & s3 & E0 & E1 & E2 & E3 & i' & t' & o1' & s1' & o2' & s2' & E0' & E1' & E2' & T).
    unfold simulate_cs2, simulate_cs, program2, program. rewrite E0, E0'. unfold pbind2, pbind, bind. rewrite E1, E2, E3, E1', E2'.
    pose proof (loops_two n 0%N T) as L.
    destruct (cs_loop2 Resource szof fuel env stop n 0 s3) as [[[r s4] rows]| |]; destruct (cs_loop Resource szof' fuel env stop n 0 s2') as [[[r' s4'] rows']| |]; try exact L; try contradiction.
    cbn [app]. destruct L as (-> & Rw & [(-> & T4)| ->]).
    - rewrite term2_eq by apply (t_mode T4). rewrite term_eq by (left; apply (t_mode' T4)). repeat split; auto.
    - repeat split; auto.
  Qed.
End Res.

Section Missing.
  Context {F : Type} {NF : Num F} (szof szof' : N) (fuel : nat) (env : Env) (stop : F) (S : N) (uri path p2 p3 : bytes).
  Hypothesis P2 : path2 (cstr (cstr uri)) = Some p2.
  Hypothesis P3 : path3 (cstr (cstr path)) = Some p3.
  Hypothesis Fc2 : env_file env p2 = None.
  Hypothesis Fc3 : env_file env p3 = None.
  Ltac lz := lazy -[nle nlt nadd nmul nopp nlit nzero ndblmin nofN ninf ntrunc cstr path3 path2 env_file app].
  Lemma cs_none n : written_same Resource (simulate_cs2 Resource szof fuel env S stop uri n) (simulate_cs Resource szof' fuel env S stop path n).
  Proof.
    assert (G : exists i t o1 s1 o2 s2 s3,
      newFMI2 (F := F) Resource env S CoSimulation uri = Done (Some i, t) /\
      CALL2 Resource szof fuel env (O2SetupExperiment nzero true stop) (mkSys i []) = Done (inl o1, s1, []) /\
      CALL2 Resource szof fuel env O2EnterInitializationMode s1 = Done (inl o2, s2, []) /\
      CALL2 Resource szof fuel env O2ExitInitializationMode s2 = Done (inr Error, s3, [])).
    { do 7 eexists. split; [lz; reflexivity|]. split; [lz; reflexivity|]. split; [lz; rewrite ?P2; lz; rewrite ?Fc2; reflexivity|].
      lz; rewrite ?P2; lz; rewrite ?Fc2; lz; reflexivity. }
    assert (G' : exists i' t' o1' s1' s2',
      newCS (F := F) Resource env S (Some path) false false false = Done (Some i', t') /\
      CALL Resource szof' fuel env (O3EnterInitializationMode nzero true stop) (mkSys i' []) = Done (inl o1', s1', []) /\
      CALL Resource szof' fuel env O3ExitInitializationMode s1' = Done (inr Error, s2', [])).
    { do 5 eexists. split; [lz; reflexivity|]. split; [lz; reflexivity|]. lz; rewrite ?P3; lz; rewrite ?Fc3; lz; reflexivity. }
    destruct G as (i & t & o1 & s1 & o2 & s2 & s3 & E0 & E1 & E2 & E3), G' as (i' & t' & o1' & s1' & s2' & E0' & E1' & E2').
    unfold simulate_cs2, simulate_cs, program2, program. rewrite E0, E0'. unfold pbind2, pbind, bind. rewrite E1, E2, E3, E1', E2'.
    repeat split; auto. constructor.
  Qed.
End Missing.

(** The programs are given the same directory: a file URI for FMI 2, the path with a final / for FMI 3. *)
Lemma cs_resource {F : Type} {NF : Num F} szof szof' fuel env S (stop : F) uri enc dir n :
  file_uri enc uri -> decodes enc dir -> plain uri -> plain dir -> length enc <= N.to_nat 4095 -> length dir <= N.to_nat 4089 ->
  written_same Resource (simulate_cs2 Resource szof fuel env S stop uri n) (simulate_cs Resource szof' fuel env S stop (dir ++ [Byte.x2f]) n).
Proof.
  intros Hu Hd Pu Pd Le Ld.
  assert (P2 : path2 (cstr (cstr uri)) = Some (dir ++ SpecImporter.y_txt)).
  { rewrite !(cstr_plain Pu). eapply path2_decodes; eauto. }
  assert (Pp : plain (dir ++ [Byte.x2f])).
  { intro H. apply in_app_iff in H as [H|[H|[]]]; [exact (Pd H)|discriminate]. }
  assert (P3 : path3 (cstr (cstr (dir ++ [Byte.x2f]))) = Some (dir ++ SpecImporter.y_txt)).
  { rewrite (cstr_plain Pp). rewrite path3_ok by (rewrite (cstr_plain Pp), app_length; cbn [length]; unfold MAX_PATH_LENGTH; lia).
    rewrite (cstr_plain Pp), <- app_assoc. reflexivity. }
  destruct (env_file env (dir ++ SpecImporter.y_txt)) as [c|] eqn:Fc.
  - exact (@cs_two F NF szof szof' fuel env stop S uri _ _ _ P2 P3 c Fc Fc n).
  - exact (@cs_none F NF szof szof' fuel env stop S uri _ _ _ P2 P3 Fc Fc n).
Qed.
Lemma plain_slash dir : plain dir -> plain (dir ++ [Byte.x2f]).
Proof. intros Pd H. apply in_app_iff in H as [H|[H|[]]]; [exact (Pd H)|discriminate]. Qed.
Lemma file_slash env dir c : plain dir -> env_file env (dir ++ SpecImporter.y_txt) = Some c -> env_file env (cstr (dir ++ [Byte.x2f]) ++ SpecMore.y_txt) = Some c.
Proof. intros Pd Fc. rewrite (cstr_plain (plain_slash Pd)), <- app_assoc. exact Fc. Qed.
Lemma fits_slash dir : plain dir -> length dir <= N.to_nat 4089 -> length (cstr (dir ++ [Byte.x2f])) + 5 < MAX_PATH_LENGTH.
Proof. intros Pd Ld. rewrite (cstr_plain (plain_slash Pd)), app_length. cbn [length]. unfold MAX_PATH_LENGTH. lia. Qed.
Lemma same_ok {F : Type} {NF : Num F} a st rows s : written_same (F := F) Resource a (Done (st, rows, Some s)) ->
  exists rows2 s2, a = Done (st, rows2, Some s2) /\ Forall2 (same_row Resource) rows2 rows.
Proof. unfold written_same. destruct a as [[[st2 rows2] [s2|]]| |]; try contradiction. intros (<- & _ & W). exists rows2, s2. split; [reflexivity|exact W]. Qed.
(** With C79: what the FMI 2 program writes. *)
Lemma cs_resource_rows {F : Type} {NF : Num F} szof fuel env S (stop : F) uri enc dir c N n :
  file_uri enc uri -> decodes enc dir -> plain uri -> plain dir -> length enc <= N.to_nat 4095 -> length dir <= N.to_nat 4089 ->
  env_file env (dir ++ SpecImporter.y_txt) = Some c ->
  precise (F := F) Resource N -> before Resource stop N -> (N.of_nat N < two64)%N -> 2 <= fuel -> N < n ->
  reaches Resource stop N \/ passes Resource stop N ->
  exists rows2 s, simulate_cs2 Resource szof fuel env S stop uri n = Done (if nle stop (point Resource N) then OK else Error, rows2, Some s) /\
    Forall2 (same_row Resource) rows2 (map (resource_row c) (seq 0 (Datatypes.S N))).
Proof.
  intros Hu Hd Pu Pd Le Ld Fc Pr Be Hb Hf Hn End.
  pose proof (@cs_resource F NF szof szof fuel env S stop uri enc dir n Hu Hd Pu Pd Le Ld) as W.
  destruct (@resource_rows F NF szof fuel env stop (dir ++ [Byte.x2f]) c (fits_slash Pd Ld) (@file_slash env dir c Pd Fc) S N n Pr Be Hb Hf Hn) as (A & B).
  destruct End as [E|E].
  - destruct (A E) as (s & Es). rewrite Es in W. unfold reaches in E. rewrite E. exact (@same_ok F NF _ _ _ _ W).
  - destruct (B E) as (s & Es). rewrite Es in W. destruct E as (E & _). rewrite E. exact (@same_ok F NF _ _ _ _ W).
Qed.
