(** RunsResMe.v -- the model exchange programs of both FMI versions side by side for Resource (proof of C64_resource). *)
From Coq Require Import List NArith ZArith Bool Arith Lia.
From Verif Require Import Base Instance ModelIface Core Fmi3 Fmi2 Api Fmus Programs Programs2 SpecPrograms SpecModes SpecCreate SpecCross SpecSteps SpecPrograms2
  Logic Calls Solver Steps StepsFmus RunsMore Runs RunsTwo FmuResource ImpResource SpecImporter Importer.
Import ListNotations.
Set Implicit Arguments.

Section Res.
  Context {F : Type} {NF : Num F} (szof szof' : N) (fuel : nat) (env : Env) (stop : F) (S : N) (uri path p2 p3 : bytes).
  Notation m2 := (model_of (F := F) FMI2 Resource).
  Notation m3 := (model_of (F := F) FMI3 Resource).
  Hypothesis P2 : path2 (cstr (cstr uri)) = Some p2.
  Hypothesis P3 : path3 (cstr (cstr path)) = Some p3.
  Variable c : Z.
  Hypothesis Fc2 : env_file env p2 = Some c.
  Hypothesis Fc3 : env_file env p3 = Some c.
  Ltac lz := lazy -[nle nlt nadd nmul nopp nlit nzero ndblmin nofN ninf ntrunc cstr path3 path2 env_file app].
  Ltac go := lz; rewrite ?P2, ?P3; lz; rewrite ?Fc2, ?Fc3; lz; rewrite ?P2, ?P3; lz; rewrite ?Fc2, ?Fc3; reflexivity.

  (** ** The instances in Continuous-Time Mode (or, [ev], in Event Mode) *)
  Record calm (v : bytes) {D} (ev : bool) (s : Sys F D) : Prop := mkCalm {
    q_mode : mode_of s = if ev then EventMode else ContinuousTimeMode; q_loc : resourceLocation (ctl (sinst s)) = Some (cstr v);
    q_t : terminateSimulation (mut (sinst s)) = false; q_d : newDiscreteStatesNeeded (mut (sinst s)) = false;
    q_n : nominalsChanged (mut (sinst s)) = false; q_v : valuesChanged (mut (sinst s)) = false; q_e : nextEventTimeDefined (mut (sinst s)) = false }.
  Ltac open s M L := intros [M L ? ? ? ? ?]; unfold mode_of in M; destruct s as [[ct u o] hp]; cbn [md model_of Resource_model] in *;
    destruct u as [u1 u2 u3 u4 u5 u6 u7 di d]; destruct ct as [c1 c2 c3 c4 c5 c6 c7 c8 c9 c10 c11 c12 c13 c14 c15 md c17 c18 c19 c20]; cbn in *; subst.
  Ltac shut := repeat constructor.

  Lemma rec2_calm time s : calm uri false s -> exists s1, recordVariables2 Resource szof fuel env time s = Done (inl tt, s1, [(time, OVals TInt32 (Some [c]))]) /\ calm uri false s1.
  Proof. open s M L. destruct di; (eexists; split; [go|shut]). Qed.
  Lemma rec3_calm time s : calm path false s -> exists s1, recordVariables Resource szof' fuel env time s = Done (inl tt, s1, [(time, OVals TInt32 (Some [c]))]) /\ calm path false s1.
  Proof. open s M L. destruct di; (eexists; split; [go|shut]). Qed.
  Lemma call2_calm s : calm uri false s ->
    (forall t, exists o s1, CALL2 Resource szof fuel env (O2SetTime t) s = Done (inl o, s1, []) /\ calm uri false s1) /\
    (exists s1, CALL2 Resource szof fuel env (O2CompletedIntegratorStep (Some tt) (Some tt)) s = Done (inl (OFlags (Some (false, false))), s1, []) /\ calm uri false s1) /\
    (exists o s1, CALL2 Resource szof fuel env O2EnterEventMode s = Done (inl o, s1, []) /\ calm uri true s1).
  Proof.
    open s M L. split; [intro t; destruct di; (eexists _, _; split; [go|shut])|].
    split; [destruct di; (eexists; split; [go|shut])|destruct di; (eexists _, _; split; [go|shut])].
  Qed.
  Lemma call3_calm s : calm path false s ->
    (forall t, exists o s1, CALL Resource szof' fuel env (O3SetTime t) s = Done (inl o, s1, []) /\ calm path false s1) /\
    (exists s1, CALL Resource szof' fuel env (O3CompletedIntegratorStep (Some tt) (Some tt)) s = Done (inl (OFlags (Some (false, false))), s1, []) /\ calm path false s1) /\
    (exists o s1, CALL Resource szof' fuel env O3EnterEventMode s = Done (inl o, s1, []) /\ calm path true s1).
  Proof.
    open s M L. split; [intro t; destruct di; (eexists _, _; split; [go|shut])|].
    split; [destruct di; (eexists; split; [go|shut])|destruct di; (eexists _, _; split; [go|shut])].
  Qed.
  Lemma ev2_calm n s : calm uri true s ->
    exists net s1 o s2, event_iteration2 Resource szof fuel env (Datatypes.S n) false false s = Done (inl (false, false, false, net), s1, []) /\
      CALL2 Resource szof fuel env O2EnterContinuousTimeMode s1 = Done (inl o, s2, []) /\ calm uri false s2.
  Proof. open s M L. destruct di; (eexists _, _, _, _; split; [go|split; [go|shut]]). Qed.
  Lemma ev3_calm n s : calm path true s ->
    exists net s1 o s2, event_iteration Resource szof' fuel env (Datatypes.S n) false false s = Done (inl (false, false, false, net), s1, []) /\
      CALL Resource szof' fuel env O3EnterContinuousTimeMode s1 = Done (inl o, s2, []) /\ calm path false s2.
  Proof. open s M L. destruct di; (eexists _, _, _, _; split; [go|split; [go|shut]]). Qed.

  Lemma step_same : m_step m2 = m_step m3. Proof. reflexivity. Qed.
  Lemma term2_calm rows s : calm uri false s -> exists s1, @tearDown2 F NF Resource szof fuel env OK s rows = Done (OK, rows, Some s1).
  Proof. open s M L. eexists. reflexivity. Qed.
  Lemma term3_calm rows s : calm path false s -> exists s1, @tearDown F NF Resource szof' fuel env OK s rows = Done (OK, rows, Some s1).
  Proof. open s M L. eexists. reflexivity. Qed.
  Lemma row_two time : same_row Resource (time, OVals (F := F) (D := md m2) TInt32 (Some [c])) (time, OVals (F := F) (D := md m3) TInt32 (Some [c])).
  Proof. split; reflexivity. Qed.
  Ltac fin := cbn [app]; split; [reflexivity|]; split; [reflexivity|]; split; [|split; assumption]; repeat first [assumption|apply Forall2_nil|apply Forall2_cons; [apply row_two|]].
  Ltac tail C C' :=
    destruct (nle stop _); [unfold finish2, finish, ret; fin|];
    unfold if_any2, if_any; change (Nat.ltb 0 0) with false; unfold pret2, pret, ret; cbv beta iota;
    let time' := fresh "time'" in set (time' := nmul (nofN (N.modulo (_ + 1) two64)) (m_step m3)) in *;
    let q := fresh "q" in let r1 := fresh "r1" in let D1 := fresh "D1" in let q' := fresh "q'" in let r1' := fresh "r1'" in let D1' := fresh "D1'" in
    destruct (proj1 (call2_calm C) time') as (q & r1 & -> & D1); destruct (proj1 (call3_calm C') time') as (q' & r1' & -> & D1');
    let r2 := fresh "r2" in let D2 := fresh "D2" in let r2' := fresh "r2'" in let D2' := fresh "D2'" in
    destruct (call2_calm D1) as (_ & (r2 & -> & D2) & _); destruct (call3_calm D1') as (_ & (r2' & -> & D2') & _);
    let r3 := fresh "r3" in let D3 := fresh "D3" in let r3' := fresh "r3'" in let D3' := fresh "D3'" in
    destruct (rec2_calm time' D2) as (r3 & -> & D3); destruct (rec3_calm time' D2') as (r3' & -> & D3');
    match goal with IH : forall s s', calm uri false s -> _ |- _ => specialize (IH _ _ D3 D3'); revert IH end;
    match goal with |- match ?a with _ => _ end -> _ => destruct a as [[[? ?] ?]| |] end;
    try (intro; contradiction);
    match goal with |- match ?a with _ => _ end -> _ => destruct a as [[[? ?] ?]| |] end;
    try (intro; contradiction); [intros (-> & -> & ? & ? & ?)|intro; exact I];
    fin.
  (** ** The loops *)
  Lemma loops_calm n : forall step time net net' s s', calm uri false s -> calm path false s' ->
    match me_loop2 Resource szof fuel env stop 0 0 n step time [] [] false false false net s, me_loop Resource szof' fuel env stop 0 0 n step time [] [] false false false net' s' with
    | Done (r, s1, rows), Done (r', s1', rows') => r' = inr OK /\ r = inr OK /\ Forall2 (same_row Resource) rows rows' /\ calm uri false s1 /\ calm path false s1'
    | NoFuel, NoFuel => True
    | _, _ => False
    end.
  Proof.
    induction n as [|n IH]; intros step time net net' s s' C C'; [exact I|]. cbn [me_loop2 me_loop andb orb]. rewrite orb_false_r. change (m_step m2) with (m_step m3).
    unfold pbind2, pbind, bind. rewrite !orb_false_r.
    destruct (nle ninf time).
    - destruct (call2_calm C) as (_ & _ & o & s1 & -> & C1). destruct (call3_calm C') as (_ & _ & o' & s1' & -> & C1').
      destruct n as [|n]; [exact I|].
      destruct (ev2_calm n C1) as (ne & s2 & o2 & s3 & -> & E3 & C3). destruct (ev3_calm n C1') as (ne' & s2' & o2' & s3' & -> & E3' & C3').
      rewrite E3, E3'. clear E3 E3'. destruct (rec2_calm time C3) as (s4 & -> & C4). destruct (rec3_calm time C3') as (s4' & -> & C4').
      unfold pret2, pret, ret. cbn [app]. pose proof (IH (N.modulo (step + 1) two64) (nmul (nofN (N.modulo (step + 1) two64)) (m_step m3)) ne ne') as IH'. clear IH.
      tail C4 C4'.
    - unfold pret2, pret, ret. cbn [app]. pose proof (IH (N.modulo (step + 1) two64) (nmul (nofN (N.modulo (step + 1) two64)) (m_step m3)) net net') as IH'. clear IH.
      tail C C'.
  Qed.

  Lemma begin_calm : exists i t o1 s1 o2 s2 o3 s3,
    newFMI2 Resource env S ModelExchange uri = Done (Some i, t) /\
    CALL2 Resource szof fuel env (O2SetupExperiment nzero true stop) (mkSys i []) = Done (inl o1, s1, []) /\
    CALL2 Resource szof fuel env O2EnterInitializationMode s1 = Done (inl o2, s2, []) /\
    CALL2 Resource szof fuel env O2ExitInitializationMode s2 = Done (inl o3, s3, []) /\ calm uri true s3 /\
    exists i' t' o1' s1' o2' s2',
    newME Resource env S (Some path) = Done (Some i', t') /\
    CALL Resource szof' fuel env (O3EnterInitializationMode nzero true stop) (mkSys i' []) = Done (inl o1', s1', []) /\
    CALL Resource szof' fuel env O3ExitInitializationMode s1' = Done (inl o2', s2', []) /\ calm path true s2'.
  Proof.
    do 8 eexists. split; [go|]. split; [go|]. split; [go|]. split; [go|]. split; [shut|].
    do 6 eexists. split; [go|]. split; [go|]. split; [go|]. shut.
  Qed.
  Lemma me_two n : written_same Resource (simulate_me2 Resource szof fuel env S stop 0 0 uri n) (simulate_me Resource szof' fuel env S stop 0 0 path n).
  Proof.
    destruct begin_calm as (i & t & o1 & s1 & o2 & s2 & o3 & s3 & E0 & E1 & E2 & E3 & C & i' & t' & o1' & s1' & o2' & s2' & E0' & E1' & E2' & C').
    unfold simulate_me2, simulate_me, program2, program. rewrite E0, E0'. unfold if_any2, if_any, pbind2, pbind, bind. rewrite E1, E2, E3, E1', E2'.
    destruct n as [|n]; [exact I|].
    destruct (ev2_calm n C) as (ne & s4 & o4 & s5 & -> & E5 & C5). destruct (ev3_calm n C') as (ne' & s4' & o4' & s5' & -> & E5' & C5').
    rewrite E5, E5'. clear E5 E5'. change (Nat.ltb 0 0) with false. unfold pret2, pret, ret.
    destruct (rec2_calm nzero C5) as (s6 & -> & C6). destruct (rec3_calm nzero C5') as (s6' & -> & C6'). cbn [repeat].
    pose proof (loops_calm (Datatypes.S n) 0%N nzero ne ne' C6 C6') as L.
    destruct (me_loop2 _ _ _ _ _ _ _ _ _ _ _ _ _ _ _ _ s6) as [[[r s7] rows]| |]; destruct (me_loop _ _ _ _ _ _ _ _ _ _ _ _ _ _ _ _ s6') as [[[r' s7'] rows']| |]; try exact L; try contradiction.
    destruct L as (-> & -> & Rw & C7 & C7'). cbv beta iota. cbn [app].
    match goal with |- written_same _ (tearDown2 _ _ _ _ _ ?a) (tearDown _ _ _ _ _ ?b) => destruct (term2_calm a C7) as (s8 & ->); destruct (term3_calm b C7') as (s8' & ->) end.
    split; [reflexivity|]. split; [now left|]. constructor; [split; reflexivity|exact Rw].
  Qed.
End Res.

Section Missing.
  Context {F : Type} {NF : Num F} (szof szof' : N) (fuel : nat) (env : Env) (stop : F) (S : N) (uri path p2 p3 : bytes) (NX NZ : nat).
  Hypothesis P2 : path2 (cstr (cstr uri)) = Some p2.
  Hypothesis P3 : path3 (cstr (cstr path)) = Some p3.
  Hypothesis Fc2 : env_file env p2 = None.
  Hypothesis Fc3 : env_file env p3 = None.
  Ltac lz := lazy -[nle nlt nadd nmul nopp nlit nzero ndblmin nofN ninf ntrunc cstr path3 path2 env_file app].
  Lemma me_none n : written_same Resource (simulate_me2 Resource szof fuel env S stop NX NZ uri n) (simulate_me Resource szof' fuel env S stop NX NZ path n).
  Proof.
    assert (G : exists i t o1 s1 o2 s2 s3,
      newFMI2 (F := F) Resource env S ModelExchange uri = Done (Some i, t) /\
      CALL2 Resource szof fuel env (O2SetupExperiment nzero true stop) (mkSys i []) = Done (inl o1, s1, []) /\
      CALL2 Resource szof fuel env O2EnterInitializationMode s1 = Done (inl o2, s2, []) /\
      CALL2 Resource szof fuel env O2ExitInitializationMode s2 = Done (inr Error, s3, [])).
    { do 7 eexists. split; [lz; reflexivity|]. split; [lz; reflexivity|]. split; [lz; rewrite ?P2; lz; rewrite ?Fc2; reflexivity|].
      lz; rewrite ?P2; lz; rewrite ?Fc2; lz; reflexivity. }
    assert (G' : exists i' t' o1' s1' s2',
      newME (F := F) Resource env S (Some path) = Done (Some i', t') /\
      CALL Resource szof' fuel env (O3EnterInitializationMode nzero true stop) (mkSys i' []) = Done (inl o1', s1', []) /\
      CALL Resource szof' fuel env O3ExitInitializationMode s1' = Done (inr Error, s2', [])).
    { do 5 eexists. split; [lz; reflexivity|]. split; [lz; reflexivity|]. lz; rewrite ?P3; lz; rewrite ?Fc3; lz; reflexivity. }
    destruct G as (i & t & o1 & s1 & o2 & s2 & s3 & E0 & E1 & E2 & E3), G' as (i' & t' & o1' & s1' & s2' & E0' & E1' & E2').
    unfold simulate_me2, simulate_me, program2, program. rewrite E0, E0'. unfold pbind2, pbind, bind. rewrite E1, E2, E3, E1', E2'.
    repeat split; auto. constructor.
  Qed.
End Missing.

Lemma me_resource {F : Type} {NF : Num F} szof szof' fuel env S (stop : F) uri enc dir n :
  file_uri enc uri -> decodes enc dir -> plain uri -> plain dir -> length enc <= N.to_nat 4095 -> length dir <= N.to_nat 4089 ->
  written_same Resource (simulate_me2 Resource szof fuel env S stop 0 0 uri n) (simulate_me Resource szof' fuel env S stop 0 0 (dir ++ [Byte.x2f]) n).
Proof.
  intros Hu Hd Pu Pd Le Ld.
  assert (P2 : path2 (cstr (cstr uri)) = Some (dir ++ SpecImporter.y_txt)).
  { rewrite !(cstr_plain Pu). eapply path2_decodes; eauto. }
  assert (Pp : plain (dir ++ [Byte.x2f])).
  { intro H. apply in_app_iff in H as [H|[H|[]]]; [exact (Pd H)|discriminate]. }
  assert (P3 : path3 (cstr (cstr (dir ++ [Byte.x2f]))) = Some (dir ++ SpecImporter.y_txt)).
  { rewrite (cstr_plain Pp). rewrite path3_ok by (rewrite (cstr_plain Pp), app_length; cbn [length]; unfold MAX_PATH_LENGTH; lia).
    rewrite (cstr_plain Pp), <- app_assoc. reflexivity. }
  destruct (env_file env (dir ++ SpecImporter.y_txt)) as [c|] eqn:Fc.
  - exact (@me_two F NF szof szof' fuel env stop S uri _ _ _ P2 P3 c Fc Fc n).
  - exact (@me_none F NF szof szof' fuel env stop S uri _ _ _ 0 0 P2 P3 Fc Fc n).
Qed.
