(** RunsTwoMe.v -- the model exchange programs of both FMI versions side by side (C64). *)
From Coq Require Import List NArith ZArith Bool Arith Lia Reals.
From Verif Require Import Base Instance ModelIface Core Fmi3 Fmi2 Api Fmus Programs Programs2 SpecPrograms SpecModes SpecCreate SpecCross SpecSteps SpecPrograms2
  Logic Calls Modes Dyn Fits FmuBouncingBall FmuDahlquist FmuVanDerPol FmuStair NumB64 NumR CrossFmus Runs RunsMe RunsTwo.
Import ListNotations.
Local Open Scope nat_scope.
Set Implicit Arguments.

Section Me.
  Context {F : Type} {NF : Num F} (f : FMU) (szof szof' : N) (fuel : nat) (env : Env).
  Notation m2 := (model_of (F := F) FMI2 f).
  Notation m3 := (model_of (F := F) FMI3 f).
  Notation Tied := (tied (F := F) f szof szof' fuel false).
  Notation Row2 := (F * Out F (md m2))%type.
  Notation Row3 := (F * Out F (md m3))%type.
  Notation Same := (Forall2 (same_row (F := F) f)).

  (* two states of the programs *)
  Definition side (M : ModelState) (s : Sys F (md m2)) (s' : Sys F (md m3)) : Prop := reach2 m2 szof s /\ Tied s s' /\ mode_of s = M.
  Definition ends_alike {X X'} (Q : X -> X' -> Prop) (M : ModelState) (a : res ((X + Status) * Sys F (md m2) * list Row2))
             (a' : res ((X' + Status) * Sys F (md m3) * list Row3)) : Prop :=
    match a, a' with
    | Done (r, s1, rows), Done (r', s1', rows') =>
        Same rows rows' /\
        match r, r' with
        | inl x, inl x' => side M s1 s1' /\ Q x x'
        | inr st, inr st' => st' = st /\ (st = Error \/ st = OK /\ (side EventMode s1 s1' \/ side ContinuousTimeMode s1 s1'))
        | _, _ => False
        end
    | UB, UB => True
    | NoFuel, NoFuel => True
    | _, _ => False
    end.
  Definition rel {X X'} (M : ModelState) (Q : X -> X' -> Prop) (M' : ModelState) (p : Prog2 (F := F) f X) (p' : Prog (F := F) f X') : Prop :=
    forall s s', side M s s' -> ends_alike Q M' (p s) (p' s').

  Lemma rel_bind X X' Z Z' M Q M1 R M2 (p : Prog2 f X) (p' : Prog f X') (k : X -> Prog2 f Z) (k' : X' -> Prog f Z') :
    rel M Q M1 p p' -> (forall x x', Q x x' -> rel M1 R M2 (k x) (k' x')) -> rel M R M2 (pbind2 p k) (pbind p' k').
  Proof.
    intros H K s s' Sd. specialize (H s s' Sd). unfold pbind2, pbind, bind.
    destruct (p s) as [[[r s1] rows]| |]; destruct (p' s') as [[[r' s1'] rows']| |]; try exact H; try contradiction.
    destruct H as (Sm & H). destruct r as [x|st]; destruct r' as [x'|st']; try contradiction.
    - destruct H as (S1 & Hq). specialize (K x x' Hq s1 s1' S1).
      destruct (k x s1) as [[[r s2] rows2]| |]; destruct (k' x' s1') as [[[r' s2'] rows2']| |]; try exact K; try contradiction.
      destruct K as (Sm2 & K). split; [now apply Forall2_app|exact K].
    - cbn. split; [now rewrite !app_nil_r|exact H].
  Qed.
  Lemma rel_ret X X' M (Q : X -> X' -> Prop) x x' : Q x x' -> rel M Q M (pret2 f x) (pret f x').
  Proof. intros H s s' Sd. split; [constructor|]. auto. Qed.
  Lemma rel_finish X X' M (Q : X -> X' -> Prop) M' : M = EventMode \/ M = ContinuousTimeMode -> rel M Q M' (finish2 f) (finish f).
  Proof. intros H s s' Sd. split; [constructor|]. split; [reflexivity|]. right. split; [reflexivity|]. destruct H; subst; auto. Qed.
  Lemma rel_ub X X' M (Q : X -> X' -> Prop) M' : rel M Q M' ubM ubM.
  Proof. intros s s' _. exact I. Qed.
  Lemma rel_nofuel X X' M (Q : X -> X' -> Prop) M' : rel M Q M' nofuelM nofuelM.
  Proof. intros s s' _. exact I. Qed.
  Lemma rel_mono X X' M (Q Q' : X -> X' -> Prop) M' p p' : (forall x x', Q x x' -> Q' x x') -> rel M Q M' p p' -> rel M Q' M' p p'.
  Proof.
    intros H K s s' Sd. specialize (K s s' Sd). destruct (p s) as [[[[x|] s1] rows]| |]; destruct (p' s') as [[[[x'|] s1'] rows']| |]; try exact K.
    destruct K as (Sm & S1 & K). split; auto.
  Qed.

  Definition ordinary (c : Call F) : bool := match c with CStep _ _ | CInit _ _ _ | CSave | CRestore _ | CCopy _ => false | _ => true end.
  Lemma call_pair c s s' M M' : portable f c = true -> ordinary c = true -> allowed (D := md m2) c M -> (forall s0 : Sys F (md m2), mode_of s0 = M -> next2 (op2 c) s0 = M') -> side M s s' ->
    match exec2 m2 szof fuel env (op2 c) s, exec3 m3 szof' fuel env (op3 c) s' with
    | Done (st, o, s1, _), Done (st', o', s1', _) => shown o o' /\ st' = st /\ (st = Error \/ st = OK /\ side M' s1 s1')
    | UB, UB => True
    | NoFuel, NoFuel => True
    | _, _ => False
    end.
  Proof.
    intros Pc Oc Al Nx (Rs & Td & Ms).
    assert (Is : is_step c = false) by (now destruct c).
    assert (Ii : is_init c = false) by (now destruct c).
    assert (Nc : saved' c false [] = []) by (destruct c; reflexivity || discriminate Oc).
    pose proof (@tied_call F NF f szof szof' fuel env false c s s' Pc Nc) as K. unfold mode_of in Ms. rewrite Ms in K. specialize (K Al ltac:(intro; reflexivity) Td).
    assert (E2 : do2 m2 szof fuel env c s = exec2 m2 szof fuel env (op2 c) s) by (unfold do2; destruct c; try reflexivity; discriminate Oc).
    assert (E3 : do3 m3 szof' fuel env c s' = exec3 m3 szof' fuel env (op3 c) s') by (unfold do3; destruct c; try reflexivity; discriminate Oc).
    rewrite E2, E3 in K.
    destruct (exec2 m2 szof fuel env (op2 c) s) as [[[[st o] s1] t]| |] eqn:E; destruct (exec3 m3 szof' fuel env (op3 c) s') as [[[[st' o'] s1'] t']| |]; try exact K.
    destruct K as (Ag & T1). unfold agree in Ag. rewrite Is in Ag. destruct Ag as (_ & _ & _ & -> & Sh). split; [exact Sh|]. split; [reflexivity|].
    assert (S1 : stopped' c st [] false = false) by (destruct c; try reflexivity; discriminate Oc). rewrite S1 in T1.
    assert (R1 : reach2 m2 szof s1) by (eapply reach2_call; [exact Rs| |exact E]; intros i X; exfalso; clear - X; destruct c; discriminate X).
    destruct (statuses2 _ _ _ _ _ _ E) as [->|[->|(-> & X)]]; [|now left|clear - X Is; exfalso; destruct c; try exact X; discriminate Is].
    right. split; [reflexivity|]. split; [exact R1|]. split; [exact T1|].
    destruct (proj2 (@mode_graph2 F NF f szof s Rs) _ _ _ _ _ _ _ E) as (_ & G & _). rewrite (proj1 (G eq_refl)). now apply Nx.
  Qed.
  Lemma rel_call c M M' : portable f c = true -> ordinary c = true -> allowed (D := md m2) c M -> (forall s0 : Sys F (md m2), mode_of s0 = M -> next2 (op2 c) s0 = M') ->
    rel M (fun o o' => shown o o') M' (CALL2 f szof fuel env (op2 c)) (CALL f szof' fuel env (op3 c)).
  Proof.
    intros Pc Oc Al Nx s s' Sd. pose proof (@call_pair c s s' M M' Pc Oc Al Nx Sd) as K. unfold CALL2, CALL.
    destruct (exec2 m2 szof fuel env (op2 c) s) as [[[[st o] s1] t]| |]; destruct (exec3 m3 szof' fuel env (op3 c) s') as [[[[st' o'] s1'] t']| |]; try exact K.
    destruct K as (Sh & -> & [->|(-> & K)]); (split; [constructor|]); auto.
  Qed.
  Lemma rel_record M time : observed f = true -> M = EventMode \/ M = ContinuousTimeMode ->
    rel M (fun _ _ => True) M (recordVariables2 f szof fuel env time) (recordVariables f szof' fuel env time).
  Proof.
    intros Ob HM s s' Sd.
    assert (G : exists t vrs zero, basic t = true /\ portable f (CGet t vrs (repeat zero (length vrs))) = true /\
      recordVariables2 f szof fuel env = record_values2 f szof fuel env t zero vrs /\ recordVariables f szof' fuel env = record_values f szof' fuel env t zero vrs).
    { clear - Ob. destruct f; try discriminate Ob;
      [exists TFloat64, [1; 3]%N, nzero|exists TFloat64, [1]%N, nzero|exists TInt32, [1]%N, 0%Z|exists TFloat64, [1; 3]%N, nzero]; repeat split; reflexivity. }
    destruct G as (t & vrs & zero & Bt & Pc & E2 & E3). rewrite E2, E3.
    pose proof (@call_pair (CGet t vrs (repeat zero (length vrs))) s s' M M Pc eq_refl) as K.
    assert (Al : allowed (D := md m2) (CGet t vrs (repeat zero (length vrs))) M).
    { destruct HM; subst M; (split; [cbn; tauto|]); destruct t; try discriminate Bt; cbn; tauto. }
    specialize (K Al ltac:(intros s0 H; exact H) Sd). unfold record_values2, record_values. unfold op2, op3 in K.
    destruct (exec2 m2 szof fuel env (O2Get t (Some vrs) (length vrs) (Some (repeat zero (length vrs)))) s) as [[[[st x] s0] tr]| |];
    destruct (exec3 m3 szof' fuel env (O3Get t (Some vrs) (length vrs) (Some (repeat zero (length vrs))) (length vrs)) s') as [[[[st' x'] s0'] tr']| |]; try exact K.
    destruct K as (Sh & -> & K). split; [repeat constructor; exact Sh|]. destruct K as [->|(-> & K)]; auto.
  Qed.

  Variables (stop : F) (NX NZ : nat).
  Ltac allow := split; cbn; tauto.
  Lemma rel_array (o2 : Buf F -> nat -> Op2 F (md m2)) (o3 : Buf F -> nat -> Op3 F (md m3)) (c : list F -> nat -> Call F) n x M :
    (forall x n, op2 (c x n) = o2 (Some x) n) -> (forall x n, op3 (c x n) = o3 (Some x) n) -> (forall x n, portable f (c x n) = true) -> (forall x n, ordinary (c x n) = true) ->
    (forall x n, allowed (D := md m2) (c x n) M) -> (forall x n (s0 : Sys F (md m2)), mode_of s0 = M -> next2 (op2 (c x n)) s0 = M) ->
    rel M eq M (CALL_array2 f szof fuel env (o2 (Some x) n) x) (CALL_array f szof' fuel env (o3 (Some x) n) x).
  Proof.
    intros H2 H3 Hp Ho Ha Hn. unfold CALL_array2, CALL_array. eapply rel_bind; [rewrite <- H2, <- H3; apply rel_call; auto|].
    intros o o' Sh. apply rel_ret. destruct o, o'; try contradiction; try reflexivity. cbn in Sh. now subst.
  Qed.
  Lemma rel_any (o2 : Buf F -> nat -> Op2 F (md m2)) (o3 : Buf F -> nat -> Op3 F (md m3)) (c : list F -> nat -> Call F) n x M :
    (forall x n, op2 (c x n) = o2 (Some x) n) -> (forall x n, op3 (c x n) = o3 (Some x) n) -> (forall x n, portable f (c x n) = true) -> (forall x n, ordinary (c x n) = true) ->
    (forall x n, allowed (D := md m2) (c x n) M) -> (forall x n (s0 : Sys F (md m2)), mode_of s0 = M -> next2 (op2 (c x n)) s0 = M) ->
    rel M eq M (if_any2 f szof fuel env n o2 x) (if_any f szof' fuel env n o3 x).
  Proof.
    intros. unfold if_any2, if_any. destruct (Nat.ltb 0 n); [|now apply rel_ret]. now apply rel_array with (c := c).
  Qed.
  Lemma rel_iteration n : forall a b, rel EventMode eq EventMode (event_iteration2 f szof fuel env n a b) (event_iteration f szof' fuel env n a b).
  Proof.
    induction n as [|n IH]; intros a b; [apply rel_nofuel|]. cbn [event_iteration2 event_iteration].
    eapply rel_bind; [apply (@rel_call CUpdate EventMode EventMode); [reflexivity|reflexivity|allow|auto]|].
    intros o o' Sh. destruct o, o'; try contradiction; try apply rel_ub. cbn in Sh. subst. 
    match goal with |- context [match ?x with Some _ => _ | None => _ end] => destruct x as [e|] end; [|apply rel_ub].
    destruct (ei_terminateSimulation e); [apply rel_finish; auto|]. destruct (ei_discreteStatesNeedUpdate e); [apply IH|now apply rel_ret].
  Qed.

  Hypothesis Ob : observed f = true.
  Lemma completed2 s : mode_of s = ContinuousTimeMode ->
    CALL2 f szof fuel env (O2CompletedIntegratorStep (Some tt) (Some tt)) s = Done (inl (OFlags (Some (false, false))), s, []).
  Proof.
    intros M. unfold CALL2. unfold mode_of in M. destruct s as [[c u o] hp]. cbn [ctl sinst] in M. cbn [exec2]. rewrite !outI_eq.
    unfold fmi2CompletedIntegratorStep. rewrite !BEGIN2_pass by (cbn [ctl sinst]; rewrite M; discriminate). reflexivity.
  Qed.
  Lemma rel_completed : rel ContinuousTimeMode (fun o o' => o = OFlags (Some (false, false)) /\ o' = OFlags (Some (false, false))) ContinuousTimeMode
    (CALL2 f szof fuel env (O2CompletedIntegratorStep (Some tt) (Some tt))) (CALL f szof' fuel env (O3CompletedIntegratorStep (Some tt) (Some tt))).
  Proof.
    intros s s' Sd. pose proof (@rel_call CCompleted ContinuousTimeMode ContinuousTimeMode eq_refl eq_refl ltac:(allow) ltac:(auto) s s' Sd) as K.
    cbn [op2 op3] in K. rewrite completed2 in * by apply Sd. destruct (CALL f szof' fuel env (O3CompletedIntegratorStep (Some tt) (Some tt)) s') as [[[[o'|st'] s1'] rows']| |]; try contradiction.
    - destruct K as (Sm & S1 & Sh). split; [exact Sm|]. split; [exact S1|]. split; [reflexivity|]. destruct o'; try contradiction. cbn in Sh. now subst.
    - now destruct K.
  Qed.
  Lemma rel_loop n : forall step time x pz se st ned net,
    rel ContinuousTimeMode (fun _ _ => True) ContinuousTimeMode
      (me_loop2 f szof fuel env stop NX NZ n step time x pz se st ned net) (me_loop f szof' fuel env stop NX NZ n step time x pz se st ned net).
  Proof.
    induction n as [|n IH]; intros; [apply rel_nofuel|]. cbn [me_loop2 me_loop].
    set (ev := nle ninf time || ned && nle net time || se || st).
    apply rel_bind with (Q := eq) (M1 := ContinuousTimeMode).
    { destruct ev; [|now apply rel_ret].
      eapply rel_bind; [apply (@rel_call CEnterEvent ContinuousTimeMode EventMode); [reflexivity|reflexivity|allow|auto]|]. intros _ _ _.
      eapply rel_bind; [apply rel_iteration|]. intros e ? <-. destruct e as [[[nom val] ned1] net1].
      eapply rel_bind; [apply (@rel_call CEnterContinuous EventMode ContinuousTimeMode); [reflexivity|reflexivity|allow|auto]|]. intros _ _ _.
      eapply rel_bind; [apply rel_record; auto|]. intros _ _ _.
      apply rel_bind with (Q := eq) (M1 := ContinuousTimeMode).
      { destruct val; [|now apply rel_ret]. apply rel_any with (c := CStates); auto; intros; allow. }
      intros y ? <-. apply rel_bind with (Q := eq) (M1 := ContinuousTimeMode).
      { destruct nom; [|now apply rel_ret]. apply rel_any with (c := CNominals); auto; intros; allow. }
      intros _ _ _. now apply rel_ret. }
    intros [[y ned1] net1] ? <-. destruct (nle stop time); [apply rel_finish; auto|].
    eapply rel_bind; [apply rel_any with (c := CDerivatives); auto; intros; allow|]. intros dx ? <-.
    rewrite <- (step_same (F := F) f Ob). set (step1 := N.modulo (step + 1) two64). set (t1 := nmul (nofN step1) (m_step m2)).
    eapply rel_bind; [apply (@rel_call (CSetTime t1) ContinuousTimeMode ContinuousTimeMode); [reflexivity|reflexivity|allow|auto]|]. intros _ _ _.
    assert (Ad : advance f y dx = advance2 f y dx) by (unfold advance, advance2; now rewrite (step_same (F := F) f Ob)).
    rewrite Ad. apply rel_bind with (Q := eq) (M1 := ContinuousTimeMode).
    { destruct (Nat.ltb 0 NX); [|now apply rel_ret].
      eapply rel_bind; [apply (@rel_call (CSetStates (advance2 f y dx) NX) ContinuousTimeMode ContinuousTimeMode); [reflexivity|reflexivity|allow|auto]|].
      intros _ _ _. now apply rel_ret. }
    intros x1 ? <-. apply rel_bind with (Q := eq) (M1 := ContinuousTimeMode).
    { destruct (Nat.ltb 0 NZ); [|now apply rel_ret].
      eapply rel_bind; [apply rel_array with (c := CIndicators); auto; intros; allow|]. intros z ? <-. now apply rel_ret. }
    intros [pz1 se1] ? <-. eapply rel_bind; [apply rel_completed|]. intros o o' (-> & ->).
    (* the FMI 3 program records before it looks at terminateSimulation *)
    eapply rel_bind; [apply rel_record; auto|]. intros _ _ _. apply IH.
  Qed.

  Variable S : N.
  Lemma begin2_me uri : exists i t o1 s1 o2 s2 o3 s3 t1 t2 t3,
    newFMI2 f env S ModelExchange uri = Done (Some i, t) /\
    exec2 m2 szof fuel env (O2SetupExperiment nzero true stop) (mkSys i []) = Done (OK, o1, s1, t1) /\
    exec2 m2 szof fuel env O2EnterInitializationMode s1 = Done (OK, o2, s2, t2) /\
    exec2 m2 szof fuel env O2ExitInitializationMode s2 = Done (OK, o3, s3, t3) /\
    mode (ctl i) = Instantiated /\ mode_of s2 = InitializationMode /\ mode_of s3 = EventMode.
  Proof.
    revert Ob. clear. intro Ob. destruct f; try discriminate Ob; do 11 eexists;
      (split; [lazy -[nle nlt nadd nmul nopp nlit nzero ndblmin nofN ninf ntrunc cstr]; reflexivity|]);
      (split; [lazy -[nle nlt nadd nmul nopp nlit nzero ndblmin nofN ninf ntrunc cstr]; reflexivity|]);
      (split; [lazy -[nle nlt nadd nmul nopp nlit nzero ndblmin nofN ninf ntrunc cstr]; reflexivity|]);
      (split; [lazy -[nle nlt nadd nmul nopp nlit nzero ndblmin nofN ninf ntrunc cstr]; reflexivity|]); repeat split.
  Qed.
  Lemma term_tied st s s' rows rows' : Same rows rows' -> st = OK -> side EventMode s s' \/ side ContinuousTimeMode s s' ->
    written_same f (@tearDown2 F NF f szof fuel env st s rows) (@tearDown F NF f szof' fuel env st s' rows').
  Proof.
    intros Sm -> Sd. unfold tearDown2, tearDown. cbn [status_num Nat.ltb Nat.leb].
    assert (K : match exec2 m2 szof fuel env (op2 CTerminate) s, exec3 m3 szof' fuel env (op3 CTerminate) s' with
                | Done (st, o, s1, _), Done (st', o', s1', _) => shown o o' /\ st' = st /\ (st = Error \/ st = OK /\ side Terminated s1 s1')
                | UB, UB => True
                | NoFuel, NoFuel => True
                | _, _ => False
                end).
    { destruct Sd as [Sd|Sd]; (eapply call_pair; [reflexivity|reflexivity| |auto|exact Sd]); allow. }
    cbn [op2 op3] in K.
    destruct (exec2 m2 szof fuel env O2Terminate s) as [[[[st o] s1] t]| |]; destruct (exec3 m3 szof' fuel env O3Terminate s') as [[[[st' o'] s1'] t']| |]; try exact K.
    destruct K as (_ & -> & K). split; [reflexivity|]. split; [|exact Sm]. destruct K as [->|(-> & _)]; auto.
  Qed.
  Lemma me_tied uri path n :
    (forall l, forallb (fun p => portable f (snd p)) l = true ->
       born_alike m2 m3 szof szof' fuel l (newFMI2 f env S ModelExchange uri) (newME f env S (Some path))) ->
    written_same f (simulate_me2 f szof fuel env S stop NX NZ uri n) (simulate_me f szof' fuel env S stop NX NZ path n).
  Proof.
    intros Born. destruct (@begin2_me uri) as (i & t & o1 & s1 & o2 & s2 & o3 & s3 & t1 & t2 & t3 & E0 & E1 & E2 & E3 & Mi & M2 & M3).
    assert (R0 : reach2 m2 szof (mkSys i [])) by (apply reach2_new; unfold newFMI2 in E0; do 9 eexists; exact E0).
    assert (R1 : reach2 m2 szof s1) by (eapply reach2_call; [exact R0| |exact E1]; intros ? X; discriminate X).
    assert (R2 : reach2 m2 szof s2) by (eapply reach2_call; [exact R1| |exact E2]; intros ? X; discriminate X).
    assert (R3 : reach2 m2 szof s3) by (eapply reach2_call; [exact R2| |exact E3]; intros ? X; discriminate X).
    unfold simulate_me2, simulate_me, program2, program. rewrite E0 in *.
    destruct (newME f env S (Some path)) as [[[i'|] t']| |]; try (now destruct (Born [] eq_refl)).
    assert (T0 : Tied (mkSys i []) (mkSys i' [])) by (intros l Hl; apply (Born l Hl)).
    pose proof (@tied_call F NF f szof szof' fuel env false (CInit nzero true stop) (mkSys i []) (mkSys i' []) eq_refl eq_refl) as K.
    assert (A : allowed (D := md m2) (CInit nzero true stop) (mode (ctl (sinst (mkSys i []))))) by (cbn [sinst]; rewrite Mi; allow).
    specialize (K A ltac:(discriminate) T0). unfold do2, do3, next_call, op2, op3 in K. rewrite E1, E2 in K.
    unfold pbind2 at 1, pbind at 1, CALL2 at 1, CALL at 1. unfold bind at 1 2. rewrite E1. cbv beta iota. unfold pbind2 at 1. unfold bind at 1. unfold CALL2 at 1. rewrite E2. cbv beta iota.
    destruct (exec3 m3 szof' fuel env (O3EnterInitializationMode nzero true stop) (mkSys i' [])) as [[[[st' x'] s2'] tr']| |]; try contradiction.
    destruct K as ((_ & _ & _ & -> & _) & T2). cbv beta iota. change (stopped' (CInit nzero true stop) OK [] false) with false in T2.
    pose proof (@tied_call F NF f szof szof' fuel env false CExitInit s2 s2' eq_refl eq_refl) as K. clear A.
    assert (A : allowed (F := F) (D := md m2) CExitInit (mode (ctl (sinst s2)))) by (unfold mode_of in M2; rewrite M2; allow).
    specialize (K A ltac:(discriminate) T2). unfold do2, do3, next_call, op2, op3 in K. rewrite E3 in K.
    unfold pbind2 at 1, pbind at 1, CALL2 at 1, CALL at 1. unfold bind at 1 2. rewrite E3. cbv beta iota.
    destruct (exec3 m3 szof' fuel env O3ExitInitializationMode s2') as [[[[st' y'] s3'] tr'']| |]; try contradiction.
    destruct K as ((_ & _ & _ & -> & _) & T3). cbv beta iota. change (stopped' (F := F) CExitInit OK [] false) with false in T3.
    match goal with |- context [match ?p s3 with Done _ => _ | UB => UB | NoFuel => NoFuel end] => 
      match goal with |- context [match ?p' s3' with Done _ => _ | UB => UB | NoFuel => NoFuel end] =>
      assert (L : rel EventMode (fun _ _ => True) ContinuousTimeMode p p') end end.
    { eapply rel_bind; [apply rel_iteration|]. intros e ? <-. destruct e as [[[nom val] ned1] net1].
      eapply rel_bind; [apply (@rel_call CEnterContinuous EventMode ContinuousTimeMode); [reflexivity|reflexivity|allow|auto]|]. intros _ _ _.
      eapply rel_bind; [apply rel_any with (c := CIndicators); auto; intros; allow|]. intros pz ? <-.
      eapply rel_bind; [apply rel_any with (c := CStates); auto; intros; allow|]. intros x ? <-.
      eapply rel_bind; [apply rel_any with (c := CNominals); auto; intros; allow|]. intros _ _ _.
      eapply rel_bind; [apply rel_record; auto|]. intros _ _ _. apply rel_loop. }
    specialize (L s3 s3' (conj R3 (conj T3 M3))). unfold ends_alike in L. revert L.
    match goal with |- match ?a with Done _ => _ | UB => _ | NoFuel => _ end -> _ => destruct a as [[[r s4] rows]| |] end;
    match goal with |- match ?a with Done _ => _ | UB => _ | NoFuel => _ end -> _ => destruct a as [[[r' s4'] rows']| |] end; intro L; try exact L; try contradiction.
    cbn [app]. destruct L as (Sm & L). destruct r as [[]|st]; destruct r' as [[]|st']; try contradiction.
    - apply term_tied; auto. right. apply L.
    - destruct L as (-> & [->|(-> & L)]); [|now apply term_tied]. split; [reflexivity|]. auto.
  Qed.
End Me.

Lemma me_any (F : Type) (NF : Num F) (f : FMU) szof szof' fuel env S stop NX NZ uri path n : observed f = true -> f <> BouncingBall ->
  written_same f (simulate_me2 (F := F) f szof fuel env S stop NX NZ uri n) (simulate_me f szof' fuel env S stop NX NZ path n).
Proof.
  intros Ob Nb. destruct (observed_built (F := F) f Ob) as (Bu & Nr & Tk). apply me_tied; auto. intros l Hl.
  unfold newFMI2, newME. rewrite Tk.
  exact (@born_any F NF f szof szof' fuel env ModelExchange instance1' (Some (m_token (model_of (F := F) FMI3 f))) (Some uri) (Some path) S false l Bu Nr Nb ltac:(discriminate) Hl).
Qed.
Lemma me_B64 (f : FMU) szof szof' fuel env S stop NX NZ uri path n : observed f = true ->
  written_same f (simulate_me2 (F := B64) f szof fuel env S stop NX NZ uri n) (simulate_me f szof' fuel env S stop NX NZ path n).
Proof.
  intros Ob. destruct (observed_built (F := B64) f Ob) as (Bu & Nr & Tk). apply me_tied; auto. intros l Hl.
  unfold newFMI2, newME. rewrite Tk.
  exact (@born_B64 f szof szof' fuel env ModelExchange instance1' (Some (m_token (model_of (F := B64) FMI3 f))) (Some uri) (Some path) S false l Bu Nr ltac:(discriminate) Hl).
Qed.
Lemma me_R (inf : R) (f : FMU) szof szof' fuel env S stop NX NZ uri path n : let NF := NumR inf in observed f = true ->
  written_same f (simulate_me2 (F := R) f szof fuel env S stop NX NZ uri n) (simulate_me f szof' fuel env S stop NX NZ path n).
Proof.
  intros NF Ob. destruct (observed_built (F := R) f Ob) as (Bu & Nr & Tk). apply me_tied; auto. intros l Hl.
  unfold newFMI2, newME. rewrite Tk.
  exact (@born_R inf f szof szof' fuel env ModelExchange instance1' (Some (m_token (model_of (F := R) FMI3 f))) (Some uri) (Some path) S false l Bu Nr ltac:(discriminate) Hl).
Qed.
Lemma me_solution2 (F : Type) (NF : Num F) (f : FMU) szof fuel env S stop uri N n :
  f = Dahlquist \/ f = VanDerPol -> nlt (F := F) nzero nzero = false -> divided f stop N -> (N.of_nat N < two64)%N -> N < n ->
  exists rows2 s, simulate_me2 f szof fuel env S stop (length (begin (F := F) f)) 0 uri n = Done (OK, rows2, Some s) /\
    Forall2 (same_row f) rows2 (rows f (instant f) (solution f) N).
Proof.
  intros Hf Hz Hd Hb Hn. destruct (@simulate_me_solution F NF f szof fuel env S stop [] N n Hf Hz Hd Hb Hn) as (s' & E).
  assert (Ob : observed f = true) by (destruct Hf; now subst). assert (Nb : f <> BouncingBall) by (destruct Hf; subst; discriminate).
  pose proof (@me_any F NF f szof szof fuel env S stop (length (begin (F := F) f)) 0 uri [] n Ob Nb) as W. rewrite E in W.
  destruct (simulate_me2 f szof fuel env S stop (length (begin (F := F) f)) 0 uri n) as [[[st rows2] [s|]]| |]; try contradiction.
  destruct W as (-> & _ & W). eauto.
Qed.
