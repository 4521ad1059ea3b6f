(** RunsClocks.v -- the program scs_synchronous (C62). *)
From Coq Require Import List NArith ZArith Bool Arith Lia Reals Lra.
From Verif Require Import Base Instance ModelIface Core Fmi3 Api Fmus NumR NumB64 SpecPrograms Programs ProgramsClocks Logic Calls FmuClocks.
Import ListNotations.
Set Implicit Arguments.

Section RunsClocks.
  Context {F : Type} {NF : Num F} (szof : N) (fuel : nat) (env : Env).
  Notation m := (model_of (F := F) FMI3 Clocks).
  Notation D := (md m).
  Ltac crunch := lazy -[in_int Z.add Z.rem Z.eqb ntrunc nzero negb andb orb].

  Definition ready (c : Ctl F) : Prop := mode c = ClockActivationMode /\ hasClockUpdate c = true /\ hasLockPreemption c = false /\ hasUnlockPreemption c = false.
  Definition with_d (d : CLData F) (s : Sys F D) : Sys F D := mkSys (set_mut (set_data (d : D) (mut (sinst s))) (sinst s)) (heap s).
  Definition data_of (s : Sys F D) : CLData F := data (mut (sinst s)).
  Definition out_next (d : CLData F) : bool := negb (cl_outClock d) && Z.eqb (Z.rem (cl_total d + 1) 5) 0.

  Ltac start := 
    match goal with s : Sys _ _ |- _ => destruct s as [[c u o] hp] end; match goal with x : Mut _ _ |- _ => destruct x as [? ? ? ? ? ? ? ? d] end; match goal with x : md _ |- _ => cbn [md model_of Clocks_model] in x end; match goal with x : CLData _ |- _ => destruct x as [v q oc t1 t2 t3 tot r2 i2 o3] end;
    unfold data_of; cbn [data mut sinst ctl cl_t1 cl_total cl_interval cl_qualifier cl_outClock cl_t2 cl_t3 cl_result2 cl_input2 cl_output3].
  Ltac bools := repeat match goal with |- context [match ?b with true => _ | false => _ end] =>
    match b with context [match _ with _ => _ end] => fail 1 | _ => destruct b eqn:? end end.
  Lemma act1 s x z : ready (ctl (sinst s)) -> in_int (cl_t1 (data_of s) + 1) = true -> in_int (cl_total (data_of s) + 1) = true -> ntrunc x = Some z -> in_int z = true ->
    let d := data_of s in
    let q := if Z.eqb z 4 then 2%Z else cl_qualifier d in
    exec3 m szof fuel env (O3ActivateModelPartition 1001 x) s =
      Done (OK, ONone, with_d (mkCL (if Z.eqb z 4 then nzero else cl_interval d) q (out_next d) (cl_t1 d + 1) (cl_t2 d) (cl_t3 d) (cl_total d + 1) (cl_result2 d) (cl_input2 d) (cl_output3 d)) s,
        if Z.eqb q 2 || out_next d then [EClockUpdate] else []).
  Proof.
    start. intros (M & U & _) H1 H2 H3 H4. cbn [exec3]. rewrite outI_eq. unfold fmi3ActivateModelPartition. rewrite BEGIN_pass by (cbn; rewrite M; discriminate).
    destruct c. cbn in U. subst. crunch. rewrite H1, H2, H3, H4. crunch. destruct (z =? 4)%Z; crunch; destruct (negb oc && (Z.rem (tot + 1) 5 =? 0)%Z); rewrite ?orb_true_r, ?orb_false_r; crunch; bools; reflexivity.
  Qed.
  Lemma act2 s x : ready (ctl (sinst s)) -> in_int (cl_t2 (data_of s) + 1) = true -> in_int (cl_total (data_of s) + 1) = true -> in_int (cl_result2 (data_of s) + cl_input2 (data_of s)) = true ->
    let d := data_of s in
    exec3 m szof fuel env (O3ActivateModelPartition 1002 x) s =
      Done (OK, ONone, with_d (mkCL (cl_interval d) (cl_qualifier d) (out_next d) (cl_t1 d) (cl_t2 d + 1) (cl_t3 d) (cl_total d + 1) (cl_result2 d + cl_input2 d) 0 (cl_output3 d)) s,
        if out_next d then [EClockUpdate] else []).
  Proof.
    start. intros (M & U & L & Ul) H1 H2 H3. cbn [exec3]. rewrite outI_eq. unfold fmi3ActivateModelPartition. rewrite BEGIN_pass by (cbn; rewrite M; discriminate).
    destruct c. cbn in U, L, Ul. subst. crunch. rewrite H1, H2, H3. crunch. destruct (negb oc && (Z.rem (tot + 1) 5 =? 0)%Z); crunch; reflexivity.
  Qed.
  Lemma act3 s x : ready (ctl (sinst s)) -> in_int (cl_t3 (data_of s) + 1) = true -> in_int (cl_total (data_of s) + 1) = true ->
    let d := data_of s in
    exec3 m szof fuel env (O3ActivateModelPartition 1003 x) s =
      Done (OK, ONone, with_d (mkCL (cl_interval d) (cl_qualifier d) (out_next d) (cl_t1 d) (cl_t2 d) (cl_t3 d + 1) (cl_total d + 1) (cl_result2 d) (cl_input2 d) 1000) s,
        if out_next d then [EClockUpdate] else []).
  Proof.
    start. intros (M & U & L & Ul) H1 H2. cbn [exec3]. rewrite outI_eq. unfold fmi3ActivateModelPartition. rewrite BEGIN_pass by (cbn; rewrite M; discriminate).
    destruct c. cbn in U, L, Ul. subst. crunch. rewrite H1, H2. crunch. destruct (negb oc && (Z.rem (tot + 1) 5 =? 0)%Z); crunch; reflexivity.
  Qed.
  Lemma cb_eq s : ready (ctl (sinst s)) -> let d := data_of s in
    cb_clockUpdate szof fuel env s = Done (inl (cl_qualifier d),
      if Z.eqb (cl_qualifier d) 2 then with_d (set_cl_qualifier 1%Z d) s else s, []).
  Proof.
    start. intros (M & _). unfold cb_clockUpdate. cbn [exec3]. rewrite outI_eq. unfold fmi3GetIntervalDecimal. rewrite BEGIN_pass by (cbn; rewrite M; discriminate).
    crunch. destruct (q =? 2)%Z; crunch; reflexivity.
  Qed.
  Lemma clock_eq s : ready (ctl (sinst s)) -> exists o,
    CALL Clocks szof fuel env (O3GetClock (Some [1005%N]) 1 (Some [false])) s = Done (inl o, with_d (set_cl_outClock false (data_of s)) s, []).
  Proof.
    start. intros (M & _). unfold CALL. cbn [exec3]. rewrite outI_eq. unfold fmi3GetClock. rewrite BEGIN_pass by (cbn; rewrite M; discriminate).
    eexists. crunch. reflexivity.
  Qed.
  Lemma ticks_eq s x : ready (ctl (sinst s)) -> let d := data_of s in exists s',
    recordVariables Clocks szof fuel env x s = Done (inl tt, s', [(x, OVals TInt32 (Some [cl_t1 d; cl_t2 d; cl_t3 d; cl_total d]))]) /\ data_of s' = d /\ ctl (sinst s') = ctl (sinst s).
  Proof.
    start. intros (M & _). cbn [recordVariables]. unfold record_values. cbn [exec3 length repeat]. rewrite outI_eq. unfold fmi3Get. rewrite BEGIN_pass by (cbn; rewrite M; discriminate).
    destruct dirty; eexists; (split; [crunch; reflexivity|split; reflexivity]).
  Qed.

  Lemma ready_with d s : ready (ctl (sinst s)) -> ready (ctl (sinst (with_d d s))).
  Proof. exact (fun H => H). Qed.
  Lemma activate_eq vr t q s d (b : bool) : ready (ctl (sinst s)) ->
    exec3 m szof fuel env (O3ActivateModelPartition vr (nofN (N.of_nat t))) s = Done (OK, ONone, with_d d s, if b then [EClockUpdate] else []) ->
    activate szof fuel env vr t q s =
      Done (inl (if b then cl_qualifier d else q), with_d (if b && Z.eqb (cl_qualifier d) 2 then set_cl_qualifier 1%Z d else d) s, []).
  Proof.
    intros Rd E. unfold activate. rewrite E. destruct b; [|reflexivity]. cbn [existsb updates_clock orb].
    rewrite cb_eq by exact Rd. cbn [andb data_of with_d sinst mut data set_mut set_data].
    change (data_of (with_d d s)) with d. destruct (cl_qualifier d =? 2)%Z; reflexivity.
  Qed.

  Definition before2 (t : nat) : Z := Z.of_nat (length (filter (fun u => Nat.ltb (Nat.modulo u 8) 2) (seq 0 t))).
  Definition before3 (t : nat) : Z := if Nat.leb 5 t then 1%Z else 0%Z.
  Record counts (a b c : Z) (s : Sys F D) : Prop := mkCounts {
    co_ready : ready (ctl (sinst s));
    co_t1 : cl_t1 (data_of s) = a;
    co_t2 : cl_t2 (data_of s) = b;
    co_t3 : cl_t3 (data_of s) = c;
    co_total : cl_total (data_of s) = (a + b + c)%Z;
    co_in : cl_input2 (data_of s) = 0%Z;
    co_res : cl_result2 (data_of s) = 0%Z;
    co_q : cl_qualifier (data_of s) <> 2%Z }.
  Lemma before2_S t : before2 (S t) = (before2 t + if Nat.ltb (Nat.modulo t 8) 2 then 1 else 0)%Z.
  Proof.
    unfold before2. rewrite seq_S, filter_app, app_length. cbn [filter plus]. destruct (Nat.ltb _ _); cbn [length]; lia.
  Qed.
  Lemma before2_le t : (0 <= before2 t <= Z.of_nat t)%Z.
  Proof. induction t as [|t IH]; [cbn; lia|]. rewrite before2_S. destruct (Nat.ltb _ _); lia. Qed.
  Lemma before3_le t : (0 <= before3 t <= 1)%Z.
  Proof. unfold before3. destruct (Nat.leb _ _); lia. Qed.
  Lemma second_eq t : (Z.eqb (Z.rem (Z.of_nat t) 8) 0 || Z.eqb (Z.rem (Z.of_nat t - 1) 8) 0) = Nat.ltb (Nat.modulo t 8) 2.
  Proof.
    destruct t as [|t]; [reflexivity|]. rewrite !Z.rem_mod_nonneg by lia.
    assert (E : Z.of_nat (S t mod 8) = (Z.of_nat (S t) mod 8)%Z) by (rewrite Nat2Z.inj_mod; reflexivity).
    destruct (Nat.ltb_spec (S t mod 8) 2); destruct (Z.eqb_spec (Z.of_nat (S t) mod 8) 0); destruct (Z.eqb_spec ((Z.of_nat (S t) - 1) mod 8) 0); try reflexivity; exfalso; Z.div_mod_to_equations; lia.
  Qed.

  Lemma in_int_ok z : (0 <= z <= INT_MAX)%Z -> in_int z = true.
  Proof. intros (A & B). unfold in_int, INT_MIN. apply andb_true_intro. split; apply Z.leb_le; lia. Qed.

  Lemma part1 a b c t q s : counts a b c s -> (0 <= a)%Z -> (0 <= b)%Z -> (0 <= c)%Z -> (a + b + c < INT_MAX)%Z -> ntrunc (nofN (F := F) (N.of_nat t)) = Some (Z.of_nat t) ->
    in_int (Z.of_nat t) = true -> q <> 2%Z ->
    exists q1 s1, activate szof fuel env 1001 t q s = Done (inl q1, s1, []) /\ counts (a + 1) b c s1 /\ (q1 = 2%Z <-> t = 4).
  Proof.
    intros [Rd E1 E2 E3 E4 E5 E6 E7] La Lb Lc Lt Ix Iz Hq.
    assert (H1 : in_int (cl_t1 (data_of s) + 1) = true) by (rewrite E1; apply in_int_ok; lia).
    assert (H2 : in_int (cl_total (data_of s) + 1) = true) by (rewrite E4; apply in_int_ok; lia).
    do 2 eexists. split; [apply (@activate_eq _ t q _ _ _ Rd (@act1 s _ _ Rd H1 H2 Ix Iz))|]. cbn [cl_qualifier].
    destruct (Z.eqb_spec (Z.of_nat t) 4) as [E|E].
    - cbn [Z.eqb Pos.eqb orb andb]. split; [|split; intros; [lia|reflexivity]]. constructor; cbn; try assumption; try lia; discriminate.
    - destruct (Z.eqb_spec (cl_qualifier (data_of s)) 2) as [X|X]; [contradiction|]. cbn [orb]. rewrite andb_false_r. split.
      + constructor; cbn; try assumption; try lia.
      + destruct (out_next (data_of s)); split; intros; lia.
  Qed.
  Lemma part2 a b c t q s : counts a b c s -> (0 <= a)%Z -> (0 <= b)%Z -> (0 <= c)%Z -> (a + b + c < INT_MAX)%Z -> q <> 2%Z ->
    exists q1 s1, activate szof fuel env 1002 t q s = Done (inl q1, s1, []) /\ counts a (b + 1) c s1 /\ q1 <> 2%Z.
  Proof.
    intros [Rd E1 E2 E3 E4 E5 E6 E7] La Lb Lc Lt Hq.
    assert (H1 : in_int (cl_t2 (data_of s) + 1) = true) by (rewrite E2; apply in_int_ok; lia).
    assert (H2 : in_int (cl_total (data_of s) + 1) = true) by (rewrite E4; apply in_int_ok; lia).
    assert (H3 : in_int (cl_result2 (data_of s) + cl_input2 (data_of s)) = true) by (rewrite E5, E6; reflexivity).
    do 2 eexists. split; [apply (@activate_eq _ t q _ _ _ Rd (@act2 s _ Rd H1 H2 H3))|]. cbn [cl_qualifier].
    destruct (Z.eqb_spec (cl_qualifier (data_of s)) 2) as [X|X]; [contradiction|]. rewrite andb_false_r. split.
    - constructor; cbn; try assumption; try lia.
    - destruct (out_next (data_of s)); assumption.
  Qed.
  Lemma part3 a b c t q s : counts a b c s -> (0 <= a)%Z -> (0 <= b)%Z -> (0 <= c)%Z -> (a + b + c < INT_MAX)%Z ->
    exists q1 s1, activate szof fuel env 1003 t q s = Done (inl q1, s1, []) /\ counts a b (c + 1) s1.
  Proof.
    intros [Rd E1 E2 E3 E4 E5 E6 E7] La Lb Lc Lt.
    assert (H1 : in_int (cl_t3 (data_of s) + 1) = true) by (rewrite E3; apply in_int_ok; lia).
    assert (H2 : in_int (cl_total (data_of s) + 1) = true) by (rewrite E4; apply in_int_ok; lia).
    do 2 eexists. split; [apply (@activate_eq _ t q _ _ _ Rd (@act3 s _ Rd H1 H2))|]. cbn [cl_qualifier].
    destruct (Z.eqb_spec (cl_qualifier (data_of s)) 2) as [X|X]; [contradiction|]. rewrite andb_false_r.
    constructor; cbn; try assumption; try lia.
  Qed.

  Lemma pbind_inl {X Y} (p : Prog Clocks X) (k : X -> Prog Clocks Y) s x s1 : p s = Done (inl x, s1, []) -> pbind p k s = k x s1.
  Proof. intro E. unfold pbind, bind. rewrite E. destruct (k x s1) as [[[? ?] ?]| |]; reflexivity. Qed.
  Lemma pass_eq t q s : counts (Z.of_nat t) (before2 t) (before3 t) s -> ntrunc (nofN (F := F) (N.of_nat t)) = Some (Z.of_nat t) -> (2 * Z.of_nat t + 3 <= INT_MAX)%Z -> q <> 2%Z ->
    exists q' s', counts (Z.of_nat (S t)) (before2 (S t)) (before3 (S t)) s' /\ q' <> 2%Z /\
      forall n, sync_loop szof fuel env (S n) t q s =
        match sync_loop szof fuel env n (t + 1) q' s' with
        | Done (r, s2, rows) => Done (r, s2, clock_row t :: rows) | UB => UB | NoFuel => NoFuel end.
  Proof.
    intros C Ix Hb Hq. pose proof (before2_le t) as L2. pose proof (before3_le t) as L3.
    destruct (@part1 _ _ _ t q s C ltac:(lia) ltac:(lia) ltac:(lia) ltac:(lia) Ix ltac:(apply in_int_ok; lia) Hq) as (q1 & s1 & P1 & C1 & Q1).
    assert (P2 : exists q2 s2, (if Nat.ltb (Nat.modulo t 8) 2 then activate szof fuel env 1002 t q1 else pret Clocks q1) s1 = Done (inl q2, s2, []) /\
      counts (Z.of_nat (S t)) (before2 (S t)) (before3 t) s2 /\ (q2 = 2%Z <-> t = 4)).
    { rewrite before2_S, Nat2Z.inj_succ, <- Z.add_1_r. destruct (Nat.ltb_spec (Nat.modulo t 8) 2) as [X|X].
      - assert (t <> 4) by (intros ->; cbn in X; lia). assert (q1 <> 2%Z) by tauto.
        destruct (@part2 _ _ _ t q1 s1 C1) as (q2 & s2 & P2 & C2 & Q2); try lia. exists q2, s2. tauto.
      - exists q1, s1. rewrite Z.add_0_r. split; [reflexivity|]. tauto. }
    destruct P2 as (q2 & s2 & P2 & C2 & Q2). pose proof (before2_le (S t)) as L2'.
    assert (P3 : exists q3 s3, (if Z.eqb q2 2 then pbind (activate szof fuel env 1003 t q2) (fun _ => pret Clocks 1%Z) else pret Clocks q2) s2 = Done (inl q3, s3, []) /\
      counts (Z.of_nat (S t)) (before2 (S t)) (before3 (S t)) s3 /\ q3 <> 2%Z).
    { destruct (Z.eqb_spec q2 2) as [X|X].
      - assert (t = 4) by tauto. subst t. change (before3 4) with 0%Z in *.
        destruct (@part3 _ _ _ 4 q2 s2 C2) as (q3 & s3 & P3 & C3); try lia. exists 1%Z, s3. rewrite (@pbind_inl _ _ _ _ _ _ _ P3). split; [reflexivity|]. split; [exact C3|discriminate].
      - exists q2, s2. split; [reflexivity|]. split; [|exact X]. replace (before3 (S t)) with (before3 t); [exact C2|].
        unfold before3. destruct (Nat.leb_spec 5 t); destruct (Nat.leb_spec 5 (S t)); try reflexivity; exfalso; [lia|]. apply X, Q2. lia. }
    destruct P3 as (q3 & s3 & P3 & C3 & Q3).
    destruct (@clock_eq s3 (co_ready C3)) as (o & P4).
    destruct (@ticks_eq (with_d (set_cl_outClock false (data_of s3)) s3) (nofN (N.of_nat t)) (co_ready C3)) as (s5 & P5 & D5 & K5).
    exists q3, s5. split; [|split; [exact Q3|]].
    - destruct C3 as [Rd E1 E2 E3 E4 E5 E6 E7]. constructor; try (rewrite D5; assumption). rewrite K5. exact Rd.
    - intro n. cbn [sync_loop]. rewrite (@pbind_inl _ _ _ _ _ _ _ P1), second_eq, (@pbind_inl _ _ _ _ _ _ _ P2), (@pbind_inl _ _ _ _ _ _ _ P3), (@pbind_inl _ _ _ _ _ _ _ P4).
      unfold pbind at 1. unfold bind. rewrite P5.
      assert (R : clock_row (F := F) t = (nofN (N.of_nat t), OVals TInt32 (Some [cl_t1 (data_of s3); cl_t2 (data_of s3); cl_t3 (data_of s3); cl_total (data_of s3)]))).
      { unfold clock_row. rewrite (co_t1 C3), (co_t2 C3), (co_t3 C3), (co_total C3). reflexivity. }
      rewrite R. destruct (sync_loop szof fuel env n (t + 1) q3 s5) as [[[? ?] ?]| |]; reflexivity.
  Qed.

  Lemma sync_steps T : integral F T -> (2 * Z.of_nat T + 1 <= INT_MAX)%Z -> forall n t q s, counts (Z.of_nat t) (before2 t) (before3 t) s -> q <> 2%Z -> t + n = T ->
    exists s', sync_loop szof fuel env n t q s = Done (inl tt, s', map clock_row (seq t n)) /\ mode (ctl (sinst s')) = ClockActivationMode.
  Proof.
    intros It Hb. induction n as [|n IH]; intros t q s A Hq Ht; [exists s; split; [reflexivity|apply (co_ready A)]|].
    destruct (@pass_eq t q s A (It t ltac:(lia)) ltac:(lia) Hq) as (q' & s1 & C & Q & E). rewrite E.
    destruct (IH (t + 1) q' s1) as (s2 & E2 & M2); [rewrite Nat.add_1_r; exact C|exact Q|lia|]. exists s2. rewrite E2. rewrite Nat.add_1_r. split; [reflexivity|exact M2].
  Qed.

  Lemma sync_begin S : exists i t o1 s1 o2 s2, newSE env S = Done (Some i, t) /\
    CALL Clocks szof fuel env (O3EnterInitializationMode nzero false nzero) (mkSys i []) = Done (inl o1, s1, []) /\
    CALL Clocks szof fuel env O3ExitInitializationMode s1 = Done (inl o2, s2, []) /\ counts 0 0 0 s2.
  Proof.
    do 6 eexists; (split; [lazy -[nle nlt nadd nmul nopp nlit nzero ndblmin nofN ninf ntrunc cstr]; reflexivity|]);
      (split; [lazy -[nle nlt nadd nmul nopp nlit nzero ndblmin nofN ninf ntrunc cstr]; reflexivity|]);
      (split; [lazy -[nle nlt nadd nmul nopp nlit nzero ndblmin nofN ninf ntrunc cstr]; reflexivity|]).
    constructor; try reflexivity; [repeat split; reflexivity|discriminate].
  Qed.
  Theorem scs_synchronous_rows S T : integral F T -> (2 * Z.of_nat T + 1 <= INT_MAX)%Z ->
    exists s, scs_synchronous szof fuel env S T = Done (OK, map clock_row (seq 0 T), Some s).
  Proof.
    intros It Hb. destruct (sync_begin S) as (i & t & o1 & s1 & o2 & s2 & E1 & E2 & E3 & C).
    destruct (@sync_steps T It Hb T 0 0%Z s2 C ltac:(discriminate) eq_refl) as (s3 & E4 & M).
    unfold scs_synchronous, program. rewrite E1, (@pbind_inl _ _ _ _ _ _ _ E2), (@pbind_inl _ _ _ _ _ _ _ E3), E4.
    destruct s3 as [[c u o] hp]. cbn [ctl sinst] in M. unfold tearDown. cbn [status_num Nat.ltb Nat.leb exec3]. rewrite outI_eq. unfold fmi3Terminate.
    rewrite BEGIN_pass by (cbn [ctl sinst]; rewrite M; discriminate). eexists. reflexivity.
  Qed.
End RunsClocks.

Lemma integral_R (inf : R) T : let NF := NumR inf in integral R T.
Proof.
  intros NF t _. cbn [ntrunc nofN NumR NF]. f_equal. unfold Rtrunc.
  destruct (Rle_dec 0 (IZR (Z.of_N (N.of_nat t)))) as [X|X]; [|exfalso; apply X, IZR_le; lia].
  replace (Z.of_N (N.of_nat t)) with (Z.of_nat t) by lia. rewrite <- INR_IZR_INZ. apply Int_part_INR.
Qed.
Lemma scs_synchronous_R (inf : R) szof fuel env S T : let NF := NumR inf in (2 * Z.of_nat T + 1 <= INT_MAX)%Z ->
  exists s, scs_synchronous szof fuel env S T = Done (OK, map (clock_row (F := R)) (seq 0 T), Some s).
Proof. intros NF H. exact (@scs_synchronous_rows R NF szof fuel env S T (@integral_R inf T) H). Qed.
Lemma scs_synchronous_B64 szof fuel env S :
  exists s, scs_synchronous szof fuel env S 10 = Done (OK, map (clock_row (F := B64)) (seq 0 10), Some s).
Proof.
  apply scs_synchronous_rows; [|vm_compute; discriminate]. intros t H. do 10 (destruct t as [|t]; [vm_compute; reflexivity|]). lia.
Qed.
