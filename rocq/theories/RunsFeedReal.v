(** RunsFeedReal.v -- the programs for Feedthrough in exact arithmetic (C65, C66). *)
From Coq Require Import List NArith ZArith Bool Arith Lia Reals Lra.
From Verif Require Import Base Instance ModelIface Core Fmi3 Fmi2 Api Fmus NumR SpecSteps SpecPrograms SpecFeed ProgramsFeed StepReal Runs RunsReal RunsFeed RunsFeed2 RunsFeedMe.
Import ListNotations.
Set Implicit Arguments.
Local Open Scope R_scope.

Section Exact.
  Variable inf : R.
  Local Hint Extern 0 (Num R) => exact (NR inf) : typeclass_instances.
  Notation f := Feedthrough.
  Notation h := (m_step (model_of (F := R) FMI3 f)).

  Lemma lit_R m e v : v = nlit (F := R) m e -> nlit (F := R) m e = v. Proof. auto. Qed.
  Lemma tenth_R : h = 1 / 10.
  Proof. cbn. change (Pos.to_nat 1) with 1%nat. cbn. lra. Qed.
  Lemma half_R : nlit (F := R) 5 (-1) = INR 5 / 10.
  Proof. cbn. change (Pos.to_nat 1) with 1%nat. cbn. lra. Qed.
  Lemma one_R : nlit (F := R) 1 0 = INR 10 / 10.
  Proof. cbn. lra. Qed.
  Lemma onehalf_R : nlit (F := R) 15 (-1) = INR 15 / 10.
  Proof. cbn. change (Pos.to_nat 1) with 1%nat. cbn. lra. Qed.
  Lemma two_R : nlit (F := R) 2 0 = 2.
  Proof. cbn. lra. Qed.
  Lemma le_R j k : nle (F := R) (INR j / 10) (INR k / 10) = Nat.leb j k.
  Proof.
    cbn [nle NR NumR]. destruct (Nat.leb_spec j k) as [H|H].
    - apply Rleb_spec. apply le_INR in H. lra.
    - apply Rleb_false. apply lt_INR in H. lra.
  Qed.
  Lemma lt_R j k : nlt (F := R) (INR j / 10) (INR k / 10) = Nat.ltb j k.
  Proof.
    cbn [nlt NR NumR]. destruct (Nat.ltb_spec j k) as [H|H].
    - apply Rltb_spec. apply lt_INR in H. lra.
    - apply le_INR in H. destruct (Rltb (INR j / 10) (INR k / 10)) eqn:E; [|reflexivity]. apply Rltb_spec in E. lra.
  Qed.
  Lemma at_R n : point (F := R) f n = INR n / 10.
  Proof. rewrite point_R, tenth_R. lra. Qed.
  Lemma instant_R n : instant (F := R) f n = INR n / 10.
  Proof. destruct n; cbn [instant]; [rewrite zero_R; cbn; lra|apply at_R]. Qed.
  Lemma phase_eq n : phase (F := R) (INR n / 10) = phase_R n.
  Proof. unfold phase, phase_R. rewrite one_R, lt_R. reflexivity. Qed.
  Lemma ramp_eq_R n e : ramp (F := R) (INR n / 10) e = if Nat.eqb n 5 && e then 2 else ramp_R n.
  Proof.
    unfold ramp, ramp_R. rewrite half_R, one_R, two_R, zero_R, !lt_R, !le_R.
    destruct (Nat.ltb_spec n 5) as [A|A].
    { destruct (Nat.eqb_spec n 5) as [->|_]; [lia|]. destruct (Nat.leb_spec n 5) as [_|B]; [reflexivity|lia]. }
    destruct (Nat.leb_spec n 5) as [B|B].
    { assert (n = 5%nat) as -> by lia. cbn [Nat.leb Nat.eqb andb]. destruct e; reflexivity. }
    destruct (Nat.eqb_spec n 5) as [->|_]; [lia|]. destruct (Nat.leb_spec 5 n) as [_|C]; [|lia]. cbn [andb].
    destruct (Nat.ltb_spec n 10) as [C|C]; cbn [nsub nmul NR NumR INR]; lra.
  Qed.
  Lemma event_R n : INR n / 10 < inf -> input_event (F := R) (INR n / 10) = (Nat.eqb n 5 || Nat.eqb n 10 || Nat.eqb n 15)%bool.
  Proof.
    intro Hi. unfold input_event. rewrite half_R, one_R, onehalf_R. rewrite !le_R.
    destruct (Nat.leb_spec n 5); [rewrite le_R; destruct (Nat.leb_spec 5 n), (Nat.eqb_spec n 5), (Nat.eqb_spec n 10), (Nat.eqb_spec n 15); try lia; reflexivity|].
    destruct (Nat.leb_spec n 10); [rewrite le_R; destruct (Nat.leb_spec 10 n), (Nat.eqb_spec n 5), (Nat.eqb_spec n 10), (Nat.eqb_spec n 15); try lia; reflexivity|].
    destruct (Nat.leb_spec n 15); [rewrite le_R; destruct (Nat.leb_spec 15 n), (Nat.eqb_spec n 5), (Nat.eqb_spec n 10), (Nat.eqb_spec n 15); try lia; reflexivity|].
    destruct (Nat.eqb_spec n 5), (Nat.eqb_spec n 10), (Nat.eqb_spec n 15); try lia. cbn [orb]. cbn [nle ninf NR NumR]. apply Rleb_false. exact Hi.
  Qed.
  Lemma last_phase_R n : INR n / 10 < inf -> last_phase (F := R) (instant f) n = if Nat.leb n 10 then Low else High.
  Proof.
    induction n as [|n IH]; intro Hi.
    { cbn [last_phase]. rewrite instant_R, phase_eq. reflexivity. }
    assert (Hn : INR n / 10 < inf) by (rewrite S_INR in Hi; lra).
    cbn [last_phase]. rewrite instant_R, (event_R _ Hn), phase_eq, (IH Hn). unfold phase_R.
    destruct (Nat.eqb_spec n 5) as [->|]; [reflexivity|]. destruct (Nat.eqb_spec n 10) as [->|]; [reflexivity|]. destruct (Nat.eqb_spec n 15) as [->|]; [reflexivity|].
    cbn [orb]. destruct (Nat.leb_spec n 10), (Nat.leb_spec (S n) 10); try lia; reflexivity.
  Qed.

  Lemma conditions N : (N.of_nat N + 1 < 100000)%N ->
    precise (F := R) f N /\ before (F := R) f (INR N / 10) N /\ (N.of_nat N < two64)%N /\ reaches (F := R) f (INR N / 10) N.
  Proof.
    intro HN. destruct (@conditions_R inf f (INR N / 10) N) as (A & _).
    - rewrite tenth_R. lra.
    - exact HN.
    - pose proof (pos_INR N). lra.
    - rewrite tenth_R. destruct N as [|N]; [left; reflexivity|right]. replace (S N - 1)%nat with N by lia. rewrite S_INR. lra.
    - rewrite tenth_R. lra.
    - apply A. rewrite tenth_R. pose proof (tol_pos (INR N * (1 / 10)) (INR N / 10)). lra.
  Qed.

  Variables (szof : N) (fuel : nat) (env : Env) (narrow : R -> N) (S : N).
  Theorem feed_cs3_R path N n : (N.of_nat N + 1 < 100000)%N -> (2 <= fuel)%nat -> (N < n)%nat ->
    exists s, feed_cs3 szof fuel env narrow S (INR N / 10) path n = Done (OK, map (row3_R narrow) (seq 0 (Datatypes.S N)), Some s).
  Proof.
    intros HN Hf Hn. destruct (conditions _ HN) as (P & B & L & Rc).
    destruct (proj1 (feed_cs3_rows szof env narrow S path P B L Hf Hn) Rc) as (s & E). exists s. rewrite E. do 3 f_equal. apply map_ext. intro k.
    unfold cs_row3, row3_R. rewrite at_R. f_equal. destruct k as [|k]; [rewrite zero_R; reflexivity|]. rewrite at_R, phase_eq, ramp_eq_R, andb_false_r. reflexivity.
  Qed.
  Theorem feed_cs2_R uri N n : (N.of_nat N + 1 < 100000)%N -> (2 <= fuel)%nat -> (N < n)%nat ->
    exists s, feed_cs2 szof fuel env S (INR N / 10) uri n = Done (OK, map row2_R (seq 0 (Datatypes.S N)), Some s).
  Proof.
    intros HN Hf Hn. destruct (conditions _ HN) as (P & B & L & Rc).
    destruct (proj1 (feed_cs2_rows szof env S uri P B L Hf Hn) Rc) as (s & E). exists s. rewrite E. do 3 f_equal. apply map_ext. intro k.
    unfold cs_row2, row2_R. rewrite at_R. f_equal. destruct k as [|k]; [rewrite zero_R; reflexivity|]. rewrite at_R, phase_eq, ramp_eq_R, andb_false_r. reflexivity.
  Qed.
  Theorem feed_me3_R path N n : (N.of_nat N < two64)%N -> INR N / 10 < inf -> (Datatypes.S N < n)%nat ->
    exists s, feed_me3 szof fuel env narrow S (INR N / 10) path n = Done (OK, flat_map (rows3_R narrow) (seq 0 (Datatypes.S N)), Some s).
  Proof.
    intros HN Hi Hn.
    assert (Dv : divided (F := R) f (INR N / 10) N).
    { split; [rewrite instant_R, le_R; apply Nat.leb_refl|]. split.
      - intros k Hk. rewrite instant_R, le_R. apply Nat.leb_gt. exact Hk.
      - intros k Hk. rewrite instant_R. cbn [nle ninf NR NumR]. apply Rleb_false. apply le_INR in Hk. lra. }
    destruct (feed_me3_rows szof fuel env narrow S path HN Dv Hn) as (s & E). exists s. rewrite E. do 3 f_equal.
    assert (G : forall l, (forall k, In k l -> (k <= N)%nat) -> flat_map (me_rows3 narrow (instant f)) l = flat_map (rows3_R narrow) l).
    { induction l as [|k l IH]; intro H; [reflexivity|]. cbn [flat_map]. f_equal; [|apply IH; intros; apply H; right; assumption].
      assert (Hk : INR k / 10 < inf). { pose proof (H k (or_introl eq_refl)) as K. apply le_INR in K. lra. }
      unfold me_rows3, rows3_R. rewrite instant_R, (last_phase_R _ Hk), (event_R _ Hk), phase_eq, !ramp_eq_R, andb_false_r, andb_true_r. reflexivity. }
    apply G. intros k Hk. apply in_seq in Hk. lia.
  Qed.
End Exact.
