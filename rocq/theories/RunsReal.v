(** RunsReal.v -- the co-simulation program in exact arithmetic and in binary64 (C56). *)
From Coq Require Import List NArith ZArith Bool Arith Lia Reals Lra.
From Verif Require Import Base Instance ModelIface Core Fmi3 Api Fmus NumR NumB64 SpecSteps SpecPrograms Programs StepReal Runs.
Import ListNotations.
Set Implicit Arguments.
Local Open Scope R_scope.

Section Exact.
  Variable inf : R.
  Local Hint Extern 0 (Num R) => exact (NR inf) : typeclass_instances.
  Notation h f := (m_step (model_of (F := R) FMI3 f)).

  Lemma point_R f n : point (F := R) f n = INR n * h f.
  Proof. unfold point. cbn [nofN nmul NR NumR]. now rewrite nat_N_Z, <- INR_IZR_INZ. Qed.
  Lemma zero_R : nzero (F := R) = 0.
  Proof. unfold nzero. cbn. lra. Qed.
  Lemma internal_R f n : internal (F := R) f n = INR n * h f.
  Proof. destruct n; cbn [internal]; rewrite zero_R; [cbn; lra|]. rewrite point_R. cbn [nadd NR NumR]. lra. Qed.
  Lemma target_R f n : target (F := R) f n = INR n * h f.
  Proof. destruct n; cbn [target]; [rewrite zero_R; cbn; lra|]. rewrite point_R, S_INR. cbn [nadd NR NumR]. lra. Qed.
  Lemma step_R f : recorded f = true -> 1 / 1000 <= h f.
  Proof.
    destruct f; try discriminate; intros _; unfold m_step, model_of, nlit; cbn; change (Pos.to_nat 3) with 3%nat; change (Pos.to_nat 2) with 2%nat; change (Pos.to_nat 1) with 1%nat; cbn [pow]; lra.
  Qed.
  Lemma isClose_refl_R a : isClose (F := R) a a = true.
  Proof.
    unfold isClose. cbn -[EPSILON fmiAbs fmiMax Rleb]. rewrite eps_R, !abs_R. replace (a - a) with 0 by lra. rewrite Rabs_R0.
    replace (Rleb 0 (1 / 100000)) with true; [reflexivity|]. symmetry. apply Rleb_spec. lra.
  Qed.
  Lemma beyond_false_R t p : beyond (F := R) t p = false <-> t <= p + tol t p.
  Proof.
    pose proof (beyond_R inf t p) as B.
    destruct (beyond t p); split; try discriminate; intro H; auto.
    - assert (p + tol t p < t) by now apply B. lra.
    - destruct (Rle_or_lt t (p + tol t p)) as [|X]; [assumption|]. apply B in X. discriminate.
  Qed.
  Lemma tol_pos t p : 0 < tol t p.
  Proof. unfold tol. assert (1 <= Rmax 1 (Rmax (Rabs t) (Rabs p))) by apply Rmax_l. lra. Qed.

  Lemma precise_step_R f N : 1 / 1000 <= h f -> (N.of_nat N + 1 < 100000)%N -> precise (F := R) f N.
  Proof.
    intros Hh HN. split.
    - rewrite zero_R. cbn [nle NR NumR]. apply Rleb_false. lra.
    - intros k Hk. rewrite point_R, target_R, !internal_R, target_R, !S_INR. cbn [nadd NR NumR]. split; [apply isClose_refl_R|]. split.
      + apply beyond_false_R. pose proof (tol_pos (INR k * h f + h f) ((INR k + 1) * h f)). lra.
      + apply (beyond_R inf). unfold tol.
        assert (P : 0 <= INR k) by apply pos_INR.
        assert (K : INR k + 2 < 100000).
        { rewrite INR_IZR_INZ, <- plus_IZR. apply IZR_lt. lia. }
        rewrite !Rabs_pos_eq by nra.
        assert (M : Rmax 1 (Rmax ((INR k + 1) * h f + h f) ((INR k + 1) * h f)) = Rmax 1 ((INR k + 2) * h f)).
        { f_equal. rewrite Rmax_left by lra. lra. }
        rewrite M. unfold Rmax. destruct (Rle_dec 1 _); nra.
  Qed.

  Lemma precise_R f N : recorded f = true -> (N.of_nat N + 1 < 100000)%N -> precise (F := R) f N.
  Proof. intro Rc. exact (@precise_step_R f N (step_R f Rc)). Qed.

  Lemma conditions_R f stop N : 1 / 1000 <= h f -> (N.of_nat N + 1 < 100000)%N -> 0 <= stop ->
    (N = 0%nat \/ INR (N - 1) * h f < stop) -> stop <= INR N * h f ->
    (INR N * h f <= stop + tol (INR N * h f) stop -> precise (F := R) f N /\ before f stop N /\ (N.of_nat N < two64)%N /\ reaches f stop N) /\
    (stop + tol (INR N * h f) stop < INR N * h f ->
       N <> 0%nat /\ precise (F := R) f (N - 1) /\ before f stop (N - 1) /\ (N.of_nat (N - 1) < two64)%N /\ passes f stop (N - 1)).
  Proof.
    intros Hh HN H0 Lo Hi.
    assert (Hlow : forall k, (k < N)%nat -> INR k * h f < stop).
    { intros k Hk. destruct Lo as [->|Lo]; [lia|]. apply Rle_lt_trans with (INR (N - 1) * h f); [|exact Lo].
      apply Rmult_le_compat_r; [lra|]. apply le_INR. lia. }
    assert (B1 : forall k, (k < N)%nat -> nle stop (point f k) = false).
    { intros k Hk. rewrite point_R. apply Rleb_false. auto. }
    assert (B2 : forall k, (Datatypes.S k < N)%nat -> beyond (target f (Datatypes.S k)) stop = false).
    { intros k Hk. rewrite target_R. apply beyond_false_R. pose proof (tol_pos (INR (Datatypes.S k) * h f) stop). specialize (Hlow _ Hk). lra. }
    assert (B64 : forall n, (N.of_nat n < 100000)%N -> (N.of_nat n < two64)%N) by (intros x Hx; unfold two64; lia).
    split; intro T.
    - split; [now apply precise_step_R|]. split; [|split; [apply B64; lia|]].
      + intros k Hk. split; [auto|]. destruct (Nat.eq_dec (Datatypes.S k) N) as [E|E]; [|apply B2; lia].
        rewrite E, target_R. now apply beyond_false_R.
      + unfold reaches. rewrite point_R. now apply Rleb_spec.
    - assert (Nz : N <> 0%nat).
      { intros ->. cbn [INR] in *. pose proof (tol_pos (0 * h f) stop). lra. }
      split; [exact Nz|]. split; [apply precise_step_R; [assumption|lia]|]. split; [|split; [apply B64; lia|]].
      + intros k Hk. split; [apply B1; lia|apply B2; lia].
      + split; [apply B1; lia|]. replace (Datatypes.S (N - 1)) with N by lia. rewrite target_R. now apply (beyond_R inf).
  Qed.

  Theorem simulate_cs_R f szof fuel env S path stop N n : recorded f = true -> (2 <= fuel)%nat -> (N < n)%nat -> (N.of_nat N + 1 < 100000)%N -> 0 <= stop ->
    (N = 0%nat \/ INR (N - 1) * h f < stop) -> stop <= INR N * h f ->
    (INR N * h f <= stop + tol (INR N * h f) stop ->
       exists s, simulate_cs f szof fuel env S stop path n = Done (OK, rows f (point f) (solution f) N, Some s)) /\
    (stop + tol (INR N * h f) stop < INR N * h f ->
       exists s, simulate_cs f szof fuel env S stop path n = Done (Error, rows f (point f) (solution f) (N - 1), Some s)).
  Proof.
    intros Rc Hf Hn HN H0 Lo Hi. destruct (@conditions_R f stop N (step_R f Rc) HN H0 Lo Hi) as (A & B). split; intro T.
    - destruct (A T) as (P & Q & W & Z). now apply simulate_cs_rows with (N := N).
    - destruct (B T) as (Nz & P & Q & W & Z). apply simulate_cs_rows with (N := (N - 1)%nat); auto. lia.
  Qed.
End Exact.

(** ** Deciding the conditions *)
Section Check.
  Context {F : Type} {NF : Num F} (f : FMU) (stop : F) (N : nat).
  Notation h := (m_step (model_of (F := F) FMI3 f)).
  Definition preciseb : bool :=
    negb (nle h nzero) &&
    forallb (fun k => isClose (point f k) (target f k) && negb (beyond (nadd (internal f k) h) (target f (S k))) &&
                      beyond (nadd (internal f (S k)) h) (target f (S k))) (seq 0 N).
  Definition beforeb : bool := forallb (fun k => negb (nle stop (point f k)) && negb (beyond (target f (S k)) stop)) (seq 0 N).
  Lemma preciseb_ok : preciseb = true -> precise (F := F) f N.
  Proof.
    unfold preciseb. rewrite andb_true_iff, negb_true_iff, forallb_forall. intros (A & B). split; [exact A|].
    intros k Hk. specialize (B k ltac:(apply in_seq; lia)). rewrite !andb_true_iff, negb_true_iff in B. tauto.
  Qed.
  Lemma beforeb_ok : beforeb = true -> before f stop N.
  Proof.
    unfold beforeb. rewrite forallb_forall. intros B k Hk. specialize (B k ltac:(apply in_seq; lia)). rewrite !andb_true_iff, !negb_true_iff in B. exact B.
  Qed.
  Definition dividedb : bool :=
    nle stop (instant f N) && forallb (fun k => negb (nle stop (instant f k))) (seq 0 N) && forallb (fun k => negb (nle ninf (instant f k))) (seq 0 (S N)).
  Lemma dividedb_ok : dividedb = true -> divided f stop N.
  Proof.
    unfold dividedb. rewrite !andb_true_iff, !forallb_forall. intros ((A & B) & C). split; [exact A|]. split; intros k Hk; apply negb_true_iff; [apply B|apply C]; apply in_seq; lia.
  Qed.
End Check.

(** In binary64: DEFAULT_STOP_TIME of Dahlquist (config.h 16), one second of VanDerPol, a tenth of a second of the ball *)
Definition span (f : FMU) : Z * Z :=
  match f with BouncingBall => (1, -1)%Z | Dahlquist => (10, 0)%Z | VanDerPol => (1, 0)%Z | _ => (0, 0)%Z end.
Lemma span_ok f : recorded f = true ->
  let stop := nlit (F := B64) (fst (span f)) (snd (span f)) in
  precise (F := B64) f 100 /\ before f stop 100 /\ reaches f stop 100 /\ divided f stop 100.
Proof.
  intro Rc. split; [apply preciseb_ok|split; [apply beforeb_ok|split; [unfold reaches|apply dividedb_ok]]]; destruct f; try discriminate Rc; vm_compute; reflexivity.
Qed.
Theorem simulate_cs_span f szof fuel env S path n : recorded f = true -> (2 <= fuel)%nat -> (100 < n)%nat ->
  exists s, simulate_cs f szof fuel env S (nlit (F := B64) (fst (span f)) (snd (span f))) path n = Done (OK, rows f (point f) (solution f) 100, Some s).
Proof.
  intros Rc Hf Hn. destruct (span_ok f Rc) as (A & B & C & _). apply simulate_cs_rows with (N := 100%nat); auto. reflexivity.
Qed.

(** ** Dahlquist in closed form *)
Section Dahlquist.
  Variable inf : R.
  Local Hint Extern 0 (Num R) => exact (NR inf) : typeclass_instances.
  Lemma dahlquist_solution n : solution (F := R) Dahlquist n = [(9 / 10) ^ n].
  Proof.
    induction n as [|n IH]; [unfold solution; cbn; f_equal; lra|].
    change (solution (F := R) Dahlquist (S n)) with (next (F := R) Dahlquist (solution Dahlquist n)). rewrite IH. cbn -[Rinv pow]. f_equal.
    change (Pos.to_nat 1) with 1%nat. cbn [pow]. lra.
  Qed.
End Dahlquist.
