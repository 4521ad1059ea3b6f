(** RunsTwoEnd.v -- what the FMI 2 co-simulation program writes, from C56 and the agreement of the programs (C63). *)
From Coq Require Import List NArith ZArith Bool Arith Lia Reals.
From Verif Require Import Base Instance ModelIface Core Fmi3 Fmi2 Api Fmus NumR NumB64 SpecSteps SpecCross SpecPrograms Programs Programs2 SpecPrograms2
  StepReal Runs RunsReal RunsTwo.
Import ListNotations.
Local Open Scope nat_scope.

Lemma recorded_observed f : recorded f = true -> observed f = true.
Proof. now destruct f. Qed.
Lemma solution2_B64 (f : FMU) szof fuel env S (stop : B64) uri N n :
  recorded f = true -> precise (F := B64) f N -> before f stop N -> (N.of_nat N < two64)%N -> 2 <= fuel -> N < n ->
  reaches f stop N \/ passes f stop N ->
  exists rows2 s, simulate_cs2 f szof fuel env S stop uri n = Done (if nle stop (point f N) then OK else Error, rows2, Some s) /\
    Forall2 (same_row f) rows2 (rows f (point f) (solution f) N).
Proof.
  intros Rc Pr Be Hb Hf Hn H. pose proof (@cs_B64 f szof szof fuel env S stop uri [] n (recorded_observed f Rc)) as W.
  destruct (simulate_cs_rows szof env S [] Rc Pr Be Hb Hf Hn) as (Ok & Err). destruct H as [H|H].
  - destruct (Ok H) as (s' & E). rewrite E in W. destruct (@same_end B64 _ _ _ _ _ _ _ _ _ _ W (or_intror H)) as (rows2 & s & Ea & Fa).
    exists rows2, s. unfold reaches in H. rewrite H. auto.
  - destruct (Err H) as (s' & E). rewrite E in W. destruct (@same_end B64 _ _ _ _ _ _ _ _ _ _ W (or_introl eq_refl)) as (rows2 & s & Ea & Fa).
    exists rows2, s. destruct H as (H & _). rewrite H. auto.
Qed.
Lemma solution2_R (inf : R) (f : FMU) szof fuel env S uri stop N n :
  let NF := NumR inf in
  let h := m_step (model_of (F := R) FMI3 f) in
  recorded f = true -> 2 <= fuel -> N < n -> (N.of_nat N + 1 < 100000)%N -> (0 <= stop)%R ->
  (N = 0 \/ (INR (N - 1) * h < stop)%R) -> (stop <= INR N * h)%R -> (INR N * h <= stop + tol (INR N * h) stop)%R ->
  exists rows2 s, simulate_cs2 f szof fuel env S stop uri n = Done (OK, rows2, Some s) /\
    Forall2 (same_row f) rows2 (rows f (point f) (solution f) N).
Proof.
  intros NF h Rc Hf Hn Hb Hs Hl Hr Ht. pose proof (@cs_R inf f szof szof fuel env S stop uri [] n (recorded_observed f Rc)) as W.
  destruct (@simulate_cs_R inf f szof fuel env S [] stop N n Rc Hf Hn Hb Hs Hl Hr) as (Ok & _).
  destruct (Ok Ht) as (s' & E).
  pose proof (eq_ind _ (fun a => @written R (NumR inf) f szof fuel env stop (simulate_cs2 f szof fuel env S stop uri n) a) W _ E) as W2.
  apply (@same_end R (NumR inf) f szof fuel env stop _ N OK s' W2). right.
  unfold reaches. change (nle stop (point (NF := NR inf) f N) = true). rewrite point_R. apply Rleb_spec. exact Hr.
Qed.
