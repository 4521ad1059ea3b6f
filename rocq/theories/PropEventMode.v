(** PropEventMode.v -- the example program with event mode (C68). *)
From Coq Require Import List NArith ZArith Bool Arith Reals.
From Verif Require Import Base Instance ModelIface Core Fmi3 Api Fmus NumR SpecSteps SpecPrograms SpecBall SpecEventMode Programs RunsEventMode.
Import ListNotations.

(** * C68: cs_event_mode records the solution and the values before and after every bounce *)
(** In exact arithmetic, for every stop time below [M] < 99999 solver steps: the program for BouncingBall ends with fmi3OK
    and its rows are those of [event_visits]: the points of the solution in communication steps of ten solver steps, cut
    short by the bounces, of which the values before and after are written. *)
Theorem C68_exact :
  forall (inf : R) szof fuel env S stop M n,
    let NF := NumR inf in
    (N.of_nat M + 1 < 100000)%N -> 11 <= fuel -> (stop < INR M * m_step (model_of (F := R) FMI3 BouncingBall))%R -> M <= n -> 0 < n ->
    exists l s, cs_event_mode BouncingBall szof fuel env S stop n = Done (OK, l, Some s) /\ event_visits stop 0 false l.
Proof. exact cs_event_mode_R. Qed.
(** Every bounce [j] that does not lie within the last communication step is among the rows, and one solver step after it
    there is a second event at which nothing changes: the row of that point is written twice. *)
Theorem C68_second_event :
  forall (inf : R) stop l, let NF := NumR inf in
    event_visits (F := R) stop 0 false l ->
    forall j, bounces (F := R) BouncingBall (solution BouncingBall j) = true -> ~ late stop (S j) ->
    let at_ := row (F := R) BouncingBall (point BouncingBall) (solution BouncingBall) in
    exists l1 l2, l = l1 ++ before_bounce BouncingBall (point BouncingBall) j :: at_ (S j) :: at_ (S (S j)) :: at_ (S (S j)) :: l2.
Proof. exact second_event. Qed.
(** So it is false that the program handles an event only where there is a bounce: with the stop time 0.5 s there are two
    equal rows in succession. *)
Theorem C68_only_bounces_refuted :
  forall (inf : R), let NF := NumR inf in
    exists szof fuel env S n (stop : R) l s, cs_event_mode BouncingBall szof fuel env S stop n = Done (OK, l, Some s) /\
      exists l1 r l2, l = l1 ++ r :: r :: l2.
Proof. exact equal_rows. Qed.
(** For the other FMUs without event updates the instance is refused, and nothing is written. *)
Theorem C68_refused :
  forall (F : Type) (NF : Num F) szof fuel env (f : FMU) S stop n,
    m_eventUpdate (model_of (F := F) FMI3 f) = false -> cs_event_mode f szof fuel env S stop n = Done (Error, [], None).
Proof. exact @no_event_mode. Qed.
Example C68_refused_case : m_eventUpdate (model_of (F := R) (NF := NumR 0) FMI3 Dahlquist) = false.
Proof. reflexivity. Qed.

Definition PropEventMode_all := @C68_refused.
Print Assumptions PropEventMode_all.
Definition PropEventMode_exact := (@C68_exact, @C68_second_event, @C68_only_bounces_refuted).
Print Assumptions PropEventMode_exact.
