(** SpecNumeric.v -- the trajectories of BouncingBall, Dahlquist and Stair (specification for C30, C31, C32). *)
From Coq Require Import List NArith ZArith Bool Arith Reals.
From Verif Require Import Base Instance ModelIface Core Fmi3 Fmi2 Api Fmus NumR SpecModes SpecVars SpecSteps.
Import ListNotations.
Set Implicit Arguments.
Local Open Scope R_scope.

(** ** BouncingBall
    Height, velocity, acceleration of gravity, coefficient of restitution.  One step of 1 ms of the Euler
    method; if the ball would reach the ground, it is put just above it with the velocity reversed and damped,
    or, if that is below 0.1, at rest without gravity. *)
Record Ball : Type := mkBall { height : R; speed : R; gravity : R; restitution : R }.
Definition above : R := powerRZ 2 (-1022).
Definition ball_next (b : Ball) : Ball :=
  let h := height b + / 1000 * speed b in
  let v := speed b + / 1000 * gravity b in
  let w := - v * restitution b in
  if Rle_dec h 0 then
    if Rlt_dec w (/ 10) then mkBall above 0 0 (restitution b) else mkBall above w (gravity b) (restitution b)
  else mkBall h v (gravity b) (restitution b).
Definition ball_after (n : nat) (b : Ball) : Ball := Nat.iter n ball_next b.

(** The ball as read through the API. *)
Definition ball3 (inf : R) szof env s (b : Ball) : Prop :=
  let NF := NumR inf in
  let get := get3 (model_of (F := R) FMI3 BouncingBall) szof env s TFloat64 in
  get 1%N [height b] /\ get 3%N [speed b] /\ get 5%N [gravity b] /\ get 6%N [restitution b].
Definition ball2 (inf : R) szof env s (b : Ball) : Prop :=
  let NF := NumR inf in
  let get := get2 (model_of (F := R) FMI2 BouncingBall) szof env s TFloat64 in
  get 1%N (height b) /\ get 3%N (speed b) /\ get 5%N (gravity b) /\ get 6%N (restitution b).

Arguments ball3 inf szof env s b : clear implicits.
Arguments ball2 inf szof env s b : clear implicits.

(** ** Dahlquist: x(n) for step size 0.1 *)
Definition dahlquist_after (n : nat) (k x : R) : R := x * (1 - k * / 10) ^ n.

(** ** Stair
    The [k]-th time event (from 0) is at the time 1 + ... + 1 (k+1 terms). *)
Section Stair.
  Context {F : Type} {NF : Num F}.
  Fixpoint event_time (k : nat) : F := match k with O => nlit 1 0 | S k => nadd (event_time k) (nlit 1 0) end.
  (** The arithmetic is precise enough for [T] solver steps of 0.2 from 0: of the times of the solver
      steps only every fifth, and that one up to the tolerance, reaches the time of the next event. *)
  Definition ticks_ok (T : nat) : Prop := forall n, (0 < n)%nat -> (n <= T)%nat ->
    let t := grid (nlit 2 (-1)) (nlit 0 0) (N.of_nat n) in
    let e := event_time ((n - 1) / 5) in
    nle e t = Nat.eqb (n mod 5) 0 /\ (n mod 5 = 0%nat -> isClose t e = true).
End Stair.
