(** SpecRest.v -- the course of Roberts and the end of BouncingBall's motion (specification for C75, C76). *)
From Coq Require Import List NArith ZArith Bool Arith Reals.
From Verif Require Import Base SpecNumeric.
Import ListNotations.
Set Implicit Arguments.
Local Open Scope R_scope.

(** ** Robertson's problem: concentrations of the first two substances; the third follows from the conservation of
    mass.  One step of 1 microsecond of the Euler method. *)
Definition third (y : R * R) : R := 1 - fst y - snd y.
Definition roberts_next (y : R * R) : R * R :=
  let '(y1, y2) := y in
  let y3 := 1 - y1 - y2 in
  (y1 + / 1000000 * (- (4 / 100) * y1 + 10000 * y2 * y3),
   y2 + / 1000000 * (4 / 100 * y1 - 10000 * y2 * y3 - 30000000 * y2 * y2)).
Definition roberts_after (n : nat) (y : R * R) : R * R := Nat.iter n roberts_next y.
(** A mixture of the three substances with little of the second. *)
Definition mixture (y1 y2 y3 : R) : Prop := 0 <= y1 /\ 0 <= y2 <= / 40 /\ 0 <= y3 /\ y1 + y2 + y3 = 1.

(** ** BouncingBall: enough damping for the gravity.  At the speed of 0.1 below which the ball stops, the restitution must
    take away more than the Euler method can add in a flight. *)
Definition damped (b : Ball) : Prop :=
  0 < height b /\ gravity b <= - / 1000 /\ 0 <= restitution b /\
  restitution b * (/ 10 + 3 / 1000 * - gravity b) < / 10.
Definition resting (e : R) : Ball := mkBall above 0 0 e.
(** A ball dropped with restitution 1 (the largest value the model description allows) from a height at which it does
    not stop at once. *)
Definition elastic (b : Ball) : Prop :=
  0 < height b /\ gravity b < 0 /\ speed b = 0 /\ restitution b = 1 /\ / 200 <= height b * - gravity b.
