(** SpecPrograms.v -- what the example programs have to write (specification for C56-C61). *)
From Coq Require Import List NArith ZArith Bool Reals.
From Verif Require Import Base Instance ModelIface Core Fmi3 Api Fmus SpecSteps.
Import ListNotations.
Set Implicit Arguments.

(** ** The solution by the forward Euler method, in any arithmetic *)
Section Solution.
  Context {F : Type} {NF : Num F}.
  Local Notation "a + b" := (nadd a b).
  Local Notation "a - b" := (nsub a b).
  Local Notation "a * b" := (nmul a b).
  Local Notation "- a" := (nopp a).

  (** The start values of the variables that change (modelDescription.xml): height, velocity and gravity; x; x0, x1. *)
  Definition begin (f : FMU) : list F :=
    match f with
    | BouncingBall => [nlit 1 0; nzero; - nlit 981 (-2)]
    | Dahlquist => [nlit 1 0]
    | VanDerPol => [nlit 2 0; nzero]
    | _ => []
    end.
  (** The event indicator of the ball: its height, unless it is just above the ground and moves up. *)
  Definition ground (h v : F) : F :=
    if nlt (- nlit 1 (-10)) h && nle h nzero && nlt nzero v then - nlit 1 (-10) else h.
  Definition changes_sign (a b : F) : bool := (nle a nzero && nlt nzero b) || (nlt nzero a && nle b nzero).
  (** The ball at the ground; the coefficient of restitution is 0.7, the least velocity 0.1. *)
  Definition bounced (h v g : F) : list F :=
    if nle h nzero && nlt v nzero then
      let w := (- v) * nlit 7 (-1) in
      if nlt w (nlit 1 (-1)) then [ndblmin; nzero; nzero] else [ndblmin; w; g]
    else [h; v; g].
  (** One solver step; k = 1 in Dahlquist's equation, mu = 1 in that of van der Pol. *)
  Definition next (f : FMU) (x : list F) : list F :=
    match f, x with
    | BouncingBall, [h; v; g] =>
        let h' := h + nlit 1 (-3) * v in
        let v' := v + nlit 1 (-3) * g in
        if changes_sign (ground h v) (ground h' v') then bounced h' v' g else [h'; v'; g]
    | Dahlquist, [x] => [x + nlit 1 (-1) * ((- nlit 1 0) * x)]
    | VanDerPol, [x0; x1] =>
        [x0 + nlit 1 (-2) * x1; x1 + nlit 1 (-2) * (nlit 1 0 * ((nlit 1 0 - x0 * x0) * x1) - x0)]
    | _, _ => x
    end.
  Definition solution (f : FMU) (n : nat) : list F := Nat.iter n (next f) (begin f).
  (** What is recorded of it. *)
  Definition shown (f : FMU) (x : list F) : list F := match f, x with BouncingBall, [h; v; _] => [h; v] | _, _ => x end.
  Definition recorded (f : FMU) : bool := match f with BouncingBall | Dahlquist | VanDerPol => true | _ => false end.

  (** The step that begins with [x] crosses the ground. *)
  Definition bounces (f : FMU) (x : list F) : bool :=
    match f, x with
    | BouncingBall, [h; v; g] => changes_sign (ground h v) (ground (h + nlit 1 (-3) * v) (v + nlit 1 (-3) * g))
    | _, _ => false
    end.

  (** ** The times *)
  Variable f : FMU.
  Notation h := (m_step (model_of (F := F) FMI3 f)).
  (** n h *)
  Definition point (n : nat) : F := nofN (N.of_nat n) * h.
  (** The time of the FMU after n solver steps from 0. *)
  Definition internal (n : nat) : F := match n with O => nzero | S _ => nzero + point n end.
  (** The end of the n-th communication step of length h. *)
  Definition target (n : nat) : F := match n with O => nzero | S n => point n + h end.
  (** The arithmetic is precise enough for [N] communication steps of the length of the solver step. *)
  Definition precise (N : nat) : Prop :=
    nle h nzero = false /\
    forall k, (k < N)%nat ->
      isClose (point k) (target k) = true /\
      beyond (internal k + h) (target (S k)) = false /\
      beyond (internal (S k) + h) (target (S k)) = true.
  (** These [N] steps begin before and do not end after the stop time. *)
  Definition before (stop : F) (N : nat) : Prop :=
    forall k, (k < N)%nat -> nle stop (point k) = false /\ beyond (target (S k)) stop = false.
  (** After them the stop time is reached; the next step would pass it. *)
  Definition reaches (stop : F) (N : nat) : Prop := nle stop (point N) = true.
  Definition passes (stop : F) (N : nat) : Prop := nle stop (point N) = false /\ beyond (target (S N)) stop = true.
  (** The times of a program that starts at 0: it reaches [stop] at the [N]-th, and none is infinite. *)
  Definition instant (n : nat) : F := match n with O => nzero | S _ => point n end.
  Definition divided (stop : F) (N : nat) : Prop :=
    nle stop (instant N) = true /\ (forall k, (k < N)%nat -> nle stop (instant k) = false) /\
    forall k, (k <= N)%nat -> nle ninf (instant k) = false.

  (** The rows 0 to N of the output file. *)
  Definition row (time : nat -> F) (x : nat -> list F) (n : nat) : F * Out F (md (model_of (F := F) FMI3 f)) :=
    (time n, OVals TFloat64 (Some (shown f (x n)))).
  Definition rows (time : nat -> F) (x : nat -> list F) (N : nat) := map (row time x) (seq 0 (S N)).

  (** The solver steps after which a program with communication steps of ten solver steps and early return regains
      control, from step [k] on: after ten steps or after the first one with a bounce, until the next communication step
      would pass the stop time. *)
  Inductive visits (stop : F) : nat -> list nat -> Prop :=
  | visits_end k : nlt stop (point k + nlit 10 0 * h) = true -> visits stop k [k]
  | visits_step k j l : nlt stop (point k + nlit 10 0 * h) = false -> (k < j <= k + 10)%nat ->
      (forall i, (k <= i)%nat -> (S i < j)%nat -> bounces f (solution f i) = false) ->
      (j = (k + 10)%nat \/ bounces f (solution f (pred j)) = true) ->
      visits stop j l -> visits stop k (k :: l).

  (** What jacobian.c computes of a matrix [[a b] [c d]]: its columns, then its rows. *)
  Definition matrix_rows (a b c d : F) : list (F * Out F (md (model_of (F := F) FMI3 VanDerPol))) :=
    [(nzero, OFloats (Some [a; c])); (nzero, OFloats (Some [b; d])); (nzero, OFloats (Some [a; b])); (nzero, OFloats (Some [c; d]))].
End Solution.

(** ** scs_synchronous: the ticks of the clocks (table in Clocks/model.c 6-15) *)
(** Clock 1 ticks every second, clock 2 in the first two of eight seconds, clock 3 at 4 s; their ticks up to and with [t]. *)
Definition clock1 (t : nat) : Z := Z.of_nat (S t).
Definition clock2 (t : nat) : Z := Z.of_nat (length (filter (fun u => Nat.ltb (Nat.modulo u 8) 2) (seq 0 (S t)))).
Definition clock3 (t : nat) : Z := if Nat.leb 4 t then 1%Z else 0%Z.
Definition clock_row {F} {NF : Num F} (t : nat) : F * Out F (md (model_of (F := F) FMI3 Clocks)) :=
  (nofN (N.of_nat t), OVals TInt32 (Some [clock1 t; clock2 t; clock3 t; clock1 t + clock2 t + clock3 t]%Z)).
(** The times 0, 1, ..., T - 1 are their own integral parts. *)
Definition integral (F : Type) {NF : Num F} (T : nat) : Prop :=
  forall t, (t < T)%nat -> ntrunc (nofN (F := F) (N.of_nat t)) = Some (Z.of_nat t).
Arguments integral F {NF} T.
