(** PropPrograms.v -- the example programs (C56-C62). *)
From Coq Require Import List NArith ZArith Bool Arith Reals.
From Verif Require Import Base Instance ModelIface Core Fmi3 Api Fmus NumR NumB64 SpecSteps SpecPrograms Programs StepReal Runs RunsReal RunsMe RunsEarly RunsOther ProgramsClocks RunsClocks SpecBall BallB64 RunsBallReal.
Import ListNotations.

(** * C56: simulate_fmi3_cs writes the solution by the Euler method *)
(** In every arithmetic that is precise enough for [N] steps: the rows 0 to N are the solution; the program ends with
    fmi3OK if the stop time is reached at N, and with fmi3Error if the next step would pass it. *)
Theorem C56_ends :
  forall (F : Type) (NF : Num F) (f : FMU) szof fuel env S stop path N n,
    recorded f = true -> precise (F := F) f N -> before f stop N -> (N.of_nat N < two64)%N -> 2 <= fuel -> N < n ->
    reaches f stop N ->
    exists s, simulate_cs f szof fuel env S stop path n = Done (OK, rows f (point f) (solution f) N, Some s).
Proof. intros. now apply simulate_cs_rows. Qed.
Theorem C56_passes :
  forall (F : Type) (NF : Num F) (f : FMU) szof fuel env S stop path N n,
    recorded f = true -> precise (F := F) f N -> before f stop N -> (N.of_nat N < two64)%N -> 2 <= fuel -> N < n ->
    passes f stop N ->
    exists s, simulate_cs f szof fuel env S stop path n = Done (Error, rows f (point f) (solution f) N, Some s).
Proof. intros. now apply simulate_cs_rows. Qed.
(** In exact arithmetic, for every stop time that takes fewer than 99999 steps; [N] is the number of steps that reach it.
    The program succeeds exactly if the stop time is a multiple of the step up to the tolerance. *)
Theorem C56_exact :
  forall (inf : R) (f : FMU) szof fuel env S path stop N n,
    let NF := NumR inf in
    let h := m_step (model_of (F := R) FMI3 f) in
    recorded f = true -> 2 <= fuel -> N < n -> (N.of_nat N + 1 < 100000)%N -> (0 <= stop)%R ->
    (N = 0 \/ (INR (N - 1) * h < stop)%R) -> (stop <= INR N * h)%R ->
    ((INR N * h <= stop + tol (INR N * h) stop)%R ->
       exists s, simulate_cs f szof fuel env S stop path n = Done (OK, rows f (point f) (solution f) N, Some s)) /\
    ((stop + tol (INR N * h) stop < INR N * h)%R ->
       exists s, simulate_cs f szof fuel env S stop path n = Done (Error, rows f (point f) (solution f) (N - 1), Some s)).
Proof. exact simulate_cs_R. Qed.
(** Dahlquist's equation in closed form: x = 0.9^n after n steps. *)
Theorem C56_dahlquist :
  forall (inf : R) n, let NF := NumR inf in solution (F := R) Dahlquist n = [((9 / 10) ^ n)%R].
Proof. exact dahlquist_solution. Qed.
(** In binary64 the conditions hold for 100 steps. *)
Example C56_case : forall f, recorded f = true ->
  let stop := nlit (F := B64) (fst (span f)) (snd (span f)) in
  precise (F := B64) f 100 /\ before f stop 100 /\ reaches f stop 100 /\ divided f stop 100.
Proof. exact span_ok. Qed.
(** The stop time 0.25 of Dahlquist passes: two steps of 0.1, then the error. *)
Example C56_passes_case :
  let stop := nlit (F := B64) 25 (-2) in
  preciseb (F := B64) Dahlquist 2 = true /\ beforeb Dahlquist stop 2 = true /\ passes Dahlquist stop 2.
Proof. repeat split; vm_compute; reflexivity. Qed.

(** * C57: simulate_fmi3_me writes the solution by the Euler method *)
(** With the numbers of states and indicators of the FMU: the rows 0 to N of the solution, and at each bounce one row more
    with the values before it.  In every arithmetic in which no step bounces right after another one (the program does not
    look at the indicator in the step after an event). *)
Theorem C57_solution :
  forall (F : Type) (NF : Num F) (f : FMU) szof fuel env S stop path N n,
    recorded f = true -> nlt (F := F) nzero nzero = false -> divided f stop N -> spaced (F := F) f N -> (N.of_nat N < two64)%N -> Datatypes.S N < n ->
    exists s, simulate_me f szof fuel env S stop (states_of f) (indicators_of f) path n = Done (OK, event_rows f (instant f) N, Some s).
Proof. exact @simulate_me_events. Qed.
(** In binary64 and in exact arithmetic no step does. *)
Theorem C57_binary64 :
  forall (f : FMU) szof fuel env S (stop : B64) path N n,
    recorded f = true -> divided f stop N -> (N.of_nat N < two64)%N -> Datatypes.S N < n ->
    exists s, simulate_me f szof fuel env S stop (states_of f) (indicators_of f) path n = Done (OK, event_rows f (instant f) N, Some s).
Proof. exact simulate_me_B64. Qed.
(** [N] is the number of steps that reach the stop time; the times are below the value of INFINITY. *)
Theorem C57_exact :
  forall (inf : R) (f : FMU) szof fuel env S path stop N n,
    let NF := NumR inf in
    let h := m_step (model_of (F := R) FMI3 f) in
    recorded f = true -> (N = 0 \/ (INR (N - 1) * h < stop)%R) -> (stop <= INR N * h)%R -> (INR N * h < inf)%R -> (N.of_nat N < two64)%N -> Datatypes.S N < n ->
    exists s, simulate_me f szof fuel env S stop (states_of f) (indicators_of f) path n = Done (OK, event_rows f (instant f) N, Some s).
Proof. exact simulate_me_R. Qed.
(** The ball of the solution is never at or below the ground (the rows before a bounce are those of a ball in the ground). *)
Theorem C57_above :
  forall n, nle (nth 0 (solution (F := B64) BouncingBall n) nzero) nzero = false.
Proof. exact never_below. Qed.
Theorem C57_above_exact :
  forall (inf : R) n, let NF := NumR inf in (0 < nth 0 (solution (F := R) BouncingBall n) nzero)%R.
Proof. exact above_ground. Qed.
(** The stop time of 0.46 s: 460 steps; there is a bounce among them (C58_first_bounce). *)
Example C57_case : divided BouncingBall (nlit (F := B64) 46 (-2)) 460.
Proof. apply dividedb_ok. vm_compute. reflexivity. Qed.
(** As the program is built: no file defines NX and NZ, so that both are 0 for the preprocessor.  It succeeds and
    writes the start values in every row. *)
Theorem C57_as_built :
  forall (F : Type) (NF : Num F) (f : FMU) szof fuel env S stop path N n,
    recorded f = true -> nlt (F := F) nzero nzero = false -> divided f stop N -> (N.of_nat N < two64)%N -> N < n ->
    exists s, simulate_me f szof fuel env S stop 0 0 path n = Done (OK, rows f (instant f) (fun _ => begin f) N, Some s).
Proof. exact @simulate_me_still. Qed.
(** So the claim is false of it: in binary64 with the stop time 0.1 the state of Dahlquist should have changed. *)
Theorem C57_as_built_refuted : exists szof fuel env S path n s (stop : B64),
  simulate_me Dahlquist szof fuel env S stop 0 0 path n = Done (OK, rows Dahlquist (instant Dahlquist) (fun _ => begin Dahlquist) 1, Some s) /\
  divided Dahlquist stop 1 /\ solution (F := B64) Dahlquist 1 <> begin Dahlquist.
Proof.
  assert (D : divided Dahlquist (nlit (F := B64) 1 (-1)) 1) by (apply dividedb_ok; vm_compute; reflexivity).
  destruct (@simulate_me_still B64 NumB64 Dahlquist 64%N 2 {| env_file := fun _ => None |} 0%N (nlit 1 (-1)) [] 1 2) as (s & E); [reflexivity|vm_compute; reflexivity|exact D|reflexivity|auto|].
  exists 64%N, 2, {| env_file := fun _ => None |}, 0%N, [], 2, s, (nlit 1 (-1)). split; [exact E|]. split; [exact D|]. vm_compute. discriminate.
Qed.

(** * C58: cs_early_return records the solution and every bounce *)
(** In exact arithmetic, for every stop time below [M] < 99999 solver steps: the program ends with fmi3OK; its rows are the
    points of the solution at the solver steps [l], which begin with 0 and go on in tens unless there is a bounce; the
    step of each bounce up to the last row has a row. *)
Theorem C58_exact :
  forall (inf : R) (f : FMU) szof fuel env S stop, recorded f = true -> forall M n,
    let NF := NumR inf in
    (N.of_nat M + 1 < 100000)%N -> 11 <= fuel -> (stop < INR M * m_step (model_of (F := R) FMI3 f))%R -> M <= n -> 0 < n ->
    exists l s, cs_early_return f szof fuel env S stop n = Done (OK, map (row f (point f) (solution f)) l, Some s) /\
      visits f stop 0 l /\
      (forall i, bounces (F := R) f (solution f i) = true -> Datatypes.S i <= last l 0 -> In (Datatypes.S i) l).
Proof. exact cs_early_return_R. Qed.
(** There are such bounces: the first one is in the solver step from 0.452 s. *)
Theorem C58_first_bounce :
  forall (inf : R), let NF := NumR inf in
    bounces (F := R) BouncingBall (solution BouncingBall 452) = true /\
    forall n, n < 452 -> bounces (F := R) BouncingBall (solution BouncingBall n) = false.
Proof. exact first_bounce. Qed.

(** * C59: cs_intermediate_update cannot simulate more than two communication steps *)
(** The program adds the step size to the time DoStep has already advanced; the second call is refused. *)
Theorem C59_refuted :
  forall (inf : R) (f : FMU) szof fuel env S stop, recorded f = true -> forall n,
    let NF := NumR inf in
    11 <= fuel -> 2 <= n -> (20 * m_step (model_of (F := R) FMI3 f) < stop)%R ->
    exists s, cs_intermediate_update f szof fuel env S stop n = Done (Error, nil, Some s).
Proof. exact cs_intermediate_update_R. Qed.

(** * C60: cs_reconfiguration cannot succeed *)
(** Whatever the arithmetic, the environment and the stop time: it ends with fmi3Error before its first row,
    because setting the structural parameters is refused (C38). *)
Theorem C60_refuted :
  forall (F : Type) (NF : Num F) szof fuel env S (stop : F),
    exists s, cs_reconfiguration StateSpace szof fuel env S stop = Done (Error, nil, Some s).
Proof. exact @reconfiguration_fails. Qed.

(** * C61: jacobian computes the Jacobian of van der Pol's equation at (2, 0) both ways *)
(** The matrix is [[0, 1], [-2 x0 x1 - 1, 1 - x0^2]] at x0 = 2, x1 = 0, as columns by directional and as rows by adjoint
    derivatives: in exact arithmetic and in binary64. *)
Theorem C61_exact :
  forall (inf : R) szof fuel env S, let NF := NumR inf in
    exists s, jacobian VanDerPol szof fuel env S = Done (OK, matrix_rows 0 1 (- 2 * 2 * 0 - 1) (1 - 2 * 2), Some s)%R.
Proof. exact jacobian_R. Qed.
Theorem C61_binary64 :
  forall szof fuel env S,
    exists s, jacobian (F := B64) VanDerPol szof fuel env S = Done (OK, matrix_rows (nlit 0 0) (nlit 1 0) (nlit (-1) 0) (nlit (-3) 0), Some s).
Proof. exact jacobian_B64. Qed.

(** * C62: scs_synchronous activates the partitions of Clocks as its table says *)
(** In every arithmetic in which the times 0, ..., T - 1 are exact: the [T] rows are the numbers of ticks of the three clocks
    and their sum; no counter overflows. *)
Theorem C62_rows :
  forall (F : Type) (NF : Num F) szof fuel env S T, integral F T -> (2 * Z.of_nat T + 1 <= INT_MAX)%Z ->
    exists s, scs_synchronous szof fuel env S T = Done (OK, map clock_row (seq 0 T), Some s).
Proof. exact @scs_synchronous_rows. Qed.
Theorem C62_exact :
  forall (inf : R) szof fuel env S T, let NF := NumR inf in (2 * Z.of_nat T + 1 <= INT_MAX)%Z ->
    exists s, scs_synchronous szof fuel env S T = Done (OK, map (clock_row (F := R)) (seq 0 T), Some s).
Proof. exact scs_synchronous_R. Qed.
(** The program as it is (T = 10), in binary64. *)
Theorem C62_binary64 :
  forall szof fuel env S,
    exists s, scs_synchronous szof fuel env S 10 = Done (OK, map (clock_row (F := B64)) (seq 0 10), Some s).
Proof. exact scs_synchronous_B64. Qed.

Definition PropPrograms_all := (@C56_ends, @C56_passes, @C57_solution, @C57_binary64, @C57_above, @C57_as_built, @C57_as_built_refuted, @C60_refuted, @C61_binary64, @C62_rows, @C62_binary64).
Print Assumptions PropPrograms_all.
Definition PropPrograms_exact := (@C56_exact, @C56_dahlquist, @C57_exact, @C57_above_exact, @C58_exact, @C58_first_bounce, @C59_refuted, @C61_exact, @C62_exact).
Print Assumptions PropPrograms_exact.
