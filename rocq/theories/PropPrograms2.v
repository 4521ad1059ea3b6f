(** PropPrograms2.v -- the example programs for FMI 2 and FMI 3 compared (C63, C64). *)
From Coq Require Import List NArith ZArith Bool Arith Reals.
From Verif Require Import Base Instance ModelIface Core Fmi3 Fmi2 Api Fmus NumR NumB64 Samples SpecModes SpecSteps SpecCross SpecPrograms Programs Programs2 SpecPrograms2
  StepReal RunsTwo RunsTwoEnd RunsTwoMe RunsBallReal.
From Verif Require Import SpecPrograms SpecBall.
Import ListNotations.

(** * C63: simulate_fmi2_cs and simulate_fmi3_cs write the same *)
(** For every stop time, and whatever the loops' bounds. *)
Theorem C63_same_partial :
  forall (f : FMU) szof szof' fuel env S stop uri path n, observed f = true ->
    written f szof' fuel env stop (simulate_cs2 (F := B64) f szof fuel env S stop uri n) (simulate_cs f szof' fuel env S stop path n).
Proof. exact cs_B64. Qed.
Theorem C63_same_exact_partial :
  forall (inf : R) (f : FMU) szof szof' fuel env S stop uri path n, let NF := NumR inf in observed f = true ->
    written f szof' fuel env stop (simulate_cs2 (F := R) f szof fuel env S stop uri n) (simulate_cs f szof' fuel env S stop path n).
Proof. exact cs_R. Qed.
Theorem C63_same_any_partial :
  forall (F : Type) (NF : Num F) (f : FMU) szof szof' fuel env S stop uri path n, observed f = true -> f <> BouncingBall ->
    written f szof' fuel env stop (simulate_cs2 (F := F) f szof fuel env S stop uri n) (simulate_cs f szof' fuel env S stop path n).
Proof. exact @cs_any. Qed.
(** So the FMI 2 program writes the solution by the Euler method as well (C56). *)
Theorem C63_solution :
  forall (f : FMU) szof fuel env S (stop : B64) uri N n,
    recorded f = true -> precise (F := B64) f N -> before f stop N -> (N.of_nat N < two64)%N -> 2 <= fuel -> N < n ->
    reaches f stop N \/ passes f stop N ->
    exists rows2 s, simulate_cs2 f szof fuel env S stop uri n = Done (if nle stop (point f N) then OK else Error, rows2, Some s) /\
      Forall2 (same_row f) rows2 (rows f (point f) (solution f) N).
Proof. exact solution2_B64. Qed.
Theorem C63_solution_exact :
  forall (inf : R) (f : FMU) szof fuel env S uri stop N n,
    let NF := NumR inf in
    let h := m_step (model_of (F := R) FMI3 f) in
    recorded f = true -> 2 <= fuel -> N < n -> (N.of_nat N + 1 < 100000)%N -> (0 <= stop)%R ->
    (N = 0 \/ (INR (N - 1) * h < stop)%R) -> (stop <= INR N * h)%R -> (INR N * h <= stop + tol (INR N * h) stop)%R ->
    exists rows2 s, simulate_cs2 f szof fuel env S stop uri n = Done (OK, rows2, Some s) /\
      Forall2 (same_row f) rows2 (rows f (point f) (solution f) N).
Proof. exact solution2_R. Qed.
(** The files differ in the last line if the FMU ends the simulation: Stair with its stop time of 10 s asks for the end when the
    counter reaches 10.  The FMI 2 program writes this value, the FMI 3 program ends with the line before. *)
Definition last_value {D} (rows : list (B64 * Out B64 D)) : option (Buf (val B64 TInt32)) :=
  match last rows (nzero, ONone) with (_, OVals TInt32 b) => Some b | _ => None end.
Theorem C63_last_line_refuted : exists szof fuel env S uri path n rows s rows' s',
  simulate_cs2 (F := B64) Stair szof fuel env S (nlit 10 0) uri n = Done (OK, rows, Some s) /\
  simulate_cs (F := B64) Stair szof fuel env S (nlit 10 0) path n = Done (OK, rows', Some s') /\
  last_value rows = Some (Some [10%Z]) /\ last_value rows' = Some (Some [9%Z]) /\ length rows = 46 /\ length rows' = 45 /\
  time_of s' = time_of s /\ nlt (time_of s) (nlit 10 0) = true.
Proof.
  exists szof0, 10, env0, 0%N, [], [], 100. do 4 eexists. split; [vm_compute; reflexivity|]. split; [vm_compute; reflexivity|].
  repeat split; vm_compute; reflexivity.
Qed.

(** * C64: simulate_fmi2_me and simulate_fmi3_me write the same *)
(** For every stop time, whatever the macros NX and NZ are and whatever the loops' bounds. *)
Theorem C64_same_partial :
  forall (f : FMU) szof szof' fuel env S stop NX NZ uri path n, observed f = true ->
    written_same f (simulate_me2 (F := B64) f szof fuel env S stop NX NZ uri n) (simulate_me f szof' fuel env S stop NX NZ path n).
Proof. exact me_B64. Qed.
Theorem C64_same_exact_partial :
  forall (inf : R) (f : FMU) szof szof' fuel env S stop NX NZ uri path n, let NF := NumR inf in observed f = true ->
    written_same f (simulate_me2 (F := R) f szof fuel env S stop NX NZ uri n) (simulate_me f szof' fuel env S stop NX NZ path n).
Proof. exact me_R. Qed.
Theorem C64_same_any_partial :
  forall (F : Type) (NF : Num F) (f : FMU) szof szof' fuel env S stop NX NZ uri path n, observed f = true -> f <> BouncingBall ->
    written_same f (simulate_me2 (F := F) f szof fuel env S stop NX NZ uri n) (simulate_me f szof' fuel env S stop NX NZ path n).
Proof. exact me_any. Qed.
(** So the FMI 2 program writes the solution by the Euler method with its bounces as well (C57). *)
Theorem C64_solution :
  forall (f : FMU) szof fuel env S (stop : B64) uri N n,
    recorded f = true -> divided f stop N -> (N.of_nat N < two64)%N -> Datatypes.S N < n ->
    exists rows2 s, simulate_me2 f szof fuel env S stop (states_of f) (indicators_of f) uri n = Done (OK, rows2, Some s) /\
      Forall2 (same_row f) rows2 (event_rows f (instant f) N).
Proof. exact me_events2_B64. Qed.
Theorem C64_solution_exact :
  forall (inf : R) (f : FMU) szof fuel env S uri stop N n,
    let NF := NumR inf in
    let h := m_step (model_of (F := R) FMI3 f) in
    recorded f = true -> (N = 0 \/ (INR (N - 1) * h < stop)%R) -> (stop <= INR N * h)%R -> (INR N * h < inf)%R -> (N.of_nat N < two64)%N -> Datatypes.S N < n ->
    exists rows2 s, simulate_me2 f szof fuel env S stop (states_of f) (indicators_of f) uri n = Done (OK, rows2, Some s) /\
      Forall2 (same_row f) rows2 (event_rows f (instant f) N).
Proof. exact me_events2_R. Qed.
(** The events are among what is compared: Stair records its counter at each second and ends the simulation at an event. *)
Example C64_case :
  match simulate_me2 (F := B64) Stair szof0 10 env0 0%N (nlit 10 0) 0 0 [] 100 with
  | Done (OK, rows, Some s) => length rows = 54 /\ last_value rows = Some (Some [9%Z]) /\ terminateSimulation (mut (sinst s)) = true
  | _ => False
  end.
Proof. vm_compute. auto. Qed.

Definition PropPrograms2_all := (@C63_same_partial, @C63_same_any_partial, @C63_solution, @C63_last_line_refuted,
  @C64_same_partial, @C64_same_any_partial, @C64_solution).
Print Assumptions PropPrograms2_all.
Definition PropPrograms2_exact := (@C63_same_exact_partial, @C63_solution_exact, @C64_same_exact_partial, @C64_solution_exact).
Print Assumptions PropPrograms2_exact.
