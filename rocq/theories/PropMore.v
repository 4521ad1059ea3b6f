(** PropMore.v -- simulate_fmi3_cs for StateSpace and Resource (C79). *)
From Coq Require Import List NArith ZArith Bool Arith Reals.
From Coq.Init Require Import Byte.
From Verif Require Import Base Instance ModelIface Core Fmi3 Api Fmus NumR NumB64 Samples SpecSteps SpecPrograms Programs SpecMore StepReal RunsReal RunsMore.
Import ListNotations.

(** * C79: simulate_fmi3_cs writes the output of StateSpace, and the character in the file of Resource *)
(** In every arithmetic that is precise enough for [N] steps (C56): the lines 0 to N, and fmi3OK if the stop time is reached at
    N, fmi3Error if the next step would pass it. *)
Theorem C79_space :
  forall (F : Type) (NF : Num F) szof fuel env stop S path N n,
    precise (F := F) StateSpace N -> before StateSpace stop N -> (N.of_nat N < two64)%N -> 2 <= fuel -> N < n ->
    (reaches StateSpace stop N -> exists s, simulate_cs StateSpace szof fuel env S stop path n = Done (OK, map space_row (seq 0 (Datatypes.S N)), Some s)) /\
    (passes StateSpace stop N -> exists s, simulate_cs StateSpace szof fuel env S stop path n = Done (Error, map space_row (seq 0 (Datatypes.S N)), Some s)).
Proof. exact @space_rows. Qed.
(** The name of the file is the resource path followed by y.txt; it has to fit into 4096 characters. *)
Theorem C79_resource :
  forall (F : Type) (NF : Num F) szof fuel env stop path c,
    length (cstr path) + 5 < N.to_nat 4096 -> env_file env (cstr path ++ y_txt) = Some c -> forall S N n,
    precise (F := F) Resource N -> before Resource stop N -> (N.of_nat N < two64)%N -> 2 <= fuel -> N < n ->
    (reaches Resource stop N -> exists s, simulate_cs Resource szof fuel env S stop path n = Done (OK, map (resource_row c) (seq 0 (Datatypes.S N)), Some s)) /\
    (passes Resource stop N -> exists s, simulate_cs Resource szof fuel env S stop path n = Done (Error, map (resource_row c) (seq 0 (Datatypes.S N)), Some s)).
Proof. exact @resource_rows. Qed.
(** Without the file the program fails before the first line. *)
Theorem C79_missing :
  forall (F : Type) (NF : Num F) szof fuel env stop path S n,
    length (cstr path) + 5 < N.to_nat 4096 -> env_file env (cstr path ++ y_txt) = None ->
    exists s, simulate_cs (F := F) Resource szof fuel env S stop path n = Done (Error, [], Some s).
Proof. exact @resource_missing. Qed.
(** In exact arithmetic, for every stop time of fewer than 99999 steps; [N] is the number of steps that reach it. *)
Theorem C79_space_exact :
  forall (inf : R) szof fuel env S path stop N n,
    let NF := NumR inf in let h := m_step (model_of (F := R) FMI3 StateSpace) in
    2 <= fuel -> N < n -> (N.of_nat N + 1 < 100000)%N -> (0 <= stop)%R ->
    (N = 0 \/ (INR (N - 1) * h < stop)%R) -> (stop <= INR N * h)%R ->
    ((INR N * h <= stop + tol (INR N * h) stop)%R ->
       exists s, simulate_cs StateSpace szof fuel env S stop path n = Done (OK, map space_row (seq 0 (Datatypes.S N)), Some s)) /\
    ((stop + tol (INR N * h) stop < INR N * h)%R ->
       exists s, simulate_cs StateSpace szof fuel env S stop path n = Done (Error, map space_row (seq 0 N), Some s)).
Proof. exact space_exact. Qed.
Theorem C79_resource_exact :
  forall (inf : R) szof fuel env S path stop N n c,
    let NF := NumR inf in
    length (cstr path) + 5 < N.to_nat 4096 -> env_file env (cstr path ++ y_txt) = Some c ->
    2 <= fuel -> N < n -> (N.of_nat N + 1 < 100000)%N -> (0 <= stop)%R ->
    (N = 0 \/ (INR (N - 1) < stop)%R) -> (stop <= INR N)%R ->
    ((INR N <= stop + tol (INR N) stop)%R ->
       exists s, simulate_cs Resource szof fuel env S stop path n = Done (OK, map (resource_row c) (seq 0 (Datatypes.S N)), Some s)) /\
    ((stop + tol (INR N) stop < INR N)%R ->
       exists s, simulate_cs Resource szof fuel env S stop path n = Done (Error, map (resource_row c) (seq 0 N), Some s)).
Proof. exact resource_exact. Qed.
(** The lines of StateSpace in closed form: y = 1.001^k (1, 2, 3) after k steps. *)
Theorem C79_closed :
  forall (inf : R) k, let NF := NumR inf in
    y3 (F := R) k = [(1001 / 1000) ^ k; 2 * (1001 / 1000) ^ k; 3 * (1001 / 1000) ^ k]%R.
Proof. exact y3_R. Qed.

(** In binary64 the conditions hold for 100 steps of StateSpace and for 10 of Resource, with a file that holds an a. *)
Definition file_a : Env := {| env_file := fun p => if bytes_eqb p ([x2f; x72; x2f] ++ y_txt) then Some 97%Z else None |}.
Example C79_case_space :
  let stop := nlit (F := B64) 1 (-1) in
  preciseb (F := B64) StateSpace 100 = true /\ beforeb StateSpace stop 100 = true /\ reaches StateSpace stop 100.
Proof. repeat split; vm_compute; reflexivity. Qed.
Example C79_case_resource :
  let stop := nlit (F := B64) 10 0 in
  preciseb (F := B64) Resource 10 = true /\ beforeb Resource stop 10 = true /\ reaches Resource stop 10 /\
  env_file file_a (cstr [x2f; x72; x2f] ++ y_txt) = Some 97%Z /\ env_file file_a (cstr [x2f] ++ y_txt) = None.
Proof. repeat split; vm_compute; reflexivity. Qed.

Definition PropMore_all := (@C79_space, @C79_resource, @C79_missing, C79_case_space, C79_case_resource).
Print Assumptions PropMore_all.
Definition PropMore_exact := (C79_space_exact, C79_resource_exact, C79_closed).
Print Assumptions PropMore_exact.
