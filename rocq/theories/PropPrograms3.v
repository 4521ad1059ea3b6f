(** PropPrograms3.v -- the example programs for FMI 2 and FMI 3 compared for Resource (C63, C64). *)
From Coq Require Import List NArith ZArith Bool Arith.
From Coq.Init Require Import Byte.
From Verif Require Import Base Instance ModelIface Core Fmi3 Fmi2 Api Fmus NumB64 Samples SpecImporter SpecPrograms Programs Programs2 SpecPrograms2 SpecMore
  RunsRes RunsResMe.
Import ListNotations.

(** The FMI 2 program is given a file URI (file:/... or file:///..., percent-encoded) of the resource directory [dir], the FMI 3
    program its path with a final /.  Both names have to fit into the 4096 characters of the FMU. *)
(** * C63: simulate_fmi2_cs and simulate_fmi3_cs write the same for Resource, whether the file exists or not *)
Theorem C63_resource :
  forall (F : Type) (NF : Num F) szof szof' fuel env S (stop : F) uri enc dir n,
    file_uri enc uri -> decodes enc dir -> plain uri -> plain dir -> length enc <= N.to_nat 4095 -> length dir <= N.to_nat 4089 ->
    written_same Resource (simulate_cs2 Resource szof fuel env S stop uri n) (simulate_cs Resource szof' fuel env S stop (dir ++ [x2f]) n).
Proof. exact @cs_resource. Qed.
(** So the FMI 2 program writes the character in the file at each communication point (C79). *)
Theorem C63_resource_rows :
  forall (F : Type) (NF : Num F) szof fuel env S (stop : F) uri enc dir c N n,
    file_uri enc uri -> decodes enc dir -> plain uri -> plain dir -> length enc <= N.to_nat 4095 -> length dir <= N.to_nat 4089 ->
    env_file env (dir ++ SpecImporter.y_txt) = Some c ->
    precise (F := F) Resource N -> before Resource stop N -> (N.of_nat N < two64)%N -> 2 <= fuel -> N < n ->
    reaches Resource stop N \/ passes Resource stop N ->
    exists rows2 s, simulate_cs2 Resource szof fuel env S stop uri n = Done (if nle stop (point Resource N) then OK else Error, rows2, Some s) /\
      Forall2 (same_row Resource) rows2 (map (resource_row c) (seq 0 (Datatypes.S N))).
Proof. exact @cs_resource_rows. Qed.

(** * C64: simulate_fmi2_me and simulate_fmi3_me write the same for Resource, which has no states and no event indicators *)
Theorem C64_resource :
  forall (F : Type) (NF : Num F) szof szof' fuel env S (stop : F) uri enc dir n,
    file_uri enc uri -> decodes enc dir -> plain uri -> plain dir -> length enc <= N.to_nat 4095 -> length dir <= N.to_nat 4089 ->
    written_same Resource (simulate_me2 Resource szof fuel env S stop 0 0 uri n) (simulate_me Resource szof' fuel env S stop 0 0 (dir ++ [x2f]) n).
Proof. exact @me_resource. Qed.

(** A case: the directory /r, as file:///%72; the file /r/y.txt holds an a. *)
Definition uri_r : bytes := [x66; x69; x6c; x65; x3a; x2f; x2f; x2f; x25; x37; x32].
Definition env_a : Env := {| env_file := fun p => if bytes_eqb p ([x2f; x72] ++ SpecImporter.y_txt) then Some 97%Z else None |}.
Example C63_case_resource :
  file_uri [x2f; x25; x37; x32] uri_r /\ decodes [x2f; x25; x37; x32] [x2f; x72] /\ plain uri_r /\ plain [x2f; x72] /\
  env_file env_a ([x2f; x72] ++ SpecImporter.y_txt) = Some 97%Z /\
  (match simulate_cs2 (F := B64) Resource szof0 10 env_a 0%N (nlit 3 0) uri_r 100 with
   | Done (OK, rows, Some _) => map snd rows = repeat (OVals TInt32 (Some [97%Z])) 4
   | _ => False
   end) /\
  (match simulate_me2 (F := B64) Resource szof0 10 env_a 0%N (nlit 3 0) 0 0 uri_r 100 with
   | Done (OK, rows, Some _) => map snd rows = repeat (OVals TInt32 (Some [97%Z])) 4
   | _ => False
   end).
Proof.
  split; [split; [reflexivity|left; reflexivity]|].
  split; [apply dec_char; [discriminate|]; apply dec_byte; [reflexivity..|apply dec_nil]|].
  split; [vm_compute; intuition discriminate|]. split; [vm_compute; intuition discriminate|].
  split; [reflexivity|]. split; vm_compute; reflexivity.
Qed.

Definition PropPrograms3_all := (@C63_resource, @C63_resource_rows, @C64_resource, C63_case_resource).
Print Assumptions PropPrograms3_all.
