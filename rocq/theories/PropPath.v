(** PropPath.v -- FMIPlatformBinaryPath (C67). *)
From Coq Require Import Strings.String List NArith ZArith Bool Arith.
From Coq.Init Require Import Byte.
From Verif Require Import Base Instance ImpBuffer SpecImporter ImpPath SpecPath Paths.
Import ListNotations.
Open Scope list_scope.
Set Implicit Arguments.

(** * C67: FMIPlatformBinaryPath gives the place of the shared library or an error, and stays inside the buffer *)
(** [last_of dir <> Some "\"] unless on Windows: see C67_backslash_refuted. *)
Theorem C67_path_partial :
  forall s a v dir id (buf : list (option byte)) size path,
    location s a v dir id path -> (s = Windows \/ last_of dir <> Some x5c) -> plain dir -> plain id -> size <= length buf ->
    exists b, FMIPlatformBinaryPath s a dir id v buf size = Done (if Nat.ltb (length path) size then OK else Error, b) /\
      length b = length buf /\ skipn size b = skipn size buf /\ (0 < size -> c_string b = Some (firstn (size - 1) path)).
Proof. exact binary_path. Qed.
(** There is such a place for every directory with a name ... *)
Theorem C67_place : forall s a v dir id, dir <> [] -> exists path, location s a v dir id path.
Proof. exact location_total. Qed.
(** ... and different FMUs have different ones. *)
Theorem C67_injective_partial :
  forall s a v dir dir' id id' (buf buf' : list (option byte)) size size' b b',
    FMIPlatformBinaryPath s a dir id v buf size = Done (OK, b) -> FMIPlatformBinaryPath s a dir' id' v buf' size' = Done (OK, b') ->
    size <= length buf -> size' <= length buf' -> plain dir -> plain id -> plain dir' -> plain id' -> c_string b = c_string b' ->
    ~ In (sep s) id -> ~ In (sep s) id' ->
    (forall c, last_of dir = Some c -> c <> x2f /\ c <> x5c) -> (forall c, last_of dir' = Some c -> c <> x2f /\ c <> x5c) ->
    dir = dir' /\ id = id'.
Proof. exact binary_path_injective. Qed.
Example C67_case :
  FMIPlatformBinaryPath Linux x86_64 (str "/tmp/a") (str "Stair") Major3 (repeat None 64) 64 =
    Done (OK, map Some (str "/tmp/a/binaries/x86_64-linux/Stair.so") ++ Some x00 :: repeat None 26) /\
  location Linux x86_64 Major3 (str "/tmp/a") (str "Stair") (str "/tmp/a/binaries/x86_64-linux/Stair.so").
Proof.
  split; [reflexivity|]. apply location_below. change (str "/tmp/a") with (str "/tmp/" ++ [x61]).
  apply (@within_plain Linux (below Linux x86_64 Major3 (str "Stair")) (str "/tmp/") x61). intros [E|(E & _)]; discriminate E.
Qed.
(** On Linux a backslash is an ordinary character of a name, but the function takes it for a separator ... *)
Theorem C67_backslash_refuted :
  exists dir id path b q, location Linux x86_64 Major3 dir id path /\
    FMIPlatformBinaryPath Linux x86_64 dir id Major3 (repeat None 64) 64 = Done (OK, b) /\ c_string b = Some q /\ q <> path.
Proof.
  exists (str "/a\"), (str "Stair"), (str "/a\/binaries/x86_64-linux/Stair.so"). do 2 eexists.
  split; [|split; [vm_compute; reflexivity|split; [vm_compute; reflexivity|vm_compute; discriminate]]].
  apply location_below. change (str "/a\") with (str "/a" ++ [x5c]).
  apply (@within_plain Linux (below Linux x86_64 Major3 (str "Stair")) (str "/a") x5c). intros [E|(E & _)]; discriminate E.
Qed.
(** ... an empty directory makes it read before the string ... *)
Theorem C67_empty_refuted :
  exists s a v id (buf : list (option byte)) size, size <= length buf /\ FMIPlatformBinaryPath s a [] id v buf size = UB.
Proof. exists Linux, x86_64, Major3, (str "Stair"), (repeat None 64), 64. split; [repeat constructor|reflexivity]. Qed.
(** ... and before FMI 3 libraries for different processors have the same place. *)
Theorem C67_architecture_refuted :
  exists s a a' v dir id path, a <> a' /\ location s a v dir id path /\ location s a' v dir id path.
Proof.
  destruct (@location_total Linux x86_64 Major2 (str "a") (str "Stair")) as (path & H); [discriminate|].
  exists Linux, x86_64, aarch64, Major2, (str "a"), (str "Stair"), path. split; [discriminate|]. split; exact H.
Qed.

Definition PropPath_all := (C67_path_partial, C67_place, C67_injective_partial, C67_backslash_refuted, C67_empty_refuted, C67_architecture_refuted).
Print Assumptions PropPath_all.
