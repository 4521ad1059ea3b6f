(** ImpPath.v -- FMIPlatformBinaryPath, src/FMI.c 398-418, with the names of the platforms, include/FMI.h 26-59. *)
From Coq Require Import Strings.String List NArith ZArith Bool Arith.
From Coq.Init Require Import Byte.
From Verif Require Import Base Instance ImpBuffer.
Import ListNotations.
Open Scope list_scope.
Set Implicit Arguments.

(** The systems and architectures the header knows. *)
Inductive System := Windows | Darwin | Linux.
Inductive Architecture := aarch64 | x86_64 | x86.
(** FMI.h 99-103 *)
Inductive MajorVersion := Major1 | Major2 | Major3.

Definition str (s : string) : bytes := list_byte_of_string s.
(** FMI.h 27, 32, 37 *)
Definition FMI_SYSTEM (s : System) : bytes :=
  match s with Windows => str "windows" | Darwin => str "darwin" | Linux => str "linux" end.
(** 28, 33, 38 *)
Definition FMI_PLATFORM_SYSTEM (s : System) : bytes :=
  match s with Windows => str "win" | Darwin => str "darwin" | Linux => str "linux" end.
(** 29, 34, 39 *)
Definition FMI_FILE_SEPARATOR (s : System) : bytes := match s with Windows => str "\" | _ => str "/" end.
(** 30, 35, 40 *)
Definition FMI_SHARED_LIBRARY_EXTENSION (s : System) : bytes :=
  match s with Windows => str ".dll" | Darwin => str ".dylib" | Linux => str ".so" end.
(** 46, 49, 52 *)
Definition FMI_ARCHITECTURE (a : Architecture) : bytes :=
  match a with aarch64 => str "aarch64" | x86_64 => str "x86_64" | x86 => str "x86" end.
(** 47, 50, 53 *)
Definition FMI_PLATFORM_BITS (a : Architecture) : bytes := match a with x86 => str "32" | _ => str "64" end.
(** 58, 59 *)
Definition FMI_PLATFORM (s : System) (a : Architecture) : bytes := FMI_PLATFORM_SYSTEM s ++ FMI_PLATFORM_BITS a.
Definition FMI_PLATFORM_TUPLE (s : System) (a : Architecture) : bytes := FMI_ARCHITECTURE a ++ str "-" ++ FMI_SYSTEM s.

(** FMI.c 398-418; [unzipdir] and [id] are the characters before the terminators, [buf] the array handed over.
    [unzipdir[strlen(unzipdir) - 1]] is outside the string if it is empty. *)
Definition FMIPlatformBinaryPath (s : System) (a : Architecture) (unzipdir id : bytes) (v : MajorVersion)
    (buf : list cell) (size : nat) : res (Status * list cell) :=
  match rev unzipdir with
  | [] => UB                                                                     (* 402 *)
  | last :: _ =>
      let separator := if negb (Byte.eqb last x2f) && negb (Byte.eqb last x5c) then FMI_FILE_SEPARATOR s else [] in
      let platform := match v with Major3 => FMI_PLATFORM_TUPLE s a | _ => FMI_PLATFORM s a end in  (* 408 *)
      let text := unzipdir ++ separator ++ str "binaries" ++ FMI_FILE_SEPARATOR s ++ platform ++ FMI_FILE_SEPARATOR s ++
                  id ++ FMI_SHARED_LIBRARY_EXTENSION s in
      let! b := snprint buf 0 size text in                                       (* 410-411 *)
      Done (if Nat.leb size (length text) then Error else OK, b)                 (* 413-417 *)
  end.
