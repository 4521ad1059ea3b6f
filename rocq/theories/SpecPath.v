(** SpecPath.v -- where the shared library of an FMU is, by the FMI standard (C67). *)
From Coq Require Import Strings.String List NArith ZArith Bool Arith.
From Coq.Init Require Import Byte.
From Verif Require Import Base ImpPath.
Import ListNotations.
Open Scope list_scope.
Set Implicit Arguments.

(** The separator of path components that the system uses, and the characters it takes for one. *)
Definition sep (s : System) : byte := match s with Windows => x5c | _ => x2f end.
Definition separates (s : System) (b : byte) : Prop := b = sep s \/ s = Windows /\ b = x2f.
(** The entry [b] of the directory [a]. *)
Inductive within (s : System) (b : bytes) : bytes -> bytes -> Prop :=
| within_slash a c : separates s c -> within s b (a ++ [c]) (a ++ [c] ++ b)
| within_plain a c : ~ separates s c -> within s b (a ++ [c]) (a ++ [c; sep s] ++ b).
(** The directory of the platform: FMI 2.0.4 section 2.3.1, FMI 3.0 section 2.5.1.4. *)
Definition folder (s : System) (a : Architecture) (v : MajorVersion) : bytes :=
  list_byte_of_string
    match v, s, a with
    | Major3, Windows, aarch64 => "aarch64-windows" | Major3, Windows, x86_64 => "x86_64-windows" | Major3, Windows, x86 => "x86-windows"
    | Major3, Darwin, aarch64 => "aarch64-darwin" | Major3, Darwin, x86_64 => "x86_64-darwin" | Major3, Darwin, x86 => "x86-darwin"
    | Major3, Linux, aarch64 => "aarch64-linux" | Major3, Linux, x86_64 => "x86_64-linux" | Major3, Linux, x86 => "x86-linux"
    | _, Windows, x86 => "win32" | _, Windows, _ => "win64"
    | _, Darwin, x86 => "darwin32" | _, Darwin, _ => "darwin64"
    | _, Linux, x86 => "linux32" | _, Linux, _ => "linux64"
    end%string.
Definition library (s : System) (id : bytes) : bytes :=
  id ++ list_byte_of_string match s with Windows => ".dll" | Darwin => ".dylib" | Linux => ".so" end%string.
Definition location (s : System) (a : Architecture) (v : MajorVersion) (dir id path : bytes) : Prop :=
  exists p q, within s (list_byte_of_string "binaries") dir p /\ within s (folder s a v) p q /\ within s (library s id) q path.
