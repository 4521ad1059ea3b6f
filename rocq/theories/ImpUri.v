(** ImpUri.v -- FMIPathToURI, src/FMI.c 341-396 (the branch that is not for Windows).

    Whether [char] is signed depends on the platform (it is on x86, it is not on ARM), so it
    is a parameter. *)

From Coq Require Import List NArith ZArith Bool Arith.
From Coq.Init Require Import Byte.
From Verif Require Import Base Instance ImpBuffer.
Import ListNotations.
Set Implicit Arguments.

(** 374; the characters of the string literal *)
Definition legal : bytes :=
  [x41; x42; x43; x44; x45; x46; x47; x48; x49; x4a; x4b; x4c; x4d; x4e; x4f; x50; x51; x52;
   x53; x54; x55; x56; x57; x58; x59; x5a; x61; x62; x63; x64; x65; x66; x67; x68; x69; x6a;
   x6b; x6c; x6d; x6e; x6f; x70; x71; x72; x73; x74; x75; x76; x77; x78; x79; x7a; x30; x31;
   x32; x33; x34; x35; x36; x37; x38; x39; x2d; x2e; x5f; x7e; x3a; x2f; x3f; x23; x5b; x5d;
   x40; x21; x24; x26; x27; x28; x29; x2a; x2b; x2c; x3b; x3d].

(** 372-381 *)
Definition encode (c : byte) : bool := negb (existsb (byte_eqb c) (firstn 84 legal)).

(** [%2X] of the promoted character: its hexadecimal digits without leading zeros, padded
    with a space to two characters.  A negative character is converted to unsigned int. *)
Definition hex_upper : bytes :=
  [x30; x31; x32; x33; x34; x35; x36; x37; x38; x39; x41; x42; x43; x44; x45; x46].
Definition hexU (n : N) : byte := nth (N.to_nat n) hex_upper x00.
Definition print_2X (signed : bool) (c : byte) : bytes :=
  let n := Byte.to_N c in
  if signed && N.leb 128 n
  then [x46; x46; x46; x46; x46; x46] ++ [hexU (N.div n 16); hexU (N.modulo n 16)]
  else if N.ltb n 16 then [x20; hexU n]
  else [hexU (N.div n 16); hexU (N.modulo n 16)].

(** The loop 360-391 with the rest of the path, and the statements behind it. *)
Fixpoint uri_loop (signed : bool) (uri : list cell) (uriLength p : nat) (path : bytes)
  : res (Status * list cell) :=
  match path with
  | [] => let! u := store uri p [x00] in Done (OK, u)                            (* 393-395 *)
  | c :: path' =>
      if Nat.ltb uriLength (p + 4) then Done (Error, uri)                        (* 362-364 *)
      else if encode c
      then let! u := store uri p (x25 :: print_2X signed c ++ [x00]) in          (* 384-385 *)
           uri_loop signed u uriLength (p + 3) path'
      else let! u := store uri p [c] in                                          (* 387 *)
           uri_loop signed u uriLength (p + 1) path'
  end.

(** 341-396; [path] are the characters before the terminator, [uri] the array handed over *)
Definition FMIPathToURI (signed : bool) (path : bytes) (uri : list cell) (uriLength : nat)
  : res (Status * list cell) :=
  if Nat.ltb uriLength (length path + 8) then Done (Error, uri)                  (* 345-347 *)
  else
    let! u := store uri 0 [x66; x69; x6c; x65; x3a; x2f; x2f; x00] in            (* 352-355 *)
    uri_loop signed u uriLength 7 path.
