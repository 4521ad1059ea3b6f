(** SpecImporter.v -- what a caller expects of the importer's log buffer and of its path to
    URI conversion, without reference to their code. *)

From Coq Require Import List NArith Bool Arith.
From Coq.Init Require Import Byte.
From Verif Require Import Base ImpBuffer.
Import ListNotations.

(** ** The text of the log buffer *)

(** The C string that starts at the first cell: [None] if an indeterminate character or the
    end of the allocation comes before the terminator. *)
Fixpoint c_string (cs : list (option byte)) : option bytes :=
  match cs with
  | [] | None :: _ => None
  | Some x00 :: _ => Some []
  | Some b :: cs' => option_map (cons b) (c_string cs')
  end.

(** lower-case hexadecimal digits of a binary value *)
Definition digit (n : N) : byte :=
  match Byte.of_N (if N.ltb n 10 then 48 + n else 87 + n) with Some b => b | None => x00 end.
Definition elem_text (e : Elem) : bytes :=
  match e with
  | EText t => t
  | EBinary v => [x30; x78] ++
      flat_map (fun b => [digit (Byte.to_N b / 16); digit (Byte.to_N b mod 16)]) v
  end.

(** the elements separated by ", " *)
Fixpoint joined (l : list Elem) : bytes :=
  match l with
  | [] => []
  | [e] => elem_text e
  | e :: l' => elem_text e ++ [x2c; x20] ++ joined l'
  end.

(** The text that a sequence of calls leaves after the text [t]. *)
Fixpoint message_text (t : bytes) (ops : list LogOp) : bytes :=
  match ops with
  | [] => t
  | LClear :: ops' => message_text [] ops'
  | LAppend u :: ops' => message_text (t ++ u) ops'
  | LArray l :: ops' => message_text (t ++ joined l) ops'
  end.

(** A C string has no terminator inside. *)
Definition plain (t : bytes) : Prop := ~ In x00 t.
Definition elem_plain (e : Elem) : Prop := match e with EText t => plain t | EBinary _ => True end.
Definition op_plain (o : LogOp) : Prop :=
  match o with LClear => True | LAppend t => plain t | LArray l => Forall elem_plain l end.

(** The sizes that the buffer can take. *)
Definition buffer_size (n : nat) : Prop := exists j, n = N.to_nat 1024 * 2 ^ j.

(** The lengths at which the code goes wrong are avoided: no string ends exactly where a
    buffer ends, and no array element ends exactly three characters before. *)
Fixpoint lengths_avoid_list (n : nat) (l : list Elem) : Prop :=
  match l with
  | [] => True
  | e :: l' => ~ buffer_size (n + length (elem_text e) + 3) /\
               lengths_avoid_list (n + length (elem_text e) + 2) l'
  end.
Fixpoint lengths_avoid (n : nat) (ops : list LogOp) : Prop :=
  match ops with
  | [] => True
  | LClear :: ops' => lengths_avoid 0 ops'
  | LAppend u :: ops' => ~ buffer_size (n + length u) /\ lengths_avoid (n + length u) ops'
  | LArray l :: ops' => lengths_avoid_list n l /\ lengths_avoid (n + length (joined l)) ops'
  end.

(** ** Paths and URIs *)

(** The characters that RFC 3986 calls unreserved, and those it reserves as delimiters. *)
Definition unreserved (b : byte) : bool :=
  let n := Byte.to_N b in
  ((65 <=? n) && (n <=? 90) || (97 <=? n) && (n <=? 122) || (48 <=? n) && (n <=? 57)
   || (n =? 45) || (n =? 46) || (n =? 95) || (n =? 126))%N.
Definition delimiter (b : byte) : bool :=
  existsb (fun c => Byte.eqb b c)
    [x3a; x2f; x3f; x23; x5b; x5d; x40; x21; x24; x26; x27; x28; x29; x2a; x2b; x2c; x3b; x3d].

(** upper-case hexadecimal digits *)
Definition Digit (n : N) : byte :=
  match Byte.of_N (if N.ltb n 10 then 48 + n else 55 + n) with Some b => b | None => x00 end.

(** The characters that stand for one byte of the path. *)
Definition encoded (b : byte) : bytes :=
  if unreserved b || delimiter b then [b]
  else [x25; (if N.ltb (Byte.to_N b) 16 then x20 else Digit (Byte.to_N b / 16));
        Digit (Byte.to_N b mod 16)].
Definition file_scheme : bytes := [x66; x69; x6c; x65; x3a; x2f; x2f].  (* file:// *)
Definition uri_of (path : bytes) : bytes := file_scheme ++ flat_map encoded path.

(** Every character is one that a URI may contain: unreserved, a delimiter, or part of a
    percent sign followed by two hexadecimal digits. *)
Definition is_hex (b : byte) : bool :=
  let n := Byte.to_N b in
  ((48 <=? n) && (n <=? 57) || (65 <=? n) && (n <=? 70) || (97 <=? n) && (n <=? 102))%N.
Fixpoint uri_chars (allowed : byte -> bool) (s : bytes) : bool :=
  match s with
  | [] => true
  | b :: s' =>
      if Byte.eqb b x25
      then match s' with h :: l :: s'' => is_hex h && is_hex l && uri_chars allowed s'' | _ => false end
      else allowed b && uri_chars allowed s'
  end.

(** ** Percent decoding (RFC 3986): a character stands for itself, a percent sign with two
    hexadecimal digits for the byte they denote. *)
Definition hex_value (b : byte) : N :=
  let n := Byte.to_N b in if (n <=? 57)%N then n - 48 else if (n <=? 70)%N then n - 55 else n - 87.
Inductive decodes : bytes -> bytes -> Prop :=
| dec_nil : decodes [] []
| dec_char b s t : b <> x25 -> decodes s t -> decodes (b :: s) (b :: t)
| dec_byte h l b s t : is_hex h = true -> is_hex l = true -> Byte.to_N b = (16 * hex_value h + hex_value l)%N ->
    decodes s t -> decodes (x25 :: h :: l :: s) (b :: t).
(** file:///path and file:/path *)
Definition file_uri (s uri : bytes) : Prop :=
  hd_error s = Some x2f /\ (uri = [x66; x69; x6c; x65; x3a; x2f; x2f] ++ s \/
                            uri = [x66; x69; x6c; x65; x3a] ++ s /\ hd_error (tl s) <> Some x2f).

(** The file that Resource reads in its resource directory: /y.txt *)
Definition y_txt : bytes := [x2f; x79; x2e; x74; x78; x74].
(** Characters that the conversion handles: all if [char] is unsigned, ASCII if it is signed. *)
Definition narrow (signed : bool) (b : byte) : Prop := signed = false \/ (Byte.to_N b < 128)%N.
