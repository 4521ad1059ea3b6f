(** ImpBuffer.v -- the log message buffer of the importer: src/FMI.c 92-114 (the fields set
    by FMICreateInstance) and 186-339.

    The texts produced by the printf conversions are parameters: an append gives the whole
    text that the format denotes, an array element the text of the element.  Only the text of
    a binary element is computed, because the code prints it byte by byte.  Sizes are natural
    numbers: the wrap-around of [size_t] and of the [int] lengths beyond 2^31 characters is
    not modelled, and realloc succeeds. *)

From Coq Require Import List NArith Bool Arith.
From Coq.Init Require Import Byte.
From Verif Require Import Base.
Import ListNotations.
Set Implicit Arguments.

(** A character of the buffer; [None]: indeterminate, as realloc leaves it. *)
Notation cell := (option byte).

(** The three fields logMessageBuffer, logMessageBufferSize (the length of the list) and
    logMessageBufferPosition of FMIInstance (include/FMI.h 153-155). *)
Record LBuf := mkLB { lb_cells : list cell; lb_pos : nat }.
Definition lb_size (b : LBuf) : nat := length (lb_cells b).

(** FMICreateInstance 103-105 *)
Definition lb_create : LBuf := mkLB (repeat (Some x00) (N.to_nat 1024)) 0.

(** Characters stored from index [p] on; outside the allocation: undefined. *)
Definition store (cs : list cell) (p : nat) (t : bytes) : res (list cell) :=
  if Nat.leb (p + length t) (length cs)
  then Done (firstn p cs ++ map Some t ++ skipn (p + length t) cs)
  else UB.

(** [snprintf(&buf[p], n, ...)] of a format that denotes the text [t]: at most [n - 1]
    characters and the terminator, nothing if [n] is 0.  The value returned is [length t]. *)
Definition snprint (cs : list cell) (p n : nat) (t : bytes) : res (list cell) :=
  match n with
  | O => Done cs
  | S m => store cs p (firstn m t ++ [x00])
  end.

(** [size - position], defined while the position is inside the buffer *)
Definition remaining (b : LBuf) : res nat :=
  if Nat.leb (lb_pos b) (lb_size b) then Done (lb_size b - lb_pos b) else UB.

Definition rbind {A B} (x : res A) (k : A -> res B) : res B :=
  match x with Done a => k a | UB => UB | NoFuel => NoFuel end.
Notation "'let!' x ':=' m 'in' k" := (rbind m (fun x => k))
  (at level 200, x binder, m at level 100, k at level 200).

(** FMIClearLogMessageBuffer 186-193 *)
Definition lb_clear (b : LBuf) : LBuf :=
  mkLB (match lb_cells b with [] => [] | _ :: cs => Some x00 :: cs end) 0.

(** [while (size < need) size *= 2;] 209-211 and 319-321 *)
Fixpoint grow (fuel size need : nat) : res nat :=
  if Nat.ltb size need
  then match fuel with O => NoFuel | S k => grow k (size * 2) need end
  else Done size.

(** FMIRealloc to a larger size: the new characters are indeterminate *)
Definition enlarge (cs : list cell) (size : nat) : list cell :=
  cs ++ repeat None (size - length cs).

(** FMIAppendToLogMessageBuffer 195-222 *)
Definition lb_append (fuel : nat) (b : LBuf) (t : bytes) : res LBuf :=
  let! n := remaining b in
  let! cs := snprint (lb_cells b) (lb_pos b) n t in                              (* 200 *)
  if Nat.ltb (length t) n
  then Done (mkLB cs (lb_pos b + length t))                                      (* 205 *)
  else
    let! size := grow fuel (length cs) (lb_pos b + length t) in                  (* 209-211 *)
    let cs1 := enlarge cs size in                                                (* 213 *)
    let! cs2 := snprint cs1 (lb_pos b) (size - lb_pos b) t in                    (* 218 *)
    Done (mkLB cs2 (lb_pos b + length t)).

(** [%02hhx] *)
Definition hex_lower : bytes :=
  [x30; x31; x32; x33; x34; x35; x36; x37; x38; x39; x61; x62; x63; x64; x65; x66].
Definition hex2 (v : byte) : bytes :=
  [nth (N.to_nat (N.div (Byte.to_N v) 16)) hex_lower x00;
   nth (N.to_nat (N.modulo (Byte.to_N v) 16)) hex_lower x00].

(** The loop 291-295: two characters per byte *)
Fixpoint print_hex (cs : list cell) (s n : nat) (v : bytes) : res (list cell) :=
  match v with
  | [] => Done cs
  | x :: v' => let! cs1 := snprint cs s n (hex2 x) in print_hex cs1 (s + 2) (n - 2) v'
  end.

(** One element of the array: a text printed by one snprintf, or a binary value *)
Inductive Elem := EText (t : bytes) | EBinary (v : bytes).

(** The value of [length] after the switch 236-308 *)
Definition elem_length (e : Elem) : nat :=
  match e with EText t => length t | EBinary v => 2 + length v * 2 end.
(** What the switch prints *)
Definition print_elem (cs : list cell) (s n : nat) (e : Elem) : res (list cell) :=
  match e with
  | EText t => snprint cs s n t
  | EBinary v =>                                                                 (* 283-297 *)
      if Nat.ltb (2 + length v * 2) n
      then let! cs1 := snprint cs s n [x30; x78] in print_hex cs1 (s + 2) (n - 2) v
      else Done cs
  end.

(** FMIAppendArrayToLogMessageBuffer 224-339 on the elements from index [i] on.  An array of
    a type that the switch does not know (305-307) is the empty list of elements. *)
Fixpoint lb_array (fuel : nat) (b : LBuf) (l : list Elem) : res LBuf :=
  match l with
  | [] => Done b
  | e :: l' =>
      match fuel with
      | O => NoFuel
      | S k =>
          let! n := remaining b in
          let! cs := print_elem (lb_cells b) (lb_pos b) n e in
          let required := elem_length e + 3 in                                   (* 310 *)
          if Nat.ltb required n then
            let p := lb_pos b + elem_length e in                                 (* 314-315 *)
            match l' with
            | [] => Done (mkLB cs p)
            | _ => let! cs1 := snprint cs p (length cs - p) [x2c; x20] in        (* 332-336 *)
                   lb_array k (mkLB cs1 (p + 2)) l'
            end
          else
            let! size := grow fuel (length cs) (lb_pos b + required) in          (* 319-321 *)
            lb_array k (mkLB (enlarge cs size) (lb_pos b)) l                     (* 323-327 *)
      end
  end.

(** The calls of one message *)
Inductive LogOp := LClear | LAppend (t : bytes) | LArray (l : list Elem).
Definition lb_op (fuel : nat) (o : LogOp) (b : LBuf) : res LBuf :=
  match o with
  | LClear => Done (lb_clear b)
  | LAppend t => lb_append fuel b t
  | LArray l => lb_array fuel b l
  end.
Fixpoint lb_run (fuel : nat) (ops : list LogOp) (b : LBuf) : res LBuf :=
  match ops with
  | [] => Done b
  | o :: ops' => let! b1 := lb_op fuel o b in lb_run fuel ops' b1
  end.
