(** FmuStateSpace.v -- StateSpace/config.h and StateSpace/model.c.
    Line numbers refer to StateSpace/model.c unless stated otherwise.

    m, n, r are uint64_t; they only ever hold values up to 5 (setUInt64) and are [nat]
    here.  Matrices are lists of rows; an access outside an array is [UB] (also where
    the C code would stay inside the two-dimensional array). *)

From Coq Require Import List NArith ZArith Bool Arith.
From Verif Require Import Base Instance ModelIface.
Import ListNotations.
Set Implicit Arguments.

(** config.h:27-41 ValueReference *)
Inductive SSVar := SStime | SSm | SSn | SSr | SSA | SSB | SSC | SSD | SSx0 | SSu | SSy | SSx | SSder_x.
Definition ss_var (vr : N) : option SSVar :=
  if N.eqb vr 0 then Some SStime else if N.eqb vr 1 then Some SSm
  else if N.eqb vr 2 then Some SSn else if N.eqb vr 3 then Some SSr
  else if N.eqb vr 4 then Some SSA else if N.eqb vr 5 then Some SSB
  else if N.eqb vr 6 then Some SSC else if N.eqb vr 7 then Some SSD
  else if N.eqb vr 8 then Some SSx0 else if N.eqb vr 9 then Some SSu
  else if N.eqb vr 10 then Some SSy else if N.eqb vr 11 then Some SSx
  else if N.eqb vr 12 then Some SSder_x else None.

Definition SS_MAX : nat := 5.                       (* config.h:23-25 M_MAX, N_MAX, R_MAX *)

(** config.h:43-56 ModelData *)
Record SSData (F : Type) := mkSS {
  ss_m : nat; ss_n : nat; ss_r : nat;
  ss_A : list (list F); ss_B : list (list F); ss_C : list (list F); ss_D : list (list F);
  ss_x0 : list F; ss_u : list F; ss_y : list F; ss_x : list F; ss_der_x : list F }.
Arguments mkSS {F}. Arguments ss_m {F}. Arguments ss_n {F}. Arguments ss_r {F}.
Arguments ss_A {F}. Arguments ss_B {F}. Arguments ss_C {F}. Arguments ss_D {F}.
Arguments ss_x0 {F}. Arguments ss_u {F}. Arguments ss_y {F}. Arguments ss_x {F}. Arguments ss_der_x {F}.
Definition set_ss_m {F : Type} (v : nat) (d : SSData F) : SSData F :=
  mkSS v (ss_n d) (ss_r d) (ss_A d) (ss_B d) (ss_C d) (ss_D d) (ss_x0 d) (ss_u d) (ss_y d) (ss_x d) (ss_der_x d).
Definition set_ss_n {F : Type} (v : nat) (d : SSData F) : SSData F :=
  mkSS (ss_m d) v (ss_r d) (ss_A d) (ss_B d) (ss_C d) (ss_D d) (ss_x0 d) (ss_u d) (ss_y d) (ss_x d) (ss_der_x d).
Definition set_ss_r {F : Type} (v : nat) (d : SSData F) : SSData F :=
  mkSS (ss_m d) (ss_n d) v (ss_A d) (ss_B d) (ss_C d) (ss_D d) (ss_x0 d) (ss_u d) (ss_y d) (ss_x d) (ss_der_x d).
Definition set_ss_A {F : Type} (v : list (list F)) (d : SSData F) : SSData F :=
  mkSS (ss_m d) (ss_n d) (ss_r d) v (ss_B d) (ss_C d) (ss_D d) (ss_x0 d) (ss_u d) (ss_y d) (ss_x d) (ss_der_x d).
Definition set_ss_B {F : Type} (v : list (list F)) (d : SSData F) : SSData F :=
  mkSS (ss_m d) (ss_n d) (ss_r d) (ss_A d) v (ss_C d) (ss_D d) (ss_x0 d) (ss_u d) (ss_y d) (ss_x d) (ss_der_x d).
Definition set_ss_C {F : Type} (v : list (list F)) (d : SSData F) : SSData F :=
  mkSS (ss_m d) (ss_n d) (ss_r d) (ss_A d) (ss_B d) v (ss_D d) (ss_x0 d) (ss_u d) (ss_y d) (ss_x d) (ss_der_x d).
Definition set_ss_D {F : Type} (v : list (list F)) (d : SSData F) : SSData F :=
  mkSS (ss_m d) (ss_n d) (ss_r d) (ss_A d) (ss_B d) (ss_C d) v (ss_x0 d) (ss_u d) (ss_y d) (ss_x d) (ss_der_x d).
Definition set_ss_x0 {F : Type} (v : list F) (d : SSData F) : SSData F :=
  mkSS (ss_m d) (ss_n d) (ss_r d) (ss_A d) (ss_B d) (ss_C d) (ss_D d) v (ss_u d) (ss_y d) (ss_x d) (ss_der_x d).
Definition set_ss_u {F : Type} (v : list F) (d : SSData F) : SSData F :=
  mkSS (ss_m d) (ss_n d) (ss_r d) (ss_A d) (ss_B d) (ss_C d) (ss_D d) (ss_x0 d) v (ss_y d) (ss_x d) (ss_der_x d).
Definition set_ss_y {F : Type} (v : list F) (d : SSData F) : SSData F :=
  mkSS (ss_m d) (ss_n d) (ss_r d) (ss_A d) (ss_B d) (ss_C d) (ss_D d) (ss_x0 d) (ss_u d) v (ss_x d) (ss_der_x d).
Definition set_ss_x {F : Type} (v : list F) (d : SSData F) : SSData F :=
  mkSS (ss_m d) (ss_n d) (ss_r d) (ss_A d) (ss_B d) (ss_C d) (ss_D d) (ss_x0 d) (ss_u d) (ss_y d) v (ss_der_x d).
Definition set_ss_der_x {F : Type} (v : list F) (d : SSData F) : SSData F :=
  mkSS (ss_m d) (ss_n d) (ss_r d) (ss_A d) (ss_B d) (ss_C d) (ss_D d) (ss_x0 d) (ss_u d) (ss_y d) (ss_x d) v.

Definition ss_token : bytes :=                                         (* config.h:8 *)
  [Byte.x7b; Byte.x44; Byte.x37; Byte.x37; Byte.x33; Byte.x33; Byte.x32; Byte.x35; Byte.x42;
     Byte.x2d; Byte.x41; Byte.x42; Byte.x39; Byte.x34; Byte.x2d; Byte.x34; Byte.x36; Byte.x33;
     Byte.x30; Byte.x2d; Byte.x42; Byte.x46; Byte.x38; Byte.x35; Byte.x2d; Byte.x36; Byte.x34;
     Byte.x33; Byte.x45; Byte.x42; Byte.x32; Byte.x34; Byte.x46; Byte.x43; Byte.x42; Byte.x37;
     Byte.x38; Byte.x7d].

(** The sub-vector / sub-matrix the loops run over; [None]: outside the array. *)
Definition sub1 {T} (n : nat) (v : list T) : option (list T) :=
  if Nat.leb n (length v) then Some (firstn n v) else None.
Fixpoint sub2 {T} (rows cols : nat) (a : list (list T)) : option (list (list T)) :=
  match rows with
  | O => Some []
  | S rows' =>
      match a with
      | [] => None
      | r :: a' => match sub1 cols r, sub2 rows' cols a' with
                   | Some x, Some y => Some (x :: y)
                   | _, _ => None
                   end
      end
  end.
(** Assignments [a[i] = l[i]] for i < length l. *)
Definition paste1 {T} (l v : list T) : option (list T) :=
  if Nat.leb (length l) (length v) then Some (l ++ skipn (length l) v) else None.
(** [a[i][j] = l[i*cols+j]] for i < rows, j < cols *)
Fixpoint paste2 {T} (rows cols : nat) (l : list T) (a : list (list T)) : option (list (list T)) :=
  match rows with
  | O => Some a
  | S rows' =>
      match a with
      | [] => None
      | r :: a' => match paste1 (firstn cols l) r, paste2 rows' cols (skipn cols l) a' with
                   | Some x, Some y => Some (x :: y)
                   | _, _ => None
                   end
      end
  end.

Section StateSpace.
  Context {F : Type} {NF : Num F}.
  Open Scope mf_scope.
  Notation MF := (MF F (SSData F)).

  Definition zeros : list F := repeat nzero SS_MAX.
  Definition ss_zero : SSData F :=                                     (* calloc *)
    mkSS 0 0 0 (repeat zeros SS_MAX) (repeat zeros SS_MAX) (repeat zeros SS_MAX) (repeat zeros SS_MAX)
         zeros zeros zeros zeros zeros.

  (** 12-19: the 5 x 5 identity *)
  Definition ss_identity : list (list F) :=
    map (fun i => map (fun j => if Nat.eqb i j then nlit 1 0 else nzero) (seq 0 SS_MAX)) (seq 0 SS_MAX).

  (** 5-37; x0 and der_x keep their contents, x = x0 (30) is overwritten (31) *)
  Definition ss_setStartValues : MF Status :=
    mmodd (fun d => mkSS 3 3 3 ss_identity ss_identity ss_identity ss_identity
                         (ss_x0 d) (map (fun i => nofN (N.of_nat (i + 1))) (seq 0 SS_MAX))
                         zeros zeros (ss_der_x d)) >>
    mmod (set_dirty true) >> mret OK.

  (** [for (j = 0; j < k; j++) acc += row[j] * v[j];] *)
  Definition dot (k : nat) (row v : list F) (acc : F) : option F :=
    if Nat.leb k (length row) && Nat.leb k (length v)
    then Some (fold_left (fun a p => nadd a (nmul (fst p) (snd p)))
                         (combine (firstn k row) (firstn k v)) acc)
    else None.

  (** [out[i] = 0; out[i] += P[i] . x (nx terms); out[i] += Q[i] . u (nu terms)] for
      i < rows (42-57, 59-74).  The code runs over i twice; the element-wise sequence of
      operations is the same. *)
  Fixpoint lin (rows nx nu : nat) (P Q : list (list F)) (x u : list F) : option (list F) :=
    match rows with
    | O => Some []
    | S rows' =>
        match P, Q with
        | p :: P', q :: Q' =>
            match dot nx p x nzero with
            | Some a =>
                match dot nu q u a, lin rows' nx nu P' Q' x u with
                | Some b, Some l => Some (b :: l)
                | _, _ => None
                end
            | None => None
            end
        | _, _ => None
        end
    end.

  (** 42-74; note the bound r (not m) of the loop 54-56 over the columns of B *)
  Definition ss_calc (d : SSData F) : option (SSData F) :=
    match lin (ss_n d) (ss_n d) (ss_r d) (ss_A d) (ss_B d) (ss_x d) (ss_u d),
          lin (ss_r d) (ss_n d) (ss_m d) (ss_C d) (ss_D d) (ss_x d) (ss_u d) with
    | Some dx, Some y =>
        match paste1 dx (ss_der_x d), paste1 y (ss_y d) with
        | Some dx', Some y' => Some (set_ss_y y' (set_ss_der_x dx' d))
        | _, _ => None
        end
    | _, _ => None
    end.

  (** 39-79 *)
  Definition ss_calculateValues : MF Status :=
    do d <- mdata in
    match ss_calc d with
    | Some d' => mmodd (fun _ => d') >> mmod (set_dirty false) >> mret OK
    | None => mub
    end.

  (** ASSERT_NVALUES(length l) and copying [l] out *)
  Definition putarr (values : Buf F) (nValues index : nat) (l : option (list F)) : MF (GetRes F) :=
    match l with
    | None => mub
    | Some l => if nvalues_ok index (length l) nValues then putl values index l
                else failGet values index
    end.

  (** 81-159 *)
  Definition ss_getFloat64 (vr : N) (values : Buf F) (nValues index : nat) : MF (GetRes F) :=
    nnGet values index (
    ss_calculateValues >>
    do c <- mctl in
    do d <- mdata in
    let mat rows cols a := putarr values nValues index (option_map (@concat F) (sub2 rows cols a)) in
    let vec n v := putarr values nValues index (sub1 n v) in
    match ss_var vr with
    | Some SStime => put1 values nValues index (time c)
    | Some SSA => mat (ss_n d) (ss_n d) (ss_A d)                       (* 93-100 *)
    | Some SSB => mat (ss_m d) (ss_n d) (ss_B d)                       (* 101-108 *)
    | Some SSC => mat (ss_r d) (ss_n d) (ss_C d)                       (* 109-116 *)
    | Some SSD => mat (ss_r d) (ss_m d) (ss_D d)                       (* 117-124 *)
    | Some SSx0 => vec (ss_n d) (ss_x0 d)
    | Some SSu => vec (ss_m d) (ss_u d)
    | Some SSy => vec (ss_r d) (ss_y d)
    | Some SSx => vec (ss_n d) (ss_x d)
    | Some SSder_x => vec (ss_n d) (ss_der_x d)
    | _ => failGet values index
    end).

  (** ASSERT_NVALUES(n) and copying n elements in; [f] stores them, [None]: outside *)
  Definition takearr (values : Buf F) (nValues index n : nat) (f : list F -> SSData F -> option (SSData F))
    : MF SetRes :=
    if nvalues_ok index n nValues then
      do l <- takel values index n in
      do d <- mdata in
      match f l d with
      | Some d' => mmodd (fun _ => d') >> mret (OK, index + n)
      | None => mub
      end
    else failSet index.

  (** 161-229 *)
  Definition ss_setFloat64 (vr : N) (values : Buf F) (nValues index : nat) : MF SetRes :=
    nnSet values index (
    do c <- mctl in
    do d <- mdata in
    let mat rows cols get set :=
      takearr values nValues index (rows * cols)
        (fun l d => option_map (fun a => set a d) (paste2 rows cols l (get d))) in
    let vec n get set :=
      takearr values nValues index n (fun l d => option_map (fun a => set a d) (paste1 l (get d))) in
    thenDirty (
    match ss_var vr with
    | Some SSA => mat (ss_n d) (ss_n d) ss_A set_ss_A                  (* 167-174 *)
    | Some SSB => mat (ss_n d) (ss_m d) ss_B set_ss_B                  (* 175-182 *)
    | Some SSC => mat (ss_r d) (ss_n d) ss_C set_ss_C                  (* 183-190 *)
    | Some SSD => mat (ss_r d) (ss_m d) ss_D set_ss_D                  (* 191-198 *)
    | Some SSx0 => vec (ss_n d) ss_x0 set_ss_x0
    | Some SSu => vec (ss_m d) ss_u set_ss_u
    | Some SSx =>                                                      (* 211-220 *)
        if negb (inModes [ContinuousTimeMode; EventMode] (mode c)) then failSet index
        else vec (ss_n d) ss_x set_ss_x
    | _ => failSet index
    end)).

  (** 231-253 *)
  Definition ss_getUInt64 (vr : N) (values : Buf N) (nValues index : nat) : MF (GetRes N) :=
    nnGet values index (
    do d <- mdata in
    match ss_var vr with
    | Some SSm => put1 values nValues index (N.of_nat (ss_m d))
    | Some SSn => put1 values nValues index (N.of_nat (ss_n d))
    | Some SSr => put1 values nValues index (N.of_nat (ss_r d))
    | _ => failGet values index
    end).

  (** 255-300.  The index is advanced (265) before ASSERT_NVALUES(1), which therefore
      asks for one value more than is used. *)
  Definition ss_setUInt64 (vr : N) (values : Buf N) (nValues index : nat) : MF SetRes :=
    nnSet values index (
    do c <- mctl in
    if negb (inModes [ConfigurationMode; ReconfigurationMode] (mode c)) then failSet index else
    do v <- mrd values index in
    let index := S index in
    let store set :=
      if N.ltb (N.of_nat SS_MAX) v then failSet index
      else if nvalues_ok index 1 nValues then mmodd (set (N.to_nat v)) >> mret (OK, index)
      else failSet index in
    thenDirty (
    match ss_var vr with
    | Some SSm => store set_ss_m
    | Some SSn => store set_ss_n
    | Some SSr => store set_ss_r
    | _ => failSet index
    end)).

  (** 302-311 *)
  Definition ss_eventUpdate : MF Status :=
    mmod (set_valuesChanged false) >> mmod (set_nominalsChanged false) >>
    mmod (set_terminateSimulation false) >> mmod (set_nextEventTimeDefined false) >> mret OK.

  (** Writing [l] to the caller's array from 0 *)
  Definition ss_out (x : Buf F) (l : option (list F)) : MF (Status * Buf F) :=
    match l with
    | None => mub
    | Some l => do x' <- writel x 0 l in mret (OK, x')
    end.

  (** 318-332 *)
  Definition ss_getContinuousStates (x : Buf F) (nx : nat) : MF (Status * Buf F) :=
    do d <- mdata in
    arrGet x nx (ss_n d) (ss_out x (sub1 (ss_n d) (ss_x d))).

  (** 334-348 *)
  Definition ss_getNominals (x : Buf F) (nx : nat) : MF (Status * Buf F) :=
    do d <- mdata in
    arrGet x nx (ss_n d) (ss_out x (Some (repeat (nlit 1 0) (ss_n d)))).

  (** 350-366 *)
  Definition ss_setContinuousStates (x : Buf F) (nx : nat) : MF Status :=
    do d <- mdata in
    arrSet x nx (ss_n d) (
    do l <- takel x 0 (ss_n d) in
    match paste1 l (ss_x d) with
    | Some v => mmodd (set_ss_x v) >> mmod (set_dirty true) >> mret OK
    | None => mub
    end).

  (** 368-384 *)
  Definition ss_getDerivatives (dx : Buf F) (nx : nat) : MF (Status * Buf F) :=
    do d <- mdata in
    arrGet dx nx (ss_n d) (
    ss_calculateValues >>
    do d <- mdata in
    ss_out dx (sub1 (ss_n d) (ss_der_x d))).

  Definition StateSpace_model : Model F := {|
    md := SSData F; md0 := ss_zero; m_token := ss_token;
    m_modelExchange := true; m_scheduled := false;                     (* config.h:12-13 *)
    m_eventUpdate := true; m_outputDerivative := false;
    m_maxX := SS_MAX; m_maxZ := 0; m_step := nlit 1 (-3);
    m_setStartValues := ss_setStartValues;
    m_calculateValues := ss_calculateValues;
    m_get := fun t => match t return N -> Buf (val F t) -> nat -> nat -> MF (GetRes (val F t)) with
                      | TFloat64 => ss_getFloat64
                      | TUInt64 => ss_getUInt64
                      | _ => get_not_allowed
                      end;
    m_set := fun t => match t return N -> Buf (val F t) -> nat -> nat -> MF SetRes with
                      | TFloat64 => ss_setFloat64
                      | TUInt64 => ss_setUInt64
                      | _ => set_not_allowed
                      end;
    m_getBinary := getBinary_default; m_setBinary := setBinary_default;
    m_activateClock := activateClock_default; m_getClock := getClock_default;
    m_getInterval := getInterval_default; m_activateModelPartition := activate_default;
    m_nz := fun _ => 0;                                  (* default, cosimulation.c:529-534 *)
    m_nx := fun u => ss_n (data u);                                    (* 313-316 *)
    m_getContinuousStates := ss_getContinuousStates; m_getNominals := ss_getNominals;
    m_setContinuousStates := ss_setContinuousStates; m_getDerivatives := ss_getDerivatives;
    m_getEventIndicators := indicators_default;
    m_getOutputDerivative := outputDerivative_absent;
    m_getPartialDerivative := partial_default;
    m_eventUpdateF := ss_eventUpdate |}.
End StateSpace.
