(** FmuFeedthrough.v -- Feedthrough/config.h and Feedthrough/model.c.
    Line numbers refer to Feedthrough/model.c unless stated otherwise.

    char arrays holding strings are their contents before the NUL; binary variables are
    the first Binary_..._size bytes of their array (the rest is never handed out). *)

From Coq Require Import List NArith ZArith Bool Arith.
From Verif Require Import Base Instance ModelIface.
Import ListNotations.
Set Implicit Arguments.

(** config.h:51-103 ValueReference.  Names: f32c/f32d, f64c/f64d continuous and discrete
    floats, f64_fixed/f64_tunable parameters, then the integers, Boolean, String, Binary
    and Enumeration variables. *)
Inductive FTVar :=
  | FTtime | FTf32c_in | FTf32c_out | FTf32d_in | FTf32d_out | FTf64_fixed | FTf64_tunable |
  FTf64c_in | FTf64c_out | FTf64d_in | FTf64d_out | FTi8_in | FTi8_out | FTu8_in | FTu8_out
  | FTi16_in | FTi16_out | FTu16_in | FTu16_out | FTi32_in | FTi32_out | FTu32_in |
  FTu32_out | FTi64_in | FTi64_out | FTu64_in | FTu64_out | FTbool_in | FTbool_out |
  FTstr_in | FTstr_out | FTbin_in | FTbin_out | FTenum_in | FTenum_out.
Definition ft_var (vr : N) : option FTVar :=
  if N.eqb vr 0 then Some FTtime else if N.eqb vr 1 then Some FTf32c_in else 
  if N.eqb vr 2 then Some FTf32c_out else if N.eqb vr 3 then Some FTf32d_in else 
  if N.eqb vr 4 then Some FTf32d_out else if N.eqb vr 5 then Some FTf64_fixed else 
  if N.eqb vr 6 then Some FTf64_tunable else if N.eqb vr 7 then Some FTf64c_in else 
  if N.eqb vr 8 then Some FTf64c_out else if N.eqb vr 9 then Some FTf64d_in else 
  if N.eqb vr 10 then Some FTf64d_out else if N.eqb vr 11 then Some FTi8_in else 
  if N.eqb vr 12 then Some FTi8_out else if N.eqb vr 13 then Some FTu8_in else 
  if N.eqb vr 14 then Some FTu8_out else if N.eqb vr 15 then Some FTi16_in else 
  if N.eqb vr 16 then Some FTi16_out else if N.eqb vr 17 then Some FTu16_in else 
  if N.eqb vr 18 then Some FTu16_out else if N.eqb vr 19 then Some FTi32_in else 
  if N.eqb vr 20 then Some FTi32_out else if N.eqb vr 21 then Some FTu32_in else 
  if N.eqb vr 22 then Some FTu32_out else if N.eqb vr 23 then Some FTi64_in else 
  if N.eqb vr 24 then Some FTi64_out else if N.eqb vr 25 then Some FTu64_in else 
  if N.eqb vr 26 then Some FTu64_out else if N.eqb vr 27 then Some FTbool_in else 
  if N.eqb vr 28 then Some FTbool_out else if N.eqb vr 29 then Some FTstr_in else 
  if N.eqb vr 30 then Some FTstr_out else if N.eqb vr 31 then Some FTbin_in else 
  if N.eqb vr 32 then Some FTbin_out else if N.eqb vr 33 then Some FTenum_in else 
  if N.eqb vr 34 then Some FTenum_out else None.

(** config.h:110-162 ModelData *)
Record FTData (F : Type) := mkFT {
  ft_f32c_in : N;
  ft_f32c_out : N;
  ft_f32d_in : N;
  ft_f32d_out : N;
  ft_f64_fixed : F;
  ft_f64_tunable : F;
  ft_f64c_in : F;
  ft_f64c_out : F;
  ft_f64d_in : F;
  ft_f64d_out : F;
  ft_i8_in : Z;
  ft_i8_out : Z;
  ft_u8_in : N;
  ft_u8_out : N;
  ft_i16_in : Z;
  ft_i16_out : Z;
  ft_u16_in : N;
  ft_u16_out : N;
  ft_i32_in : Z;
  ft_i32_out : Z;
  ft_u32_in : N;
  ft_u32_out : N;
  ft_i64_in : Z;
  ft_i64_out : Z;
  ft_u64_in : N;
  ft_u64_out : N;
  ft_bool_in : bool;
  ft_bool_out : bool;
  ft_str_in : bytes;
  ft_str_out : bytes;
  ft_bin_in : bytes;
  ft_bin_out : bytes;
  ft_enum_in : Z;
  ft_enum_out : Z }.
Arguments mkFT {F}.
Arguments ft_f32c_in {F}.
Arguments ft_f32c_out {F}.
Arguments ft_f32d_in {F}.
Arguments ft_f32d_out {F}.
Arguments ft_f64_fixed {F}.
Arguments ft_f64_tunable {F}.
Arguments ft_f64c_in {F}.
Arguments ft_f64c_out {F}.
Arguments ft_f64d_in {F}.
Arguments ft_f64d_out {F}.
Arguments ft_i8_in {F}.
Arguments ft_i8_out {F}.
Arguments ft_u8_in {F}.
Arguments ft_u8_out {F}.
Arguments ft_i16_in {F}.
Arguments ft_i16_out {F}.
Arguments ft_u16_in {F}.
Arguments ft_u16_out {F}.
Arguments ft_i32_in {F}.
Arguments ft_i32_out {F}.
Arguments ft_u32_in {F}.
Arguments ft_u32_out {F}.
Arguments ft_i64_in {F}.
Arguments ft_i64_out {F}.
Arguments ft_u64_in {F}.
Arguments ft_u64_out {F}.
Arguments ft_bool_in {F}.
Arguments ft_bool_out {F}.
Arguments ft_str_in {F}.
Arguments ft_str_out {F}.
Arguments ft_bin_in {F}.
Arguments ft_bin_out {F}.
Arguments ft_enum_in {F}.
Arguments ft_enum_out {F}.
Definition set_ft_f32c_in {F : Type} (v : N) (d : FTData F) : FTData F :=
  mkFT v (ft_f32c_out d) (ft_f32d_in d) (ft_f32d_out d) (ft_f64_fixed d) (ft_f64_tunable d) (ft_f64c_in d) (ft_f64c_out d) (ft_f64d_in d) (ft_f64d_out d) (ft_i8_in d) (ft_i8_out d) (ft_u8_in d) (ft_u8_out d) (ft_i16_in d) (ft_i16_out d) (ft_u16_in d) (ft_u16_out d) (ft_i32_in d) (ft_i32_out d) (ft_u32_in d) (ft_u32_out d) (ft_i64_in d) (ft_i64_out d) (ft_u64_in d) (ft_u64_out d) (ft_bool_in d) (ft_bool_out d) (ft_str_in d) (ft_str_out d) (ft_bin_in d) (ft_bin_out d) (ft_enum_in d) (ft_enum_out d).
Definition set_ft_f32c_out {F : Type} (v : N) (d : FTData F) : FTData F :=
  mkFT (ft_f32c_in d) v (ft_f32d_in d) (ft_f32d_out d) (ft_f64_fixed d) (ft_f64_tunable d) (ft_f64c_in d) (ft_f64c_out d) (ft_f64d_in d) (ft_f64d_out d) (ft_i8_in d) (ft_i8_out d) (ft_u8_in d) (ft_u8_out d) (ft_i16_in d) (ft_i16_out d) (ft_u16_in d) (ft_u16_out d) (ft_i32_in d) (ft_i32_out d) (ft_u32_in d) (ft_u32_out d) (ft_i64_in d) (ft_i64_out d) (ft_u64_in d) (ft_u64_out d) (ft_bool_in d) (ft_bool_out d) (ft_str_in d) (ft_str_out d) (ft_bin_in d) (ft_bin_out d) (ft_enum_in d) (ft_enum_out d).
Definition set_ft_f32d_in {F : Type} (v : N) (d : FTData F) : FTData F :=
  mkFT (ft_f32c_in d) (ft_f32c_out d) v (ft_f32d_out d) (ft_f64_fixed d) (ft_f64_tunable d) (ft_f64c_in d) (ft_f64c_out d) (ft_f64d_in d) (ft_f64d_out d) (ft_i8_in d) (ft_i8_out d) (ft_u8_in d) (ft_u8_out d) (ft_i16_in d) (ft_i16_out d) (ft_u16_in d) (ft_u16_out d) (ft_i32_in d) (ft_i32_out d) (ft_u32_in d) (ft_u32_out d) (ft_i64_in d) (ft_i64_out d) (ft_u64_in d) (ft_u64_out d) (ft_bool_in d) (ft_bool_out d) (ft_str_in d) (ft_str_out d) (ft_bin_in d) (ft_bin_out d) (ft_enum_in d) (ft_enum_out d).
Definition set_ft_f32d_out {F : Type} (v : N) (d : FTData F) : FTData F :=
  mkFT (ft_f32c_in d) (ft_f32c_out d) (ft_f32d_in d) v (ft_f64_fixed d) (ft_f64_tunable d) (ft_f64c_in d) (ft_f64c_out d) (ft_f64d_in d) (ft_f64d_out d) (ft_i8_in d) (ft_i8_out d) (ft_u8_in d) (ft_u8_out d) (ft_i16_in d) (ft_i16_out d) (ft_u16_in d) (ft_u16_out d) (ft_i32_in d) (ft_i32_out d) (ft_u32_in d) (ft_u32_out d) (ft_i64_in d) (ft_i64_out d) (ft_u64_in d) (ft_u64_out d) (ft_bool_in d) (ft_bool_out d) (ft_str_in d) (ft_str_out d) (ft_bin_in d) (ft_bin_out d) (ft_enum_in d) (ft_enum_out d).
Definition set_ft_f64_fixed {F : Type} (v : F) (d : FTData F) : FTData F :=
  mkFT (ft_f32c_in d) (ft_f32c_out d) (ft_f32d_in d) (ft_f32d_out d) v (ft_f64_tunable d) (ft_f64c_in d) (ft_f64c_out d) (ft_f64d_in d) (ft_f64d_out d) (ft_i8_in d) (ft_i8_out d) (ft_u8_in d) (ft_u8_out d) (ft_i16_in d) (ft_i16_out d) (ft_u16_in d) (ft_u16_out d) (ft_i32_in d) (ft_i32_out d) (ft_u32_in d) (ft_u32_out d) (ft_i64_in d) (ft_i64_out d) (ft_u64_in d) (ft_u64_out d) (ft_bool_in d) (ft_bool_out d) (ft_str_in d) (ft_str_out d) (ft_bin_in d) (ft_bin_out d) (ft_enum_in d) (ft_enum_out d).
Definition set_ft_f64_tunable {F : Type} (v : F) (d : FTData F) : FTData F :=
  mkFT (ft_f32c_in d) (ft_f32c_out d) (ft_f32d_in d) (ft_f32d_out d) (ft_f64_fixed d) v (ft_f64c_in d) (ft_f64c_out d) (ft_f64d_in d) (ft_f64d_out d) (ft_i8_in d) (ft_i8_out d) (ft_u8_in d) (ft_u8_out d) (ft_i16_in d) (ft_i16_out d) (ft_u16_in d) (ft_u16_out d) (ft_i32_in d) (ft_i32_out d) (ft_u32_in d) (ft_u32_out d) (ft_i64_in d) (ft_i64_out d) (ft_u64_in d) (ft_u64_out d) (ft_bool_in d) (ft_bool_out d) (ft_str_in d) (ft_str_out d) (ft_bin_in d) (ft_bin_out d) (ft_enum_in d) (ft_enum_out d).
Definition set_ft_f64c_in {F : Type} (v : F) (d : FTData F) : FTData F :=
  mkFT (ft_f32c_in d) (ft_f32c_out d) (ft_f32d_in d) (ft_f32d_out d) (ft_f64_fixed d) (ft_f64_tunable d) v (ft_f64c_out d) (ft_f64d_in d) (ft_f64d_out d) (ft_i8_in d) (ft_i8_out d) (ft_u8_in d) (ft_u8_out d) (ft_i16_in d) (ft_i16_out d) (ft_u16_in d) (ft_u16_out d) (ft_i32_in d) (ft_i32_out d) (ft_u32_in d) (ft_u32_out d) (ft_i64_in d) (ft_i64_out d) (ft_u64_in d) (ft_u64_out d) (ft_bool_in d) (ft_bool_out d) (ft_str_in d) (ft_str_out d) (ft_bin_in d) (ft_bin_out d) (ft_enum_in d) (ft_enum_out d).
Definition set_ft_f64c_out {F : Type} (v : F) (d : FTData F) : FTData F :=
  mkFT (ft_f32c_in d) (ft_f32c_out d) (ft_f32d_in d) (ft_f32d_out d) (ft_f64_fixed d) (ft_f64_tunable d) (ft_f64c_in d) v (ft_f64d_in d) (ft_f64d_out d) (ft_i8_in d) (ft_i8_out d) (ft_u8_in d) (ft_u8_out d) (ft_i16_in d) (ft_i16_out d) (ft_u16_in d) (ft_u16_out d) (ft_i32_in d) (ft_i32_out d) (ft_u32_in d) (ft_u32_out d) (ft_i64_in d) (ft_i64_out d) (ft_u64_in d) (ft_u64_out d) (ft_bool_in d) (ft_bool_out d) (ft_str_in d) (ft_str_out d) (ft_bin_in d) (ft_bin_out d) (ft_enum_in d) (ft_enum_out d).
Definition set_ft_f64d_in {F : Type} (v : F) (d : FTData F) : FTData F :=
  mkFT (ft_f32c_in d) (ft_f32c_out d) (ft_f32d_in d) (ft_f32d_out d) (ft_f64_fixed d) (ft_f64_tunable d) (ft_f64c_in d) (ft_f64c_out d) v (ft_f64d_out d) (ft_i8_in d) (ft_i8_out d) (ft_u8_in d) (ft_u8_out d) (ft_i16_in d) (ft_i16_out d) (ft_u16_in d) (ft_u16_out d) (ft_i32_in d) (ft_i32_out d) (ft_u32_in d) (ft_u32_out d) (ft_i64_in d) (ft_i64_out d) (ft_u64_in d) (ft_u64_out d) (ft_bool_in d) (ft_bool_out d) (ft_str_in d) (ft_str_out d) (ft_bin_in d) (ft_bin_out d) (ft_enum_in d) (ft_enum_out d).
Definition set_ft_f64d_out {F : Type} (v : F) (d : FTData F) : FTData F :=
  mkFT (ft_f32c_in d) (ft_f32c_out d) (ft_f32d_in d) (ft_f32d_out d) (ft_f64_fixed d) (ft_f64_tunable d) (ft_f64c_in d) (ft_f64c_out d) (ft_f64d_in d) v (ft_i8_in d) (ft_i8_out d) (ft_u8_in d) (ft_u8_out d) (ft_i16_in d) (ft_i16_out d) (ft_u16_in d) (ft_u16_out d) (ft_i32_in d) (ft_i32_out d) (ft_u32_in d) (ft_u32_out d) (ft_i64_in d) (ft_i64_out d) (ft_u64_in d) (ft_u64_out d) (ft_bool_in d) (ft_bool_out d) (ft_str_in d) (ft_str_out d) (ft_bin_in d) (ft_bin_out d) (ft_enum_in d) (ft_enum_out d).
Definition set_ft_i8_in {F : Type} (v : Z) (d : FTData F) : FTData F :=
  mkFT (ft_f32c_in d) (ft_f32c_out d) (ft_f32d_in d) (ft_f32d_out d) (ft_f64_fixed d) (ft_f64_tunable d) (ft_f64c_in d) (ft_f64c_out d) (ft_f64d_in d) (ft_f64d_out d) v (ft_i8_out d) (ft_u8_in d) (ft_u8_out d) (ft_i16_in d) (ft_i16_out d) (ft_u16_in d) (ft_u16_out d) (ft_i32_in d) (ft_i32_out d) (ft_u32_in d) (ft_u32_out d) (ft_i64_in d) (ft_i64_out d) (ft_u64_in d) (ft_u64_out d) (ft_bool_in d) (ft_bool_out d) (ft_str_in d) (ft_str_out d) (ft_bin_in d) (ft_bin_out d) (ft_enum_in d) (ft_enum_out d).
Definition set_ft_i8_out {F : Type} (v : Z) (d : FTData F) : FTData F :=
  mkFT (ft_f32c_in d) (ft_f32c_out d) (ft_f32d_in d) (ft_f32d_out d) (ft_f64_fixed d) (ft_f64_tunable d) (ft_f64c_in d) (ft_f64c_out d) (ft_f64d_in d) (ft_f64d_out d) (ft_i8_in d) v (ft_u8_in d) (ft_u8_out d) (ft_i16_in d) (ft_i16_out d) (ft_u16_in d) (ft_u16_out d) (ft_i32_in d) (ft_i32_out d) (ft_u32_in d) (ft_u32_out d) (ft_i64_in d) (ft_i64_out d) (ft_u64_in d) (ft_u64_out d) (ft_bool_in d) (ft_bool_out d) (ft_str_in d) (ft_str_out d) (ft_bin_in d) (ft_bin_out d) (ft_enum_in d) (ft_enum_out d).
Definition set_ft_u8_in {F : Type} (v : N) (d : FTData F) : FTData F :=
  mkFT (ft_f32c_in d) (ft_f32c_out d) (ft_f32d_in d) (ft_f32d_out d) (ft_f64_fixed d) (ft_f64_tunable d) (ft_f64c_in d) (ft_f64c_out d) (ft_f64d_in d) (ft_f64d_out d) (ft_i8_in d) (ft_i8_out d) v (ft_u8_out d) (ft_i16_in d) (ft_i16_out d) (ft_u16_in d) (ft_u16_out d) (ft_i32_in d) (ft_i32_out d) (ft_u32_in d) (ft_u32_out d) (ft_i64_in d) (ft_i64_out d) (ft_u64_in d) (ft_u64_out d) (ft_bool_in d) (ft_bool_out d) (ft_str_in d) (ft_str_out d) (ft_bin_in d) (ft_bin_out d) (ft_enum_in d) (ft_enum_out d).
Definition set_ft_u8_out {F : Type} (v : N) (d : FTData F) : FTData F :=
  mkFT (ft_f32c_in d) (ft_f32c_out d) (ft_f32d_in d) (ft_f32d_out d) (ft_f64_fixed d) (ft_f64_tunable d) (ft_f64c_in d) (ft_f64c_out d) (ft_f64d_in d) (ft_f64d_out d) (ft_i8_in d) (ft_i8_out d) (ft_u8_in d) v (ft_i16_in d) (ft_i16_out d) (ft_u16_in d) (ft_u16_out d) (ft_i32_in d) (ft_i32_out d) (ft_u32_in d) (ft_u32_out d) (ft_i64_in d) (ft_i64_out d) (ft_u64_in d) (ft_u64_out d) (ft_bool_in d) (ft_bool_out d) (ft_str_in d) (ft_str_out d) (ft_bin_in d) (ft_bin_out d) (ft_enum_in d) (ft_enum_out d).
Definition set_ft_i16_in {F : Type} (v : Z) (d : FTData F) : FTData F :=
  mkFT (ft_f32c_in d) (ft_f32c_out d) (ft_f32d_in d) (ft_f32d_out d) (ft_f64_fixed d) (ft_f64_tunable d) (ft_f64c_in d) (ft_f64c_out d) (ft_f64d_in d) (ft_f64d_out d) (ft_i8_in d) (ft_i8_out d) (ft_u8_in d) (ft_u8_out d) v (ft_i16_out d) (ft_u16_in d) (ft_u16_out d) (ft_i32_in d) (ft_i32_out d) (ft_u32_in d) (ft_u32_out d) (ft_i64_in d) (ft_i64_out d) (ft_u64_in d) (ft_u64_out d) (ft_bool_in d) (ft_bool_out d) (ft_str_in d) (ft_str_out d) (ft_bin_in d) (ft_bin_out d) (ft_enum_in d) (ft_enum_out d).
Definition set_ft_i16_out {F : Type} (v : Z) (d : FTData F) : FTData F :=
  mkFT (ft_f32c_in d) (ft_f32c_out d) (ft_f32d_in d) (ft_f32d_out d) (ft_f64_fixed d) (ft_f64_tunable d) (ft_f64c_in d) (ft_f64c_out d) (ft_f64d_in d) (ft_f64d_out d) (ft_i8_in d) (ft_i8_out d) (ft_u8_in d) (ft_u8_out d) (ft_i16_in d) v (ft_u16_in d) (ft_u16_out d) (ft_i32_in d) (ft_i32_out d) (ft_u32_in d) (ft_u32_out d) (ft_i64_in d) (ft_i64_out d) (ft_u64_in d) (ft_u64_out d) (ft_bool_in d) (ft_bool_out d) (ft_str_in d) (ft_str_out d) (ft_bin_in d) (ft_bin_out d) (ft_enum_in d) (ft_enum_out d).
Definition set_ft_u16_in {F : Type} (v : N) (d : FTData F) : FTData F :=
  mkFT (ft_f32c_in d) (ft_f32c_out d) (ft_f32d_in d) (ft_f32d_out d) (ft_f64_fixed d) (ft_f64_tunable d) (ft_f64c_in d) (ft_f64c_out d) (ft_f64d_in d) (ft_f64d_out d) (ft_i8_in d) (ft_i8_out d) (ft_u8_in d) (ft_u8_out d) (ft_i16_in d) (ft_i16_out d) v (ft_u16_out d) (ft_i32_in d) (ft_i32_out d) (ft_u32_in d) (ft_u32_out d) (ft_i64_in d) (ft_i64_out d) (ft_u64_in d) (ft_u64_out d) (ft_bool_in d) (ft_bool_out d) (ft_str_in d) (ft_str_out d) (ft_bin_in d) (ft_bin_out d) (ft_enum_in d) (ft_enum_out d).
Definition set_ft_u16_out {F : Type} (v : N) (d : FTData F) : FTData F :=
  mkFT (ft_f32c_in d) (ft_f32c_out d) (ft_f32d_in d) (ft_f32d_out d) (ft_f64_fixed d) (ft_f64_tunable d) (ft_f64c_in d) (ft_f64c_out d) (ft_f64d_in d) (ft_f64d_out d) (ft_i8_in d) (ft_i8_out d) (ft_u8_in d) (ft_u8_out d) (ft_i16_in d) (ft_i16_out d) (ft_u16_in d) v (ft_i32_in d) (ft_i32_out d) (ft_u32_in d) (ft_u32_out d) (ft_i64_in d) (ft_i64_out d) (ft_u64_in d) (ft_u64_out d) (ft_bool_in d) (ft_bool_out d) (ft_str_in d) (ft_str_out d) (ft_bin_in d) (ft_bin_out d) (ft_enum_in d) (ft_enum_out d).
Definition set_ft_i32_in {F : Type} (v : Z) (d : FTData F) : FTData F :=
  mkFT (ft_f32c_in d) (ft_f32c_out d) (ft_f32d_in d) (ft_f32d_out d) (ft_f64_fixed d) (ft_f64_tunable d) (ft_f64c_in d) (ft_f64c_out d) (ft_f64d_in d) (ft_f64d_out d) (ft_i8_in d) (ft_i8_out d) (ft_u8_in d) (ft_u8_out d) (ft_i16_in d) (ft_i16_out d) (ft_u16_in d) (ft_u16_out d) v (ft_i32_out d) (ft_u32_in d) (ft_u32_out d) (ft_i64_in d) (ft_i64_out d) (ft_u64_in d) (ft_u64_out d) (ft_bool_in d) (ft_bool_out d) (ft_str_in d) (ft_str_out d) (ft_bin_in d) (ft_bin_out d) (ft_enum_in d) (ft_enum_out d).
Definition set_ft_i32_out {F : Type} (v : Z) (d : FTData F) : FTData F :=
  mkFT (ft_f32c_in d) (ft_f32c_out d) (ft_f32d_in d) (ft_f32d_out d) (ft_f64_fixed d) (ft_f64_tunable d) (ft_f64c_in d) (ft_f64c_out d) (ft_f64d_in d) (ft_f64d_out d) (ft_i8_in d) (ft_i8_out d) (ft_u8_in d) (ft_u8_out d) (ft_i16_in d) (ft_i16_out d) (ft_u16_in d) (ft_u16_out d) (ft_i32_in d) v (ft_u32_in d) (ft_u32_out d) (ft_i64_in d) (ft_i64_out d) (ft_u64_in d) (ft_u64_out d) (ft_bool_in d) (ft_bool_out d) (ft_str_in d) (ft_str_out d) (ft_bin_in d) (ft_bin_out d) (ft_enum_in d) (ft_enum_out d).
Definition set_ft_u32_in {F : Type} (v : N) (d : FTData F) : FTData F :=
  mkFT (ft_f32c_in d) (ft_f32c_out d) (ft_f32d_in d) (ft_f32d_out d) (ft_f64_fixed d) (ft_f64_tunable d) (ft_f64c_in d) (ft_f64c_out d) (ft_f64d_in d) (ft_f64d_out d) (ft_i8_in d) (ft_i8_out d) (ft_u8_in d) (ft_u8_out d) (ft_i16_in d) (ft_i16_out d) (ft_u16_in d) (ft_u16_out d) (ft_i32_in d) (ft_i32_out d) v (ft_u32_out d) (ft_i64_in d) (ft_i64_out d) (ft_u64_in d) (ft_u64_out d) (ft_bool_in d) (ft_bool_out d) (ft_str_in d) (ft_str_out d) (ft_bin_in d) (ft_bin_out d) (ft_enum_in d) (ft_enum_out d).
Definition set_ft_u32_out {F : Type} (v : N) (d : FTData F) : FTData F :=
  mkFT (ft_f32c_in d) (ft_f32c_out d) (ft_f32d_in d) (ft_f32d_out d) (ft_f64_fixed d) (ft_f64_tunable d) (ft_f64c_in d) (ft_f64c_out d) (ft_f64d_in d) (ft_f64d_out d) (ft_i8_in d) (ft_i8_out d) (ft_u8_in d) (ft_u8_out d) (ft_i16_in d) (ft_i16_out d) (ft_u16_in d) (ft_u16_out d) (ft_i32_in d) (ft_i32_out d) (ft_u32_in d) v (ft_i64_in d) (ft_i64_out d) (ft_u64_in d) (ft_u64_out d) (ft_bool_in d) (ft_bool_out d) (ft_str_in d) (ft_str_out d) (ft_bin_in d) (ft_bin_out d) (ft_enum_in d) (ft_enum_out d).
Definition set_ft_i64_in {F : Type} (v : Z) (d : FTData F) : FTData F :=
  mkFT (ft_f32c_in d) (ft_f32c_out d) (ft_f32d_in d) (ft_f32d_out d) (ft_f64_fixed d) (ft_f64_tunable d) (ft_f64c_in d) (ft_f64c_out d) (ft_f64d_in d) (ft_f64d_out d) (ft_i8_in d) (ft_i8_out d) (ft_u8_in d) (ft_u8_out d) (ft_i16_in d) (ft_i16_out d) (ft_u16_in d) (ft_u16_out d) (ft_i32_in d) (ft_i32_out d) (ft_u32_in d) (ft_u32_out d) v (ft_i64_out d) (ft_u64_in d) (ft_u64_out d) (ft_bool_in d) (ft_bool_out d) (ft_str_in d) (ft_str_out d) (ft_bin_in d) (ft_bin_out d) (ft_enum_in d) (ft_enum_out d).
Definition set_ft_i64_out {F : Type} (v : Z) (d : FTData F) : FTData F :=
  mkFT (ft_f32c_in d) (ft_f32c_out d) (ft_f32d_in d) (ft_f32d_out d) (ft_f64_fixed d) (ft_f64_tunable d) (ft_f64c_in d) (ft_f64c_out d) (ft_f64d_in d) (ft_f64d_out d) (ft_i8_in d) (ft_i8_out d) (ft_u8_in d) (ft_u8_out d) (ft_i16_in d) (ft_i16_out d) (ft_u16_in d) (ft_u16_out d) (ft_i32_in d) (ft_i32_out d) (ft_u32_in d) (ft_u32_out d) (ft_i64_in d) v (ft_u64_in d) (ft_u64_out d) (ft_bool_in d) (ft_bool_out d) (ft_str_in d) (ft_str_out d) (ft_bin_in d) (ft_bin_out d) (ft_enum_in d) (ft_enum_out d).
Definition set_ft_u64_in {F : Type} (v : N) (d : FTData F) : FTData F :=
  mkFT (ft_f32c_in d) (ft_f32c_out d) (ft_f32d_in d) (ft_f32d_out d) (ft_f64_fixed d) (ft_f64_tunable d) (ft_f64c_in d) (ft_f64c_out d) (ft_f64d_in d) (ft_f64d_out d) (ft_i8_in d) (ft_i8_out d) (ft_u8_in d) (ft_u8_out d) (ft_i16_in d) (ft_i16_out d) (ft_u16_in d) (ft_u16_out d) (ft_i32_in d) (ft_i32_out d) (ft_u32_in d) (ft_u32_out d) (ft_i64_in d) (ft_i64_out d) v (ft_u64_out d) (ft_bool_in d) (ft_bool_out d) (ft_str_in d) (ft_str_out d) (ft_bin_in d) (ft_bin_out d) (ft_enum_in d) (ft_enum_out d).
Definition set_ft_u64_out {F : Type} (v : N) (d : FTData F) : FTData F :=
  mkFT (ft_f32c_in d) (ft_f32c_out d) (ft_f32d_in d) (ft_f32d_out d) (ft_f64_fixed d) (ft_f64_tunable d) (ft_f64c_in d) (ft_f64c_out d) (ft_f64d_in d) (ft_f64d_out d) (ft_i8_in d) (ft_i8_out d) (ft_u8_in d) (ft_u8_out d) (ft_i16_in d) (ft_i16_out d) (ft_u16_in d) (ft_u16_out d) (ft_i32_in d) (ft_i32_out d) (ft_u32_in d) (ft_u32_out d) (ft_i64_in d) (ft_i64_out d) (ft_u64_in d) v (ft_bool_in d) (ft_bool_out d) (ft_str_in d) (ft_str_out d) (ft_bin_in d) (ft_bin_out d) (ft_enum_in d) (ft_enum_out d).
Definition set_ft_bool_in {F : Type} (v : bool) (d : FTData F) : FTData F :=
  mkFT (ft_f32c_in d) (ft_f32c_out d) (ft_f32d_in d) (ft_f32d_out d) (ft_f64_fixed d) (ft_f64_tunable d) (ft_f64c_in d) (ft_f64c_out d) (ft_f64d_in d) (ft_f64d_out d) (ft_i8_in d) (ft_i8_out d) (ft_u8_in d) (ft_u8_out d) (ft_i16_in d) (ft_i16_out d) (ft_u16_in d) (ft_u16_out d) (ft_i32_in d) (ft_i32_out d) (ft_u32_in d) (ft_u32_out d) (ft_i64_in d) (ft_i64_out d) (ft_u64_in d) (ft_u64_out d) v (ft_bool_out d) (ft_str_in d) (ft_str_out d) (ft_bin_in d) (ft_bin_out d) (ft_enum_in d) (ft_enum_out d).
Definition set_ft_bool_out {F : Type} (v : bool) (d : FTData F) : FTData F :=
  mkFT (ft_f32c_in d) (ft_f32c_out d) (ft_f32d_in d) (ft_f32d_out d) (ft_f64_fixed d) (ft_f64_tunable d) (ft_f64c_in d) (ft_f64c_out d) (ft_f64d_in d) (ft_f64d_out d) (ft_i8_in d) (ft_i8_out d) (ft_u8_in d) (ft_u8_out d) (ft_i16_in d) (ft_i16_out d) (ft_u16_in d) (ft_u16_out d) (ft_i32_in d) (ft_i32_out d) (ft_u32_in d) (ft_u32_out d) (ft_i64_in d) (ft_i64_out d) (ft_u64_in d) (ft_u64_out d) (ft_bool_in d) v (ft_str_in d) (ft_str_out d) (ft_bin_in d) (ft_bin_out d) (ft_enum_in d) (ft_enum_out d).
Definition set_ft_str_in {F : Type} (v : bytes) (d : FTData F) : FTData F :=
  mkFT (ft_f32c_in d) (ft_f32c_out d) (ft_f32d_in d) (ft_f32d_out d) (ft_f64_fixed d) (ft_f64_tunable d) (ft_f64c_in d) (ft_f64c_out d) (ft_f64d_in d) (ft_f64d_out d) (ft_i8_in d) (ft_i8_out d) (ft_u8_in d) (ft_u8_out d) (ft_i16_in d) (ft_i16_out d) (ft_u16_in d) (ft_u16_out d) (ft_i32_in d) (ft_i32_out d) (ft_u32_in d) (ft_u32_out d) (ft_i64_in d) (ft_i64_out d) (ft_u64_in d) (ft_u64_out d) (ft_bool_in d) (ft_bool_out d) v (ft_str_out d) (ft_bin_in d) (ft_bin_out d) (ft_enum_in d) (ft_enum_out d).
Definition set_ft_str_out {F : Type} (v : bytes) (d : FTData F) : FTData F :=
  mkFT (ft_f32c_in d) (ft_f32c_out d) (ft_f32d_in d) (ft_f32d_out d) (ft_f64_fixed d) (ft_f64_tunable d) (ft_f64c_in d) (ft_f64c_out d) (ft_f64d_in d) (ft_f64d_out d) (ft_i8_in d) (ft_i8_out d) (ft_u8_in d) (ft_u8_out d) (ft_i16_in d) (ft_i16_out d) (ft_u16_in d) (ft_u16_out d) (ft_i32_in d) (ft_i32_out d) (ft_u32_in d) (ft_u32_out d) (ft_i64_in d) (ft_i64_out d) (ft_u64_in d) (ft_u64_out d) (ft_bool_in d) (ft_bool_out d) (ft_str_in d) v (ft_bin_in d) (ft_bin_out d) (ft_enum_in d) (ft_enum_out d).
Definition set_ft_bin_in {F : Type} (v : bytes) (d : FTData F) : FTData F :=
  mkFT (ft_f32c_in d) (ft_f32c_out d) (ft_f32d_in d) (ft_f32d_out d) (ft_f64_fixed d) (ft_f64_tunable d) (ft_f64c_in d) (ft_f64c_out d) (ft_f64d_in d) (ft_f64d_out d) (ft_i8_in d) (ft_i8_out d) (ft_u8_in d) (ft_u8_out d) (ft_i16_in d) (ft_i16_out d) (ft_u16_in d) (ft_u16_out d) (ft_i32_in d) (ft_i32_out d) (ft_u32_in d) (ft_u32_out d) (ft_i64_in d) (ft_i64_out d) (ft_u64_in d) (ft_u64_out d) (ft_bool_in d) (ft_bool_out d) (ft_str_in d) (ft_str_out d) v (ft_bin_out d) (ft_enum_in d) (ft_enum_out d).
Definition set_ft_bin_out {F : Type} (v : bytes) (d : FTData F) : FTData F :=
  mkFT (ft_f32c_in d) (ft_f32c_out d) (ft_f32d_in d) (ft_f32d_out d) (ft_f64_fixed d) (ft_f64_tunable d) (ft_f64c_in d) (ft_f64c_out d) (ft_f64d_in d) (ft_f64d_out d) (ft_i8_in d) (ft_i8_out d) (ft_u8_in d) (ft_u8_out d) (ft_i16_in d) (ft_i16_out d) (ft_u16_in d) (ft_u16_out d) (ft_i32_in d) (ft_i32_out d) (ft_u32_in d) (ft_u32_out d) (ft_i64_in d) (ft_i64_out d) (ft_u64_in d) (ft_u64_out d) (ft_bool_in d) (ft_bool_out d) (ft_str_in d) (ft_str_out d) (ft_bin_in d) v (ft_enum_in d) (ft_enum_out d).
Definition set_ft_enum_in {F : Type} (v : Z) (d : FTData F) : FTData F :=
  mkFT (ft_f32c_in d) (ft_f32c_out d) (ft_f32d_in d) (ft_f32d_out d) (ft_f64_fixed d) (ft_f64_tunable d) (ft_f64c_in d) (ft_f64c_out d) (ft_f64d_in d) (ft_f64d_out d) (ft_i8_in d) (ft_i8_out d) (ft_u8_in d) (ft_u8_out d) (ft_i16_in d) (ft_i16_out d) (ft_u16_in d) (ft_u16_out d) (ft_i32_in d) (ft_i32_out d) (ft_u32_in d) (ft_u32_out d) (ft_i64_in d) (ft_i64_out d) (ft_u64_in d) (ft_u64_out d) (ft_bool_in d) (ft_bool_out d) (ft_str_in d) (ft_str_out d) (ft_bin_in d) (ft_bin_out d) v (ft_enum_out d).
Definition set_ft_enum_out {F : Type} (v : Z) (d : FTData F) : FTData F :=
  mkFT (ft_f32c_in d) (ft_f32c_out d) (ft_f32d_in d) (ft_f32d_out d) (ft_f64_fixed d) (ft_f64_tunable d) (ft_f64c_in d) (ft_f64c_out d) (ft_f64d_in d) (ft_f64d_out d) (ft_i8_in d) (ft_i8_out d) (ft_u8_in d) (ft_u8_out d) (ft_i16_in d) (ft_i16_out d) (ft_u16_in d) (ft_u16_out d) (ft_i32_in d) (ft_i32_out d) (ft_u32_in d) (ft_u32_out d) (ft_i64_in d) (ft_i64_out d) (ft_u64_in d) (ft_u64_out d) (ft_bool_in d) (ft_bool_out d) (ft_str_in d) (ft_str_out d) (ft_bin_in d) (ft_bin_out d) (ft_enum_in d) v.

Definition ft_token : bytes :=                                         (* config.h:10 *)
  [Byte.x7b; Byte.x33; Byte.x37; Byte.x42; Byte.x39; Byte.x35; Byte.x34; Byte.x46; Byte.x31;
     Byte.x2d; Byte.x43; Byte.x43; Byte.x38; Byte.x36; Byte.x2d; Byte.x34; Byte.x44; Byte.x38;
     Byte.x46; Byte.x2d; Byte.x42; Byte.x39; Byte.x37; Byte.x46; Byte.x2d; Byte.x43; Byte.x37;
     Byte.x43; Byte.x33; Byte.x36; Byte.x46; Byte.x36; Byte.x36; Byte.x37; Byte.x30; Byte.x44;
     Byte.x32; Byte.x7d].
Definition s_start : bytes :=                                          (* 10: "Set me!" *)
  [Byte.x53; Byte.x65; Byte.x74; Byte.x20; Byte.x6d; Byte.x65; Byte.x21].
Definition b_start : bytes := [Byte.x66; Byte.x6f; Byte.x6f].         (* 11: "foo" *)
Definition STRING_MAX_LEN : nat := N.to_nat 128.                       (* config.h:48 *)
Definition BINARY_MAX_LEN : nat := N.to_nat 128.                       (* config.h:49 *)

Section Feedthrough.
  Context {F : Type} {NF : Num F} (fmi2 : bool).
  Open Scope mf_scope.
  Notation MF := (MF F (FTData F)).

  Definition ft_zero : FTData F :=                                     (* calloc *)
    mkFT 0%N 0%N 0%N 0%N nzero nzero nzero nzero nzero nzero 0%Z 0%Z 0%N 0%N 0%Z 0%Z 0%N 0%N 0%Z
      0%Z 0%N 0%N 0%Z 0%Z 0%N 0%N false false [] [] [] [] 0%Z 0%Z.

  (** 13-69 *)
  Definition ft_start : FTData F :=
    mkFT 0%N 0%N 0%N 0%N nzero nzero nzero nzero nzero nzero 0%Z 0%Z 0%N 0%N 0%Z 0%Z 0%N 0%N 0%Z
      0%Z 0%N 0%N 0%Z 0%Z 0%N 0%N false false s_start s_start b_start b_start 1%Z 1%Z.
  Definition ft_setStartValues : MF Status :=
    mmodd (fun _ => ft_start) >> mmod (set_dirty true) >> mret OK.

  (** 73-102 *)
  Definition ft_calc (d : FTData F) : FTData F :=
    mkFT (ft_f32c_in d) (ft_f32c_in d) (ft_f32d_in d) (ft_f32d_in d) (ft_f64_fixed d)
         (ft_f64_tunable d) (ft_f64c_in d) (ft_f64c_in d) (ft_f64d_in d) (ft_f64d_in d) (ft_i8_in
         d) (ft_i8_in d) (ft_u8_in d) (ft_u8_in d) (ft_i16_in d) (ft_i16_in d) (ft_u16_in d)
         (ft_u16_in d) (ft_i32_in d) (ft_i32_in d) (ft_u32_in d) (ft_u32_in d) (ft_i64_in d)
         (ft_i64_in d) (ft_u64_in d) (ft_u64_in d) (ft_bool_in d) (ft_bool_in d) (ft_str_in d)
         (ft_str_in d) (ft_bin_in d) (ft_bin_in d) (ft_enum_in d) (ft_enum_in d).
  (** 71-107; a String_input of 128 or more characters or a Binary_input_size above 128
      would overrun the arrays *)
  Definition ft_calculateValues : MF Status :=
    do d <- mdata in
    if Nat.ltb (length (ft_str_in d)) STRING_MAX_LEN && Nat.leb (length (ft_bin_in d)) BINARY_MAX_LEN
    then mmodd ft_calc >> mmod (set_dirty false) >> mret OK
    else mub.

  (** 109-139 *)
  Definition ft_getFloat32 (vr : N) (values : Buf N) (nValues index : nat) : MF (GetRes N) :=
    nnGet values index (
    ft_calculateValues >>
    do d <- mdata in
    match ft_var vr with
    | Some FTf32c_in => put1 values nValues index (ft_f32c_in d)
    | Some FTf32c_out => put1 values nValues index (ft_f32c_out d)
    | Some FTf32d_in => put1 values nValues index (ft_f32d_in d)
    | Some FTf32d_out => put1 values nValues index (ft_f32d_out d)
    | _ => failGet values index
    end).

  (** 141-183 *)
  Definition ft_getFloat64 (vr : N) (values : Buf F) (nValues index : nat) : MF (GetRes F) :=
    nnGet values index (
    ft_calculateValues >>
    do c <- mctl in
    do d <- mdata in
    match ft_var vr with
    | Some FTtime => put1 values nValues index (time c)
    | Some FTf64_fixed => put1 values nValues index (ft_f64_fixed d)
    | Some FTf64_tunable => put1 values nValues index (ft_f64_tunable d)
    | Some FTf64c_in => put1 values nValues index (ft_f64c_in d)
    | Some FTf64c_out => put1 values nValues index (ft_f64c_out d)
    | Some FTf64d_in => put1 values nValues index (ft_f64d_in d)
    | Some FTf64d_out => put1 values nValues index (ft_f64d_out d)
    | _ => failGet values index
    end).

  (** 185-207 *)
  Definition ft_getInt8 (vr : N) (values : Buf Z) (nValues index : nat) : MF (GetRes Z) :=
    nnGet values index (
    ft_calculateValues >>
    do d <- mdata in
    match ft_var vr with
    | Some FTi8_in => put1 values nValues index (ft_i8_in d)
    | Some FTi8_out => put1 values nValues index (ft_i8_out d)
    | _ => failGet values index
    end).

  (** 209-231 *)
  Definition ft_getUInt8 (vr : N) (values : Buf N) (nValues index : nat) : MF (GetRes N) :=
    nnGet values index (
    ft_calculateValues >>
    do d <- mdata in
    match ft_var vr with
    | Some FTu8_in => put1 values nValues index (ft_u8_in d)
    | Some FTu8_out => put1 values nValues index (ft_u8_out d)
    | _ => failGet values index
    end).

  (** 233-255 *)
  Definition ft_getInt16 (vr : N) (values : Buf Z) (nValues index : nat) : MF (GetRes Z) :=
    nnGet values index (
    ft_calculateValues >>
    do d <- mdata in
    match ft_var vr with
    | Some FTi16_in => put1 values nValues index (ft_i16_in d)
    | Some FTi16_out => put1 values nValues index (ft_i16_out d)
    | _ => failGet values index
    end).

  (** 257-279 *)
  Definition ft_getUInt16 (vr : N) (values : Buf N) (nValues index : nat) : MF (GetRes N) :=
    nnGet values index (
    ft_calculateValues >>
    do d <- mdata in
    match ft_var vr with
    | Some FTu16_in => put1 values nValues index (ft_u16_in d)
    | Some FTu16_out => put1 values nValues index (ft_u16_out d)
    | _ => failGet values index
    end).

  (** 281-313; the enumeration only for FMI 2 *)
  Definition ft_getInt32 (vr : N) (values : Buf Z) (nValues index : nat) : MF (GetRes Z) :=
    nnGet values index (
    ft_calculateValues >>
    do d <- mdata in
    match ft_var vr with
    | Some FTi32_in => put1 values nValues index (ft_i32_in d)
    | Some FTi32_out => put1 values nValues index (ft_i32_out d)
    | Some FTenum_in => if fmi2 then put1 values nValues index (ft_enum_in d) else failGet values index
    | Some FTenum_out => if fmi2 then put1 values nValues index (ft_enum_out d) else failGet values index
    | _ => failGet values index
    end).

  (** 315-337 *)
  Definition ft_getUInt32 (vr : N) (values : Buf N) (nValues index : nat) : MF (GetRes N) :=
    nnGet values index (
    ft_calculateValues >>
    do d <- mdata in
    match ft_var vr with
    | Some FTu32_in => put1 values nValues index (ft_u32_in d)
    | Some FTu32_out => put1 values nValues index (ft_u32_out d)
    | _ => failGet values index
    end).

  (** 339-371; the enumeration only for FMI 3 *)
  Definition ft_getInt64 (vr : N) (values : Buf Z) (nValues index : nat) : MF (GetRes Z) :=
    nnGet values index (
    ft_calculateValues >>
    do d <- mdata in
    match ft_var vr with
    | Some FTi64_in => put1 values nValues index (ft_i64_in d)
    | Some FTi64_out => put1 values nValues index (ft_i64_out d)
    | Some FTenum_in => if negb fmi2 then put1 values nValues index (ft_enum_in d) else failGet values index
    | Some FTenum_out => if negb fmi2 then put1 values nValues index (ft_enum_out d) else failGet values index
    | _ => failGet values index
    end).

  (** 373-395 *)
  Definition ft_getUInt64 (vr : N) (values : Buf N) (nValues index : nat) : MF (GetRes N) :=
    nnGet values index (
    ft_calculateValues >>
    do d <- mdata in
    match ft_var vr with
    | Some FTu64_in => put1 values nValues index (ft_u64_in d)
    | Some FTu64_out => put1 values nValues index (ft_u64_out d)
    | _ => failGet values index
    end).

  (** 397-419 *)
  Definition ft_getBoolean (vr : N) (values : Buf bool) (nValues index : nat) : MF (GetRes bool) :=
    nnGet values index (
    ft_calculateValues >>
    do d <- mdata in
    match ft_var vr with
    | Some FTbool_in => put1 values nValues index (ft_bool_in d)
    | Some FTbool_out => put1 values nValues index (ft_bool_out d)
    | _ => failGet values index
    end).

  (** 421-445; sizes is not checked for NULL *)
  Definition ft_putBinary (sizes : Buf nat) (values : Buf bytes) (nValues index : nat) (b : bytes)
    : MF (Status * Buf nat * Buf bytes * nat) :=
    if nvalues_ok index 1 nValues then
      do values' <- mwr values index b in
      do sizes' <- mwr sizes index (length b) in
      mret (OK, sizes', values', S index)
    else mlogError >> mret (Error, sizes, values, index).
  Definition ft_getBinary (vr : N) (sizes : Buf nat) (values : Buf bytes) (nValues index : nat)
    : MF (Status * Buf nat * Buf bytes * nat) :=
    match values with
    | None => mlogError >> mret (Error, sizes, values, index)
    | Some _ =>
        ft_calculateValues >>
        do d <- mdata in
        match ft_var vr with
        | Some FTbin_in => ft_putBinary sizes values nValues index (ft_bin_in d)
        | Some FTbin_out => ft_putBinary sizes values nValues index (ft_bin_out d)
        | _ => mlogError >> mret (Error, sizes, values, index)
        end
    end.

  (** 447-469 *)
  Definition ft_getString (vr : N) (values : Buf (option bytes)) (nValues index : nat)
    : MF (GetRes (option bytes)) :=
    nnGet values index (
    ft_calculateValues >>
    do d <- mdata in
    match ft_var vr with
    | Some FTstr_in => put1 values nValues index (Some (ft_str_in d))
    | Some FTstr_out => put1 values nValues index (Some (ft_str_out d))
    | _ => failGet values index
    end).

  (** 471-500 *)
  Definition ft_setFloat32 (vr : N) (values : Buf N) (nValues index : nat) : MF SetRes :=
    nnSet values index (
    do c <- mctl in
    thenDirty (
    match ft_var vr with
    | Some FTf32c_in => take1 values nValues index set_ft_f32c_in
    | Some FTf32d_in =>                                                (* 481-491 *)
        if isME (itype c) && negb (inModes [Instantiated; InitializationMode; EventMode] (mode c))
        then failSet index
        else take1 values nValues index set_ft_f32d_in
    | _ => failSet index
    end)).

  (** 502-557 *)
  Definition ft_setFloat64 (vr : N) (values : Buf F) (nValues index : nat) : MF SetRes :=
    nnSet values index (
    do c <- mctl in
    thenDirty (
    match ft_var vr with
    | Some FTf64_fixed =>                                              (* 509-518 *)
        if isME (itype c) && negb (inModes [Instantiated; InitializationMode] (mode c))
        then failSet index
        else take1 values nValues index set_ft_f64_fixed
    | Some FTf64_tunable =>                                            (* 520-530 *)
        if isME (itype c) && negb (inModes [Instantiated; InitializationMode; EventMode] (mode c))
        then failSet index
        else take1 values nValues index set_ft_f64_tunable
    | Some FTf64c_in => take1 values nValues index set_ft_f64c_in
    | Some FTf64d_in =>                                                (* 537-547 *)
        if isME (itype c) && negb (inModes [Instantiated; InitializationMode; EventMode] (mode c))
        then failSet index
        else take1 values nValues index set_ft_f64d_in
    | _ => failSet index
    end)).

  (** 559-577 *)
  Definition ft_setInt8 (vr : N) (values : Buf Z) (nValues index : nat) : MF SetRes :=
    nnSet values index (
    thenDirty (
    match ft_var vr with
    | Some FTi8_in => take1 values nValues index set_ft_i8_in
    | _ => failSet index
    end)).

  (** 579-597 *)
  Definition ft_setUInt8 (vr : N) (values : Buf N) (nValues index : nat) : MF SetRes :=
    nnSet values index (
    thenDirty (
    match ft_var vr with
    | Some FTu8_in => take1 values nValues index set_ft_u8_in
    | _ => failSet index
    end)).

  (** 599-617 *)
  Definition ft_setInt16 (vr : N) (values : Buf Z) (nValues index : nat) : MF SetRes :=
    nnSet values index (
    thenDirty (
    match ft_var vr with
    | Some FTi16_in => take1 values nValues index set_ft_i16_in
    | _ => failSet index
    end)).

  (** 619-637 *)
  Definition ft_setUInt16 (vr : N) (values : Buf N) (nValues index : nat) : MF SetRes :=
    nnSet values index (
    thenDirty (
    match ft_var vr with
    | Some FTu16_in => take1 values nValues index set_ft_u16_in
    | _ => failSet index
    end)).

  (** 639-667; values[*index] is read (651) before the length is checked (655) *)
  Definition ft_setInt32 (vr : N) (values : Buf Z) (nValues index : nat) : MF SetRes :=
    nnSet values index (
    thenDirty (
    match ft_var vr with
    | Some FTi32_in => take1 values nValues index set_ft_i32_in
    | Some FTenum_in =>                                                (* 649-658 *)
        if fmi2 then
          do v <- mrd values index in
          if Z.eqb v 1 || Z.eqb v 2 then take1 values nValues index set_ft_enum_in
          else failSet index
        else failSet index
    | _ => failSet index
    end)).

  (** 669-687 *)
  Definition ft_setUInt32 (vr : N) (values : Buf N) (nValues index : nat) : MF SetRes :=
    nnSet values index (
    thenDirty (
    match ft_var vr with
    | Some FTu32_in => take1 values nValues index set_ft_u32_in
    | _ => failSet index
    end)).

  (** 689-717; values[*index] is read (701) before the length is checked (705) *)
  Definition ft_setInt64 (vr : N) (values : Buf Z) (nValues index : nat) : MF SetRes :=
    nnSet values index (
    thenDirty (
    match ft_var vr with
    | Some FTi64_in => take1 values nValues index set_ft_i64_in
    | Some FTenum_in =>                                                (* 699-708 *)
        if negb fmi2 then
          do v <- mrd values index in
          if Z.eqb v 1 || Z.eqb v 2 then take1 values nValues index set_ft_enum_in
          else failSet index
        else failSet index
    | _ => failSet index
    end)).

  (** 719-737 *)
  Definition ft_setUInt64 (vr : N) (values : Buf N) (nValues index : nat) : MF SetRes :=
    nnSet values index (
    thenDirty (
    match ft_var vr with
    | Some FTu64_in => take1 values nValues index set_ft_u64_in
    | _ => failSet index
    end)).

  (** 739-761; also accepts Boolean_output (749-752) *)
  Definition ft_setBoolean (vr : N) (values : Buf bool) (nValues index : nat) : MF SetRes :=
    nnSet values index (
    thenDirty (
    match ft_var vr with
    | Some FTbool_in => take1 values nValues index set_ft_bool_in
    | Some FTbool_out => take1 values nValues index set_ft_bool_out
    | _ => failSet index
    end)).

  (** 763-785; values[*index] is read (770) before the length is checked (774); a NULL
      string is undefined (strlen) *)
  Definition ft_setString (vr : N) (values : Buf (option bytes)) (nValues index : nat) : MF SetRes :=
    nnSet values index (
    thenDirty (
    match ft_var vr with
    | Some FTstr_in =>
        do v <- mrd values index in
        match v with
        | None => mub
        | Some s =>
            if Nat.leb STRING_MAX_LEN (strlen s) then failSet index
            else if nvalues_ok index 1 nValues then
              mmodd (set_ft_str_in (cstr s)) >> mret (OK, S index)
            else failSet index
        end
    | _ => failSet index
    end)).

  (** 787-810; size[*index] is read (794) before the length is checked (798); size is not
      checked for NULL; a NULL binary is undefined (memcpy) *)
  Definition ft_setBinary (vr : N) (sizes : Buf nat) (values : Buf (option bytes)) (nValues index : nat)
    : MF SetRes :=
    nnSet values index (
    thenDirty (
    match ft_var vr with
    | Some FTbin_in =>
        do n <- mrd sizes index in
        if Nat.ltb BINARY_MAX_LEN n then failSet index
        else if nvalues_ok index 1 nValues then
          do v <- mrd values index in
          match v with
          | None => mub
          | Some b => if Nat.leb n (length b)
                      then mmodd (set_ft_bin_in (firstn n b)) >> mret (OK, S index)
                      else mub
          end
        else failSet index
    | _ => failSet index
    end)).

  (** 812-823 *)
  Definition ft_eventUpdate : MF Status :=
    mmod (set_valuesChanged false) >> mmod (set_nominalsChanged false) >>
    mmod (set_terminateSimulation false) >> mmod (set_nextEventTimeDefined false) >>
    mmod (set_dirty true) >> mret OK.

  Definition Feedthrough_model : Model F := {|
    md := FTData F; md0 := ft_zero; m_token := ft_token;
    m_modelExchange := true; m_scheduled := false;                     (* config.h:12-13 *)
    m_eventUpdate := true; m_outputDerivative := false;
    m_maxX := 0; m_maxZ := 0; m_step := nlit 1 (-1);
    m_setStartValues := ft_setStartValues;
    m_calculateValues := ft_calculateValues;
    m_get := fun t => match t return N -> Buf (val F t) -> nat -> nat -> MF (GetRes (val F t)) with
                      | TFloat32 => ft_getFloat32 | TFloat64 => ft_getFloat64
                      | TInt8 => ft_getInt8 | TUInt8 => ft_getUInt8
                      | TInt16 => ft_getInt16 | TUInt16 => ft_getUInt16
                      | TInt32 => ft_getInt32 | TUInt32 => ft_getUInt32
                      | TInt64 => ft_getInt64 | TUInt64 => ft_getUInt64
                      | TBoolean => ft_getBoolean | TString => ft_getString
                      end;
    m_set := fun t => match t return N -> Buf (val F t) -> nat -> nat -> MF SetRes with
                      | TFloat32 => ft_setFloat32 | TFloat64 => ft_setFloat64
                      | TInt8 => ft_setInt8 | TUInt8 => ft_setUInt8
                      | TInt16 => ft_setInt16 | TUInt16 => ft_setUInt16
                      | TInt32 => ft_setInt32 | TUInt32 => ft_setUInt32
                      | TInt64 => ft_setInt64 | TUInt64 => ft_setUInt64
                      | TBoolean => ft_setBoolean | TString => ft_setString
                      end;
    m_getBinary := ft_getBinary; m_setBinary := ft_setBinary;
    m_activateClock := activateClock_default; m_getClock := getClock_default;
    m_getInterval := getInterval_default; m_activateModelPartition := activate_default;
    m_nz := fun _ => 0;                                  (* default, cosimulation.c:529-534 *)
    m_nx := fun _ => 0;                                  (* default, cosimulation.c:495-499 *)
    m_getContinuousStates := states_default; m_getNominals := states_default;
    m_setContinuousStates := setStates_default; m_getDerivatives := states_default;
    m_getEventIndicators := indicators_default;
    m_getOutputDerivative := outputDerivative_absent;
    m_getPartialDerivative := partial_default;
    m_eventUpdateF := ft_eventUpdate |}.
End Feedthrough.
