(** PropFeed.v -- the programs for Feedthrough (C65, C66). *)
From Coq Require Import List NArith ZArith Bool Arith Reals.
From Verif Require Import Base Instance ModelIface Core Fmi3 Fmi2 Api Fmus NumR NumB64 SpecSteps SpecPrograms SpecFeed ProgramsFeed StepReal Runs RunsReal RunsFeed RunsFeed2 RunsFeedMe RunsFeedReal.
Import ListNotations.

(** * C65: the co-simulation programs write the inputs, one communication point late *)
(** In every arithmetic that is precise enough for [N] steps and for every conversion [narrow] to binary32: row n shows, in
    the outputs of every type, the inputs of point n - 1; row 0 shows the start values. *)
Theorem C65_ends :
  forall (F : Type) (NF : Num F) szof fuel env (narrow : F -> N) S stop path N n,
    precise (F := F) Feedthrough N -> before Feedthrough stop N -> (N.of_nat N < two64)%N -> 2 <= fuel -> N < n ->
    reaches Feedthrough stop N ->
    exists s, feed_cs3 szof fuel env narrow S stop path n =
                Done (OK, map (cs_row3 narrow (point Feedthrough)) (seq 0 (Datatypes.S N)), Some s).
Proof. intros. now apply feed_cs3_rows. Qed.
Theorem C65_passes :
  forall (F : Type) (NF : Num F) szof fuel env (narrow : F -> N) S stop path N n,
    precise (F := F) Feedthrough N -> before Feedthrough stop N -> (N.of_nat N < two64)%N -> 2 <= fuel -> N < n ->
    passes Feedthrough stop N ->
    exists s, feed_cs3 szof fuel env narrow S stop path n =
                Done (Error, map (cs_row3 narrow (point Feedthrough)) (seq 0 (Datatypes.S N)), Some s).
Proof. intros. now apply feed_cs3_rows. Qed.
(** With exact numbers the times are n / 10 and the ramp falls by 0.2 from 1.8 at 0.6 to 1 at 1. *)
Theorem C65_exact :
  forall (inf : R) szof fuel env (narrow : R -> N) S path N n,
    let NF := NumR inf in
    (N.of_nat N + 1 < 100000)%N -> 2 <= fuel -> N < n ->
    exists s, feed_cs3 szof fuel env narrow S (INR N / 10)%R path n =
                Done (OK, map (row3_R narrow) (seq 0 (Datatypes.S N)), Some s).
Proof. exact feed_cs3_R. Qed.
(** The FMI 2 program: the discrete Float64 output and the enumeration keep the start values in every row. *)
Theorem C65_fmi2_ends_partial :
  forall (F : Type) (NF : Num F) szof fuel env S stop uri N n,
    precise (F := F) Feedthrough N -> before Feedthrough stop N -> (N.of_nat N < two64)%N -> 2 <= fuel -> N < n ->
    reaches Feedthrough stop N ->
    exists s, feed_cs2 szof fuel env S stop uri n =
                Done (OK, map (cs_row2 (point Feedthrough)) (seq 0 (Datatypes.S N)), Some s).
Proof. intros. now apply feed_cs2_rows. Qed.
Theorem C65_fmi2_passes_partial :
  forall (F : Type) (NF : Num F) szof fuel env S stop uri N n,
    precise (F := F) Feedthrough N -> before Feedthrough stop N -> (N.of_nat N < two64)%N -> 2 <= fuel -> N < n ->
    passes Feedthrough stop N ->
    exists s, feed_cs2 szof fuel env S stop uri n =
                Done (Error, map (cs_row2 (point Feedthrough)) (seq 0 (Datatypes.S N)), Some s).
Proof. intros. now apply feed_cs2_rows. Qed.
Theorem C65_fmi2_exact_partial :
  forall (inf : R) szof fuel env S uri N n,
    let NF := NumR inf in
    (N.of_nat N + 1 < 100000)%N -> 2 <= fuel -> N < n ->
    exists s, feed_cs2 szof fuel env S (INR N / 10)%R uri n = Done (OK, map row2_R (seq 0 (Datatypes.S N)), Some s).
Proof. exact feed_cs2_R. Qed.
(** So the claim is false of FMI 2: the row of the time 2 shows the inputs before the time 1 in two of the outputs. *)
Definition szof0 : N := 1000.
Definition env0 : Env := {| env_file := fun _ => None |}.
Definition stop0 : B64 := nlit 2 0.
Definition integers {D} (columns : list (Out B64 D)) : option (Buf (val B64 TInt32)) :=
  match columns with [_; OVals TInt32 b; _; _] => Some b | _ => None end.
Theorem C65_fmi2_refuted : exists rows s,
  feed_cs2 (F := B64) szof0 10 env0 0%N stop0 [] 100 = Done (OK, rows, Some s) /\
  length rows = 21 /\
  snd (nth 20 rows (stop0, [])) = columns2 High Initial (nlit 1 0) /\
  snd (nth 20 rows (stop0, [])) <> columns2 High High (nlit 1 0).
Proof.
  do 2 eexists. split; [vm_compute; reflexivity|]. split; [reflexivity|]. split; [vm_compute; reflexivity|].
  intro E. apply (f_equal integers) in E. vm_compute in E. discriminate E.
Qed.
(** The conditions hold in binary64 up to the stop time of the experiment. *)
Example C65_case : precise (F := B64) Feedthrough 20 /\ before Feedthrough stop0 20 /\ reaches Feedthrough stop0 20.
Proof. split; [apply preciseb_ok|split; [apply beforeb_ok|unfold reaches]]; vm_compute; reflexivity. Qed.

(** * C66: the model exchange program writes the inputs of the same time, and both sides of an event *)
Theorem C66_rows :
  forall (F : Type) (NF : Num F) szof fuel env (narrow : F -> N) S stop path N n,
    (N.of_nat N < two64)%N -> divided (F := F) Feedthrough stop N -> Datatypes.S N < n ->
    exists s, feed_me3 szof fuel env narrow S stop path n =
                Done (OK, flat_map (me_rows3 narrow (instant Feedthrough)) (seq 0 (Datatypes.S N)), Some s).
Proof. exact @feed_me3_rows. Qed.
(** With exact numbers the events are at the times 0.5, 1 and 1.5, which have two rows, all others one. *)
Theorem C66_exact :
  forall (inf : R) szof fuel env (narrow : R -> N) S path N n,
    let NF := NumR inf in
    (N.of_nat N < two64)%N -> (INR N / 10 < inf)%R -> Datatypes.S N < n ->
    exists s, feed_me3 szof fuel env narrow S (INR N / 10)%R path n =
                Done (OK, flat_map (rows3_R narrow) (seq 0 (Datatypes.S N)), Some s).
Proof. exact feed_me3_R. Qed.
(** In binary64, with times 0.1 * n: the product 0.1 * 5 is 0.5, 0.1 * 10 is 1 and 0.1 * 15 is 1.5, so there are 24 rows. *)
Example C66_case :
  match feed_me3 (F := B64) szof0 10 env0 (fun _ => 0%N) 0%N stop0 [] 100 with
  | Done (OK, rows, Some _) => length rows = 24
  | _ => False
  end.
Proof. vm_compute. reflexivity. Qed.
Example C66_case_divided : divided (F := B64) Feedthrough stop0 20.
Proof. apply dividedb_ok. vm_compute. reflexivity. Qed.

Definition PropFeed_all := (@C65_ends, @C65_passes, @C65_fmi2_ends_partial, @C65_fmi2_passes_partial, @C65_fmi2_refuted, @C66_rows).
Print Assumptions PropFeed_all.
Definition PropFeed_exact := (@C65_exact, @C65_fmi2_exact_partial, @C66_exact).
Print Assumptions PropFeed_exact.
