(** PropSettable.v -- which variables can be read and assigned when (C69, C70). *)
From Coq Require Import List NArith ZArith Bool Arith.
From Verif Require Import Base Instance ModelIface Core Fmi3 Fmi2 Api Fmus NumB64 SpecModes SpecCreate SpecVars SpecEqs SpecSettable Settable Settable2 Samples.
Import ListNotations.
Set Implicit Arguments.

(** * C69: every declared variable can be read whenever reading is allowed *)
(** The values of Resource come from a file, which has to be there. *)
Theorem C69_readable :
  forall (F : Type) (NF : Num F) (f : FMU) szof env s t vr,
    let m := model_of (F := F) FMI3 f in
    reach3 m szof s -> (f = Resource -> file_there env s) ->
    In (mode_of s) (when3 (F := F) (D := md m) (O3Get t (Some [vr]) 1 (Some []) 0)) -> declared FMI3 f t vr ->
    exists vs, get3 m szof env s t vr vs.
Proof. exact @readable. Qed.
Theorem C69_fmi2_readable :
  forall (F : Type) (NF : Num F) (f : FMU) szof env s t vr,
    let m := model_of (F := F) FMI2 f in
    built2 f = true -> reach2 m szof s -> (f = Resource -> file_there2 env s) ->
    In (mode_of s) (when2 (F := F) (D := md m) (O2Get t (Some [vr]) 1 (Some []))) -> declared FMI2 f t vr ->
    exists x, get2 m szof env s t vr x.
Proof. exact @readable2. Qed.
Theorem C69_fmi2_boolean :
  forall (F : Type) (NF : Num F) (f : FMU) szof env s vr,
    let m := model_of (F := F) FMI2 f in
    built2 f = true -> reach2 m szof s -> (f = Resource -> file_there2 env s) ->
    In (mode_of s) (when2 (F := F) (D := md m) (O2GetBoolean (Some [vr]) 1 (Some []))) -> declared FMI2 f TBoolean vr ->
    exists b, getB2 m szof env s vr b.
Proof. exact @readableB2. Qed.
Example C69_case : exists s, reach3 (m3' StateSpace) szof0 s /\
  In (mode_of s) (when3 (F := B64) (D := md (m3' StateSpace)) (O3Get TFloat64 (Some [12%N]) 1 (Some []) 0)) /\ declared FMI3 StateSpace TFloat64 12%N.
Proof.
  case3 (newCS false false StateSpace) [O3EnterInitializationMode (F := B64) (D := md (m3' StateSpace)) (lit 0) true (lit 10)].
  split; [tauto|]. eexists. do 12 right. left. reflexivity.
Qed.
Example C69_fmi2_case : exists s, reach2 (m2' Feedthrough) szof0 s /\
  In (mode_of s) (when2 (F := B64) (D := md (m2' Feedthrough)) (O2GetBoolean (Some [28%N]) 1 (Some []))) /\
  declared FMI2 Feedthrough TBoolean 28%N /\ declared FMI2 Feedthrough TString 30%N.
Proof.
  case2 CoSimulation [O2EnterInitializationMode (F := B64) (D := md (m2' Feedthrough))].
  split; [tauto|]. split; (eexists; repeat first [left; reflexivity|right]).
Qed.

(** * C70: a variable can be assigned when its attributes and the standard allow it *)
(** One variable of every FMU, in every state that can be reached.  [works] leaves out what the refutations below show. *)
Theorem C70_accepts_partial :
  forall (F : Type) (NF : Num F) (f : FMU) szof fuel env s t vr a l,
    let m := model_of (F := F) FMI3 f in
    reach3 m szof s -> In (vr, t, a) (attributes FMI3 f) ->
    may_set3 (itype (ctl (sinst s))) (eventModeUsed (ctl (sinst s))) (mode_of s) a = true ->
    in_range f t vr l -> works f t l -> sized m szof env FMI3 f s t vr (length l) ->
    exists s' tr, exec3 m szof fuel env (O3Set t (Some [vr]) 1 (Some l) (length l)) s = Done (OK, ONone, s', tr).
Proof. exact @settable. Qed.
Theorem C70_fmi2_accepts_partial :
  forall (F : Type) (NF : Num F) (f : FMU) szof fuel env s t vr a x,
    let m := model_of (F := F) FMI2 f in
    built2 f = true -> reach2 m szof s -> In (vr, t, a) (attributes FMI2 f) ->
    may_set2 (itype (ctl (sinst s))) (mode_of s) a = true -> in_range f t vr [x] -> works f t [x] ->
    exists s' tr, exec2 m szof fuel env (set_op2 t vr x) s = Done (OK, ONone, s', tr).
Proof. exact @settable2. Qed.
(** The time, constants and computed variables are never accepted, and the attempt changes no variable. *)
Theorem C70_rejects_partial :
  forall (F : Type) (NF : Num F) (f : FMU) szof fuel env s t vr a l n,
    let m := model_of (F := F) FMI3 f in
    reach3 m szof s -> In (vr, t, a) (attributes FMI3 f) -> never_set a = true ->
    ~ (f = Feedthrough /\ vr = 28%N) -> ~ (f = StateSpace /\ vr = 11%N) ->
    exists s' tr, exec3 m szof fuel env (O3Set t (Some [vr]) 1 (Some l) n) s = Done (Error, ONone, s', tr) /\
      forall env', reads_same m szof env' s s'.
Proof. exact @rejects. Qed.
Theorem C70_fmi2_rejects_partial :
  forall (F : Type) (NF : Num F) (f : FMU) szof fuel env s t vr a x,
    let m := model_of (F := F) FMI2 f in
    built2 f = true -> reach2 m szof s -> In (vr, t, a) (attributes FMI2 f) -> never_set a = true ->
    ~ (f = Feedthrough /\ vr = 28%N) ->
    exists s' tr, exec2 m szof fuel env (set_op2 t vr x) s = Done (Error, ONone, s', tr) /\
      forall env', reads_same2 m szof env' s s'.
Proof. exact @rejects2. Qed.
(** In model exchange the parameters and inputs are refused when they must not be assigned. *)
Theorem C70_model_exchange_partial :
  forall (F : Type) (NF : Num F) (f : FMU) szof fuel env s t vr a l n,
    let m := model_of (F := F) FMI3 f in
    reach3 m szof s -> f <> VanDerPol -> f <> StateSpace ->
    In (vr, t, a) (attributes FMI3 f) -> fst (fst a) = Param \/ fst (fst a) = Input -> itype (ctl (sinst s)) = ModelExchange ->
    In (mode_of s) [Instantiated; InitializationMode; EventMode; ContinuousTimeMode] ->
    may_set3 (itype (ctl (sinst s))) (eventModeUsed (ctl (sinst s))) (mode_of s) a = false ->
    exists s' tr, exec3 m szof fuel env (O3Set t (Some [vr]) 1 (Some l) n) s = Done (Error, ONone, s', tr) /\
      forall env', reads_same m szof env' s s'.
Proof. exact @rejects_me. Qed.
Theorem C70_fmi2_model_exchange_partial :
  forall (F : Type) (NF : Num F) (f : FMU) szof fuel env s t vr a x,
    let m := model_of (F := F) FMI2 f in
    built2 f = true -> reach2 m szof s -> f <> VanDerPol ->
    In (vr, t, a) (attributes FMI2 f) -> fst (fst a) = Param \/ fst (fst a) = Input -> itype (ctl (sinst s)) = ModelExchange ->
    In (mode_of s) [Instantiated; InitializationMode; EventMode; ContinuousTimeMode] ->
    may_set2 (itype (ctl (sinst s))) (mode_of s) a = false ->
    exists s' tr, exec2 m szof fuel env (set_op2 t vr x) s = Done (Error, ONone, s', tr) /\
      forall env', reads_same2 m szof env' s s'.
Proof. exact @rejects_me2. Qed.

(** The counter of Stair has the declared maximum 10 but cannot be set to 10. *)
Theorem C70_stair_refuted :
  exists s s' tr, reach3 (m3' Stair) szof0 s /\ In (1%N, TInt32, (Output, Discrete, Exact)) (attributes FMI3 Stair) /\
    may_set3 (itype (ctl (sinst s))) (eventModeUsed (ctl (sinst s))) (mode_of s) (Output, Discrete, Exact) = true /\
    in_range (F := B64) Stair TInt32 1%N [10%Z] /\
    exec3 (m3' Stair) szof0 0 env0 (O3Set TInt32 (Some [1%N]) 1 (Some [10%Z]) 1) s = Done (Error, ONone, s', tr).
Proof.
  do 3 eexists. split.
  { apply (@sample3 _ (newME Stair) []); [left; reflexivity|repeat constructor|vm_compute; reflexivity]. }
  split; [right; left; reflexivity|]. split; [vm_compute; reflexivity|]. split; [|vm_compute; reflexivity].
  split; [discriminate|]. intros _. repeat constructor. vm_compute. discriminate.
Qed.
(** A structural parameter of StateSpace cannot be set by itself, in Configuration Mode, to its own value. *)
Theorem C70_statespace_refuted :
  exists s s' tr, reach3 (m3' StateSpace) szof0 s /\ In (1%N, TUInt64, (Structural, Tunable, Exact)) (attributes FMI3 StateSpace) /\
    may_set3 (itype (ctl (sinst s))) (eventModeUsed (ctl (sinst s))) (mode_of s) (Structural, Tunable, Exact) = true /\
    exec3 (m3' StateSpace) szof0 0 env0 (O3Set TUInt64 (Some [1%N]) 1 (Some [3%N]) 1) s = Done (Error, ONone, s', tr).
Proof.
  do 3 eexists. split.
  { apply (@sample3 _ (newCS false false StateSpace) [O3EnterConfigurationMode (F := B64) (D := md (m3' StateSpace))]);
      [right; left; do 2 eexists; reflexivity|repeat constructor|vm_compute; reflexivity]. }
  split; [right; left; reflexivity|]. split; vm_compute; reflexivity.
Qed.
(** Boolean_output of Feedthrough and the state x of StateSpace are computed, but assignments to them are accepted. *)
Theorem C70_calculated_refuted :
  (exists s s' tr, reach3 (m3' Feedthrough) szof0 s /\ In (28%N, TBoolean, (Output, Discrete, Calculated)) (attributes FMI3 Feedthrough) /\
    exec3 (m3' Feedthrough) szof0 0 env0 (O3Set TBoolean (Some [28%N]) 1 (Some [true]) 1) s = Done (OK, ONone, s', tr)) /\
  (exists s s' tr, reach3 (m3' StateSpace) szof0 s /\ In (11%N, TFloat64, (LocalVar, Continuous, Calculated)) (attributes FMI3 StateSpace) /\
    exec3 (m3' StateSpace) szof0 0 env0 (O3Set TFloat64 (Some [11%N]) 1 (Some [lit 1; lit 2; lit 3]) 3) s = Done (OK, ONone, s', tr)).
Proof.
  split; do 3 eexists.
  - split; [apply (@sample3 _ (newCS false false Feedthrough) []); [right; left; do 2 eexists; reflexivity|repeat constructor|vm_compute; reflexivity]|].
    split; [repeat first [left; reflexivity|right]|vm_compute; reflexivity].
  - split; [apply (@sample3 _ (newME StateSpace) [O3EnterInitializationMode (F := B64) (D := md (m3' StateSpace)) (lit 0) true (lit 10); O3ExitInitializationMode]);
      [left; reflexivity|repeat constructor|vm_compute; reflexivity]|].
    split; [repeat first [left; reflexivity|right]|vm_compute; reflexivity].
Qed.
(** Fixed parameters are accepted after the initialization: k of Dahlquist between two steps, and mu of VanDerPol at an
    event of model exchange; the tunable matrix A of StateSpace in Continuous-Time Mode. *)
Theorem C70_only_then_refuted :
  (exists s s' tr, reach3 (m3' Dahlquist) szof0 s /\ In (3%N, TFloat64, (Param, Fixed, Exact)) (attributes FMI3 Dahlquist) /\
    may_set3 (itype (ctl (sinst s))) (eventModeUsed (ctl (sinst s))) (mode_of s) (Param, Fixed, Exact) = false /\
    exec3 (m3' Dahlquist) szof0 0 env0 (O3Set TFloat64 (Some [3%N]) 1 (Some [lit 2]) 1) s = Done (OK, ONone, s', tr)) /\
  (exists s s' tr, reach3 (m3' VanDerPol) szof0 s /\ In (5%N, TFloat64, (Param, Fixed, Exact)) (attributes FMI3 VanDerPol) /\
    itype (ctl (sinst s)) = ModelExchange /\ mode_of s = EventMode /\
    exec3 (m3' VanDerPol) szof0 0 env0 (O3Set TFloat64 (Some [5%N]) 1 (Some [lit 2]) 1) s = Done (OK, ONone, s', tr)) /\
  (exists s s' tr, reach3 (m3' StateSpace) szof0 s /\ In (4%N, TFloat64, (Param, Tunable, Exact)) (attributes FMI3 StateSpace) /\
    itype (ctl (sinst s)) = ModelExchange /\ mode_of s = ContinuousTimeMode /\
    exec3 (m3' StateSpace) szof0 0 env0 (O3Set TFloat64 (Some [4%N]) 1 (Some (repeat (lit 0) 9)) 9) s = Done (OK, ONone, s', tr)).
Proof.
  split; [|split]; do 3 eexists.
  - split; [apply (@sample3 _ (newCS false false Dahlquist) [O3EnterInitializationMode (F := B64) (D := md (m3' Dahlquist)) (lit 0) true (lit 10); O3ExitInitializationMode]);
      [right; left; do 2 eexists; reflexivity|repeat constructor|vm_compute; reflexivity]|].
    split; [repeat first [left; reflexivity|right]|]. split; vm_compute; reflexivity.
  - split; [apply (@sample3 _ (newME VanDerPol) [O3EnterInitializationMode (F := B64) (D := md (m3' VanDerPol)) (lit 0) true (lit 10); O3ExitInitializationMode]);
      [left; reflexivity|repeat constructor|vm_compute; reflexivity]|].
    split; [repeat first [left; reflexivity|right]|]. split; [|split]; vm_compute; reflexivity.
  - split; [apply (@sample3 _ (newME StateSpace) [O3EnterInitializationMode (F := B64) (D := md (m3' StateSpace)) (lit 0) true (lit 10); O3ExitInitializationMode; O3EnterContinuousTimeMode]);
      [left; reflexivity|repeat constructor|vm_compute; reflexivity]|].
    split; [repeat first [left; reflexivity|right]|]. split; [|split]; vm_compute; reflexivity.
Qed.
Example C70_case : exists s, reach3 (m3' StateSpace) szof0 s /\ In (9%N, TFloat64, (Input, Continuous, Exact)) (attributes FMI3 StateSpace) /\
  may_set3 (itype (ctl (sinst s))) (eventModeUsed (ctl (sinst s))) (mode_of s) (Input, Continuous, Exact) = true /\
  works (F := B64) StateSpace TFloat64 [lit 1; lit 2; lit 3] /\
  sized (m3' StateSpace) szof0 env0 FMI3 StateSpace s TFloat64 9%N 3.
Proof.
  eexists. split; [apply (@sample3 _ (newCS true false StateSpace) [O3EnterInitializationMode (F := B64) (D := md (m3' StateSpace)) (lit 0) true (lit 10); O3ExitInitializationMode; O3EnterStepMode]);
    [right; left; do 2 eexists; reflexivity|repeat constructor|vm_compute; reflexivity]|].
  split; [repeat first [left; reflexivity|right]|]. split; [vm_compute; reflexivity|]. split; [exact I|].
  exists [1%N], [3%N]. split; [repeat first [left; reflexivity|right]|]. split; [|vm_compute; reflexivity].
  constructor; [|constructor]. exists [0%N]. do 2 eexists. split; [reflexivity|]. vm_compute. reflexivity.
Qed.
Example C70_me_case : exists s, reach3 (m3' Feedthrough) szof0 s /\ In (9%N, TFloat64, (Input, Discrete, Exact)) (attributes FMI3 Feedthrough) /\
  itype (ctl (sinst s)) = ModelExchange /\ mode_of s = ContinuousTimeMode /\
  may_set3 (itype (ctl (sinst s))) (eventModeUsed (ctl (sinst s))) (mode_of s) (Input, Discrete, Exact) = false.
Proof.
  eexists. split; [apply (@sample3 _ (newME Feedthrough) [O3EnterInitializationMode (F := B64) (D := md (m3' Feedthrough)) (lit 0) true (lit 10); O3ExitInitializationMode; O3EnterContinuousTimeMode]);
    [left; reflexivity|repeat constructor|vm_compute; reflexivity]|].
  split; [repeat first [left; reflexivity|right]|]. split; [|split]; vm_compute; reflexivity.
Qed.
Example C70_fmi2_case : exists s, reach2 (m2' BouncingBall) szof0 s /\ In (6%N, TFloat64, (Param, Tunable, Exact)) (attributes FMI2 BouncingBall) /\
  may_set2 (itype (ctl (sinst s))) (mode_of s) (Param, Tunable, Exact) = true.
Proof.
  eexists. split; [apply (@sample2 _ CoSimulation [O2EnterInitializationMode (F := B64) (D := md (m2' BouncingBall)); O2ExitInitializationMode]);
    [repeat constructor|vm_compute; reflexivity]|].
  split; [repeat first [left; reflexivity|right]|]. vm_compute. reflexivity.
Qed.

(** All theorems of this file at once. *)
Definition PropSettable_all :=
  (@C69_readable,
   @C69_fmi2_readable,
   @C69_fmi2_boolean,
   @C70_accepts_partial,
   @C70_fmi2_accepts_partial,
   @C70_rejects_partial,
   @C70_fmi2_rejects_partial,
   @C70_model_exchange_partial,
   @C70_fmi2_model_exchange_partial,
   @C70_stair_refuted,
   @C70_statespace_refuted,
   @C70_calculated_refuted,
   @C70_only_then_refuted).
Print Assumptions PropSettable_all.
