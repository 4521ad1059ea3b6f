(** PropSafe.v -- property C26: conforming callers never trigger undefined behaviour. *)
From Coq Require Import List NArith ZArith Bool Strings.String.
From Verif Require Import Base Instance ModelIface Core Fmi3 Fmi2 Api FmuClocks FmuStair FmuResource Fmus NumB64 SpecModes SpecHist SpecState SpecCreate SpecSafe
  Histories SafeAll Samples.
Import ListNotations.
Open Scope list_scope.
Set Implicit Arguments.

(** C26: on every reachable instance of every FMU, a call that keeps the contract of the API ([callable3]: arrays
    as long as their counts, live FMU-state handles, no NULL strings, at least as many values as value references) and the limits of the
    code ([within3]: int counters, the path buffer of Resource, the clock callback) is defined: no access outside an
    array, no NULL dereference, no signed overflow.  The full statement would do without "at least as many values as
    value references" and without [within3]; the refutations below show that both are needed. *)
Theorem C26_no_undefined_behaviour_partial :
  forall (F : Type) (NF : Num F) szof f fuel env o s, reach3 (model_of FMI3 f) szof s ->
    callable3 s o -> within3 FMI3 f (sinst s) o ->
    exec3 (model_of FMI3 f) szof fuel env o s <> UB.
Proof. exact @no_ub3. Qed.
Theorem C26_no_undefined_behaviour_fmi2_partial :
  forall (F : Type) (NF : Num F) szof f fuel env o s, reach2 (model_of FMI2 f) szof s ->
    callable2 s o -> within2 FMI2 f (sinst s) o ->
    exec2 (model_of FMI2 f) szof fuel env o s <> UB.
Proof. exact @no_ub2. Qed.
(** Whole histories: if every call keeps the contract when it is made, the history is defined. *)
Theorem C26_conforming_histories_partial :
  forall (F : Type) (NF : Num F) szof f fuel l s, reach3 (model_of FMI3 f) szof s ->
    conforming3 FMI3 f szof fuel l s -> run3 (model_of FMI3 f) szof fuel l s <> UB.
Proof. exact @history3. Qed.
Theorem C26_conforming_histories_fmi2_partial :
  forall (F : Type) (NF : Num F) szof f fuel l s, reach2 (model_of FMI2 f) szof s ->
    conforming2 FMI2 f szof fuel l s -> run2 (model_of FMI2 f) szof fuel l s <> UB.
Proof. exact @history2. Qed.
(** Instantiation is always defined, also with NULL arguments. *)
Theorem C26_instantiation_defined :
  forall (F : Type) (NF : Num F) f env name token resource b e l,
    fmi3InstantiateModelExchange (model_of FMI3 f) env name token resource b e l <> UB /\
    (forall ev er iu, fmi3InstantiateCoSimulation (model_of FMI3 f) env name token resource b ev er e l iu <> UB) /\
    (forall cu lo ul, fmi3InstantiateScheduledExecution (model_of FMI3 f) env name token resource b e l cu lo ul <> UB).
Proof. exact @new3_all. Qed.
Theorem C26_instantiation_defined_fmi2 :
  forall (F : Type) (NF : Num F) f env name ty token resource e l b,
    fmi2Instantiate (model_of FMI2 f) env name ty token resource e l b <> UB.
Proof. exact @new2_all. Qed.

(** The hypotheses are met, also where the contract says something: a step of Stair, a string for Feedthrough, a
    partition of Clocks. *)
Example C26_stair_case : exists s, reach3 (m3' Stair) szof0 s /\
  callable3 s (O3DoStep (lit 0) (lit 3) true true true true) /\ within3 FMI3 Stair (sinst s) (O3DoStep (lit 0) (lit 3) true true true true).
Proof.
  eexists. split.
  { apply (@sample3 _ (newCS false false Stair) [O3EnterInitializationMode (lit 0) false (lit 0); O3ExitInitializationMode]);
      [right; left; do 2 eexists; reflexivity|repeat constructor|vm_compute; reflexivity]. }
  split; [repeat constructor|]. split; [discriminate|]. vm_compute. reflexivity.
Qed.
Example C26_string_case : exists s, reach3 (m3' Feedthrough) szof0 s /\
  let o := O3Set TString (Some [29%N; 29%N]) 2 (Some [Some (text "a"); Some (text "b")]) 2 in
  callable3 s o /\ within3 FMI3 Feedthrough (sinst s) o.
Proof.
  eexists. split.
  { apply (@sample3 _ (newCS false false Feedthrough) []);
      [right; left; do 2 eexists; reflexivity|repeat constructor|vm_compute; reflexivity]. }
  split; [|split; [discriminate|exact I]]. repeat split; cbn; auto. repeat constructor; discriminate.
Qed.
Example C26_clocks_case : exists s, reach3 (m3' Clocks) szof0 s /\
  let o := O3ActivateModelPartition 1001 (lit 0) in callable3 s o /\ within3 FMI3 Clocks (sinst s) o /\
  exists s' t, exec3 (m3' Clocks) szof0 fuel0 env0 o s = Done (OK, ONone, s', t).
Proof.
  eexists. split.
  { apply (@sample3 _ (newSE Clocks) [O3EnterInitializationMode (lit 0) false (lit 0); O3ExitInitializationMode]);
      [right; right; reflexivity|repeat constructor|vm_compute; reflexivity]. }
  split; [exact I|]. split; [|do 2 eexists; vm_compute; reflexivity].
  split; [discriminate|]. split; [reflexivity|]. split; [reflexivity|]. split; [|split; discriminate].
  intros _. split; [reflexivity|]. exists 0%Z. split; vm_compute; reflexivity.
Qed.
Example C26_history_case : exists s l, reach2 (m2' Dahlquist) szof0 s /\ conforming2 FMI2 Dahlquist szof0 fuel0 l s /\ List.length l = 3.
Proof.
  eexists. exists [(env0, O2SetupExperiment (lit 0) false (lit 0)); (env0, O2GetFMUstate true None); (env0, O2SetFMUstate (Some 0))]. split.
  { apply (@sample2 _ CoSimulation []); [repeat constructor|vm_compute; reflexivity]. }
  split; [|reflexivity].
  split; [exact I|]. split; [split; [discriminate|exact I]|]. split; [discriminate|]. intros st out s' t E. vm_compute in E. injection E as <- <- <- <-.
  split; [repeat constructor|]. split; [split; [discriminate|exact I]|]. split; [discriminate|]. intros st out s' t E. vm_compute in E. injection E as <- <- <- <-.
  split; [eexists; reflexivity|]. split; [split; [discriminate|exact I]|]. split; [discriminate|]. intros; exact I.
Qed.

(** Without "at least as many values as value references": two references, one value.  Every array has the length
    passed with it, but setInt32 of Stair, setString and setInt64 of Feedthrough and setUInt64 of StateSpace read [values[*index]]
    before they test nValues. *)
Theorem C26_short_values_refuted : exists s o, reach3 (m3' Stair) szof0 s /\
  o = O3Set TInt32 (Some [1%N; 1%N]) 2 (Some [2%Z]) 1 /\ exec3 (m3' Stair) szof0 fuel0 env0 o s = UB.
Proof.
  eexists. eexists. split; [|split; [reflexivity|]].
  { apply (@sample3 _ (newCS false false Stair) []);
      [right; left; do 2 eexists; reflexivity|repeat constructor|vm_compute; reflexivity]. }
  vm_compute. reflexivity.
Qed.
Theorem C26_short_strings_refuted : exists s o, reach3 (m3' Feedthrough) szof0 s /\
  o = O3Set TString (Some [29%N; 29%N]) 2 (Some [Some (text "a")]) 1 /\ exec3 (m3' Feedthrough) szof0 fuel0 env0 o s = UB.
Proof.
  eexists. eexists. split; [|split; [reflexivity|]].
  { apply (@sample3 _ (newCS false false Feedthrough) []);
      [right; left; do 2 eexists; reflexivity|repeat constructor|vm_compute; reflexivity]. }
  vm_compute. reflexivity.
Qed.
(** Without [within3]: activating a partition of a Clocks instance that was created without a clockUpdate callback
    (the standard allows NULL) calls NULL ... *)
Theorem C26_no_clock_callback_refuted : exists s, reach3 (m3' Clocks) szof0 s /\
  exec3 (m3' Clocks) szof0 fuel0 env0 (O3ActivateModelPartition 1001 (lit 4)) s = UB.
Proof.
  eexists. split.
  { eapply run3_reach with (fuel := fuel0) (l := [(env0, O3EnterInitializationMode (lit 0) false (lit 0)); (env0, O3ExitInitializationMode)]).
    - apply reach3_new. right. right. exists env0, name0, (Some (guid Clocks)), None, false, 0%N, true, false, true, true.
      eexists. vm_compute. reflexivity.
    - intros e o j [E|[E|[]]]; injection E as _ <-; discriminate.
    - vm_compute. reflexivity. }
  vm_compute. reflexivity.
Qed.
(** ... and a time that no int can hold (1e10) is converted to int. *)
Theorem C26_time_conversion_refuted : exists s, reach3 (m3' Clocks) szof0 s /\
  exec3 (m3' Clocks) szof0 fuel0 env0 (O3ActivateModelPartition 1001 (nlit 1 10)) s = UB.
Proof.
  eexists. split.
  { apply (@sample3 _ (newSE Clocks) [O3EnterInitializationMode (lit 0) false (lit 0); O3ExitInitializationMode]);
      [right; right; reflexivity|repeat constructor|vm_compute; reflexivity]. }
  vm_compute. reflexivity.
Qed.
(** A resource path of 4096 bytes or more (FMI 3): strncpy does not terminate the copy, strncat then runs on. *)
Definition longPath : bytes := repeat (Byte.x61) 4096.
Theorem C26_long_path_refuted : exists i tr,
  fmi3InstantiateCoSimulation (m3' Resource) env0 name0 (Some (guid Resource)) (Some longPath) false false false 0%N true false = Done (Some i, tr) /\
  exec3 (m3' Resource) szof0 fuel0 env0 (O3Get TInt32 (Some [1%N]) 1 (Some [0%Z]) 1) (mkSys i []) = UB.
Proof. do 2 eexists. split; [vm_compute; reflexivity|]. vm_compute. reflexivity. Qed.

Definition PropSafe_all := (@C26_no_undefined_behaviour_partial, @C26_no_undefined_behaviour_fmi2_partial,
  @C26_conforming_histories_partial, @C26_conforming_histories_fmi2_partial, @C26_instantiation_defined, @C26_instantiation_defined_fmi2,
  C26_short_values_refuted, C26_short_strings_refuted, C26_no_clock_callback_refuted, C26_time_conversion_refuted, C26_long_path_refuted).
Print Assumptions PropSafe_all.
