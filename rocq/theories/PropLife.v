(** PropLife.v -- what an importer allocates and releases (C71), the example programs (C72) and
    import_shared_library (C74), import_static_library (C80). *)
From Coq Require Import Strings.String List Bool Arith.
From Coq Require Import NArith.
From Verif Require Import Base Instance ModelIface Core Fmi3 Api Fmus ImpLife SpecLife Life Life2 Life3.
Import ListNotations.
Open Scope string_scope.
Open Scope list_scope.
Set Implicit Arguments.

(** A system that grants everything and libraries that export everything, and one with an exception. *)
Definition rich : Oracle := mkO (fun _ _ => true) (fun _ _ => true).
Definition without (f : string) : Oracle := mkO (fun _ _ => true) (fun _ g => negb (String.eqb f g)).
Definition denies (site : Site -> bool) : Oracle := mkO (fun s _ => negb (site s)) (fun _ _ => true).

(** * C71: calls in order are defined and leave nothing behind *)
(** The three conditions: C71_buffer_refuted, C71_name_refuted, and C71_function_refuted, C71_exchange_refuted. *)
Theorem C71_defined_partial :
  forall O ops ph w op,
    buffers O -> names O -> (forall o, In o (op :: ops) -> is_exchange3 o -> complete O Me3) ->
    history O ops ph w -> permitted ph op ->
    exists out w' t, lexec O op w = Done (out, w', t).
Proof. exact history_defined. Qed.
Theorem C71_clean_partial :
  forall O ops ph w,
    buffers O -> names O -> (forall o, In o ops -> is_exchange3 o -> complete O Me3) ->
    history O ops ph w -> all_gone ph -> clean w.
Proof. exact history_clean. Qed.
(** Whatever is done with other instances, one that was instantiated keeps what it needs until it is released. *)
Theorem C71_live_partial :
  forall O ops ph w a k,
    buffers O -> names O -> (forall o, In o ops -> is_exchange3 o -> complete O Me3) ->
    history O ops ph w -> ph a = Some (Live k) -> usable k a w.
Proof. exact history_live. Qed.
(** If an instantiation returns, then with OK exactly when all functions and all memory were there and the FMU accepted. *)
Theorem C71_ok :
  forall O ops ph w a k accepts location s w' t,
    history O ops ph w -> permitted ph (LInstantiate (Some a) k accepts location) ->
    lexec O (LInstantiate (Some a) k accepts location) w = Done (LStatus s, w', t) ->
    exists i, blk w a = Some (BImp i) /\ (s = OK <-> can O i k accepts (fresh w)).
Proof. exact history_ok. Qed.

(** Two instances at the same time, one of FMI 2 and one of FMI 3 whose library lacks a function. *)
Example C71_case :
  buffers (without "fmi3DoStep") /\ names (without "fmi3DoStep") /\
  exists ph w, history (without "fmi3DoStep")
      [LFree (Some 4); LFree (Some 0); LRelease (Some 0) Me2; LFree None; LInstantiate (Some 4) Cs3 true true;
       LInstantiate (Some 0) Me2 true true; LLoad (Some 4); LCreate true false; LLoad (Some 0); LRelease None Cs3; LCreate true true] ph w.
Proof. split; [intro; reflexivity|]. split; [intro; reflexivity|]. apply (@replay_history _ (rev [_; _; _; _; _; _; _; _; _; _; _])). vm_compute. reflexivity. Qed.
(** The condition of Model Exchange in FMI 3 can be met. *)
Example C71_case_exchange :
  complete rich Me3 /\ exists ph w, history rich [LFree (Some 0); LRelease (Some 0) Cs3; LInstantiate (Some 0) Me3 true true; LLoad (Some 0); LCreate true true] ph w.
Proof. split; [split; intros; reflexivity|]. apply (@replay_history _ (rev [_; _; _; _; _])). vm_compute. reflexivity. Qed.

(** One instance is live while another one is freed; with a missing function the status is not OK. *)
Example C71_case_live :
  exists ph w, history rich [LFree (Some 8); LLoad (Some 8); LCreate true false; LInstantiate (Some 0) Se3 true true; LLoad (Some 0); LCreate true true] ph w /\
    ph 0 = Some (Live Se3).
Proof.
  destruct (@replay_phase rich (rev [LFree (Some 8); LLoad (Some 8); LCreate true false; LInstantiate (Some 0) Se3 true true; LLoad (Some 0); LCreate true true]) 0 (Live Se3))
    as (ph & w & H); [vm_compute; reflexivity | exists ph, w; exact H].
Qed.
Example C71_case_ok :
  exists ph w, history (without "fmi3DoStep") [LLoad (Some 0); LCreate true true] ph w /\ permitted ph (LInstantiate (Some 0) Cs3 true true) /\
    exists w' t, lexec (without "fmi3DoStep") (LInstantiate (Some 0) Cs3 true true) w = Done (LStatus Fatal, w', t).
Proof. apply (@replay_status _ (rev [_; _])). vm_compute. reflexivity. Qed.

(** Other functions are called between instantiation and release. *)
Example C71_case_calls :
  exists ph w, history rich [LRelease (Some 0) Cs3; LCall (Some 8) Me2 "fmi2SetTime"; LCall (Some 0) Cs3 "fmi3DoStep"; LInstantiate (Some 8) Me2 true true;
      LLoad (Some 8); LCreate true false; LCall (Some 0) Cs3 "fmi3GetFloat64"; LInstantiate (Some 0) Cs3 true true; LLoad (Some 0); LCreate true true] ph w /\
    ph 8 = Some (Live Me2).
Proof.
  destruct (@replay_phase rich (rev [LRelease (Some 0) Cs3; LCall (Some 8) Me2 "fmi2SetTime"; LCall (Some 0) Cs3 "fmi3DoStep"; LInstantiate (Some 8) Me2 true true;
      LLoad (Some 8); LCreate true false; LCall (Some 0) Cs3 "fmi3GetFloat64"; LInstantiate (Some 0) Cs3 true true; LLoad (Some 0); LCreate true true]) 8 (Live Me2))
    as (ph & w & H); [vm_compute; reflexivity | exists ph, w; exact H].
Qed.
(** FMI3SetShiftDecimal and FMI3SetShiftFraction call functions that are never looked up. *)
Theorem C71_shift_refuted :
  exists f g, f <> g /\ forall k h, two k = false -> h = f \/ h = g ->
    In h (declared k) /\ (forall l s, exports rich l s = true) /\
    runs rich [LCreate true true; LLoad (Some 0); LInstantiate (Some 0) k true true; LCall (Some 0) k h] nothing = UB.
Proof.
  exists "fmi3SetShiftDecimal", "fmi3SetShiftFraction". split; [discriminate|].
  intros k h K [-> | ->]; (split; [destruct k; try discriminate K; apply has_in; vm_compute; reflexivity|]); (split; [reflexivity|]);
    destruct k; try discriminate K; vm_compute; reflexivity.
Qed.
(** FMI2SetDebugLogging and FMI3SetDebugLogging are undefined when calls are logged, and only then. *)
Theorem C71_format_refuted :
  exists f, forall k, In (f k) (declared k) /\
    runs rich [LCreate true true; LLoad (Some 0); LInstantiate (Some 0) k true true; LCall (Some 0) k (f k)] nothing = UB /\
    runs rich [LCreate true false; LLoad (Some 0); LInstantiate (Some 0) k true true; LCall (Some 0) k (f k)] nothing <> UB.
Proof.
  exists (fun k => if two k then "fmi2SetDebugLogging" else "fmi3SetDebugLogging").
  intros k. split; [destruct k; apply has_in; vm_compute; reflexivity|]. split; [destruct k; vm_compute; reflexivity|].
  destruct k; vm_compute; discriminate.
Qed.

(** Without the function that instantiates, FMI3InstantiateModelExchange calls a NULL pointer ... *)
Theorem C71_function_refuted :
  exists O ops ph w op, buffers O /\ names O /\ history O ops ph w /\ permitted ph op /\ lexec O op w = UB.
Proof.
  exists (without "fmi3InstantiateModelExchange"), [LLoad (Some 0); LCreate true true].
  destruct (@replay_ub (without "fmi3InstantiateModelExchange") (rev [LLoad (Some 0); LCreate true true]) (LInstantiate (Some 0) Me3 true true))
    as (ph & w & H & P & E); [vm_compute; reflexivity|].
  exists ph, w, (LInstantiate (Some 0) Me3 true true). repeat split; try (intro; reflexivity); assumption.
Qed.
(** ... and without another one it creates a component, returns FMIFatal, and the component stays. *)
Theorem C71_exchange_refuted :
  exists O ops ph w, buffers O /\ names O /\ history O ops ph w /\ all_gone ph /\ ~ clean w.
Proof.
  exists (without "fmi3DoStep"), [LFree (Some 0); LInstantiate (Some 0) Me3 true true; LLoad (Some 0); LCreate true true].
  destruct (@replay_gone (without "fmi3DoStep") (rev [LFree (Some 0); LInstantiate (Some 0) Me3 true true; LLoad (Some 0); LCreate true true]) 5)
    as (ph & w & H); [vm_compute; reflexivity|].
  exists ph, w. split; [intro; reflexivity|]. split; [intro; reflexivity|]. exact H.
Qed.
(** createModelInstance does not give the component back when its name cannot be copied. *)
Theorem C71_name_refuted :
  exists O ops ph w, buffers O /\ complete O Me3 /\ history O ops ph w /\ all_gone ph /\ ~ clean w.
Proof.
  pose (O := denies (fun s => match s with SCompName => true | _ => false end)).
  exists O, [LFree (Some 0); LInstantiate (Some 0) Cs2 true true; LLoad (Some 0); LCreate true true].
  destruct (@replay_gone O (rev [LFree (Some 0); LInstantiate (Some 0) Cs2 true true; LLoad (Some 0); LCreate true true]) 5)
    as (ph & w & H); [vm_compute; reflexivity|].
  exists ph, w. split; [intro; reflexivity|]. split; [split; intros; reflexivity|]. exact H.
Qed.
(** FMICreateInstance succeeds without a buffer for the messages, into which the next call writes. *)
Theorem C71_buffer_refuted :
  exists O ops ph w op, names O /\ complete O Me3 /\ history O ops ph w /\ permitted ph op /\ lexec O op w = UB.
Proof.
  pose (O := denies (fun s => match s with SBuffer => true | _ => false end)).
  exists O, [LLoad (Some 0); LCreate true true].
  destruct (@replay_ub O (rev [LLoad (Some 0); LCreate true true]) (LInstantiate (Some 0) Cs3 true true))
    as (ph & w & H & P & E); [vm_compute; reflexivity|].
  exists ph, w, (LInstantiate (Some 0) Cs3 true true). split; [intro; reflexivity|]. split; [split; intros; reflexivity|]. auto.
Qed.

(** Other orders.  Without a logMessage function a missing function is reported through a NULL pointer. *)
Theorem C71_silent_refuted :
  exists O, runs O [LCreate false false; LLoad (Some 0); LInstantiate (Some 0) Cs2 true true] nothing = UB /\ buffers O /\ names O.
Proof. exists (without "fmi2DoStep"). split; [vm_compute; reflexivity|]. split; intro; reflexivity. Qed.
(** FMI2FreeInstance keeps the pointer and frees the component again; FMI3FreeInstance does not. *)
Theorem C71_twice_refuted :
  exists ops, runs rich (ops Cs2 ++ [LRelease (Some 0) Cs2]) nothing = UB /\
    runs rich (ops Cs2) nothing <> UB /\ runs rich (ops Cs3 ++ [LRelease (Some 0) Cs3]) nothing <> UB.
Proof.
  exists (fun k => [LCreate true true; LLoad (Some 0); LInstantiate (Some 0) k true true; LRelease (Some 0) k]).
  split; [vm_compute; reflexivity|]. split; vm_compute; discriminate.
Qed.
(** A second library, or a second table of functions, replaces the first, which stays. *)
Theorem C71_library_refuted :
  exists w, runs rich [LCreate true true; LLoad (Some 0); LLoad (Some 0); LFree (Some 0)] nothing = Done w /\ ~ clean w.
Proof. apply (@runs_left _ _ 3). vm_compute. reflexivity. Qed.
Theorem C71_table_refuted :
  exists w, runs rich [LCreate true true; LLoad (Some 0); LInstantiate (Some 0) Cs3 true true; LRelease (Some 0) Cs3;
                       LInstantiate (Some 0) Cs3 true true; LRelease (Some 0) Cs3; LFree (Some 0)] nothing = Done w /\ ~ clean w.
Proof. apply (@runs_left _ _ 4). vm_compute. reflexivity. Qed.

(** * C72: the example programs end and release everything, but for the component after a fatal error *)
Theorem C72_program_partial :
  forall O k out accepts location body terminated,
    buffers O -> names O -> (forall n, grants O SLibrary n = true) -> tame O k ->
    exists s w t, program O k out accepts location body terminated nothing = Done (s, w, t) /\
      (clean w \/ only_component w) /\ (s <> Fatal -> s <> Pending -> clean w).
Proof. exact program_ends. Qed.
Example C72_case :
  tame rich Me3 /\ tame (without "fmi2DoStep") Cs2 /\
  (exists w t, program rich Me3 true true true OK Warning nothing = Done (Warning, w, t)) /\
  (exists w t, program (without "fmi2DoStep") Cs2 true true true OK OK nothing = Done (Fatal, w, t)) /\
  (exists w t, program rich Se3 true false true OK OK nothing = Done (Error, w, t)) /\
  (exists s w t, program rich Cs3 true true true Fatal OK nothing = Done (s, w, t) /\ ~ clean w).
Proof.
  split; [left; split; intros; reflexivity|]. split; [right; intro; reflexivity|].
  split; [apply program_clean; vm_compute; reflexivity|]. split; [apply program_clean; vm_compute; reflexivity|].
  split; [apply program_clean; vm_compute; reflexivity|]. apply (@program_left _ _ _ _ _ _ _ 7). vm_compute. reflexivity.
Qed.
(** The status: the worse of the simulation and terminate if all was set up, otherwise FMIError or FMIFatal. *)
Theorem C72_status :
  forall O k out accepts location body terminated s w t,
    program O k out accepts location body terminated nothing = Done (s, w, t) ->
    accepts = true /\ (exists h, forall f, In f (needed k) -> exports O h f = true) /\ s = total body terminated \/ s = Error \/ s = Fatal.
Proof. exact program_reports. Qed.
Theorem C72_success :
  forall O k out location body terminated,
    (forall site n, grants O site n = true) -> (forall h f, In f (needed k) -> exports O h f = true) ->
    exists w t, program O k out true location body terminated nothing = Done (total body terminated, w, t).
Proof. exact program_success. Qed.
(** If the library cannot be loaded, tearDown calls a function through a table that does not exist. *)
Theorem C72_library_refuted :
  exists O, buffers O /\ names O /\ (forall k, complete O k) /\
    forall k accepts location body terminated, program O k true accepts location body terminated nothing = UB.
Proof.
  exists (denies (fun s => match s with SLibrary => true | _ => false end)).
  split; [intro; reflexivity|]. split; [intro; reflexivity|]. split; [intros k; split; intros; reflexivity|].
  intros [] a l b t; vm_compute; reflexivity.
Qed.
(** The same for scheduled execution without a function, and for FMI 2 without memory for the table. *)
Theorem C72_scheduled_refuted :
  exists O, buffers O /\ names O /\ (forall n, grants O SLibrary n = true) /\ (forall n, grants O STable n = true) /\
    program O Se3 true true true OK OK nothing = UB.
Proof. exists (without "fmi3GetVersion"). repeat (split; [intro; reflexivity|]). vm_compute. reflexivity. Qed.
Theorem C72_table_refuted :
  exists O, buffers O /\ names O /\ (forall n, grants O SLibrary n = true) /\ (forall h f, exports O h f = true) /\
    program O Cs2 true true true OK OK nothing = UB.
Proof.
  exists (denies (fun s => match s with STable => true | _ => false end)). repeat (split; [intro; reflexivity|]). vm_compute. reflexivity.
Qed.

(** * C74: import_shared_library *)
(** It always ends, with success exactly if everything it asks for is there, and has then released everything. *)
Theorem C74_program_partial :
  forall O accepts,
    exists success w t, import_shared_library O accepts nothing = Done (success, w, t) /\
      (success = true <-> grants O SLibrary 0 = true /\ exports O (Some 0) "fmi3InstantiateModelExchange" = true /\
         exports O (Some 0) "fmi3FreeInstance" = true /\ accepts = true /\ grants O SComp 1 = true /\ grants O SCompName 2 = true) /\
      (success = true -> clean w).
Proof. exact import_ends. Qed.
(** If it fails after the library was opened, the library stays open until the process ends. *)
Theorem C74_failure_refuted :
  exists O w t, import_shared_library O true nothing = Done (false, w, t) /\ ~ clean w.
Proof. exists (without "fmi3FreeInstance"). eexists _, _. split; [vm_compute; reflexivity|]. intros C. specialize (C 0). discriminate. Qed.
(** Exactly: what is left is the library, if it was opened, and the instance, if it was made and the copy of its
    name failed. *)
Theorem C74_left :
  forall O accepts w t, import_shared_library O accepts nothing = Done (false, w, t) ->
    (blk w 0 = if grants O SLibrary 0 then Some BLibrary else None) /\
    (blk w 1 <> None <-> grants O SLibrary 0 = true /\ exports O (Some 0) "fmi3InstantiateModelExchange" = true /\
       exports O (Some 0) "fmi3FreeInstance" = true /\ accepts = true /\ grants O SComp 1 = true) /\
    (forall a, 2 <= a -> blk w a = None).
Proof. exact import_left. Qed.
Example C74_left_case :
  exists w t, import_shared_library (denies (fun s => match s with SCompName => true | _ => false end)) true nothing = Done (false, w, t) /\
    blk w 1 <> None.
Proof. eexists _, _. split; [vm_compute; reflexivity | discriminate]. Qed.
Example C74_case : exists w t, import_shared_library rich true nothing = Done (true, w, t).
Proof. eexists _, _. vm_compute. reflexivity. Qed.

(** * C80: import_static_library *)
(** It always ends, with success exactly if the token is right and there is memory. *)
Theorem C80_program_partial :
  forall O accepts, exists w t,
    import_static_library O accepts nothing = Done (accepts && grants O SComp 0 && grants O SCompName 1, w, t) /\
    (clean w <-> ~ (accepts = true /\ grants O SComp 0 = true /\ grants O SCompName 1 = false)).
Proof. exact static_ends. Qed.
(** So memory is left behind without memory for the copy of the name: the FMU returns NULL and keeps the instance. *)
Theorem C80_left_refuted : exists O w t, import_static_library O true nothing = Done (false, w, t) /\ ~ clean w.
Proof.
  exists (denies (fun s => match s with SCompName => true | _ => false end)). eexists _, _.
  split; [vm_compute; reflexivity|]. intros C. specialize (C 0). discriminate.
Qed.
(** VanDerPol accepts the arguments of the program (import_static_library.c 18-25). *)
Theorem C80_accepts :
  forall (F : Type) (NF : Num F) env logger, exists i,
    fmi3InstantiateModelExchange (F := F) (model_of FMI3 VanDerPol) env (Some (list_byte_of_string "instance1"))
      (Some (list_byte_of_string "{BD403596-3166-4232-ABC2-132BDF73E644}")) None false 0%N logger = Done (Some i, []).
Proof. intros. eexists. lazy -[nle nlt nadd nmul nopp nlit nzero ndblmin nofN ninf ntrunc]. reflexivity. Qed.
Example C80_case : exists w t, import_static_library rich true nothing = Done (true, w, t) /\ clean w.
Proof. eexists _, _. split; [vm_compute; reflexivity|]. intros [|[|a]]; reflexivity. Qed.

Definition PropLife_all := (C71_defined_partial, C71_clean_partial, C71_live_partial, C71_ok, C71_case, C71_case_exchange, C71_case_live, C71_case_ok, C71_case_calls, C71_shift_refuted, C71_format_refuted, C71_function_refuted, C71_exchange_refuted,
  C71_name_refuted, C71_buffer_refuted, C71_silent_refuted, C71_twice_refuted, C71_library_refuted, C71_table_refuted,
  C72_program_partial, C72_case, C72_status, C72_success, C72_library_refuted, C72_scheduled_refuted, C72_table_refuted,
  C74_program_partial, C74_failure_refuted, C74_left, C74_left_case, C74_case,
  C80_program_partial, C80_left_refuted, @C80_accepts, C80_case).
Print Assumptions PropLife_all.
