(** PropImporter.v -- the importer of fmusim: what Resource reads from the URI it is given (C41), the log buffer
    (C42), paths as URIs (C43) and the wrapper functions (C44). *)
From Coq Require Import Strings.String List NArith ZArith Bool Arith.
From Coq.Init Require Import Byte.
From Verif Require Import Base Instance ModelIface Core Fmi3 Fmi2 Api Fmus NumB64 SpecModes SpecHist SpecCreate SpecState SpecVars
  ImpBuffer SpecImporter ImpUri Importer ImpResource ImpWrap SpecWrap Wrapper Samples.
Import ListNotations.
Open Scope list_scope.
Set Implicit Arguments.

(** ** C41: the FMI 2.0 build of Resource, instantiated with a URI file:///... or file:/..., shows in every state in
    which it may be read the number in y.txt of the directory that the percent-decoded path names ... *)
Theorem C41_decoded_path :
  forall (F : Type) (NF : Num F) szof env0 env name ty token environment logger loggingOn uri enc path i tr fuel l obs s y,
    file_uri enc uri -> decodes enc path -> plain uri -> plain path ->
    length enc <= N.to_nat 4095 -> length path <= N.to_nat 4089 ->
    fmi2Instantiate (model_of (F := F) FMI2 Resource) env0 name ty token (Some uri) environment logger loggingOn = Done (Some i, tr) ->
    (forall e o j, In (e, o) l -> image2 o = Some j -> saved2 (model_of FMI2 Resource) szof j) ->
    run2 (model_of FMI2 Resource) szof fuel l (mkSys i []) = Done (obs, s) ->
    In (mode_of s) (when2 (O2Get (F := F) (D := md (model_of FMI2 Resource)) TInt32 None 0 None)) ->
    env_file env (path ++ y_txt) = Some y ->
    get2 (model_of FMI2 Resource) szof env s TInt32 1%N y.
Proof. exact @resource_decoded. Qed.
(** ... and if the importer computed the URI from a path, that directory is the path. *)
Theorem C41_importer_path_partial :
  forall (F : Type) (NF : Num F) szof env0 env name ty token environment logger loggingOn signed path uri u i tr fuel l obs s y,
    hd_error path = Some x2f -> plain path -> Forall (narrow signed) path ->
    length path <= N.to_nat 4089 ->
    FMIPathToURI signed path uri (length uri) = Done (OK, u) ->
    forall loc, c_string u = Some loc -> length loc <= N.to_nat 4102 ->
    fmi2Instantiate (model_of (F := F) FMI2 Resource) env0 name ty token (Some loc) environment logger loggingOn = Done (Some i, tr) ->
    (forall e o j, In (e, o) l -> image2 o = Some j -> saved2 (model_of FMI2 Resource) szof j) ->
    run2 (model_of FMI2 Resource) szof fuel l (mkSys i []) = Done (obs, s) ->
    In (mode_of s) (when2 (O2Get (F := F) (D := md (model_of FMI2 Resource)) TInt32 None 0 None)) ->
    env_file env (path ++ y_txt) = Some y ->
    get2 (model_of FMI2 Resource) szof env s TInt32 1%N y.
Proof. exact @resource_encoded. Qed.

Definition dir0 : bytes := text "/tmp/my fmu".
Definition files (p : bytes) (y : Z) : Env := {| env_file := fun q => if list_eq_dec Byte.byte_eq_dec q p then Some y else None |}.
Definition room (n : nat) : list (option byte) := repeat None n.
Definition newURI (loc : bytes) := fmi2Instantiate (m2' Resource) env0 name0 CoSimulation (Some (guid Resource)) (Some loc) 0%N true false.
(** the hypotheses are met by the directory "/tmp/my fmu" *)
Example C41_case :
  file_uri (text "/tmp/my%20fmu") (text "file:///tmp/my%20fmu") /\ decodes (text "/tmp/my%20fmu") dir0 /\
  (exists u, FMIPathToURI true dir0 (room 64) 64 = Done (OK, u) /\ c_string u = Some (text "file:///tmp/my%20fmu")) /\
  exists i tr obs s, newURI (text "file:///tmp/my%20fmu") = Done (Some i, tr) /\
    run2 (m2' Resource) szof0 fuel0 [(files (dir0 ++ y_txt) 97, O2SetupExperiment (lit 0) false (lit 0));
      (files (dir0 ++ y_txt) 97, O2EnterInitializationMode); (files (dir0 ++ y_txt) 97, O2ExitInitializationMode)] (mkSys i []) = Done (obs, s) /\
    In (mode_of s) (when2 (O2Get (F := B64) (D := md (m2' Resource)) TInt32 None 0 None)) /\
    env_file (files (dir0 ++ y_txt) 97) (dir0 ++ y_txt) = Some 97%Z.
Proof.
  split; [split; [reflexivity|left; reflexivity]|].
  split. { do 7 (apply dec_char; [discriminate|]). apply dec_byte; try reflexivity.
           do 3 (apply dec_char; [discriminate|]). apply dec_nil. }
  split. { eexists. split; vm_compute; reflexivity. }
  do 4 eexists. split; [vm_compute; reflexivity|]. split; [vm_compute; reflexivity|]. split; [vm_compute; tauto|].
  vm_compute. reflexivity.
Qed.

(** A path with a byte above 127 does not survive if [char] is signed: the importer writes %FF for /tmp/é (in
    ISO 8859-1), and Resource looks in another directory. *)
Theorem C41_signed_refuted :
  exists path u loc i tr y, hd_error path = Some x2f /\ plain path /\
    FMIPathToURI true path (room 64) 64 = Done (OK, u) /\ c_string u = Some loc /\ newURI loc = Done (Some i, tr) /\
    env_file (files (path ++ y_txt) y) (path ++ y_txt) = Some y /\
    exists obs s, run2 (m2' Resource) szof0 fuel0
      (map (fun o => (files (path ++ y_txt) y, o))
        [O2SetupExperiment (lit 0) false (lit 0); O2EnterInitializationMode; O2ExitInitializationMode]) (mkSys i []) = Done (obs, s) /\
    map (fun r => fst (fst r)) obs = [OK; OK; Error].
Proof.
  exists (text "/tmp/" ++ [xe9]). do 4 eexists. exists 97%Z.
  split; [reflexivity|]. split; [intros H; vm_compute in H; repeat destruct H as [H|H]; try discriminate H; exact H|].
  split; [vm_compute; reflexivity|]. split; [vm_compute; reflexivity|]. split; [vm_compute; reflexivity|].
  split; [vm_compute; reflexivity|]. do 2 eexists. split; vm_compute; reflexivity.
Qed.

(** ** C42: no sequence of calls reads or writes outside the buffer ... *)
Theorem C42_memory_safe : forall fuel ops, lb_run fuel ops lb_create <> UB.
Proof. exact log_safe. Qed.
(** ... every sequence of calls whose texts do not end at certain lengths terminates and leaves exactly the appended
    text.  Missing: the lengths that [lengths_avoid] excludes, for which the claim is false (below). *)
Theorem C42_text_partial :
  forall ops, Forall op_plain ops -> lengths_avoid 0 ops ->
  exists fuel0, forall fuel, fuel0 <= fuel ->
  exists b, lb_run fuel ops lb_create = Done b /\ c_string (lb_cells b) = Some (message_text [] ops).
Proof. exact log_text. Qed.
Lemma no_buffer_size n : n < N.to_nat 1024 -> ~ buffer_size n.
Proof.
  intros H (j & E). assert (1 <= 2 ^ j) by (clear; induction j; cbn; [apply le_n|rewrite Nat.add_0_r; apply (Nat.le_trans _ (2 ^ j)); [exact IHj|apply Nat.le_add_r]]).
  rewrite E in H. apply (Nat.lt_irrefl (N.to_nat 1024)). eapply Nat.le_lt_trans; [|exact H].
  rewrite <- (Nat.mul_1_r (N.to_nat 1024)) at 1. apply Nat.mul_le_mono_l. assumption.
Qed.
(** the hypotheses are met by a message with two arrays *)
Definition message0 : list LogOp :=
  [LClear; LAppend (text "fmi3SetBinary(valueReferences={"); LArray [EText (text "30"); EText (text "31")];
   LAppend (text "}, values={"); LArray [EBinary [xca; xfe]; EBinary []]; LAppend (text "})")].
Example C42_case : Forall op_plain message0 /\ lengths_avoid 0 message0 /\
  message_text [] message0 = text "fmi3SetBinary(valueReferences={30, 31}, values={0xcafe, 0x})".
Proof.
  split. { assert (P : forall t, existsb (Byte.eqb x00) t = false -> plain t).
    { intros t E I. assert (X : existsb (Byte.eqb x00) t = true) by (apply existsb_exists; exists x00; auto). rewrite X in E. discriminate. }
    unfold message0. repeat (apply Forall_cons || apply Forall_nil || split || (cbn [op_plain elem_plain]; try (apply P; reflexivity))). }
  split; [|vm_compute; reflexivity].
  cbn [message0 lengths_avoid lengths_avoid_list]. repeat split; apply no_buffer_size; vm_compute; repeat constructor.
Qed.

(** An append whose text ends where the buffer ends loses its last character, and what follows is lost too. *)
Theorem C42_truncated_refuted :
  exists ops b, Forall op_plain ops /\ (forall fuel, lb_run (S fuel) ops lb_create = Done b) /\
    c_string (lb_cells b) <> Some (message_text [] ops).
Proof.
  exists [LAppend (repeat x61 (N.to_nat 1024))]. eexists. split; [|split].
  - apply Forall_cons; [|apply Forall_nil]. intros H. apply repeat_spec in H. discriminate.
  - intros fuel. reflexivity.
  - vm_compute. discriminate.
Qed.
(** An array element that ends three characters before the end of the buffer is never accepted: the loop does not end. *)
Theorem C42_endless_refuted :
  exists ops, Forall op_plain ops /\ forall fuel, lb_run fuel ops lb_create = NoFuel.
Proof.
  exists [LArray [EText (repeat x61 (N.to_nat 1021))]]. split.
  - apply Forall_cons; [|apply Forall_nil]. apply Forall_cons; [|apply Forall_nil]. intros H. apply repeat_spec in H. discriminate.
  - apply log_endless. apply repeat_length.
Qed.

(** ** C43: for paths whose characters are not negative, FMIPathToURI stays inside a buffer of the given length, says
    OK if there is room for the URI and four more characters, and then leaves the URI as a C string.  The condition on the
    characters is missing in the code, see below. *)
Theorem C43_uri_partial :
  forall signed path uri, Forall (narrow signed) path -> plain path ->
  exists st u, FMIPathToURI signed path uri (length uri) = Done (st, u) /\
    length u = length uri /\
    (length (uri_of path) + 4 <= length uri -> st = OK) /\
    (st = Error /\ (length path + 8 <= length uri -> length uri < length (uri_of path) + 4) \/
     st = OK /\ c_string u = Some (uri_of path)).
Proof. exact path_uri. Qed.
(** Different paths have different URIs ... *)
Theorem C43_injective_partial :
  forall signed p q b c u v,
  Forall (narrow signed) p -> plain p -> Forall (narrow signed) q -> plain q ->
  FMIPathToURI signed p b (length b) = Done (OK, u) -> FMIPathToURI signed q c (length c) = Done (OK, v) ->
  c_string u = c_string v -> p = q.
Proof. exact uri_injective. Qed.
(** ... and if the path has no control characters below 16 the URI consists of unreserved characters, delimiters and
    percent signs with two hexadecimal digits. *)
Theorem C43_characters_partial :
  forall signed path uri u loc,
  Forall (narrow signed) path -> Forall (fun b => (16 <= Byte.to_N b)%N) path ->
  FMIPathToURI signed path uri (length uri) = Done (OK, u) -> c_string u = Some loc ->
  uri_chars (fun b => unreserved b || delimiter b) loc = true.
Proof. exact uri_characters. Qed.
(** the hypotheses are met *)
Example C43_case : Forall (narrow true) dir0 /\ plain dir0 /\ Forall (fun b => (16 <= Byte.to_N b)%N) dir0 /\
  exists u, FMIPathToURI true dir0 (room 64) (length (room 64)) = Done (OK, u) /\ c_string u = Some (text "file:///tmp/my%20fmu").
Proof.
  split; [|split; [|split]].
  - unfold dir0. cbn. repeat apply Forall_cons; try apply Forall_nil; right; reflexivity.
  - intros H. vm_compute in H. repeat destruct H as [H|H]; try discriminate H; exact H.
  - unfold dir0. cbn. repeat apply Forall_cons; try apply Forall_nil; vm_compute; discriminate.
  - eexists. split; vm_compute; reflexivity.
Qed.

(** With a signed [char] two paths get one URI ... *)
Theorem C43_injective_refuted :
  exists p q u v, p <> q /\ plain p /\ plain q /\ FMIPathToURI true p (room 64) 64 = Done (OK, u) /\
    FMIPathToURI true q (room 64) 64 = Done (OK, v) /\ c_string u = c_string v /\ c_string u <> None.
Proof.
  exists [x2f; xe9], [x2f; xe8]. do 2 eexists. split; [discriminate|].
  split; [intros [H|[H|[]]]; discriminate|]. split; [intros [H|[H|[]]]; discriminate|].
  split; [vm_compute; reflexivity|]. split; [vm_compute; reflexivity|]. split; [vm_compute; reflexivity|vm_compute; discriminate].
Qed.
(** ... and characters are written behind the buffer. *)
Theorem C43_bounds_refuted :
  exists p n, plain p /\ FMIPathToURI true p (room n) n = UB.
Proof. exists [x2f; xe9], 14. split; [intros [H|[H|[]]]; discriminate|vm_compute; reflexivity]. Qed.
(** The characters of a URI are not only unreserved characters, '/' and triplets: "?" and "#" stay, which end the path
    of a URI, and a control character gives a percent sign with a space. *)
Theorem C43_delimiters_refuted :
  exists p u loc, plain p /\ Forall (narrow true) p /\ FMIPathToURI true p (room 64) 64 = Done (OK, u) /\ c_string u = Some loc /\
    uri_chars (fun b => unreserved b || Byte.eqb b x2f) (skipn 7 loc) = false.
Proof.
  exists [x2f; x61; x3f; x62]. do 2 eexists.
  split. { intros H. cbn in H. repeat destruct H as [H|H]; try discriminate H; exact H. }
  split; [repeat apply Forall_cons; try apply Forall_nil; right; reflexivity|].
  split; [vm_compute; reflexivity|]. split; vm_compute; reflexivity.
Qed.
Theorem C43_control_refuted :
  exists p u loc, plain p /\ Forall (narrow true) p /\ FMIPathToURI true p (room 64) 64 = Done (OK, u) /\ c_string u = Some loc /\
    uri_chars (fun b => unreserved b || delimiter b) loc = false.
Proof.
  exists [x2f; x09]. do 2 eexists.
  split. { intros H. cbn in H. repeat destruct H as [H|H]; try discriminate H; exact H. }
  split; [repeat apply Forall_cons; try apply Forall_nil; right; reflexivity|].
  split; [vm_compute; reflexivity|]. split; vm_compute; reflexivity.
Qed.

(** ** C44: through the wrapper functions the FMU sees the same calls, and returns the same statuses, values and
    callbacks, except for ExitConfigurationMode ... *)
Theorem C44_forwards_partial :
  forall (F : Type) (NF : Num F) f szof fuel l w s obs s',
    Forall (fun p => snd p <> O3ExitConfigurationMode) l ->
    (run3 (model_of (F := F) FMI3 f) szof fuel l s = Done (obs, s') <->
     exists w', wrun3 (model_of FMI3 f) szof fuel l w s = Done (obs, w', s')).
Proof. exact @forwards3. Qed.
Theorem C44_forwards_fmi2 :
  forall (F : Type) (NF : Num F) f szof fuel l w s obs s',
    run2 (model_of (F := F) FMI2 f) szof fuel l s = Done (obs, s') <->
    exists w', wrun2 (model_of FMI2 f) szof fuel l w s = Done (obs, w', s').
Proof. exact @forwards2. Qed.
(** ... and as long as every call returns OK the state that the wrapper keeps is the mode of the FMU, and
    ExitConfigurationMode is forwarded, too.  Missing: EnterStepMode and SetFMUState, which the wrapper does not follow,
    and histories with a failed call. *)
Theorem C44_state_partial :
  forall (F : Type) (NF : Num F) f szof fuel w0 s0 l obs w s,
    wrapped3 (model_of (F := F) FMI3 f) w0 s0 ->
    (forall e o i, In (e, o) l -> image3 o = Some i -> saved3 (model_of FMI3 f) szof i) ->
    Forall (fun p => unfollowed3 (model_of FMI3 f) (snd p) = false) l ->
    wrun3 (model_of FMI3 f) szof fuel l w0 s0 = Done (obs, w, s) -> all_ok (model_of FMI3 f) obs ->
    run3 (model_of FMI3 f) szof fuel l s0 = Done (obs, s) /\ mode_named (w_state w) = Some (mode_of s).
Proof. exact @tracks3. Qed.
Theorem C44_state_fmi2_partial :
  forall (F : Type) (NF : Num F) f szof fuel w0 s0 l obs w s,
    wrapped2 (model_of (F := F) FMI2 f) w0 s0 ->
    (forall e o i, In (e, o) l -> image2 o = Some i -> saved2 (model_of FMI2 f) szof i) ->
    Forall (fun p => unfollowed2 (model_of FMI2 f) (snd p) = false) l ->
    wrun2 (model_of FMI2 f) szof fuel l w0 s0 = Done (obs, w, s) -> all_ok (model_of FMI2 f) obs ->
    mode_named2 (w_state w) = Some (mode_of s).
Proof. exact @tracks2. Qed.

Definition wCS f ev := FMI3InstantiateCoSimulation (m3' f) env0 name0 (Some (guid f)) None false ev true 0%N true false.
Definition w2 f := FMI2Instantiate (m2' f) env0 name0 CoSimulation (Some (guid f)) None 0%N false.
Definition wcase3 f ev l (w0 w : Wrap) s0 s obs : Prop :=
  (exists tr, wCS f ev = Done (OK, Some (w0, s0), tr)) /\
  wrun3 (m3' f) szof0 fuel0 (map (fun o => (env0, o)) l) w0 s0 = Done (obs, w, s).
(** the hypotheses are met: a step of BouncingBall (and in FMI 2.0 a reset) *)
Example C44_case :
  exists w0 w s0 s obs, wcase3 BouncingBall false [O3EnterInitializationMode (lit 0) false (lit 0); O3ExitInitializationMode;
    O3DoStep (lit 0) (nlit 1 (-1)) true true true true; O3Terminate; O3Reset] w0 w s0 s obs /\ all_ok (m3' BouncingBall) obs /\ w_state w = FMIInstantiatedState.
Proof.
  do 5 eexists. split; [split; [eexists; vm_compute; reflexivity|vm_compute; reflexivity]|].
  split; [repeat apply Forall_cons; try apply Forall_nil; reflexivity|reflexivity].
Qed.
Example C44_case_fmi2 :
  exists w0 w s0 s obs tr, w2 VanDerPol = Done (OK, Some (w0, s0), tr) /\
    wrun2 (m2' VanDerPol) szof0 fuel0 (map (fun o => (env0, o)) [O2SetupExperiment (lit 0) false (lit 0);
      O2EnterInitializationMode; O2ExitInitializationMode]) w0 s0 = Done (obs, w, s) /\ all_ok (m2' VanDerPol) obs /\ w_state w = FMIStepModeState.
Proof.
  do 6 eexists. split; [vm_compute; reflexivity|]. split; [vm_compute; reflexivity|].
  split; [repeat apply Forall_cons; try apply Forall_nil; reflexivity|reflexivity].
Qed.

(** EnterStepMode leaves the wrapper in event mode ... *)
Theorem C44_step_mode_refuted :
  exists w0 w s0 s obs, wcase3 BouncingBall true [O3EnterInitializationMode (lit 0) false (lit 0); O3ExitInitializationMode;
    O3EnterStepMode] w0 w s0 s obs /\ all_ok (m3' BouncingBall) obs /\ mode_named (w_state w) <> Some (mode_of s).
Proof.
  do 5 eexists. split; [split; [eexists; vm_compute; reflexivity|vm_compute; reflexivity]|].
  split; [repeat apply Forall_cons; try apply Forall_nil; reflexivity|vm_compute; discriminate].
Qed.
(** ... a refused call changes the state of the wrapper to the mode the FMU did not enter ... *)
Theorem C44_refused_refuted :
  exists w0 w s0 s obs, wcase3 BouncingBall false [O3ExitInitializationMode] w0 w s0 s obs /\
    map (fun r => fst (fst r)) obs = [Error] /\ w_state w = FMIStepModeState /\ mode_of s = Terminated.
Proof.
  do 5 eexists. split; [split; [eexists; vm_compute; reflexivity|vm_compute; reflexivity]|].
  split; [reflexivity|]. split; reflexivity.
Qed.
(** ... and after a SetFMUState that puts the FMU into configuration mode the wrapper refuses ExitConfigurationMode,
    which the FMU accepts. *)
Theorem C44_exit_configuration_refuted :
  exists w0 w s0 s obs, wcase3 Feedthrough false [O3EnterConfigurationMode; O3GetFMUState true None; O3ExitConfigurationMode; O3SetFMUState (Some 0);
      O3ExitConfigurationMode] w0 w s0 s obs /\
    map (fun r => fst (fst r)) obs = [OK; OK; OK; OK; Error] /\ mode_of s = ConfigurationMode /\
    exists obs' s', run3 (m3' Feedthrough) szof0 fuel0 (map (fun o => (env0, o)) [O3EnterConfigurationMode; O3GetFMUState true None; O3ExitConfigurationMode;
      O3SetFMUState (Some 0); O3ExitConfigurationMode]) s0 = Done (obs', s') /\ map (fun r => fst (fst r)) obs' = [OK; OK; OK; OK; OK].
Proof.
  do 5 eexists. split; [split; [eexists; vm_compute; reflexivity|vm_compute; reflexivity]|].
  split; [reflexivity|]. split; [reflexivity|]. do 2 eexists. split; vm_compute; reflexivity.
Qed.

Definition PropImporter_all := (@C41_decoded_path, @C41_importer_path_partial, C41_signed_refuted, C42_memory_safe, C42_text_partial,
  C42_truncated_refuted, C42_endless_refuted, C43_uri_partial, C43_injective_partial, C43_characters_partial, C43_injective_refuted,
  C43_bounds_refuted, C43_delimiters_refuted, C43_control_refuted, @C44_forwards_partial, @C44_forwards_fmi2, @C44_state_partial,
  @C44_state_fmi2_partial, C44_step_mode_refuted, C44_refused_refuted, C44_exit_configuration_refuted).
Print Assumptions PropImporter_all.
