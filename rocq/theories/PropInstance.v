(** PropInstance.v -- properties C15, C24, C25, C27, C28, C47: identity and logging of an
    instance, NULL instances, instantiation, which settings a call changes. *)
From Coq Require Import List NArith ZArith Bool Strings.String.
From Verif Require Import Base Instance ModelIface Core Fmi3 Fmi2 Api Fmus NumB64 LawsFmus SpecModes SpecHist
  SpecDebug SpecCreate Reach Histories Create Instances Samples.
Import ListNotations.
Open Scope list_scope.
Set Implicit Arguments.

(** C15: no history of calls, including SetFMUState with states of other instances, changes the
    interface type, name, resource location, environment or callbacks; without SetDebugLogging
    it does not change the log categories either. *)
Theorem C15_identity_is_kept :
  forall (F : Type) (NF : Num F) (f : FMU) szof fuel l s obs s',
    reach3 (model_of FMI3 f) szof s ->
    (forall e o i, In (e, o) l -> image3 o = Some i -> saved3 (model_of FMI3 f) szof i) ->
    run3 (model_of FMI3 f) szof fuel l s = Done (obs, s') ->
    identity s' = identity s /\
    (Forall (fun p => debugs3 (snd p) = false) l -> logging s' = logging s).
Proof. intros F NF f szof fuel. exact (run3_identity (model_laws FMI3 f) fuel). Qed.
Print Assumptions C15_identity_is_kept.
Theorem C15_identity_is_kept_fmi2 :
  forall (F : Type) (NF : Num F) (f : FMU) szof fuel l s obs s',
    run2 (model_of FMI2 f) szof fuel l s = Done (obs, s') ->
    identity s' = identity s /\
    (Forall (fun p => debugs2 (snd p) = false) l -> logging s' = logging s).
Proof. intros F NF f szof fuel. exact (run2_identity szof (model_laws FMI2 f) fuel). Qed.
Print Assumptions C15_identity_is_kept_fmi2.
(** a history with a restored state that was saved while the logging was different *)
Example C15_applies : exists s, reach3 (m3' Dahlquist) szof0 s /\
  logging s = (false, false) /\
  exists out s' t, exec3 (m3' Dahlquist) szof0 fuel0 env0 (O3SetFMUState (Some 0)) s = Done (OK, out, s', t) /\
    logging s' = (false, false) /\ (exists i, saved s 0 = Some i /\ logErrors (ctl i) = true).
Proof.
  case3 (newCS false false Dahlquist)
    [O3GetFMUState (F := B64) (D := md (m3' Dahlquist)) true None; O3SetDebugLogging false 0 None].
  split; [reflexivity|]. do 3 eexists. split; [reflexivity|]. split; [reflexivity|].
  eexists. split; reflexivity.
Qed.

(** C24: the logger is called only if it exists, only with error messages of category
    logStatusError and only while this category is enabled; messages of category logEvents are
    never sent. *)
Theorem C24_messages_need_permission :
  forall (F : Type) (NF : Num F) (f : FMU) szof fuel env (o : Op3 F (md (model_of FMI3 f))) s st out s' t e,
    reach3 (model_of FMI3 f) szof s ->
    exec3 (model_of FMI3 f) szof fuel env o s = Done (st, out, s', t) ->
    In e t -> is_log e = true ->
    e = ELog Error CatLogStatusError /\ hasLogger (ctl (sinst s)) = true /\
    (logErrors (ctl (sinst s)) = true \/
     (exists b n c, o = O3SetDebugLogging b n c) /\ logErrors (ctl (sinst s')) = true).
Proof. exact @messages3. Qed.
Print Assumptions C24_messages_need_permission.
Theorem C24_messages_need_permission_fmi2 :
  forall (F : Type) (NF : Num F) (f : FMU) szof fuel env (o : Op2 F (md (model_of FMI2 f))) s st out s' t e,
    exec2 (model_of FMI2 f) szof fuel env o s = Done (st, out, s', t) ->
    In e t -> is_log e = true ->
    e = ELog Error CatLogStatusError /\ hasLogger (ctl (sinst s)) = true /\
    (logErrors (ctl (sinst s)) = true \/
     (exists b n c, o = O2SetDebugLogging b n c) /\ logErrors (ctl (sinst s')) = true).
Proof. exact @messages2. Qed.
Print Assumptions C24_messages_need_permission_fmi2.
(** Without a logger, or with error logging off and no SetDebugLogging, whole histories are silent. *)
Theorem C24_silent_histories :
  forall (F : Type) (NF : Num F) (f : FMU) szof fuel l s obs s',
    reach3 (model_of FMI3 f) szof s ->
    (forall e o i, In (e, o) l -> image3 o = Some i -> saved3 (model_of FMI3 f) szof i) ->
    (hasLogger (ctl (sinst s)) = false \/
     logErrors (ctl (sinst s)) = false /\ Forall (fun p => debugs3 (snd p) = false) l) ->
    run3 (model_of FMI3 f) szof fuel l s = Done (obs, s') ->
    Forall (fun r => Forall (fun e => is_log e = false) (snd r)) obs.
Proof. intros F NF f szof fuel. exact (run3_silent (model_laws FMI3 f) fuel). Qed.
Print Assumptions C24_silent_histories.
Theorem C24_silent_histories_fmi2 :
  forall (F : Type) (NF : Num F) (f : FMU) szof fuel l s obs s',
    (hasLogger (ctl (sinst s)) = false \/
     logErrors (ctl (sinst s)) = false /\ Forall (fun p => debugs2 (snd p) = false) l) ->
    run2 (model_of FMI2 f) szof fuel l s = Done (obs, s') ->
    Forall (fun r => Forall (fun e => is_log e = false) (snd r)) obs.
Proof. intros F NF f szof fuel. exact (run2_silent szof (model_laws FMI2 f) fuel). Qed.
Print Assumptions C24_silent_histories_fmi2.
(** an error that is logged, and the same error after logging was switched off *)
Example C24_applies : exists s, reach3 (m3' Dahlquist) szof0 s /\
  exists out s' t, exec3 (m3' Dahlquist) szof0 fuel0 env0 O3Terminate s = Done (Error, out, s', t) /\
    t = [ELog Error CatLogStatusError].
Proof. case3 (newCS false false Dahlquist) (@nil (Op3 B64 (md (m3' Dahlquist)))). do 3 eexists. split; reflexivity. Qed.
Example C24_silent_applies : exists s, reach3 (m3' Dahlquist) szof0 s /\
  logErrors (ctl (sinst s)) = false /\
  exists out s' t, exec3 (m3' Dahlquist) szof0 fuel0 env0 O3Terminate s = Done (Error, out, s', t) /\ t = [].
Proof.
  case3 (newCS false false Dahlquist)
    [O3SetDebugLogging (F := B64) (D := md (m3' Dahlquist)) false 1 (Some [Some (text "logStatusError")])].
  split; [reflexivity|]. do 3 eexists. split; reflexivity.
Qed.

(** C25: SetDebugLogging in a mode that allows it; the cases are spelled out in [debug_outcome]. *)
Theorem C25_requested_categories :
  forall (F : Type) (NF : Num F) (f : FMU) szof fuel env on n cats s,
    In (mode_of s) modes3 ->
    debug_outcome on n cats s
      (exec3 (model_of FMI3 f) szof fuel env (O3SetDebugLogging on n cats) s).
Proof. exact @debug3. Qed.
Print Assumptions C25_requested_categories.
Theorem C25_requested_categories_fmi2 :
  forall (F : Type) (NF : Num F) (f : FMU) szof fuel env on n cats s,
    In (mode_of s) observable2 ->
    debug_outcome on n cats s
      (exec2 (model_of FMI2 f) szof fuel env (O2SetDebugLogging on n cats) s).
Proof. exact @debug2. Qed.
Print Assumptions C25_requested_categories_fmi2.
Example C25_applies :
  Forall known_category [Some (text "logEvents"); Some (text "logStatusError"); Some (text "logEvents")] /\
  ~ known_category (Some (text "logAll")).
Proof.
  split.
  - apply Forall_cons; [left; eexists; split; reflexivity|]. apply Forall_cons; [right; eexists; split; reflexivity|].
    apply Forall_cons; [left; eexists; split; reflexivity|]. apply Forall_nil.
  - intros [(s & H & E)|(s & H & E)]; injection H; intros; subst; discriminate.
Qed.

(** C27: on a NULL instance every call of any history returns Error, writes nothing, calls no
    callback; Free does nothing. *)
Theorem C27_null_instance :
  forall (F : Type) (NF : Num F) (f : FMU) szof fuel l,
    runH (api3 szof fuel) l (HNull (model_of FMI3 f)) =
    Done (map (fun p => (Error, untouched3 (model_of FMI3 f) (snd p), [])) l, HNull (model_of FMI3 f)) /\
    apiFree (HNull (model_of FMI3 f)) = Done (HNull (model_of FMI3 f)).
Proof. exact @null_instance3. Qed.
Print Assumptions C27_null_instance.
Theorem C27_null_instance_fmi2 :
  forall (F : Type) (NF : Num F) (f : FMU) szof fuel l,
    runH (api2 szof fuel) l (HNull (model_of FMI2 f)) =
    Done (map (fun p => (Error, untouched2 (model_of FMI2 f) (snd p), [])) l, HNull (model_of FMI2 f)) /\
    apiFree (HNull (model_of FMI2 f)) = Done (HNull (model_of FMI2 f)).
Proof. exact @null_instance2. Qed.
Print Assumptions C27_null_instance_fmi2.
(** and calls never turn a live instance into a NULL or freed one *)
Theorem C27_live_instance :
  forall (F : Type) (NF : Num F) (f : FMU) szof fuel l s obs p,
    runH (api3 szof fuel) l (HLive (model_of FMI3 f) s) = Done (obs, p) ->
    exists s', p = HLive (model_of FMI3 f) s' /\ run3 (model_of FMI3 f) szof fuel l s = Done (obs, s').
Proof. exact @live_instance3. Qed.
Print Assumptions C27_live_instance.
Example C27_applies : exists obs,
  runH (api3 szof0 fuel0) [(env0, O3GetNumberOfContinuousStates true); (env0, O3Terminate)] (HNull (m3' Stair)) =
  Done (obs, HNull (m3' Stair)) /\ obs = [(Error, OCount None, []); (Error, ONone, [])].
Proof. eexists. split; [reflexivity|reflexivity]. Qed.

(** C28: instantiation.  For all arguments the function returns (no undefined behaviour); it
    returns an instance exactly if the name is not empty, the token is that of the model
    description, the interface type is one of the FMU's and event mode is requested only from the
    FMUs that handle events.  The instance is in Instantiated and reads as the start values. *)
Theorem C28_model_exchange :
  forall (F : Type) (NF : Num F) (f : FMU) env name token resource loggingOn environment logger,
    let r := fmi3InstantiateModelExchange (model_of FMI3 f) env name token resource loggingOn environment logger in
    (declares3 f ModelExchange = true /\ is_name name /\ is_token f token ->
     exists i : Inst F (md (model_of FMI3 f)), r = Done (Some i, []) /\
       fresh name resource ModelExchange logger loggingOn environment false false i /\ reads_starts3 f i) /\
    (~ (declares3 f ModelExchange = true /\ is_name name /\ is_token f token) ->
     exists tr, r = Done (None, tr) /\ (logger = false -> tr = [])).
Proof. exact @instantiate_me. Qed.
Print Assumptions C28_model_exchange.
Theorem C28_co_simulation :
  forall (F : Type) (NF : Num F) (f : FMU) env name token resource loggingOn eventMode earlyReturn environment
         logger intermediate,
    let r := fmi3InstantiateCoSimulation (model_of FMI3 f) env name token resource loggingOn eventMode earlyReturn
               environment logger intermediate in
    ((eventMode = true -> handles_events f = true) /\ is_name name /\ is_token f token ->
     exists i : Inst F (md (model_of FMI3 f)), r = Done (Some i, []) /\
       fresh name resource CoSimulation logger loggingOn environment eventMode earlyReturn i /\ reads_starts3 f i) /\
    (~ ((eventMode = true -> handles_events f = true) /\ is_name name /\ is_token f token) ->
     exists tr, r = Done (None, tr) /\ (logger = false -> tr = [])).
Proof. exact @instantiate_cs. Qed.
Print Assumptions C28_co_simulation.
Theorem C28_scheduled_execution :
  forall (F : Type) (NF : Num F) (f : FMU) env name token resource loggingOn environment logger clockUpdate lock unlock,
    let r := fmi3InstantiateScheduledExecution (model_of FMI3 f) env name token resource loggingOn environment
               logger clockUpdate lock unlock in
    (declares3 f ScheduledExecution = true /\ is_name name /\ is_token f token ->
     exists i : Inst F (md (model_of FMI3 f)), r = Done (Some i, []) /\
       fresh name resource ScheduledExecution logger loggingOn environment false false i /\ reads_starts3 f i) /\
    (~ (declares3 f ScheduledExecution = true /\ is_name name /\ is_token f token) ->
     exists tr, r = Done (None, tr) /\ (logger = false -> tr = [])).
Proof. exact @instantiate_se. Qed.
Print Assumptions C28_scheduled_execution.
Theorem C28_fmi2 :
  forall (F : Type) (NF : Num F) (f : FMU) env name ty token resource environment logger loggingOn,
    let r := fmi2Instantiate (model_of FMI2 f) env name ty token resource environment logger loggingOn in
    (logger = true /\ is_name name /\ is_token f token ->
     exists i : Inst F (md (model_of FMI2 f)), r = Done (Some i, []) /\
       fresh name resource ty true loggingOn environment false false i /\ reads_starts2 f i) /\
    (~ (logger = true /\ is_name name /\ is_token f token) ->
     exists tr, r = Done (None, tr) /\ (logger = false -> tr = [])).
Proof. exact @instantiate_2. Qed.
Print Assumptions C28_fmi2.
(** The model descriptions say otherwise in two cases: Roberts declares hasEventMode="true" but
    cannot be instantiated with event mode, Clocks does not declare co-simulation but can be. *)
Theorem C28_declared_event_mode_refuted :
  exists f env name token, declares_eventMode f = true /\ declares3 f CoSimulation = true /\
    is_name name /\ is_token f token /\
    fmi3InstantiateCoSimulation (F := B64) (model_of FMI3 f) env name token None false true false 0%N true false =
    Done (None, [ELog Error CatError]).
Proof. exact roberts_event_mode. Qed.
Print Assumptions C28_declared_event_mode_refuted.
Theorem C28_undeclared_interface_refuted :
  exists f env name token i, declares3 f CoSimulation = false /\
    fmi3InstantiateCoSimulation (F := B64) (model_of FMI3 f) env name token None false false false 0%N true false =
    Done (Some i, []).
Proof. exact clocks_co_simulation. Qed.
Print Assumptions C28_undeclared_interface_refuted.
Example C28_applies :
  is_name name0 /\ is_token StateSpace (Some (guid StateSpace ++ [Byte.x00; Byte.x41])) /\
  ~ is_token StateSpace (Some (guid Roberts)) /\ ~ is_name (Some [Byte.x00; Byte.x41]).
Proof.
  repeat split.
  - eexists. split; [reflexivity|discriminate].
  - eexists. split; reflexivity.
  - intros (t & E & H). injection E as <-. discriminate.
  - intros (t & E & H). injection E as <-. now apply H.
Qed.

(** C47: a call changes only the settings that it is documented to change ([effect3], [effect2]). *)
Theorem C47_settings :
  forall (F : Type) (NF : Num F) (f : FMU) szof fuel env (o : Op3 F (md (model_of FMI3 f))) s st out s' t,
    reach3 (model_of FMI3 f) szof s ->
    exec3 (model_of FMI3 f) szof fuel env o s = Done (st, out, s', t) ->
    effect3 (has_output_derivatives f) o s st (ctl (sinst s')).
Proof. exact @settings_3. Qed.
Print Assumptions C47_settings.
Theorem C47_settings_fmi2 :
  forall (F : Type) (NF : Num F) (f : FMU) szof fuel env (o : Op2 F (md (model_of FMI2 f))) s st out s' t,
    exec2 (model_of FMI2 f) szof fuel env o s = Done (st, out, s', t) ->
    effect2 o s st (ctl (sinst s')).
Proof. exact @settings_2. Qed.
Print Assumptions C47_settings_fmi2.
Example C47_applies : exists s, reach3 (m3' Dahlquist) szof0 s /\
  exists out s' t, exec3 (m3' Dahlquist) szof0 fuel0 env0 (O3EnterInitializationMode (lit 1) true (lit 2)) s =
    Done (OK, out, s', t) /\ stopTime (ctl (sinst s')) = lit 2.
Proof. case3 (newCS false false Dahlquist) (@nil (Op3 B64 (md (m3' Dahlquist)))). do 3 eexists. split; reflexivity. Qed.
