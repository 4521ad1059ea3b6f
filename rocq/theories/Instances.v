(** Instances.v -- the lemmas behind PropInstance.v in their final form. *)
From Coq Require Import List NArith ZArith Bool.
From Verif Require Import Base Instance ModelIface Core Fmi3 Fmi2 Api Fmus NumB64 LawsFmus SpecModes SpecHist SpecDebug
  SpecCreate Logic Gate Effect Reach Debug Histories Create Modes Samples.
Import ListNotations.
Set Implicit Arguments.

Section Instances.
  Context {F : Type} {NF : Num F}.

  Lemma messages3 (f : FMU) szof fuel env (o : Op3 F (md (model_of FMI3 f))) s st out s' t e :
    reach3 (model_of FMI3 f) szof s ->
    exec3 (model_of FMI3 f) szof fuel env o s = Done (st, out, s', t) ->
    In e t -> is_log e = true ->
    e = ELog Error CatLogStatusError /\ hasLogger (ctl (sinst s)) = true /\
    (logErrors (ctl (sinst s)) = true \/
     (exists b n c, o = O3SetDebugLogging b n c) /\ logErrors (ctl (sinst s')) = true).
  Proof.
    intros R E. apply (@exec3_logs _ _ _ szof (model_laws FMI3 f) _ _ _ _ _ _ _ _ (reach3_modes (model_laws FMI3 f) R) E).
  Qed.
  Lemma messages2 (f : FMU) szof fuel env (o : Op2 F (md (model_of FMI2 f))) s st out s' t e :
    exec2 (model_of FMI2 f) szof fuel env o s = Done (st, out, s', t) ->
    In e t -> is_log e = true ->
    e = ELog Error CatLogStatusError /\ hasLogger (ctl (sinst s)) = true /\
    (logErrors (ctl (sinst s)) = true \/
     (exists b n c, o = O2SetDebugLogging b n c) /\ logErrors (ctl (sinst s')) = true).
  Proof. intros E. apply (@exec2_logs _ _ _ szof (model_laws FMI2 f) _ _ _ _ _ _ _ _ E). Qed.

  Lemma debug3 (f : FMU) szof fuel env on n cats (s : Sys F (md (model_of FMI3 f))) :
    In (mode_of s) modes3 ->
    debug_outcome on n cats s (exec3 (model_of FMI3 f) szof fuel env (O3SetDebugLogging on n cats) s).
  Proof. intro H. rewrite debug_exec3 by exact H. apply debug_body_outcome. Qed.
  Lemma debug2 (f : FMU) szof fuel env on n cats (s : Sys F (md (model_of FMI2 f))) :
    In (mode_of s) observable2 ->
    debug_outcome on n cats s (exec2 (model_of FMI2 f) szof fuel env (O2SetDebugLogging on n cats) s).
  Proof.
    intro H. rewrite debug_exec2; [apply debug_body_outcome|]. cbn in *. intuition auto 20.
  Qed.

  Lemma null_instance3 (f : FMU) szof fuel l :
    runH (api3 szof fuel) l (HNull (model_of FMI3 f)) =
    Done (map (fun p => (Error, untouched3 (model_of FMI3 f) (snd p), [])) l, HNull (model_of FMI3 f)) /\
    apiFree (HNull (model_of FMI3 f)) = Done (HNull (model_of FMI3 f)).
  Proof. split; [apply null3|reflexivity]. Qed.
  Lemma null_instance2 (f : FMU) szof fuel l :
    runH (api2 szof fuel) l (HNull (model_of FMI2 f)) =
    Done (map (fun p => (Error, untouched2 (model_of FMI2 f) (snd p), [])) l, HNull (model_of FMI2 f)) /\
    apiFree (HNull (model_of FMI2 f)) = Done (HNull (model_of FMI2 f)).
  Proof. split; [apply null2|reflexivity]. Qed.
  Lemma live_instance3 (f : FMU) szof fuel l s obs p :
    runH (api3 szof fuel) l (HLive (model_of FMI3 f) s) = Done (obs, p) ->
    exists s', p = HLive (model_of FMI3 f) s' /\ run3 (model_of FMI3 f) szof fuel l s = Done (obs, s').
  Proof.
    rewrite live3. destruct (run3 _ _ _ _ _) as [[o s']| |]; try discriminate.
    intro H; inversion H; subst. eauto.
  Qed.

  Lemma instantiate_me (f : FMU) env name token resource loggingOn environment logger :
    let r := fmi3InstantiateModelExchange (model_of FMI3 f) env name token resource loggingOn environment logger in
    (declares3 f ModelExchange = true /\ is_name name /\ is_token f token ->
     exists i : Inst F (md (model_of FMI3 f)), r = Done (Some i, []) /\
       fresh name resource ModelExchange logger loggingOn environment false false i /\ reads_starts3 f i) /\
    (~ (declares3 f ModelExchange = true /\ is_name name /\ is_token f token) ->
     exists tr, r = Done (None, tr) /\ (logger = false -> tr = [])).
  Proof.
    split.
    - intros (A & B & C). apply me3_valid; auto. intros ->. discriminate.
    - intro H. apply me3_invalid. intros (A & B & C). apply H. split; auto. destruct f; auto; contradiction.
  Qed.
  Lemma instantiate_cs (f : FMU) env name token resource loggingOn eventMode earlyReturn environment
        logger intermediate :
    let r := fmi3InstantiateCoSimulation (model_of FMI3 f) env name token resource loggingOn eventMode earlyReturn
               environment logger intermediate in
    ((eventMode = true -> handles_events f = true) /\ is_name name /\ is_token f token ->
     exists i : Inst F (md (model_of FMI3 f)), r = Done (Some i, []) /\
       fresh name resource CoSimulation logger loggingOn environment eventMode earlyReturn i /\ reads_starts3 f i) /\
    (~ ((eventMode = true -> handles_events f = true) /\ is_name name /\ is_token f token) ->
     exists tr, r = Done (None, tr) /\ (logger = false -> tr = [])).
  Proof.
    split.
    - intros (A & B & C). now apply cs3_valid.
    - intro H. now apply cs3_invalid.
  Qed.
  Lemma instantiate_se (f : FMU) env name token resource loggingOn environment logger clockUpdate lock unlock :
    let r := fmi3InstantiateScheduledExecution (model_of FMI3 f) env name token resource loggingOn environment
               logger clockUpdate lock unlock in
    (declares3 f ScheduledExecution = true /\ is_name name /\ is_token f token ->
     exists i : Inst F (md (model_of FMI3 f)), r = Done (Some i, []) /\
       fresh name resource ScheduledExecution logger loggingOn environment false false i /\ reads_starts3 f i) /\
    (~ (declares3 f ScheduledExecution = true /\ is_name name /\ is_token f token) ->
     exists tr, r = Done (None, tr) /\ (logger = false -> tr = [])).
  Proof.
    split.
    - intros (A & B & C). destruct f; try discriminate. now apply se3_valid.
    - intro H. apply se3_invalid. intros (-> & B & C). apply H. auto.
  Qed.
  Lemma instantiate_2 (f : FMU) env name ty token resource environment logger loggingOn :
    let r := fmi2Instantiate (model_of FMI2 f) env name ty token resource environment logger loggingOn in
    (logger = true /\ is_name name /\ is_token f token ->
     exists i : Inst F (md (model_of FMI2 f)), r = Done (Some i, []) /\
       fresh name resource ty true loggingOn environment false false i /\ reads_starts2 f i) /\
    (~ (logger = true /\ is_name name /\ is_token f token) ->
     exists tr, r = Done (None, tr) /\ (logger = false -> tr = [])).
  Proof.
    split.
    - intros (-> & B & C). now apply i2_valid.
    - intro H. now apply i2_invalid.
  Qed.

  Lemma settings_3 (f : FMU) szof fuel env (o : Op3 F (md (model_of FMI3 f))) s st out s' t :
    reach3 (model_of FMI3 f) szof s ->
    exec3 (model_of FMI3 f) szof fuel env o s = Done (st, out, s', t) ->
    effect3 (has_output_derivatives f) o s st (ctl (sinst s')).
  Proof.
    intros R E. pose proof (reach3_modes (model_laws FMI3 f) R) as Hm.
    rewrite <- (output_derivatives_eq FMI3).
    exact (proj1 (@exec3_effect _ _ _ szof env (model_laws FMI3 f) _ _ _ _ _ _ _ Hm E)).
  Qed.
  Lemma settings_2 (f : FMU) szof fuel env (o : Op2 F (md (model_of FMI2 f))) s st out s' t :
    exec2 (model_of FMI2 f) szof fuel env o s = Done (st, out, s', t) ->
    effect2 o s st (ctl (sinst s')).
  Proof.
    intros E. exact (proj1 (@exec2_effect _ _ _ szof env (model_laws FMI2 f) _ _ _ _ _ _ _ E)).
  Qed.
End Instances.

Lemma roberts_event_mode :
  exists f env name token, declares_eventMode f = true /\ declares3 f CoSimulation = true /\
    is_name name /\ is_token f token /\
    fmi3InstantiateCoSimulation (F := B64) (model_of FMI3 f) env name token None false true false 0%N true false =
    Done (None, [ELog Error CatError]).
Proof.
  exists Roberts, env0, name0, (Some (guid Roberts)). repeat split.
  - eexists. split; [reflexivity|discriminate].
  - eexists. split; reflexivity.
Qed.
Lemma clocks_co_simulation :
  exists f env name token i, declares3 f CoSimulation = false /\
    fmi3InstantiateCoSimulation (F := B64) (model_of FMI3 f) env name token None false false false 0%N true false =
    Done (Some i, []).
Proof.
  exists Clocks, env0, name0, (Some (guid Clocks)). eexists. split; [reflexivity|vm_compute; reflexivity].
Qed.
