(** PropCross.v -- property C23: the FMI 2 and the FMI 3 build of an FMU agree. *)
From Coq Require Import Strings.String List NArith ZArith Bool Reals.
From Verif Require Import Base Instance ModelIface Core Fmi3 Fmi2 Api Fmus NumB64 NumR Samples SpecModes SpecCreate SpecCross
  CrossFmus CrossNum.
Import ListNotations.
Open Scope list_scope.
Set Implicit Arguments.

(** C23: create the FMI 2 and the FMI 3 build of an FMU with the same name, token, log setting
    and environment (the resource locations may differ: a URI in FMI 2, a path in FMI 3), and
    play the same script [l] to both: calls that both standards allow in the current state, with any
    arguments, until a DoStep of FMI 2 returns Discard (and on from the next initialisation).
    Then both are created or none, and all calls return the same statuses, values, states,
    derivatives, event indicators, event information and log messages, reach the same time and the same
    mode, and step to the same end.  For doubles: all FMUs with both builds but Resource.
    The script may save any number of FMU states, restore them in any order, free them, and copy them by
    serializing: ask for the size, serialize, and deserialize the bytes to a new FMU state.
    Missing: Resource (see C23_resource_partial in PropCross2.v) and the enumeration of Feedthrough (see below). *)
Theorem C23_versions_agree_partial :
  forall (f : FMU) szof szof' fuel e ty name token resource resource' environment loggingOn (l : list (Env * Call B64)),
    built2 f = true -> f <> Resource -> ty <> ScheduledExecution ->
    forallb (fun p => portable f (snd p)) l = true ->
    born_alike (model_of FMI2 f) (model_of FMI3 f) szof szof' fuel l
      (new2 (model_of FMI2 f) e ty name token resource environment loggingOn)
      (new3 (model_of FMI3 f) e ty name token resource' environment loggingOn).
Proof. exact born_B64. Qed.
(** The same over the real numbers. *)
Theorem C23_versions_agree_real_partial :
  forall (inf : R) (f : FMU) szof szof' fuel e ty name token resource resource' environment loggingOn (l : list (Env * Call R)),
    let NF := NumR inf in
    built2 f = true -> f <> Resource -> ty <> ScheduledExecution ->
    forallb (fun p => portable f (snd p)) l = true ->
    born_alike (model_of FMI2 f) (model_of FMI3 f) szof szof' fuel l
      (new2 (model_of FMI2 f) e ty name token resource environment loggingOn)
      (new3 (model_of FMI3 f) e ty name token resource' environment loggingOn).
Proof. exact born_R. Qed.
(** And over any arithmetic for the FMUs without state events. *)
Theorem C23_versions_agree_any_partial :
  forall (F : Type) (NF : Num F) (f : FMU) szof szof' fuel e ty name token resource resource' environment loggingOn (l : list (Env * Call F)),
    built2 f = true -> f <> Resource -> f <> BouncingBall -> ty <> ScheduledExecution ->
    forallb (fun p => portable f (snd p)) l = true ->
    born_alike (model_of FMI2 f) (model_of FMI3 f) szof szof' fuel l
      (new2 (model_of FMI2 f) e ty name token resource environment loggingOn)
      (new3 (model_of FMI3 f) e ty name token resource' environment loggingOn).
Proof. exact born_any. Qed.

Definition uri0 : option bytes := Some (text "file:///tmp/resources"%string).
Definition path0 : option bytes := Some (text "/tmp/resources/"%string).
Definition born2 f ty := new2 (m2' f) env0 ty name0 (Some (m_token (m2' f))) uri0 0%N true.
Definition born3 f ty := new3 (m3' f) env0 ty name0 (Some (m_token (m3' f))) path0 0%N true.
Definition script (l : list (Call B64)) : list (Env * Call B64) := map (fun c => (env0, c)) l.
Definition tenth (k : Z) : Call B64 := CStep (nlit k (-1)) (nlit 1 (-1)).
Definition get1 vr : Call B64 := CGet TFloat64 [vr] [lit 0].
(** BouncingBall with a changed gravity, past a bounce, terminated, reset and started again *)
Definition C23_ball : list (Env * Call B64) :=
  script ([CSet TFloat64 [1%N; 5%N] [lit 1; lit (-10)]; CInit (lit 0) true (lit 3); CExitInit] ++
    flat_map (fun k => [tenth k; get1 1%N; get1 3%N]) [0; 1; 2; 3; 4; 5]%Z ++
    [CSet TFloat64 [6%N] [nlit 5 (-1)]; CTerminate; CReset; CInit (lit 0) false (lit 0); CExitInit; tenth 0; get1 1%N]).
Example C23_applies : forallb (fun p => portable BouncingBall (snd p)) C23_ball = true /\
  match born2 BouncingBall CoSimulation with
  | Done (Some i, _) => played (m2' BouncingBall) szof0 fuel0 [] false C23_ball
      (fun s => mode_of s = StepComplete /\ nlt (lit 0) (time (ctl (sinst s))) = true) (mkSys i [])
  | _ => False
  end.
Proof. split; [reflexivity|]. vm_compute. intuition congruence. Qed.
(** VanDerPol for Model Exchange: event mode, continuous time, states set and derivatives and a directional derivative read *)
Definition C23_model_exchange : list (Env * Call B64) :=
  script [CSet TFloat64 [5%N] [lit 2]; CInit (lit 0) false (lit 0); CExitInit; CUpdate; CEnterContinuous;
    CStates [lit 0; lit 0] 2; CSetTime (nlit 1 (-1)); CSetStates [lit 1; lit 3] 2; CDerivatives [lit 0; lit 0] 2;
    CDirectional [2%N; 4%N] [1%N] [lit 1] [lit 0; lit 0]; CCompleted; CNominals [lit 0; lit 0] 2; CIndicators [] 0; CTerminate; get1 2%N].
Example C23_applies_model_exchange : forallb (fun p => portable VanDerPol (snd p)) C23_model_exchange = true /\
  match born2 VanDerPol ModelExchange with
  | Done (Some i, _) => played (m2' VanDerPol) szof0 fuel0 [] false C23_model_exchange (fun s => mode_of s = Terminated) (mkSys i [])
  | _ => False
  end.
Proof. split; [reflexivity|]. vm_compute. intuition congruence. Qed.

(** BouncingBall, saved in flight, goes on past the bounce, goes back and bounces again; a second state is saved
    before the initialisation and restored at the end, a third one is freed *)
Definition C23_back : list (Env * Call B64) :=
  script ([CSave; CInit (lit 0) true (lit 3); CExitInit; tenth 0; tenth 1; CSave; CSave; CForget 2] ++
    flat_map (fun k => [tenth k; get1 1%N]) [2; 3; 4; 5]%Z ++ [CRestore 1] ++ flat_map (fun k => [tenth k; get1 1%N]) [2; 3; 4; 5]%Z ++
    [CRestore 0; CInit (lit 0) false (lit 0); CExitInit; tenth 0; get1 1%N]).
Example C23_applies_back : forallb (fun p => portable BouncingBall (snd p)) C23_back = true /\
  match born2 BouncingBall CoSimulation with
  | Done (Some i, _) => played (m2' BouncingBall) szof0 fuel0 [] false C23_back
      (fun s => mode_of s = StepComplete /\ nlt (lit 0) (time (ctl (sinst s))) = true) (mkSys i [])
  | _ => False
  end.
Proof. split; [reflexivity|]. vm_compute. intuition congruence. Qed.
(** Stair has asked to stop; restored to a state from before, it can be stepped again *)
Definition C23_again : list (Env * Call B64) :=
  script [CInit (lit 0) false (lit 0); CExitInit; CStep (lit 0) (lit 5); CSave; CStep (lit 5) (lit 7); CSave; CRestore 0; CStep (lit 5) (lit 1);
    CGet TInt32 [1%N] [0%Z]; CRestore 1; CTerminate].
Example C23_applies_again : forallb (fun p => portable Stair (snd p)) C23_again = true /\
  match born2 Stair CoSimulation with
  | Done (Some i, _) => played (m2' Stair) szof0 fuel0 [] false C23_again (fun s => mode_of s = Terminated) (mkSys i [])
  | _ => False
  end.
Proof. split; [reflexivity|]. vm_compute. intuition congruence. Qed.
(** The ball goes back to a serialized FMU state; the one it was made from has been freed *)
Definition C23_copy : list (Env * Call B64) :=
  script ([CInit (lit 0) true (lit 3); CExitInit; tenth 0; CSave; tenth 1; CCopy 0; CForget 0] ++
    flat_map (fun k => [tenth k; get1 1%N]) [2; 3; 4; 5]%Z ++ [CRestore 1] ++ flat_map (fun k => [tenth k; get1 1%N]) [1; 2; 3; 4; 5]%Z).
Example C23_applies_copy : forallb (fun p => portable BouncingBall (snd p)) C23_copy = true /\
  match born2 BouncingBall CoSimulation with
  | Done (Some i, _) => played (m2' BouncingBall) szof0 fuel0 [] false C23_copy
      (fun s => mode_of s = StepComplete /\ length (heap s) = 2 /\ nlt (nlit 5 (-1)) (time (ctl (sinst s))) = true) (mkSys i [])
  | _ => False
  end.
Proof. split; [reflexivity|]. vm_compute. intuition congruence. Qed.
(** Booleans of Feedthrough *)
Definition C23_boolean : list (Env * Call B64) :=
  script [CInit (lit 0) false (lit 0); CExitInit; CSetBoolean [27%N] [true]; CGetBoolean [28%N; 27%N] [false; false]; tenth 0; CSetBoolean [27%N] [false];
    CGetBoolean [28%N] [true]].
Example C23_applies_boolean : forallb (fun p => portable Feedthrough (snd p)) C23_boolean = true /\
  match born2 Feedthrough CoSimulation with
  | Done (Some i, _) => played (m2' Feedthrough) szof0 fuel0 [] false C23_boolean (fun s => mode_of s = StepComplete) (mkSys i [])
  | _ => False
  end.
Proof. split; [reflexivity|]. vm_compute. intuition congruence. Qed.

(** The enumeration of Feedthrough is read with fmi2GetInteger, but not with fmi3GetInt32. *)
Theorem C23_enumeration_refuted : exists l : list (Env * Call B64),
  match born2 Feedthrough CoSimulation with
  | Done (Some i, _) => played (m2' Feedthrough) szof0 fuel0 [] false l (fun s => mode_of s = StepComplete) (mkSys i [])
  | _ => False
  end /\
  ~ born_alike (m2' Feedthrough) (m3' Feedthrough) szof0 szof0 fuel0 l (born2 Feedthrough CoSimulation) (born3 Feedthrough CoSimulation).
Proof.
  exists (script [CInit (lit 0) false (lit 0); CExitInit; CGet TInt32 [34%N] [0%Z]]). split.
  - vm_compute. intuition congruence.
  - vm_compute. intros [_ H]. 
    do 2 (match type of H with ?A -> _ => assert (X : A) by (repeat split; auto 20); specialize (H X); clear X; destruct H as [_ H] end).
    match type of H with ?A -> _ => assert (X : A) by (repeat split; auto 20); specialize (H X); clear X; destruct H as [H _] end.
    destruct H as (_ & _ & _ & H & _). discriminate H.
Qed.

(** Stair stops when its counter reaches ten.  In FMI 2 the DoStep returns Discard and the next communication
    point is not moved, so an importer that goes on from the time reached gets Error; in FMI 3 it may go on. *)
Definition C23_to_the_end : list (Env * Call B64) := script [CInit (lit 0) false (lit 0); CExitInit; CStep (lit 0) (lit 12)].
Theorem C23_after_discard_refuted : exists i i' tr s s' l,
  born2 Stair CoSimulation = Done (Some i, tr) /\ born3 Stair CoSimulation = Done (Some i', tr) /\
  after_script (do2 (m2' Stair) szof0 fuel0) C23_to_the_end (mkSys i []) = Done s /\
  after_script (do3 (m3' Stair) szof0 fuel0) C23_to_the_end (mkSys i' []) = Done s' /\
  ~ alike (m2' Stair) (m3' Stair) szof0 szof0 fuel0 [] false l s s'.
Proof.
  do 5 eexists. exists (script [CStep (lit 9) (lit 1)]).
  split; [vm_compute; reflexivity|]. split; [vm_compute; reflexivity|]. split; [vm_compute; reflexivity|]. split; [vm_compute; reflexivity|].
  vm_compute. intro H. match type of H with ?A -> _ => assert (X : A) by (repeat split; auto 20); specialize (H X); clear X; destruct H as [H _] end.
  intuition congruence.
Qed.

Definition PropCross_all := (@C23_versions_agree_partial, @C23_versions_agree_any_partial, @C23_applies, @C23_applies_model_exchange,
  @C23_applies_back, @C23_applies_again, @C23_applies_copy, @C23_applies_boolean,
  @C23_enumeration_refuted, @C23_after_discard_refuted).
Print Assumptions PropCross_all.
Definition PropCross_R := @C23_versions_agree_real_partial.
Print Assumptions PropCross_R.
