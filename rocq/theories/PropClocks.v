(** PropClocks.v -- Clocks: C39 (ticks), C40 (locks); which functions call which callbacks: C48. *)
From Coq Require Import List NArith ZArith Bool Arith.
From Verif Require Import Base Instance ModelIface Core Fmi3 Fmi2 Api Fmus NumB64 SpecModes SpecHist SpecCreate SpecState SpecVars SpecClocks
  Traces Clock Samples.
Import ListNotations.
Set Implicit Arguments.

(** C39: after every history of a new instance (without SetFMUState) the counters are the numbers of
    successful activations since the creation or the last Reset, as [tally] counts them ... *)
Theorem C39_counters :
  forall (F : Type) (NF : Num F) szof fuel env i l obs s',
    made3 (model_of (F := F) FMI3 Clocks) i ->
    (forall e o j, In (e, o) l -> image3 o = Some j -> saved3 (model_of FMI3 Clocks) szof j) ->
    Forall (fun p => forall h, snd p <> O3SetFMUState h) l ->
    run3 (model_of FMI3 Clocks) szof fuel l (mkSys i []) = Done (obs, s') ->
    let a := tally l obs tally0 in
    let get := get3 (model_of FMI3 Clocks) szof env s' TInt32 in
    get 2001%N [ticks1 a] /\ get 2002%N [ticks2 a] /\ get 2003%N [ticks3 a] /\ get 2004%N [ticks a].
Proof. exact @clocks_counters. Qed.
(** ... the output clock is active if its tick was not read yet, and reading it clears it ... *)
Theorem C39_output_clock :
  forall (F : Type) (NF : Num F) szof fuel env i l obs s b,
    made3 (model_of (F := F) FMI3 Clocks) i ->
    (forall e o j, In (e, o) l -> image3 o = Some j -> saved3 (model_of FMI3 Clocks) szof j) ->
    Forall (fun p => forall h, snd p <> O3SetFMUState h) l ->
    run3 (model_of FMI3 Clocks) szof fuel l (mkSys i []) = Done (obs, s) ->
    let read := O3GetClock (Some [1005%N]) 1 (Some [b]) in
    exists s' t, exec3 (model_of FMI3 Clocks) szof fuel env read s = Done (OK, OClocks (Some [ticked (tally l obs tally0)]), s', t) /\
      exists s'' t', exec3 (model_of FMI3 Clocks) szof fuel env read s' = Done (OK, OClocks (Some [false]), s'', t').
Proof. exact @clocks_output. Qed.
(** ... and an activation that succeeds is one of an input clock, and tells the importer to look at the
    clocks when it is the fifth, tenth, ...; the clocks 2 and 3 do so only then. *)
Theorem C39_reported :
  forall (F : Type) (NF : Num F) szof fuel env i l obs s vr time out s' tr,
    made3 (model_of (F := F) FMI3 Clocks) i ->
    (forall e o j, In (e, o) l -> image3 o = Some j -> saved3 (model_of FMI3 Clocks) szof j) ->
    Forall (fun p => forall h, snd p <> O3SetFMUState h) l ->
    run3 (model_of FMI3 Clocks) szof fuel l (mkSys i []) = Done (obs, s) ->
    exec3 (model_of FMI3 Clocks) szof fuel env (O3ActivateModelPartition vr time) s = Done (OK, out, s', tr) ->
    let fifth := every_fifth (ticks (tally l obs tally0) + 1) = true in
    (vr = 1001%N \/ vr = 1002%N \/ vr = 1003%N) /\ (fifth -> In EClockUpdate tr) /\
    (vr <> 1001%N -> In EClockUpdate tr -> fifth).
Proof. exact @clocks_reported. Qed.
Definition clocks_ops : list (Op3 B64 (md (m3' Clocks))) :=
  [O3EnterInitializationMode (lit 0) true (lit 10); O3ExitInitializationMode;
   O3ActivateModelPartition 1001 (lit 0); O3ActivateModelPartition 1003 (lit 0); O3ActivateModelPartition 1001 (lit 1);
   O3ActivateModelPartition 1002 (lit 1); O3ActivateModelPartition 1003 (lit 2)].
(** Five activations: the counts, the reports and the output clock. *)
Example C39_case : exists i obs s', made3 (m3' Clocks) i /\
  let l := map (fun o => (env0, o)) clocks_ops in
  run3 (m3' Clocks) szof0 fuel0 l (mkSys i []) = Done (obs, s') /\ tally l obs tally0 = mkTally 2 1 2 true /\
  map snd obs = [[]; []; []; [ELock; EUnlock]; []; [ELock; EUnlock]; [ELock; EUnlock; EClockUpdate]].
Proof.
  eexists _, _, _. split; [right; right; do 11 eexists; transitivity (newSE Clocks); [reflexivity|vm_compute; reflexivity]|].
  split; [vm_compute; reflexivity|]. split; vm_compute; reflexivity.
Qed.

(** C40: with the two callbacks, every call locks preemption and unlocks it again once, or does neither. *)
Theorem C40_balanced :
  forall (F : Type) (NF : Num F) szof fuel l s obs s',
    reach3 (model_of (F := F) FMI3 Clocks) szof s ->
    (forall e o j, In (e, o) l -> image3 o = Some j -> saved3 (model_of FMI3 Clocks) szof j) ->
    hasLockPreemption (ctl (sinst s)) = true -> hasUnlockPreemption (ctl (sinst s)) = true ->
    run3 (model_of FMI3 Clocks) szof fuel l s = Done (obs, s') ->
    Forall (fun ob => locks (snd ob) = [] \/ locks (snd ob) = [true; false]) obs.
Proof. exact @run_locks. Qed.
Example C40_case : exists s, reach3 (m3' Clocks) szof0 s /\
  hasLockPreemption (ctl (sinst s)) = true /\ hasUnlockPreemption (ctl (sinst s)) = true /\ mode_of s = ClockActivationMode.
Proof. case3 (newSE Clocks) clocks_ops. repeat split. Qed.

(** C48: the intermediate update is called only by DoStep, clockUpdate and the preemption locks only by
    ActivateModelPartition; every other function calls the logger at most. *)
Theorem C48_callbacks :
  forall (F : Type) (NF : Num F) (f : FMU) szof fuel env o s st out s' t,
    exec3 (model_of (F := F) FMI3 f) szof fuel env o s = Done (st, out, s', t) ->
    Forall (fun e => match e with
                     | ELog _ _ => True
                     | EIntermediateUpdate _ => hasIntermediateUpdate (ctl (sinst s)) = true /\ exists c h a b d e, o = O3DoStep c h a b d e
                     | EClockUpdate | ELock | EUnlock => f = Clocks /\ exists vr x, o = O3ActivateModelPartition vr x
                     end) t.
Proof. exact @callbacks3. Qed.
Theorem C48_callbacks_fmi2 :
  forall (F : Type) (NF : Num F) (f : FMU) szof fuel env o s st out s' t,
    reach2 (model_of (F := F) FMI2 f) szof s ->
    exec2 (model_of (F := F) FMI2 f) szof fuel env o s = Done (st, out, s', t) ->
    Forall (fun e => match e with ELog _ _ => True | _ => False end) t.
Proof. exact @callbacks2. Qed.
(** DoStep with an intermediate update calls it at the end of each of the two solver steps. *)
Example C48_case : exists i s, made3 (m3' Dahlquist) i /\
  run3 (m3' Dahlquist) szof0 fuel0 (map (fun o => (env0, o))
    [O3EnterInitializationMode (lit 0) true (lit 10); O3ExitInitializationMode]) (mkSys i []) = s /\
  match s with
  | Done (_, s) => match exec3 (m3' Dahlquist) szof0 fuel0 env0 (O3DoStep (lit 0) (nlit 2 (-1)) true true true true) s with
                   | Done (OK, _, _, [EIntermediateUpdate _; EIntermediateUpdate _]) => True
                   | _ => False end
  | _ => False end.
Proof.
  eexists _, _. split; [right; left; do 11 eexists; transitivity (fmi3InstantiateCoSimulation (m3' Dahlquist) env0 name0 (Some (guid Dahlquist)) None false false false 0%N true true); [reflexivity|vm_compute; reflexivity]|].
  split; [reflexivity|]. vm_compute. exact I.
Qed.
Definition PropClocks_all := (@C39_counters, @C39_output_clock, @C39_reported, @C40_balanced, @C48_callbacks, @C48_callbacks_fmi2).
Print Assumptions PropClocks_all.
