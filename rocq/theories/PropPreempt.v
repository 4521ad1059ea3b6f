(** PropPreempt.v -- Clocks: partitions that interrupt one another: C40 (where the total is changed), C54. *)
From Coq Require Import List NArith ZArith Bool Arith Permutation.
From Verif Require Import Base Instance ModelIface Core Fmi3 Fmi2 Api Fmus FmuClocks NumB64 Preempt SpecModes SpecHist SpecCreate SpecState SpecPreempt Tasks Samples.
Import ListNotations.
Set Implicit Arguments.

(** C54: with the three callbacks, every schedule of activations, settings of input2 and readings of the clocks that ends
    with no partition running has the effect of the same calls made one after the other in some order: every call returns OK,
    the readings are the same and in the same order, and so are all values at the end. *)
Theorem C54_serializable :
  forall (F : Type) (NF : Num F) szof fuel env z l s m' seen,
    reach3 (model_of (F := F) FMI3 Clocks) szof s -> mode_of s = ClockActivationMode ->
    hasLockPreemption (ctl (sinst s)) = true -> hasUnlockPreemption (ctl (sinst s)) = true -> hasClockUpdate (ctl (sinst s)) = true ->
    sched (ctl (sinst s)) l (idle (data (mut (sinst s)))) = Done (Some (m', seen)) -> cpu_tasks m' = [] ->
    exists calls obs s', Permutation calls (calls_of z l) /\
      run3 (model_of FMI3 Clocks) szof fuel (map (pair env) calls) s = Done (obs, s') /\
      Forall (fun ob => fst (fst ob) = OK) obs /\ data (mut (sinst s')) = cpu_data m' /\ reads_got obs = reads_seen seen.
Proof. intros F NF szof fuel env z l s m' seen _. exact (@schedule_serial F NF szof fuel env z l s m' seen). Qed.

(** An activation that is not interrupted has the effect of the call: the same values at the end and the same reports. *)
Theorem C54_uninterrupted :
  forall (F : Type) (NF : Num F) szof fuel env p t s out s' tr,
    hasLockPreemption (ctl (sinst s)) = true -> hasUnlockPreemption (ctl (sinst s)) = true -> hasClockUpdate (ctl (sinst s)) = true ->
    exec3 (model_of (F := F) FMI3 Clocks) szof fuel env (O3ActivateModelPartition (clock_of p) t) s = Done (OK, out, s', tr) ->
    exists n, sched (ctl (sinst s)) (Start p t :: repeat Go n) (idle (data (mut (sinst s)))) =
              Done (Some (mkCpu (data (mut (sinst s'))) false [], updates p tr)).
Proof. exact @schedule_alone. Qed.

(** No tick is lost: every counter grows by the number of activations of its partition, the total by all of them. *)
Theorem C54_ticks :
  forall (F : Type) (NF : Num F) (c : Ctl F), hasLockPreemption c = true -> hasUnlockPreemption c = true -> hasClockUpdate c = true ->
  forall l d m' seen, sched c l (idle d) = Done (Some (m', seen)) -> cpu_tasks m' = [] ->
    let d' := cpu_data m' in
    cl_t1 d' = (cl_t1 d + activations P1 l)%Z /\ cl_t2 d' = (cl_t2 d + activations P2 l)%Z /\
    cl_t3 d' = (cl_t3 d + activations P3 l)%Z /\ cl_total d' = (cl_total d + all_activations l)%Z.
Proof. exact @sched_ticks. Qed.

(** No schedule gets stuck: while partitions are running the first of them can go on,
    and when none is running preemption is unlocked. *)
Theorem C54_progress :
  forall (F : Type) (NF : Num F) (c : Ctl F), hasLockPreemption c = true -> hasUnlockPreemption c = true -> hasClockUpdate c = true ->
  forall l d m seen, sched c l (idle d) = Done (Some (m, seen)) ->
    (cpu_tasks m = [] -> cpu_locked m = false) /\ (cpu_tasks m <> [] -> sched1 c Go m <> Done None).
Proof. exact @sched_progress. Qed.

(** C40: partitions 2 and 3 change the total only while preemption is locked.  (Partition 1 changes it without the lock;
    it has the highest priority, so that nothing interrupts it.) *)
Theorem C40_total_locked :
  forall (F : Type) (NF : Num F) (c : Ctl F), hasLockPreemption c = true -> hasUnlockPreemption c = true -> hasClockUpdate c = true ->
  forall l d m seen t ts m' seen', sched c l (idle d) = Done (Some (m, seen)) -> cpu_tasks m = t :: ts -> t_part t <> P1 ->
    sched1 c Go m = Done (Some (m', seen')) -> cl_total (cpu_data m') <> cl_total (cpu_data m) ->
    cpu_locked m = true /\ cpu_locked m' = true.
Proof. exact @sched_total. Qed.

(** Partition 3 is interrupted by partition 2 before its lock, that by partition 1 after its unlock; the importer sets input2
    in between. *)
Definition starts : list (Op3 B64 (md (m3' Clocks))) := [O3EnterInitializationMode (lit 0) true (lit 10); O3ExitInitializationMode].
Definition nested : list (Sched B64) :=
  [Start P3 (lit 0); Go; Start P2 (lit 0)] ++ repeat Go 13 ++ [SetInput 7; Start P1 (lit 4)] ++ repeat Go 12 ++ [ReadClock] ++ repeat Go 2 ++ [ReadInterval] ++ repeat Go 11.
Example C54_case : exists s, reach3 (m3' Clocks) szof0 s /\
  mode_of s = ClockActivationMode /\ hasLockPreemption (ctl (sinst s)) = true /\ hasUnlockPreemption (ctl (sinst s)) = true /\ hasClockUpdate (ctl (sinst s)) = true /\
  exists m' seen, sched (ctl (sinst s)) nested (idle (data (mut (sinst s)))) = Done (Some (m', seen)) /\ cpu_tasks m' = [].
Proof. case3 (newSE Clocks) starts. repeat (split; [reflexivity|]). eexists _, _. split; [vm_compute; reflexivity|vm_compute; reflexivity]. Qed.
Example C54_uninterrupted_case : exists s, reach3 (m3' Clocks) szof0 s /\
  hasLockPreemption (ctl (sinst s)) = true /\ hasUnlockPreemption (ctl (sinst s)) = true /\ hasClockUpdate (ctl (sinst s)) = true /\
  exists out s' tr, exec3 (m3' Clocks) szof0 fuel0 env0 (O3ActivateModelPartition (clock_of P1) (lit 4)) s = Done (OK, out, s', tr) /\ updates P1 tr = [SawUpdate P1].
Proof.
  eexists. split; [apply (@sample3 _ (newSE Clocks) starts); [auto|repeat constructor|vm_compute; reflexivity]|]. do 3 (split; [reflexivity|]).
  eexists _, _, _. split; [vm_compute; reflexivity|reflexivity].
Qed.
(** A moment at which partition 3 changes the total. *)
Example C40_total_case : exists s, reach3 (m3' Clocks) szof0 s /\
  hasLockPreemption (ctl (sinst s)) = true /\ hasUnlockPreemption (ctl (sinst s)) = true /\ hasClockUpdate (ctl (sinst s)) = true /\
  exists m seen t ts m' seen',
    sched (ctl (sinst s)) (Start P3 (lit 0) :: repeat Go 5) (idle (data (mut (sinst s)))) = Done (Some (m, seen)) /\ cpu_tasks m = t :: ts /\ t_part t <> P1 /\
    sched1 (ctl (sinst s)) Go m = Done (Some (m', seen')) /\ cl_total (cpu_data m') <> cl_total (cpu_data m).
Proof.
  eexists. split; [apply (@sample3 _ (newSE Clocks) starts); [auto|repeat constructor|vm_compute; reflexivity]|]. do 3 (split; [reflexivity|]).
  eexists _, _, _, _, _, _. split; [vm_compute; reflexivity|]. split; [reflexivity|].
  split; [discriminate|]. split; [vm_compute; reflexivity|]. discriminate.
Qed.

(** Without the lock callbacks (they may be NULL) a tick is lost: partition 1 interrupts partition 2 between reading and
    writing the total. *)
Definition race : list (Sched B64) := [Start P2 (lit 0)] ++ repeat Go 4 ++ [Start P1 (lit 0)] ++ repeat Go 10 ++ repeat Go 11.
Definition newSE0 :=
  fmi3InstantiateScheduledExecution (m3' Clocks) env0 name0 (Some (guid Clocks)) None false 0%N true true false false.
Theorem C54_unlocked_refuted : exists i s m' seen,
  made3 (m3' Clocks) i /\ (exists obs, run3 (m3' Clocks) szof0 fuel0 (map (pair env0) starts) (mkSys i []) = Done (obs, s)) /\
  mode_of s = ClockActivationMode /\ hasClockUpdate (ctl (sinst s)) = true /\
  sched (ctl (sinst s)) race (idle (data (mut (sinst s)))) = Done (Some (m', seen)) /\ cpu_tasks m' = [] /\
  all_activations race = 2%Z /\ cl_total (data (mut (sinst s))) = 0%Z /\ cl_total (cpu_data m') = 1%Z.
Proof.
  eexists _, _, _, _. split; [right; right; do 11 eexists; transitivity newSE0; [reflexivity|vm_compute; reflexivity]|].
  split; [eexists; vm_compute; reflexivity|]. split; [reflexivity|]. split; [reflexivity|]. split; [vm_compute; reflexivity|]. repeat split.
Qed.

(** With the locks the report of a fifth tick can still be lost: partition 2 sets outClock and unlocks, partition 1 clears it,
    and neither calls clockUpdate; in either order one after the other, the fifth tick is reported. *)
Definition four : list (Op3 B64 (md (m3' Clocks))) := starts ++ repeat (O3ActivateModelPartition 1001 (lit 0)) 4.
Definition missed : list (Sched B64) := [Start P2 (lit 0)] ++ repeat Go 13 ++ [Start P1 (lit 0)] ++ repeat Go 10 ++ repeat Go 2.
Theorem C54_reports_refuted : exists s, reach3 (m3' Clocks) szof0 s /\
  mode_of s = ClockActivationMode /\
  hasLockPreemption (ctl (sinst s)) = true /\ hasUnlockPreemption (ctl (sinst s)) = true /\ hasClockUpdate (ctl (sinst s)) = true /\
  (exists m', sched (ctl (sinst s)) missed (idle (data (mut (sinst s)))) = Done (Some (m', [])) /\ cpu_tasks m' = []) /\
  forall calls, Permutation calls (calls_of (lit 0) missed) ->
    exists obs s', run3 (m3' Clocks) szof0 fuel0 (map (pair env0) calls) s = Done (obs, s') /\ Exists (fun ob => In EClockUpdate (snd ob)) obs.
Proof.
  eexists. split; [apply (@sample3 _ (newSE Clocks) four); [auto|repeat constructor|vm_compute; reflexivity]|]. do 4 (split; [reflexivity|]).
  split; [eexists; split; [vm_compute; reflexivity|reflexivity]|].
  intros calls P. vm_compute in P. apply Permutation_sym, Permutation_length_2_inv in P. destruct P as [->| ->]; eexists _, _.
  - split; [vm_compute; reflexivity|]. apply Exists_cons_hd. cbn. auto.
  - split; [vm_compute; reflexivity|]. apply Exists_cons_hd. cbn. auto.
Qed.
Definition PropPreempt_all := (@C54_serializable, @C54_uninterrupted, @C54_ticks, @C54_progress, @C40_total_locked, @C54_unlocked_refuted, @C54_reports_refuted).
Print Assumptions PropPreempt_all.
