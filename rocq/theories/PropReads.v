(** PropReads.v -- property C07: getters are observationally pure. *)
From Coq Require Import List NArith ZArith Bool.
From Verif Require Import Base Instance ModelIface Core Fmi3 Fmi2 Api Fmus FmuResource NumB64 SpecModes SpecCreate SpecState Reads Samples.
Import ListNotations.
Set Implicit Arguments.

(** C07: after a reading call that returned OK every continuation looks as if the call had not
    been made: same statuses, outputs, callbacks and messages.  This holds for all FMUs but Roberts
    (refuted below) and Resource (see below), and for all reading calls but, for Clocks, the
    reading of clocks and intervals. *)
Theorem C07_reading_changes_nothing :
  forall (F : Type) (NF : Num F) (f : FMU) szof fuel env o s out s' t,
    f <> Roberts -> f <> Resource ->
    reach3 (model_of (F := F) FMI3 f) szof s ->
    reads3 (match f with Clocks => false | _ => true end) o = true ->
    exec3 (model_of FMI3 f) szof fuel env o s = Done (OK, out, s', t) ->
    forall fuel' l,
      (forall e o i, In (e, o) l -> image3 o = Some i -> saved3 (model_of FMI3 f) szof i) ->
      same_run True 0 0 (run3 (model_of FMI3 f) szof fuel' l s) (run3 (model_of FMI3 f) szof fuel' l s').
Proof. exact @reads3_pure. Qed.
Print Assumptions C07_reading_changes_nothing.
Theorem C07_reading_changes_nothing_fmi2 :
  forall (F : Type) (NF : Num F) (f : FMU) szof fuel env o s out s' t,
    f <> Roberts -> f <> Resource ->
    reach2 (model_of (F := F) FMI2 f) szof s ->
    reads2 o = true ->
    exec2 (model_of FMI2 f) szof fuel env o s = Done (OK, out, s', t) ->
    forall fuel' l,
      (forall e o i, In (e, o) l -> image2 o = Some i -> saved2 (model_of FMI2 f) szof i) ->
      same_run True 0 0 (run2 (model_of FMI2 f) szof fuel' l s) (run2 (model_of FMI2 f) szof fuel' l s').
Proof. exact @reads2_pure. Qed.
Print Assumptions C07_reading_changes_nothing_fmi2.
(** Calling twice gives the same answer. *)
Theorem C07_reading_twice :
  forall (F : Type) (NF : Num F) (f : FMU) szof fuel env o s out s' t,
    f <> Roberts -> f <> Resource ->
    reach3 (model_of (F := F) FMI3 f) szof s ->
    reads3 (match f with Clocks => false | _ => true end) o = true ->
    exec3 (model_of FMI3 f) szof fuel env o s = Done (OK, out, s', t) ->
    exists s2, exec3 (model_of FMI3 f) szof fuel env o s' = Done (OK, out, s2, t).
Proof. exact @reads3_twice. Qed.
Print Assumptions C07_reading_twice.
(** Resource reads a file at every call.  Its getters are pure if the file is there all the time:
    [e0] is the environment of every call; no states are deserialized. *)
Theorem C07_reading_resource :
  forall (F : Type) (NF : Num F) e0 szof i loc path y fuel l obs s o out s' t,
    made3 (model_of (F := F) FMI3 Resource) i ->
    resourceLocation (ctl i) = Some loc -> path3 (cstr loc) = Some path -> env_file e0 path = Some y ->
    Forall (fun p => fst p = e0 /\ image3 (snd p) = None) l ->
    run3 (model_of FMI3 Resource) szof fuel l (mkSys i []) = Done (obs, s) ->
    reads3 true o = true -> exec3 (model_of FMI3 Resource) szof fuel e0 o s = Done (OK, out, s', t) ->
    forall fuel' l', Forall (fun p => fst p = e0 /\ image3 (snd p) = None) l' ->
      same_run True 0 0 (run3 (model_of FMI3 Resource) szof fuel' l' s) (run3 (model_of FMI3 Resource) szof fuel' l' s').
Proof. exact @reads3_resource. Qed.
Print Assumptions C07_reading_resource.
(** Roberts computes y3 = 1 - y1 - y2 at every read unless dae is set, but y3 can be set too.  So
    reading y3 changes the value it has once dae is set. *)
Definition C07_y3 : Op3 B64 (md (m3' Roberts)) := O3Get TFloat64 (Some [6%N]) 1 (Some [lit 0]) 1.
Theorem C07_roberts_refuted :
  exists s o out s' t l, reach3 (m3' Roberts) szof0 s /\ reads3 true o = true /\
    exec3 (m3' Roberts) szof0 fuel0 env0 o s = Done (OK, out, s', t) /\
    noimage3 (map snd l) /\
    ~ same_run True 0 0 (run3 (m3' Roberts) szof0 fuel0 l s) (run3 (m3' Roberts) szof0 fuel0 l s').
Proof.
  eexists. exists C07_y3. do 3 eexists.
  exists [(env0, O3Set TBoolean (Some [1%N]) 1 (Some [true]) 1); (env0, C07_y3)].
  split.
  { apply (@sample3 _ (newCS false false Roberts) [O3Set (F := B64) (D := md (m3' Roberts)) TFloat64 (Some [6%N]) 1 (Some [lit 5]) 1]);
      [right; left; do 2 eexists; reflexivity|repeat constructor|vm_compute; reflexivity]. }
  split; [reflexivity|split; [vm_compute; reflexivity|split; [repeat constructor|]]].
  intro H. apply same_seen in H. revert H. vm_compute. discriminate.
Qed.
Print Assumptions C07_roberts_refuted.
(** If Resource's file disappears, a value read before is still returned, and otherwise an error. *)
Theorem C07_resource_refuted :
  exists s o out s' t l e, reach3 (m3' Resource) szof0 s /\ reads3 true o = true /\
    exec3 (m3' Resource) szof0 fuel0 e o s = Done (OK, out, s', t) /\
    noimage3 (map snd l) /\
    ~ same_run True 0 0 (run3 (m3' Resource) szof0 fuel0 l s) (run3 (m3' Resource) szof0 fuel0 l s').
Proof.
  eexists. exists (O3Get TInt32 (Some [1%N]) 1 (Some [0%Z]) 1). do 3 eexists.
  exists [(env0, O3Get TInt32 (Some [1%N]) 1 (Some [0%Z]) 1)].
  exists {| env_file := fun _ => Some 97%Z |}.
  split.
  { apply reach3_new. right. left.
    exists env0, name0, (Some (guid Resource)), (Some [Byte.x2f]), false, false, false, 0%N, true, false. eexists.
    vm_compute. reflexivity. }
  split; [reflexivity|split; [vm_compute; reflexivity|split; [repeat constructor|]]].
  intro H. apply same_seen in H. revert H. vm_compute. discriminate.
Qed.
Print Assumptions C07_resource_refuted.

(** a getter after a set, with values to be recomputed *)
Example C07_applies : exists s, reach3 (m3' VanDerPol) szof0 s /\ dirty (mut (sinst s)) = true /\
  exists out s' t, exec3 (m3' VanDerPol) szof0 fuel0 env0
    (O3Get TFloat64 (Some [1; 2; 3; 4]%N) 4 (Some [lit 0; lit 0; lit 0; lit 0]) 4) s = Done (OK, out, s', t) /\
    dirty (mut (sinst s')) = false.
Proof.
  case3 (newCS false false VanDerPol) [O3EnterInitializationMode (lit 0) false (lit 0); O3Set (F := B64) (D := md (m3' VanDerPol)) TFloat64 (Some [1%N]) 1 (Some [lit 5]) 1].
  split; [reflexivity|]. do 3 eexists. split; reflexivity.
Qed.
Example C07_applies_fmi2 : exists s, reach2 (m2' VanDerPol) szof0 s /\ dirty (mut (sinst s)) = true /\
  exists out s' t, exec2 (m2' VanDerPol) szof0 fuel0 env0
    (O2Get TFloat64 (Some [1; 2; 3; 4]%N) 4 (Some [lit 0; lit 0; lit 0; lit 0])) s = Done (OK, out, s', t) /\
    dirty (mut (sinst s')) = false.
Proof.
  case2 CoSimulation [O2SetupExperiment (lit 0) false (lit 0); O2EnterInitializationMode; O2Set (F := B64) (D := md (m2' VanDerPol)) TFloat64 (Some [1%N]) 1 (Some [lit 5])].
  split; [reflexivity|]. do 3 eexists. split; reflexivity.
Qed.
Example C07_applies_resource : exists i loc path y, made3 (m3' Resource) i /\
  resourceLocation (ctl i) = Some loc /\ path3 (cstr loc) = Some path /\
  env_file {| env_file := fun _ => Some 97%Z |} path = Some y /\
  exists out s' t, exec3 (m3' Resource) szof0 fuel0 {| env_file := fun _ => Some 97%Z |}
    (O3Get TInt32 (Some [1%N]) 1 (Some [0%Z]) 1) (mkSys i []) = Done (OK, out, s', t).
Proof.
  do 4 eexists. split.
  - right. left.
    exists env0, name0, (Some (guid Resource)), (Some [Byte.x2f]), false, false, false, 0%N, true, false. eexists.
    vm_compute. reflexivity.
  - split; [reflexivity|]. split; [vm_compute; reflexivity|]. split; [reflexivity|]. do 3 eexists. vm_compute. reflexivity.
Qed.
