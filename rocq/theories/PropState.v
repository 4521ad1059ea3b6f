(** PropState.v -- properties C13 and C14: saving, restoring and serializing the FMU state. *)
From Coq Require Import List NArith ZArith Bool.
From Verif Require Import Base Instance ModelIface Core Fmi3 Fmi2 Api Fmus NumB64 SpecModes SpecHist SpecState
  Saves Sizes Samples.
Import ListNotations.
Open Scope list_scope.
Set Implicit Arguments.

(** C13: let a reachable instance save its state and then go through any history [l] of calls that
    does not free or overwrite the saved state.  SetFMUState with the handle then returns OK, and
    every continuation [l'] has the same statuses, outputs and callbacks as right after the
    save, and the same messages if the log categories are the same.  ([run3 ... s1] is the run
    right after the save; handles in [l'] are counted from the states saved so far.) *)
Theorem C13_restoring_rewinds :
  forall (F : Type) (NF : Num F) (f : FMU) szof fuel env h s0 st out s1 t,
    reach3 (model_of FMI3 f) szof s0 ->
    exec3 (model_of FMI3 f) szof fuel env (O3GetFMUState true h) s0 = Done (st, out, s1, t) ->
    exists k, st = OK /\ out = OHandle (Some k) /\
    forall fuel' l obs s2,
      (forall e o i, In (e, o) l -> image3 o = Some i -> saved3 (model_of FMI3 f) szof i) ->
      Forall (fun p => spares3 k (snd p)) l ->
      run3 (model_of FMI3 f) szof fuel' l s1 = Done (obs, s2) ->
    forall fuel2 env2, exists s3,
      exec3 (model_of FMI3 f) szof fuel2 env2 (O3SetFMUState (Some k)) s2 = Done (OK, ONone, s3, []) /\
    forall fuel3 l',
      (forall e o i, In (e, o) l' -> image3 o = Some i -> saved3 (model_of FMI3 f) szof i) ->
      same_run (logging s3 = logging s1) (length (heap s1)) (length (heap s3))
        (run3 (model_of FMI3 f) szof fuel3 (rebases3 (length (heap s1)) l') s1)
        (run3 (model_of FMI3 f) szof fuel3 (rebases3 (length (heap s3)) l') s3).
Proof. exact @C13_lemma3. Qed.
Print Assumptions C13_restoring_rewinds.
Theorem C13_restoring_rewinds_fmi2 :
  forall (F : Type) (NF : Num F) (f : FMU) szof fuel env h s0 st out s1 t,
    reach2 (model_of FMI2 f) szof s0 ->
    exec2 (model_of FMI2 f) szof fuel env (O2GetFMUstate true h) s0 = Done (st, out, s1, t) ->
    exists k, st = OK /\ out = OHandle (Some k) /\
    forall fuel' l obs s2,
      (forall e o i, In (e, o) l -> image2 o = Some i -> saved2 (model_of FMI2 f) szof i) ->
      Forall (fun p => spares2 k (snd p)) l ->
      run2 (model_of FMI2 f) szof fuel' l s1 = Done (obs, s2) ->
    forall fuel2 env2, exists s3,
      exec2 (model_of FMI2 f) szof fuel2 env2 (O2SetFMUstate (Some k)) s2 = Done (OK, ONone, s3, []) /\
    forall fuel3 l',
      (forall e o i, In (e, o) l' -> image2 o = Some i -> saved2 (model_of FMI2 f) szof i) ->
      same_run (logging s3 = logging s1) (length (heap s1)) (length (heap s3))
        (run2 (model_of FMI2 f) szof fuel3 (rebases2 (length (heap s1)) l') s1)
        (run2 (model_of FMI2 f) szof fuel3 (rebases2 (length (heap s3)) l') s3).
Proof. exact @C13_lemma2. Qed.
Print Assumptions C13_restoring_rewinds_fmi2.
(** a bouncing ball saved after one step, then moved on and changed; restoring it returns OK and
    the height read then is the one before *)
Definition C13_before : list (Op3 B64 (md (m3' BouncingBall))) :=
  [O3EnterInitializationMode (lit 0) false (lit 0); O3ExitInitializationMode;
   O3DoStep (lit 0) (nlit 1 (-2)) true true true true].
Definition C13_later : list (Op3 B64 (md (m3' BouncingBall))) :=
  [O3DoStep (nlit 1 (-2)) (nlit 5 (-2)) true true true true;
   O3Set TFloat64 (Some [5%N]) 1 (Some [lit 3]) 1; O3Terminate].
Definition C13_values (s : Sys B64 (md (m3' BouncingBall))) : option (list B64) :=
  match exec3 (m3' BouncingBall) szof0 fuel0 env0
          (O3Get TFloat64 (Some [0%N; 1%N; 5%N]) 3 (Some [lit 0; lit 0; lit 0]) 3) s with
  | Done (OK, OVals t b, _, _) => match t return Buf (val B64 t) -> option (list B64) with
                                  | TFloat64 => fun b => b
                                  | _ => fun _ => None
                                  end b
  | _ => None
  end.
Example C13_applies : exists s, reach3 (m3' BouncingBall) szof0 s /\
  exists s1 obs s2 s3,
    exec3 (m3' BouncingBall) szof0 fuel0 env0 (O3GetFMUState true None) s = Done (OK, OHandle (Some 0), s1, []) /\
    Forall (fun p => spares3 0 (snd p)) (map (fun o => (env0, o)) C13_later) /\
    run3 (m3' BouncingBall) szof0 fuel0 (map (fun o => (env0, o)) C13_later) s1 = Done (obs, s2) /\
    exec3 (m3' BouncingBall) szof0 fuel0 env0 (O3SetFMUState (Some 0)) s2 = Done (OK, ONone, s3, []) /\
    map (fun r => fst (fst r)) obs = [OK; OK; OK] /\
    C13_values s3 = C13_values s1 /\ C13_values s2 <> C13_values s1.
Proof.
  eexists. split.
  - apply (@sample3 _ (newCS false false BouncingBall) C13_before);
      [right; left; do 2 eexists; reflexivity|repeat constructor|vm_compute; reflexivity].
  - do 4 eexists. split; [vm_compute; reflexivity|]. split; [repeat constructor|].
    split; [vm_compute; reflexivity|]. split; [vm_compute; reflexivity|]. split; [vm_compute; reflexivity|].
    split; [vm_compute; reflexivity|vm_compute; discriminate].
Qed.
Example C13_applies_fmi2 : exists s, reach2 (m2' Dahlquist) szof0 s /\
  exists s1, exec2 (m2' Dahlquist) szof0 fuel0 env0 (O2GetFMUstate true None) s = Done (OK, OHandle (Some 0), s1, []).
Proof.
  eexists. split.
  - apply (@sample2 _ CoSimulation
      [O2SetupExperiment (lit 0) true (lit 5); O2EnterInitializationMode; O2ExitInitializationMode;
       O2DoStep (F := B64) (D := md (m2' Dahlquist)) (lit 0) (lit 1)]); [repeat constructor|vm_compute; reflexivity].
  - eexists. vm_compute. reflexivity.
Qed.

(** C14: serializing a saved state into an array of the reported size returns OK, and
    deserializing the array, in any reachable instance with the same identity, gives a handle [k'];
    restoring [k'] (after any history that keeps it) gives an instance all of whose runs look like
    those of the instance that was saved. *)
Theorem C14_serialization_is_lossless :
  forall (F : Type) (NF : Num F) (f : FMU) szof fuel env h s0 st out s1 t,
    reach3 (model_of FMI3 f) szof s0 ->
    exec3 (model_of FMI3 f) szof fuel env (O3GetFMUState true h) s0 = Done (st, out, s1, t) ->
    exists k, out = OHandle (Some k) /\
    forall fuel' l obs s2,
      (forall e o i, In (e, o) l -> image3 o = Some i -> saved3 (model_of FMI3 f) szof i) ->
      Forall (fun p => spares3 k (snd p)) l ->
      run3 (model_of FMI3 f) szof fuel' l s1 = Done (obs, s2) ->
    forall fuel2 env2 d, (szof <= bsize d)%N -> exists b,
      exec3 (model_of FMI3 f) szof fuel2 env2 (O3SerializeFMUState (Some k) (Some d) szof) s2
      = Done (OK, OBlob (Some b), s2, []) /\
      bsize b = bsize d /\
    forall s4 fuel4 env4, reach3 (model_of FMI3 f) szof s4 -> identity s4 = identity s1 -> exists k' s5,
      exec3 (model_of FMI3 f) szof fuel4 env4 (O3DeserializeFMUState (Some b) szof true None) s4
      = Done (OK, OHandle (Some k'), s5, []) /\
    forall fuel5 l' obs' s6,
      (forall e o i, In (e, o) l' -> image3 o = Some i -> saved3 (model_of FMI3 f) szof i) ->
      Forall (fun p => spares3 k' (snd p)) l' ->
      run3 (model_of FMI3 f) szof fuel5 l' s5 = Done (obs', s6) ->
    forall fuel6 env6, exists s7,
      exec3 (model_of FMI3 f) szof fuel6 env6 (O3SetFMUState (Some k')) s6 = Done (OK, ONone, s7, []) /\
    forall fuel7 l'',
      (forall e o i, In (e, o) l'' -> image3 o = Some i -> saved3 (model_of FMI3 f) szof i) ->
      same_run (logging s7 = logging s1) (length (heap s1)) (length (heap s7))
        (run3 (model_of FMI3 f) szof fuel7 (rebases3 (length (heap s1)) l'') s1)
        (run3 (model_of FMI3 f) szof fuel7 (rebases3 (length (heap s7)) l'') s7).
Proof. exact @C14_lemma3. Qed.
Print Assumptions C14_serialization_is_lossless.
Theorem C14_serialization_is_lossless_fmi2 :
  forall (F : Type) (NF : Num F) (f : FMU) szof fuel env h s0 st out s1 t,
    reach2 (model_of FMI2 f) szof s0 ->
    exec2 (model_of FMI2 f) szof fuel env (O2GetFMUstate true h) s0 = Done (st, out, s1, t) ->
    exists k, out = OHandle (Some k) /\
    forall fuel' l obs s2,
      (forall e o i, In (e, o) l -> image2 o = Some i -> saved2 (model_of FMI2 f) szof i) ->
      Forall (fun p => spares2 k (snd p)) l ->
      run2 (model_of FMI2 f) szof fuel' l s1 = Done (obs, s2) ->
    forall fuel2 env2 d, (szof <= bsize d)%N -> exists b,
      exec2 (model_of FMI2 f) szof fuel2 env2 (O2SerializeFMUstate (Some k) (Some d) szof) s2
      = Done (OK, OBlob (Some b), s2, []) /\
      bsize b = bsize d /\
    forall s4 fuel4 env4, reach2 (model_of FMI2 f) szof s4 -> identity s4 = identity s1 -> exists k' s5,
      exec2 (model_of FMI2 f) szof fuel4 env4 (O2DeSerializeFMUstate (Some b) szof true None) s4
      = Done (OK, OHandle (Some k'), s5, []) /\
    forall fuel5 l' obs' s6,
      (forall e o i, In (e, o) l' -> image2 o = Some i -> saved2 (model_of FMI2 f) szof i) ->
      Forall (fun p => spares2 k' (snd p)) l' ->
      run2 (model_of FMI2 f) szof fuel5 l' s5 = Done (obs', s6) ->
    forall fuel6 env6, exists s7,
      exec2 (model_of FMI2 f) szof fuel6 env6 (O2SetFMUstate (Some k')) s6 = Done (OK, ONone, s7, []) /\
    forall fuel7 l'',
      (forall e o i, In (e, o) l'' -> image2 o = Some i -> saved2 (model_of FMI2 f) szof i) ->
      same_run (logging s7 = logging s1) (length (heap s1)) (length (heap s7))
        (run2 (model_of FMI2 f) szof fuel7 (rebases2 (length (heap s1)) l'') s1)
        (run2 (model_of FMI2 f) szof fuel7 (rebases2 (length (heap s7)) l'') s7).
Proof. exact @C14_lemma2. Qed.
Print Assumptions C14_serialization_is_lossless_fmi2.
(** The reported size is the only one accepted: with another one both functions return Error, leave
    array and handle as they were, log one error and put the instance in Terminated. *)
Theorem C14_other_sizes_are_rejected :
  forall (F : Type) (NF : Num F) (f : FMU) szof fuel env (s : Sys F (md (model_of FMI3 f))),
    reach3 (model_of FMI3 f) szof s ->
    exec3 (model_of FMI3 f) szof fuel env (O3SerializedFMUStateSize true) s = Done (OK, OSize (Some szof), s, []) /\
    (forall h d size, size <> szof ->
       exec3 (model_of FMI3 f) szof fuel env (O3SerializeFMUState h d size) s
       = Done (Error, OBlob d, with_mode Terminated s, refusal s)) /\
    (forall b size p h, size <> szof ->
       exec3 (model_of FMI3 f) szof fuel env (O3DeserializeFMUState b size p h) s
       = Done (Error, OHandle h, with_mode Terminated s, refusal s)).
Proof. exact @sizes3. Qed.
Print Assumptions C14_other_sizes_are_rejected.
Theorem C14_other_sizes_are_rejected_fmi2 :
  forall (F : Type) (NF : Num F) (f : FMU) szof fuel env (s : Sys F (md (model_of FMI2 f))),
    reach2 (model_of FMI2 f) szof s ->
    exec2 (model_of FMI2 f) szof fuel env (O2SerializedFMUstateSize true) s = Done (OK, OSize (Some szof), s, []) /\
    (forall h d size, size <> szof ->
       exec2 (model_of FMI2 f) szof fuel env (O2SerializeFMUstate h d size) s
       = Done (Error, OBlob d, with_mode Terminated s, refusal s)) /\
    (forall b size p h, size <> szof ->
       exec2 (model_of FMI2 f) szof fuel env (O2DeSerializeFMUstate b size p h) s
       = Done (Error, OHandle h, with_mode Terminated s, refusal s)).
Proof. exact @sizes2. Qed.
Print Assumptions C14_other_sizes_are_rejected_fmi2.
(** the saved bouncing ball, serialized, deserialized and restored *)
Example C14_applies : exists s, reach3 (m3' BouncingBall) szof0 s /\
  exists s1 obs s2 b s3 s4,
    exec3 (m3' BouncingBall) szof0 fuel0 env0 (O3GetFMUState true None) s = Done (OK, OHandle (Some 0), s1, []) /\
    run3 (m3' BouncingBall) szof0 fuel0 (map (fun o => (env0, o)) C13_later) s1 = Done (obs, s2) /\
    exec3 (m3' BouncingBall) szof0 fuel0 env0 (O3SerializeFMUState (Some 0) (Some (mkBlob szof0 None)) szof0) s2
    = Done (OK, OBlob (Some b), s2, []) /\
    exec3 (m3' BouncingBall) szof0 fuel0 env0 (O3DeserializeFMUState (Some b) szof0 true None) s2
    = Done (OK, OHandle (Some 1), s3, []) /\
    exec3 (m3' BouncingBall) szof0 fuel0 env0 (O3SetFMUState (Some 1)) s3 = Done (OK, ONone, s4, []) /\
    C13_values s4 = C13_values s1 /\ C13_values s3 <> C13_values s1.
Proof.
  eexists. split.
  - apply (@sample3 _ (newCS false false BouncingBall) C13_before);
      [right; left; do 2 eexists; reflexivity|repeat constructor|vm_compute; reflexivity].
  - do 6 eexists. do 5 (split; [vm_compute; reflexivity|]).
    split; [vm_compute; reflexivity|vm_compute; discriminate].
Qed.
