(** Sizes.v -- the size checks of the serialization functions. *)
From Coq Require Import List NArith ZArith Bool Lia.
From Verif Require Import Base Instance ModelIface Core Fmi3 Fmi2 Api Fmus Logic Calls LawsFmus SpecModes Gate Effect
  Reach SimSys SimSys2 Saves.
Import ListNotations.
Set Implicit Arguments.

Section Sizes.
  Context {F : Type} {NF : Num F} (m : Model F) (szof : N).
  Notation D := (md m).

  Lemma serialize_size env h dst size (s : Sys F D) : size <> szof ->
    serializeFMUState m szof env h dst size s = Done ((Error, dst), with_mode Terminated s, refusal s).
  Proof.
    intro Hs. unfold serializeFMUState. unfold bind at 1. destruct h as [k|].
    - unfold nullPointer. unfold onInst at 1. cbn [ret]. unfold bind at 1. destruct s as [i hp].
      cbn [sinst heap]. unfold invalidNumber. destruct (N.eqb_spec size szof); [contradiction|].
      rewrite refuse_eq. cbn. now rewrite app_nil_r.
    - unfold nullPointer. rewrite refuse_eq. cbn. now rewrite app_nil_r.
  Qed.
  Lemma deserialize_size env b size p h (s : Sys F D) : size <> szof ->
    deserializeFMUState m szof env b size p h s = Done ((Error, h), with_mode Terminated s, refusal s).
  Proof.
    intro Hs. unfold deserializeFMUState. unfold bind at 1. unfold invalidNumber.
    destruct (N.eqb_spec size szof); [contradiction|]. rewrite refuse_eq. cbn. now rewrite app_nil_r.
  Qed.
  Lemma exec3_sizes fuel env (s : Sys F D) : In (mode_of s) modes3 ->
    exec3 m szof fuel env (O3SerializedFMUStateSize true) s = Done (OK, OSize (Some szof), s, []) /\
    (forall h d size, size <> szof ->
       exec3 m szof fuel env (O3SerializeFMUState h d size) s
       = Done (Error, OBlob d, with_mode Terminated s, refusal s)) /\
    (forall b size p h, size <> szof ->
       exec3 m szof fuel env (O3DeserializeFMUState b size p h) s
       = Done (Error, OHandle h, with_mode Terminated s, refusal s)).
  Proof.
    intro M. split; [|split; intros]; cbn [exec3]; rewrite (outS_eq (m := m));
      unfold fmi3SerializedFMUStateSize, fmi3SerializeFMUState, fmi3DeserializeFMUState;
      rewrite BEGIN3S_any by exact M.
    - reflexivity.
    - now rewrite serialize_size.
    - now rewrite deserialize_size.
  Qed.
  Lemma exec2_sizes fuel env (s : Sys F D) : In (mode_of s) observable2 ->
    exec2 m szof fuel env (O2SerializedFMUstateSize true) s = Done (OK, OSize (Some szof), s, []) /\
    (forall h d size, size <> szof ->
       exec2 m szof fuel env (O2SerializeFMUstate h d size) s
       = Done (Error, OBlob d, with_mode Terminated s, refusal s)) /\
    (forall b size p h, size <> szof ->
       exec2 m szof fuel env (O2DeSerializeFMUstate b size p h) s
       = Done (Error, OHandle h, with_mode Terminated s, refusal s)).
  Proof.
    intro M. split; [|split; intros]; cbn [exec2]; rewrite (outS_eq (m := m));
      unfold fmi2SerializedFMUstateSize, fmi2SerializeFMUstate, fmi2DeSerializeFMUstate;
      rewrite BEGIN2S_any by exact M.
    - reflexivity.
    - now rewrite serialize_size.
    - now rewrite deserialize_size.
  Qed.
End Sizes.
Section SizesFmu.
  Context {F : Type} {NF : Num F} (f : FMU) (szof : N).
  Lemma sizes3 fuel env (s : Sys F (md (model_of FMI3 f))) : reach3 (model_of FMI3 f) szof s ->
    exec3 (model_of FMI3 f) szof fuel env (O3SerializedFMUStateSize true) s = Done (OK, OSize (Some szof), s, []) /\
    (forall h d size, size <> szof ->
       exec3 (model_of FMI3 f) szof fuel env (O3SerializeFMUState h d size) s
       = Done (Error, OBlob d, with_mode Terminated s, refusal s)) /\
    (forall b size p h, size <> szof ->
       exec3 (model_of FMI3 f) szof fuel env (O3DeserializeFMUState b size p h) s
       = Done (Error, OHandle h, with_mode Terminated s, refusal s)).
  Proof. intro R. apply exec3_sizes. eapply modes_of_reach. exact R. Qed.
  Lemma sizes2 fuel env (s : Sys F (md (model_of FMI2 f))) : reach2 (model_of FMI2 f) szof s ->
    exec2 (model_of FMI2 f) szof fuel env (O2SerializedFMUstateSize true) s = Done (OK, OSize (Some szof), s, []) /\
    (forall h d size, size <> szof ->
       exec2 (model_of FMI2 f) szof fuel env (O2SerializeFMUstate h d size) s
       = Done (Error, OBlob d, with_mode Terminated s, refusal s)) /\
    (forall b size p h, size <> szof ->
       exec2 (model_of FMI2 f) szof fuel env (O2DeSerializeFMUstate b size p h) s
       = Done (Error, OHandle h, with_mode Terminated s, refusal s)).
  Proof. intro R. apply exec2_sizes. eapply modes_of_reach2. exact R. Qed.
End SizesFmu.
