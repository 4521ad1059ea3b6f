(** Gate.v -- forbidden calls (C01, C02). *)
From Coq Require Import List NArith ZArith Bool.
From Verif Require Import Base Instance ModelIface Core Fmi3 Fmi2 Api SpecModes.
Import ListNotations.
Set Implicit Arguments.

Section Gate.
  Context {F : Type} {NF : Num F} (m : Model F) (szof : N).

  Lemma gate_I X env mask (x : X) k o (s : Sys F (md m)) :
    N.land (bit3 (mode_of s)) mask = 0%N ->
    outI m (BEGIN m env mask x k) o s = Done (Error, o x, with_mode Terminated s, refusal s).
  Proof.
    intro H. unfold outI, outS, onInst, BEGIN, allowedState, bind, getC. unfold mode_of in H. cbn.
    rewrite H. cbn. unfold logError, call, mlogError, refusal.
    destruct (logErrors (ctl (sinst s)) && hasLogger (ctl (sinst s))); cbn;
      destruct s as [[c u so] h]; reflexivity.
  Qed.
  Lemma gate_S X env mask (x : X) k o (s : Sys F (md m)) :
    N.land (bit3 (mode_of s)) mask = 0%N ->
    outS (BEGIN3S env mask x k) o s = Done (Error, o x, with_mode Terminated s, refusal s).
  Proof.
    intro H. unfold outS, BEGIN3S, onInst, allowedState, bind, getC. unfold mode_of in H. cbn.
    rewrite H. cbn. unfold logError, call, mlogError, refusal.
    destruct (logErrors (ctl (sinst s)) && hasLogger (ctl (sinst s))); cbn;
      destruct s as [[c u so] h]; reflexivity.
  Qed.
  Lemma gate2_I X env mask (x : X) k o (s : Sys F (md m)) :
    N.land (bit2 (mode_of s)) mask = 0%N ->
    outI m (BEGIN2 m env mask x k) o s = Done (Error, o x, with_mode Terminated s, refusal s).
  Proof.
    intro H. unfold outI, outS, onInst, BEGIN2, allowedState2, bind, getC. unfold mode_of in H. cbn.
    rewrite H. cbn. unfold logError, call, mlogError, refusal.
    destruct (logErrors (ctl (sinst s)) && hasLogger (ctl (sinst s))); cbn;
      destruct s as [[c u so] h]; reflexivity.
  Qed.
  Lemma gate2_S X env mask (x : X) k o (s : Sys F (md m)) :
    N.land (bit2 (mode_of s)) mask = 0%N ->
    outS (BEGIN2S env mask x k) o s = Done (Error, o x, with_mode Terminated s, refusal s).
  Proof.
    intro H. unfold outS, BEGIN2S, onInst, allowedState2, bind, getC. unfold mode_of in H. cbn.
    rewrite H. cbn. unfold logError, call, mlogError, refusal.
    destruct (logErrors (ctl (sinst s)) && hasLogger (ctl (sinst s))); cbn;
      destruct s as [[c u so] h]; reflexivity.
  Qed.

  Ltac gate_case lem :=
    apply lem;
    match goal with H : ~ In ?md _ |- N.land (_ ?md) _ = _ =>
      destruct md; first [ reflexivity | exfalso; apply H; cbn; tauto ] end.

  Lemma gate3 fuel env (o : Op3 F (md m)) s :
    o <> O3NotImplemented -> In (mode_of s) modes3 -> ~ In (mode_of s) (when3 o) ->
    exec3 m szof fuel env o s = Done (Error, untouched3 m o, with_mode Terminated s, refusal s).
  Proof.
    intros Hn Hm H.
    destruct o; cbn [when3] in H; try (exfalso; apply H; exact Hm); try congruence;
      cbn [exec3 untouched3];
      match goal with
      | |- context [O3Set] => idtac
      | t : VType |- _ => destruct t; cbn [when3] in H
      | _ => idtac
      end;
      try (gate_case gate_I); try (gate_case gate_S).
  Qed.

  Lemma gate2 fuel env (o : Op2 F (md m)) s :
    ~ In (mode_of s) (when2 o) ->
    exec2 m szof fuel env o s = Done (Error, untouched2 m o, with_mode Terminated s, refusal s).
  Proof.
    intros H.
    destruct o; cbn [when2] in H; cbn [exec2 untouched2];
      match goal with
      | t : VType |- _ => destruct t; cbn [when2] in H
      | _ => idtac
      end;
      try (gate_case gate2_I); try (gate_case gate2_S).
  Qed.
End Gate.
