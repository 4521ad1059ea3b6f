(** Calls.v -- calls that pass the mode check run their body. *)
From Coq Require Import List NArith ZArith Bool Arith Lia.
From Verif Require Import Base Instance ModelIface Core Fmi3 Fmi2 Api Logic SpecModes Gate.
Import ListNotations.
Set Implicit Arguments.

Section Calls.
  Context {F : Type} {NF : Num F} (m : Model F) (szof : N) (env : Env).
  Notation D := (md m).

  Lemma bind_getC X (k : Ctl F -> AF F D X) i : bind (getC m) k i = k (ctl i) i.
  Proof. unfold bind, getC. destruct (k (ctl i) i) as [[[? ?] ?]| |]; auto. Qed.
  Lemma bind_getM X (k : Mut F D -> AF F D X) i : bind (getM m) k i = k (mut i) i.
  Proof. unfold bind, getM. destruct (k (mut i) i) as [[[? ?] ?]| |]; auto. Qed.
  Lemma bind_getSol X (k : Sol F -> AF F D X) i : bind (getSol m) k i = k (sol i) i.
  Proof. unfold bind, getSol. destruct (k (sol i) i) as [[[? ?] ?]| |]; auto. Qed.
  Lemma bind_modC X f (k : unit -> AF F D X) i : bind (modC m f) k i = k tt (set_ctl (f (ctl i)) i).
  Proof. unfold bind, modC, modS. destruct (k tt _) as [[[? ?] ?]| |]; auto. Qed.
  Lemma bind_modM X f (k : unit -> AF F D X) i : bind (modM m f) k i = k tt (set_mut (f (mut i)) i).
  Proof. unfold bind, modM, modS. destruct (k tt _) as [[[? ?] ?]| |]; auto. Qed.
  Lemma bind_modSol X f (k : unit -> AF F D X) i : bind (modSol m f) k i = k tt (set_sol (f (sol i)) i).
  Proof. unfold bind, modSol, modS. destruct (k tt _) as [[[? ?] ?]| |]; auto. Qed.

  Definition message (i : Inst F D) : list (Event F) :=
    if logErrors (ctl i) && hasLogger (ctl i) then [ELog Error CatLogStatusError] else [].
  Lemma logError_eq i : logError m env i = Done (tt, i, message i).
  Proof.
    unfold logError, call, mlogError, message.
    destruct (logErrors (ctl i) && hasLogger (ctl i)); destruct i; reflexivity.
  Qed.
  Lemma bind_logError X (k : unit -> AF F D X) i :
    bind (logError m env) k i =
    match k tt i with Done (x, i', t) => Done (x, i', message i ++ t) | UB => UB | NoFuel => NoFuel end.
  Proof. unfold bind. rewrite logError_eq. reflexivity. Qed.

  Lemma BEGIN_pass X mask (x : X) k i :
    N.land (bit3 (mode (ctl i))) mask <> 0%N -> BEGIN m env mask x k i = k i.
  Proof.
    intro H. unfold BEGIN, allowedState. unfold bind at 1. rewrite bind_getC.
    destruct (N.eqb_spec (N.land (bit3 (mode (ctl i))) mask) 0); [contradiction|]. cbn.
    destruct (k i) as [[[? ?] ?]| |]; auto.
  Qed.
  Lemma BEGIN2_pass X mask (x : X) k i :
    N.land (bit2 (mode (ctl i))) mask <> 0%N -> BEGIN2 m env mask x k i = k i.
  Proof.
    intro H. unfold BEGIN2, allowedState2. unfold bind at 1. rewrite bind_getC.
    destruct (N.eqb_spec (N.land (bit2 (mode (ctl i))) mask) 0); [contradiction|]. cbn.
    destruct (k i) as [[[? ?] ?]| |]; auto.
  Qed.
  Lemma BEGIN3S_pass X mask (x : X) (k : SF m (Status * X)) s :
    N.land (bit3 (mode (ctl (sinst s)))) mask <> 0%N -> BEGIN3S env mask x k s = k s.
  Proof.
    intro H. unfold BEGIN3S, onInst, allowedState. unfold bind at 1. rewrite bind_getC.
    destruct (N.eqb_spec (N.land (bit3 (mode (ctl (sinst s)))) mask) 0); [contradiction|]. cbn.
    destruct s as [i h]; cbn. destruct (k _) as [[[? ?] ?]| |]; auto.
  Qed.
  Lemma BEGIN2S_pass X mask (x : X) (k : SF m (Status * X)) s :
    N.land (bit2 (mode (ctl (sinst s)))) mask <> 0%N -> BEGIN2S env mask x k s = k s.
  Proof.
    intro H. unfold BEGIN2S, onInst, allowedState2. unfold bind at 1. rewrite bind_getC.
    destruct (N.eqb_spec (N.land (bit2 (mode (ctl (sinst s)))) mask) 0); [contradiction|]. cbn.
    destruct s as [i h]; cbn. destruct (k _) as [[[? ?] ?]| |]; auto.
  Qed.

  Lemma CALLk_ok X (x : X) k i : CALLk m OK OK x k i = k OK i.
  Proof. unfold CALLk, CALL. cbn. unfold bind. cbn. destruct (k OK i) as [[[? ?] ?]| |]; auto. Qed.
  Lemma CALLk_err X (x : X) k i :
    CALLk m OK Error x k i = Done ((Error, x), set_ctl (set_mode Terminated (ctl i)) i, []).
  Proof. reflexivity. Qed.
  Lemma CALL_ok X (k : Status -> AF F D X) i : bind (CALL m OK OK) k i = k OK i.
  Proof. unfold CALL. cbn. apply bind_ret_l. Qed.
  Lemma CALL_err X (k : Status -> AF F D X) i :
    bind (CALL m OK Error) k i = k Error (set_ctl (set_mode Terminated (ctl i)) i).
  Proof. unfold CALL, bind. cbn. destruct (k _ _) as [[[? ?] ?]| |]; auto. Qed.

  Lemma outI_eq X (f : AF F D (Status * X)) o s :
    outI m f o s = match f (sinst s) with
                   | Done ((st, x), i, t) => Done (st, o x, mkSys i (heap s), t)
                   | UB => UB | NoFuel => NoFuel end.
  Proof.
    unfold outI, outS, onInst, bind. destruct (f (sinst s)) as [[[[st x] i] t]| |]; auto. cbn.
    now rewrite app_nil_r.
  Qed.
  Lemma outS_eq X (f : SF m (Status * X)) o s :
    outS f o s = match f s with
                 | Done ((st, x), s', t) => Done (st, o x, s', t)
                 | UB => UB | NoFuel => NoFuel end.
  Proof. unfold outS, bind. destruct (f s) as [[[[st x] i] t]| |]; auto. cbn. now rewrite app_nil_r. Qed.
End Calls.
