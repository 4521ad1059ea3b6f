(** RunsOther.v -- the programs cs_reconfiguration and jacobian (C60, C61). *)
From Coq Require Import List NArith ZArith Bool Arith Lia Reals Lra.
From Verif Require Import Base Instance ModelIface Core Fmi3 Api Fmus NumR NumB64 SpecPrograms Programs StepReal.
Import ListNotations.
Set Implicit Arguments.

Section Any.
  Context {F : Type} {NF : Num F} (szof : N) (fuel : nat) (env : Env) (S : N) (stop : F).
  Lemma reconfiguration_fails : exists s, cs_reconfiguration StateSpace szof fuel env S stop = Done (Error, nil, Some s).
  Proof. eexists; lazy -[nle nlt nadd nmul nopp nsub nlit nzero ndblmin nofN ninf ntrunc]; reflexivity. Qed.
  Notation one := (nlit (F := F) 1 0).
  Notation two := (nlit (F := F) 2 0).
  Lemma jacobian_rows : exists s, jacobian (F := F) VanDerPol szof fuel env S =
    Done (OK, matrix_rows (nadd nzero (nmul nzero one)) (nadd nzero (nmul one one))
                (nadd nzero (nmul (nsub (nmul (nmul (nmul (nlit (-2) 0) two) nzero) one) one) one))
                (nadd nzero (nmul (nmul one (nsub one (nmul two two))) one)), Some s).
  Proof. eexists; lazy -[nle nlt nadd nmul nopp nsub nlit nzero ndblmin nofN ninf ntrunc]; reflexivity. Qed.
End Any.

Lemma jacobian_R (inf : R) szof fuel env S : let NF := NumR inf in
  exists s, jacobian VanDerPol szof fuel env S = Done (OK, matrix_rows 0 1 (- 2 * 2 * 0 - 1) (1 - 2 * 2), Some s)%R.
Proof.
  intro NF. destruct (@jacobian_rows R NF szof fuel env S) as (s & ->). exists s. repeat f_equal; cbn; lra.
Qed.
Lemma jacobian_B64 szof fuel env S :
  exists s, jacobian (F := B64) VanDerPol szof fuel env S = Done (OK, matrix_rows (nlit 0 0) (nlit 1 0) (nlit (-1) 0) (nlit (-3) 0), Some s)%R.
Proof.
  destruct (@jacobian_rows B64 NumB64 szof fuel env S) as (s & ->). exists s. do 3 f_equal.
Qed.
