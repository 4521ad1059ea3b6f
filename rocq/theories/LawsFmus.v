(** LawsFmus.v -- the nine FMUs satisfy [Laws]. *)

From Coq Require Import List NArith ZArith Bool Arith.
From Verif Require Import Base Instance ModelIface Logic Fmus.
From Verif Require Import FmuBouncingBall FmuDahlquist FmuStair FmuVanDerPol FmuRoberts
  FmuClocks FmuResource FmuStateSpace FmuFeedthrough.
Import ListNotations.
Set Implicit Arguments.

Ltac head_of t := match t with ?f _ => head_of f | _ => t end.
Ltac gd_unfold :=
  match goal with |- gd _ ?t => let h := head_of t in unfold h end.
Ltac gd_go :=
  repeat first [ gd_step | progress cbn beta iota
               | match goal with |- gd _ (_ ?t _ _ _ _) => is_var t; destruct t end
               | gd_unfold
               | match goal with t : VType |- _ => destruct t end ].

Section Laws.
  Context {F : Type} {NF : Num F}.

  Lemma BouncingBall_laws : Laws (BouncingBall_model (F:=F)).
  Proof. constructor; cbn; intros; gd_go. Qed.
  Lemma Dahlquist_laws : Laws (Dahlquist_model (F:=F)).
  Proof. constructor; cbn; intros; gd_go. Qed.
  Lemma Stair_laws : Laws (Stair_model (F:=F)).
  Proof. constructor; cbn; intros; gd_go. Qed.
  Lemma VanDerPol_laws : Laws (VanDerPol_model (F:=F)).
  Proof. constructor; cbn; intros; gd_go. Qed.
  Lemma Roberts_laws : Laws (Roberts_model (F:=F)).
  Proof. constructor; cbn; intros; gd_go. Qed.
  Lemma Clocks_laws : Laws (Clocks_model (F:=F)).
  Proof. constructor; cbn; intros; gd_go. Qed.
  Lemma Resource_laws b : Laws (Resource_model (F:=F) b).
  Proof. constructor; cbn; intros; gd_go. Qed.
  Lemma StateSpace_laws : Laws (StateSpace_model (F:=F)).
  Proof. constructor; cbn; intros; gd_go. Qed.
  Lemma Feedthrough_laws b : Laws (Feedthrough_model (F:=F) b).
  Proof. constructor; cbn; intros; gd_go. Qed.

  Lemma model_laws v f : Laws (model_of (F:=F) v f).
  Proof.
    destruct f; cbn; auto using BouncingBall_laws, Dahlquist_laws, Stair_laws, VanDerPol_laws,
      Roberts_laws, Clocks_laws, Resource_laws, StateSpace_laws, Feedthrough_laws.
  Qed.
End Laws.
