(** KeepRules.v -- rules for model functions that keep a relation between the data (used with Keeps.v). *)
From Coq Require Import List NArith ZArith Bool Arith Lia.
From Verif Require Import Base Instance ModelIface Logic Keeps.
Import ListNotations.
Set Implicit Arguments.

Section Rules.
  Context {F D : Type} (R : Mut F D -> Mut F D -> Prop) (Rr : forall u, R u u) (Rt : forall a b c, R a b -> R b c -> R a c).
  Lemma km_ret X (x : X) : keepM R (mret x).
  Proof. intros e c u y u' t E. inversion E; subst. apply Rr. Qed.
  Lemma km_bind X Y (f : MF F D X) (k : X -> MF F D Y) : keepM R f -> (forall x, keepM R (k x)) -> keepM R (mbind f k).
  Proof.
    intros A B e c u y u' t E. unfold mbind in E. apply bind_Done in E as (z & s1 & t1 & t2 & E1 & E2 & ->).
    eapply Rt; [eapply A; eassumption|eapply B; eassumption].
  Qed.
  Lemma km_ub X : keepM R (mub : MF F D X).
  Proof. intros e c u y u' t E. discriminate. Qed.
  Lemma km_ctl : keepM R (mctl : MF F D _).
  Proof. intros e c u y u' t E. inversion E; subst. apply Rr. Qed.
  Lemma km_env : keepM R (menv : MF F D _).
  Proof. intros e c u y u' t E. inversion E; subst. apply Rr. Qed.
  Lemma km_get : keepM R (mget : MF F D _).
  Proof. intros e c u y u' t E. inversion E; subst. apply Rr. Qed.
  Lemma km_data : keepM R (mdata : MF F D _).
  Proof. intros e c u y u' t E. inversion E; subst. apply Rr. Qed.
  Lemma km_mod f : (forall u, R u (f u)) -> keepM R (mmod f).
  Proof. intros H e c u y u' t E. inversion E; subst. apply H. Qed.
  Lemma km_modd f : (forall u, R u (set_data (f (data u)) u)) -> keepM R (mmodd f).
  Proof. intros H e c u y u' t E. inversion E; subst. apply H. Qed.
  Lemma km_tell ev : keepM R (mtell ev).
  Proof. intros e c u y u' t E. inversion E; subst. apply Rr. Qed.
  Lemma km_rd T (b : Buf T) i : keepM R (mrd b i).
  Proof. intros e c u y u' t E. unfold mrd, rd in E. destruct b as [l|]; [destruct (nth_error l i)|]; inversion E; subst; apply Rr. Qed.
  Lemma km_wr T (b : Buf T) i v : keepM R (mwr b i v).
  Proof. intros e c u y u' t E. unfold mwr, wr in E. destruct b as [l|]; [destruct (Nat.ltb i (length l))|]; inversion E; subst; apply Rr. Qed.
  Lemma km_log : keepM R (mlogError : MF F D _).
  Proof. intros e c u y u' t E. unfold mlogError in E. destruct (logErrors c && hasLogger c); inversion E; subst; apply Rr. Qed.
  Lemma km_putl T : forall (l : list T) b i, keepM R (putl b i l).
  Proof. induction l as [|v l IH]; intros b i; cbn [putl]; [apply km_ret|apply km_bind; [apply km_wr|intro; apply IH]]. Qed.
  Lemma km_takel T : forall n (b : Buf T) i, keepM R (takel b i n).
  Proof.
    induction n as [|n IH]; intros b i; cbn [takel]; [apply km_ret|].
    apply km_bind; [apply km_rd|intro]. apply km_bind; [apply IH|intro; apply km_ret].
  Qed.
  Lemma km_writel T : forall (l : list T) b i, keepM R (writel b i l).
  Proof. induction l as [|v l IH]; intros b i; cbn [writel]; [apply km_ret|apply km_bind; [apply km_wr|intro; apply IH]]. Qed.
End Rules.

(** Reduces [keepM R f] to the changes [f] makes. *)
Ltac kmr Rr Rt := match goal with
  | |- keepM _ (mret _) => apply km_ret; exact Rr
  | |- keepM _ (mbind _ _) => apply km_bind; [exact Rt| |intro]
  | |- keepM _ mub => apply km_ub
  | |- keepM _ mctl => apply km_ctl; exact Rr
  | |- keepM _ menv => apply km_env; exact Rr
  | |- keepM _ mget => apply km_get; exact Rr
  | |- keepM _ mdata => apply km_data; exact Rr
  | |- keepM _ (mmod _) => apply km_mod; intro
  | |- keepM _ (mmodd _) => apply km_modd; intro
  | |- keepM _ (mtell _) => apply km_tell; exact Rr
  | |- keepM _ (mrd _ _) => apply km_rd; exact Rr
  | |- keepM _ (mwr _ _ _) => apply km_wr; exact Rr
  | |- keepM _ (putl _ _ _) => apply km_putl; [exact Rr|exact Rt]
  | |- keepM _ (takel _ _ _) => apply km_takel; [exact Rr|exact Rt]
  | |- keepM _ (writel _ _ _) => apply km_writel; [exact Rr|exact Rt]
  | |- keepM _ mlogError => apply km_log; exact Rr
  | |- keepM _ (if ?b then _ else _) => destruct b
  | |- keepM _ (match ?x with _ => _ end) => destruct x
  | |- keepM _ (let '(_, _) := ?x in _) => destruct x
  end.
(** Unfolds the combinator at the head. *)
Ltac head_of f := match f with ?g _ => head_of g | _ => f end.
Ltac kmu := match goal with |- keepM _ ?f => let h := head_of f in unfold h end.
Ltac kms Rr Rt := repeat first [assumption|kmr Rr Rt|kmu].
