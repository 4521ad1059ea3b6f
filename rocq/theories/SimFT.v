(** SimFT.v -- the relation of Sim.v for Feedthrough. *)
From Coq Require Import List NArith ZArith Bool Arith Lia.
From Verif Require Import Base Instance ModelIface Core Fmus Logic Calls Sim SimRules.
From Verif Require Import FmuBouncingBall FmuDahlquist FmuStair FmuVanDerPol FmuRoberts FmuClocks
  FmuResource FmuStateSpace FmuFeedthrough.
Import ListNotations.
Set Implicit Arguments.

Section FT.
  Context {F : Type} {NF : Num F} (lg : Prop) (x : bool).
  (** Feedthrough: the outputs are computed from the inputs, which fit into the buffers. *)
  Definition ft_core (d d' : FTData F) : Prop :=
    ft_calc d' = ft_calc d /\
    Nat.ltb (length (ft_str_in d)) STRING_MAX_LEN = true /\ Nat.leb (length (ft_bin_in d)) BINARY_MAX_LEN = true.
  Arguments ft_calc : simpl never.
  Definition relFT : Rel (FTData F) := mkRel lg x (fun _ => True) (fun _ => True) True False ft_core.
  Arguments STRING_MAX_LEN : simpl never.
  Arguments BINARY_MAX_LEN : simpl never.
  Lemma ft_core_in (d d' : FTData F) : ft_calc d' = ft_calc d -> ft_str_in d' = ft_str_in d /\ ft_bin_in d' = ft_bin_in d.
  Proof. unfold ft_calc. intro H. now injection H. Qed.
  Lemma ft_core_calc (d d' : FTData F) : ft_core d d' -> ft_core (ft_calc d) (ft_calc d).
  Proof. intros (_ & A & B). split; [reflexivity|]. split; assumption. Qed.
  Ltac ft_fun :=
    match goal with
    | |- msim _ _ _ _ => let M := fresh "M" in intros e c c' u u' He C M; destruct M; cbn in *
    end;
    match goal with H : ft_core _ _ |- _ =>
      let A := fresh "A" in let B := fresh "B" in let G := fresh "G" in
      assert (G := ft_core_calc H); destruct H as (A & ? & ?); assert (B := ft_core_in A); destruct B end.
  Lemma ft_str_bound s : Nat.leb STRING_MAX_LEN (strlen s) = false -> Nat.ltb (length (cstr s)) STRING_MAX_LEN = true.
  Proof. intro H. apply Nat.leb_gt in H. now apply Nat.ltb_lt. Qed.
  Lemma ft_bin_bound n (b : bytes) :
    Nat.ltb BINARY_MAX_LEN n = false -> Nat.leb (length (firstn n b)) BINARY_MAX_LEN = true.
  Proof. intro H. apply Nat.ltb_ge in H. apply Nat.leb_le. rewrite firstn_length. lia. Qed.
  Lemma ft_start_bound : ft_core (ft_start (F:=F)) ft_start.
  Proof. unfold ft_core. repeat split. Qed.
  Lemma ft_core_set (f : FTData F -> FTData F) d d' :
    (forall d, ft_calc (f d) = ft_calc (f (ft_calc d))) -> ft_calc d' = ft_calc d ->
    Nat.ltb (length (ft_str_in (f d))) STRING_MAX_LEN = true -> Nat.leb (length (ft_bin_in (f d))) BINARY_MAX_LEN = true ->
    ft_core (f d) (f d').
  Proof. intros H A B C. split; [|split; assumption]. rewrite (H d'), A. symmetry. apply H. Qed.
  Ltac ft_leaf :=
    lazymatch goal with
    | |- mutR _ _ _ => constructor; cbn; auto;
        first [apply ft_start_bound
              | assumption
              | split; [assumption|split; assumption]
              | apply ft_core_set; [intro; reflexivity|assumption|cbn; auto using ft_str_bound|cbn; auto using ft_bin_bound] ]
    | |- _ => sm_leaf
    end.
  Ltac ft_all := ft_fun; sm_go; ft_leaf.
  Lemma sim_FT fmi2 : SimLaws (Feedthrough_model (F:=F) fmi2) relFT.
  Proof.
    constructor; unfold Feedthrough_model; sl_begin.
    all: try solve [split; cbn; try lia; reflexivity]; try solve [exfalso; cbn in *; lia]; try solve [cbn; auto].
    all: try solve [ft_all].
    - destruct H2. cbn in *. sm_go. sm_leaf.
    - destruct H1. cbn in *. destruct mr_data as (A & B & C). eexists. split.
      + unfold ft_calculateValues, mbind, mdata, bind. rewrite B, C. reflexivity.
      + mut_side. split; [exact A|now split].
    - destruct H1. cbn in *. destruct mr_data as (A & B & C). destruct (ft_core_in A) as [Es Eb]. eexists. split.
      + unfold ft_calculateValues, mbind, mdata, bind. rewrite Es, Eb, B, C. reflexivity.
      + mut_side. split; [exact eq_refl|now split].
  Qed.
End FT.
