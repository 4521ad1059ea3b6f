(** SpecEventMode.v -- what cs_event_mode has to write for BouncingBall (specification for C68). *)
From Coq Require Import List NArith ZArith Bool.
From Verif Require Import Base Instance ModelIface Core Fmi3 Api Fmus SpecSteps SpecPrograms SpecBall.
Import ListNotations.
Set Implicit Arguments.

Section SpecEventMode.
  Context {F : Type} {NF : Num F} (stop : F).
  Notation B := BouncingBall.
  Notation Row := (F * Out F (md (model_of (F := F) FMI3 B)))%type.
  Notation at_ := (row B (point (F := F) B) (solution B)).
  Notation before_ := (before_bounce B (point (F := F) B)).
  (** The next communication step of ten solver steps from the [k]-th point would pass the stop time. *)
  Definition late (k : nat) : Prop := nlt stop (nadd (point (F := F) B k) (nmul (nlit 10 0) (m_step (model_of (F := F) FMI3 B)))) = true.

  (** The rows from the [k]-th point on; the flag: an event at this point was a bounce.
      A communication step ends after ten solver steps or with the first bounce, of which the values before and after are
      written.  One solver step after each bounce there is a second event, at which nothing changes. *)
  Inductive event_visits : nat -> bool -> list Row -> Prop :=
  | ev_end k b : late k -> event_visits k b [at_ k]
  | ev_quiet k l : ~ late k -> (forall i, k <= i < k + 10 -> bounces B (solution (F := F) B i) = false) ->
      event_visits (k + 10) false l -> event_visits k false (at_ k :: l)
  | ev_bounce k j l : ~ late k -> k <= j < k + 10 -> (forall i, k <= i < j -> bounces B (solution (F := F) B i) = false) ->
      bounces B (solution (F := F) B j) = true -> event_visits (S j) true l -> event_visits k false (at_ k :: before_ j :: l)
  | ev_echo k l : ~ late k -> event_visits (S k) false l -> event_visits k true (at_ k :: at_ (S k) :: l).
End SpecEventMode.
