(** SpecPreempt.v -- what a schedule of the partitions of Clocks should amount to (specification for C54). *)
From Coq Require Import List NArith ZArith Bool.
From Verif Require Import Base Instance ModelIface Core Fmi3 Api Fmus Preempt.
Import ListNotations.
Set Implicit Arguments.

(** The clock that activates a partition. *)
Definition clock_of (p : Part) : N := match p with P1 => 1001 | P2 => 1002 | P3 => 1003 end.

Section Calls.
  Context {F D : Type} (z : F).
  (** The API call that a step of the importer makes; [Go] is none.  [z]: what is in the caller's arrays. *)
  Definition call_of (e : Sched F) : option (Op3 F D) :=
    match e with
    | Start p t => Some (O3ActivateModelPartition (clock_of p) t)
    | Go => None
    | SetInput v => Some (O3Set TInt32 (Some [2006%N]) 1 (Some [v]) 1)
    | ReadClock => Some (O3GetClock (Some [1005%N]) 1 (Some [false]))
    | ReadInterval => Some (O3GetIntervalDecimal (Some [1003%N]) 1 (Some [z]) (Some [0%Z]))
    end.
  Definition calls_of (l : list (Sched F)) : list (Op3 F D) :=
    flat_map (fun e => match call_of e with Some o => [o] | None => [] end) l.
  (** The values read by a schedule and by API calls. *)
  Definition reads_seen (l : list Seen) : list (bool + Z) :=
    flat_map (fun o => match o with SawClock b => [inl b] | SawInterval q => [inr q] | SawUpdate _ => [] end) l.
  Definition reads_got {T} (l : list (Status * Out F D * T)) : list (bool + Z) :=
    flat_map (fun ob => match snd (fst ob) with
                        | OClocks (Some [b]) => [inl b]
                        | OInterval _ (Some [q]) => [inr q]
                        | _ => []
                        end) l.
  (** The calls of clockUpdate during a call. *)
  Definition updates (p : Part) (tr : list (Event F)) : list Seen :=
    flat_map (fun e => match e with EClockUpdate => [SawUpdate p] | _ => [] end) tr.
  (** The number of activations of a partition, and of all. *)
  Definition activations (p : Part) (l : list (Sched F)) : Z :=
    Z.of_nat (List.length (filter (fun e => match e, p with
      | Start P1 _, P1 | Start P2 _, P2 | Start P3 _, P3 => true | _, _ => false end) l)).
  Definition all_activations (l : list (Sched F)) : Z := (activations P1 l + activations P2 l + activations P3 l)%Z.
End Calls.
