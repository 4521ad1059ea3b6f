(** SpecMx.v -- the Model Exchange interface in terms of the variables (specification for C49-C53).  Sources: the
    elements ModelStructure of */FMI3.xml and */FMI2.xml, the readme files, the FMI 3.0 standard 2.4.2 and 3.2. *)
From Coq Require Import List NArith ZArith Bool.
From Verif Require Import Base Instance ModelIface Core Fmi3 Fmi2 Api Fmus SpecModes SpecVars.
Import ListNotations.
Set Implicit Arguments.

(** The value references of the continuous states and of their derivatives, in the order of ModelStructure. *)
Definition state_vrs (f : FMU) : list N :=
  match f with
  | BouncingBall => [1; 3] | Dahlquist => [1] | VanDerPol => [1; 3] | Roberts => [2; 4] | StateSpace => [11]
  | _ => []
  end%N.
Definition derivative_vrs (f : FMU) : list N :=
  match f with
  | BouncingBall => [2; 4] | Dahlquist => [2] | VanDerPol => [2; 4] | Roberts => [3; 5] | StateSpace => [12]
  | _ => []
  end%N.
(** Those of the event indicators. *)
Definition indicator_vrs (f : FMU) : list N :=
  match f with BouncingBall => [1] | Roberts => [9; 10] | _ => [] end%N.

Section Mx.
  Context {F : Type} {NF : Num F} (f : FMU) (szof : N) (env : Env).
  Notation m3 := (model_of (F := F) FMI3 f).
  Notation m2 := (model_of (F := F) FMI2 f).

  (** Reading the variables [vrs] one after the other gives [xs]. *)
  Definition reads3 (s : Sys F (md m3)) (vrs : list N) (xs : list F) : Prop :=
    exists ls : list (list (val F TFloat64)), Forall2 (fun vr l => get3 m3 szof env s TFloat64 vr l) vrs ls /\ concat ls = xs.
  Definition reads2 (s : Sys F (md m2)) (vrs : list N) (xs : list F) : Prop :=
    Forall2 (fun vr x => get2 m2 szof env s TFloat64 vr x) vrs xs.

  (** The numbers the instance reports. *)
  Definition states3 (s : Sys F (md m3)) (k : nat) : Prop :=
    exec3 m3 szof 0 env (O3GetNumberOfContinuousStates true) s = Done (OK, OCount (Some k), s, []).
  Definition indicators3 (s : Sys F (md m3)) (k : nat) : Prop :=
    exec3 m3 szof 0 env (O3GetNumberOfEventIndicators true) s = Done (OK, OCount (Some k), s, []).

  (** A getter of [n] numbers: it succeeds exactly if [n] is the number of them, [ok n]; then it writes
      [n] numbers of which [P] holds and leaves the rest of the array alone. *)
  Definition answers {D} (r : res (Status * Out F D * Sys F D * list (Event F))) (b : list F) (n : nat) (ok : nat -> Prop)
    (P : list F -> Prop) : Prop :=
    exists st out s' t, r = Done (st, out, s', t) /\ (st = OK \/ st = Error) /\ (st = OK <-> ok n) /\
      (st = OK -> exists xs, out = OFloats (Some (xs ++ skipn n b)) /\ length xs = n /\ P xs).

  (** The event indicators: BouncingBall the height, except just below the ground on the way up, where it is a
      small negative number; Roberts y1 - 1e-4 and y3 - 1e-2. *)
  Definition indicator_values (get : N -> F -> Prop) (zs : list F) : Prop :=
    match f with
    | BouncingBall => exists h v, get 1%N h /\ get 3%N v /\
        zs = [if nlt (nopp (nlit 1 (-10))) h && nle h nzero && nlt nzero v then nopp (nlit 1 (-10)) else h]
    | Roberts => exists y1 y3, get 2%N y1 /\ get 6%N y3 /\ zs = [nsub y1 (nlit 1 (-4)); nsub y3 (nlit 1 (-2))]
    | _ => zs = []
    end.
  (** The nominal values (attribute nominal, default 1). *)
  Definition nominal_values (n : nat) : list F :=
    match f with Roberts => [nlit 1 (-4); nlit 1 (-2)] | _ => repeat (nlit 1 0) n end.

  (** The value of [vr] does not follow from the states. *)
  Definition beside_states (vr : N) : Prop :=
    ~ In vr (state_vrs f) /\ forall w, In w (depends f vr) -> ~ In w (state_vrs f).

  (** The answer of the event update: nothing but [changed], the continuous states changed. *)
  Definition only_values (changed : bool) : EventInfo F := mkEventInfo false false false changed false nzero.
  (** The ball hits the ground with height [h] and velocity [v] and leaves with [h', v', g']; below the velocity
      [vmin] it comes to rest. *)
  Definition bounce (v g e vmin : F) (h' v' g' : F) : Prop :=
    h' = ndblmin /\
    (nlt (nmul (nopp v) e) vmin = true /\ v' = nzero /\ g' = nzero \/
     nlt (nmul (nopp v) e) vmin = false /\ v' = nmul (nopp v) e /\ g' = g).
  (** What [get] and [get'] read before and after an event of BouncingBall; [changed]: it bounced. *)
  Definition ball_event (get get' : N -> F -> Prop) (changed : bool) : Prop :=
    exists h v g e vmin h' v' g',
      get 1%N h /\ get 3%N v /\ get 5%N g /\ get 6%N e /\ get 7%N vmin /\
      get' 1%N h' /\ get' 3%N v' /\ get' 5%N g' /\ get' 6%N e /\
      (changed = true <-> nle h nzero = true /\ nlt v nzero = true) /\
      (changed = true -> bounce v g e vmin h' v' g') /\
      (changed = false -> h' = h /\ v' = v /\ g' = g).
  (** A time event is due. *)
  Definition due {D} (s : Sys F D) : bool :=
    nextEventTimeDefined (mut (sinst s)) && isClose (time (ctl (sinst s))) (nextEventTime (mut (sinst s))).
  (** The next value of the counter of Stair and the next event, and what is reported. *)
  Definition stair_event {D} (s : Sys F D) (c c' : Z) (info : EventInfo F) : Prop :=
    let tn := nextEventTime (mut (sinst s)) in
    c' = (if due s then c + 1 else c)%Z /\
    info = mkEventInfo false (Z.leb 10 c') false false true (if due s then nadd tn (nlit 1 0) else tn).

  (** The outputs of BouncingBall whose derivative the FMU offers: height and velocity, first order. *)
  Definition offered (vr : N) (order : Z) : Prop := (vr = 1%N \/ vr = 3%N) /\ order = 1%Z.
End Mx.
