(** SpecDebug.v -- specification of SetDebugLogging: which categories are named by a list. *)
From Coq Require Import List NArith ZArith Bool Strings.String.
From Verif Require Import Base Instance Api SpecModes.
Import ListNotations.
Open Scope list_scope.
Set Implicit Arguments.

(** The two log categories of the package, as in the model descriptions. *)
Definition cat_events : bytes := String.list_byte_of_string "logEvents".
Definition cat_errors : bytes := String.list_byte_of_string "logStatusError".

(** The C string [p] (NULL is [None]) is [name]. *)
Definition is_named (name : bytes) (p : option bytes) : Prop :=
  exists s, p = Some s /\ cstr s = name.
Definition known_category (p : option bytes) : Prop := is_named cat_events p \/ is_named cat_errors p.

(** The flag for the category [name] after the listed categories were switched to [on]. *)
Definition switched (name : bytes) (on : bool) (l : list (option bytes)) (old new : bool) : Prop :=
  (Exists (is_named name) l -> new = on) /\ (~ Exists (is_named name) l -> new = old).

(** [s] with only the two logging flags replaced. *)
Definition with_logging {F D} (ev er : bool) (s : Sys F D) : Sys F D :=
  mkSys (set_ctl (set_logErrors er (set_logEvents ev (ctl (sinst s)))) (sinst s)) (heap s).

(** Outcome [r] of SetDebugLogging([on], [n], [cats]) in a mode that allows it, case by case:
  no category given; all [n] categories known; a first unknown category among the [n]; NULL. *)
Definition debug_outcome {F D : Type} (on : bool) (n : nat) (cats : Buf (option bytes)) (s : Sys F D)
           (r : res (Status * Out F D * Sys F D * list (Event F))) : Prop :=
  (n = 0 -> r = Done (OK, ONone, with_logging on on s, [])) /\
  (forall l rest, n = List.length l -> n <> 0 -> cats = Some (l ++ rest) -> Forall known_category l ->
     exists ev er, r = Done (OK, ONone, with_logging ev er s, []) /\
       switched cat_events on l (logEvents (ctl (sinst s))) ev /\
       switched cat_errors on l (logErrors (ctl (sinst s))) er) /\
  (forall l bad rest, List.length l < n -> cats = Some (l ++ bad :: rest) ->
     Forall known_category l -> ~ known_category bad ->
     exists ev er, r = Done (Error, ONone, with_mode Terminated (with_logging ev er s),
                             refusal (with_logging ev er s)) /\
       switched cat_events on l (logEvents (ctl (sinst s))) ev /\
       switched cat_errors on l (logErrors (ctl (sinst s))) er) /\
  (n <> 0 -> cats = None -> r = Done (Error, ONone, with_mode Terminated s, refusal s)).

