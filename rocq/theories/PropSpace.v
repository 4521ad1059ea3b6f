(** PropSpace.v -- StateSpace: C37 (equations), C38 (structural parameters). *)
From Coq Require Import List NArith ZArith Bool Arith.
From Verif Require Import Base Instance ModelIface Core Fmi3 Fmi2 Api Fmus NumB64 SpecModes SpecCreate SpecState SpecVars SpecOde SpecSpace
  Dep Space Samples PropSteps.
Import ListNotations.
Set Implicit Arguments.

(** C37: the derivative of the state is A x + B u and the output C x + D u, with the sizes, matrices and
    vectors as read; in every state a simulation can be in before Terminated. *)
Theorem C37_equations :
  forall (F : Type) (NF : Num F) szof env s m n r A B C D x u,
    reach3 (model_of (F := F) FMI3 StateSpace) szof s -> mode_of s <> Terminated ->
    let get t := get3 (model_of (F := F) FMI3 StateSpace) szof env s t in
    get TUInt64 1%N [m] -> get TUInt64 2%N [n] -> get TUInt64 3%N [r] ->
    get TFloat64 4%N A -> get TFloat64 5%N B -> get TFloat64 6%N C -> get TFloat64 7%N D -> get TFloat64 9%N u -> get TFloat64 11%N x ->
    get TFloat64 12%N (affine (N.to_nat n) (N.to_nat n) (N.to_nat m) A B x u) /\
    get TFloat64 10%N (affine (N.to_nat r) (N.to_nat n) (N.to_nat m) C D x u).
Proof. exact @space_equations. Qed.
(** The same is C29 for StateSpace, the FMU that C29_equations_hold leaves out. *)
Theorem C29_statespace :
  forall (F : Type) (NF : Num F) szof env s m n r A B C D x u,
    reach3 (model_of (F := F) FMI3 StateSpace) szof s -> mode_of s <> Terminated ->
    let get t := get3 (model_of (F := F) FMI3 StateSpace) szof env s t in
    get TUInt64 1%N [m] -> get TUInt64 2%N [n] -> get TUInt64 3%N [r] ->
    get TFloat64 4%N A -> get TFloat64 5%N B -> get TFloat64 6%N C -> get TFloat64 7%N D -> get TFloat64 9%N u -> get TFloat64 11%N x ->
    get TFloat64 12%N (affine (N.to_nat n) (N.to_nat n) (N.to_nat m) A B x u) /\
    get TFloat64 10%N (affine (N.to_nat r) (N.to_nat n) (N.to_nat m) C D x u).
Proof. exact @space_equations. Qed.
(** Matrices and vectors that were set are returned unchanged (the instance of C08 for StateSpace). *)
Theorem C37_set_then_get :
  forall (F : Type) (NF : Num F) szof env fuel s t vr l n out s' tr,
    reach3 (model_of (F := F) FMI3 StateSpace) szof s ->
    exec3 (model_of FMI3 StateSpace) szof fuel env (O3Set t (Some [vr]) 1 (Some l) n) s = Done (OK, out, s', tr) ->
    SpecVars.stored (model_of FMI3 StateSpace) szof StateSpace env s vr ->
    n <= length l /\ get3 (model_of FMI3 StateSpace) szof env s' t vr (map (as_read t) (firstn n l)).
Proof. intros. eapply (@set_get_all F NF szof StateSpace); eassumption. Qed.
(** In Step Mode, after the matrix B and the input were changed and two solver steps were made. *)
Definition space_ops : list (Op3 B64 (md (m3' StateSpace))) :=
  [O3EnterInitializationMode (lit 0) true (lit 10);
   O3Set TFloat64 (Some [5%N]) 1 (Some (map lit [1; 2; 3; 4; 5; 6; 7; 8; 9]%Z)) 9;
   O3ExitInitializationMode; O3Set TFloat64 (Some [9%N]) 1 (Some (map lit [1; 0; 2]%Z)) 3;
   O3DoStep (lit 0) (nlit 2 (-3)) true true true true].
Definition floats_at (vr : N) (k : nat) (s : Sys B64 (md (m3' StateSpace))) : option (list B64) :=
  match exec3 (m3' StateSpace) szof0 0 env0 (O3Get TFloat64 (Some [vr]) 1 (Some (repeat (lit 0) k)) k) s with
  | Done (OK, out, _, _) => vals_of out | _ => None end.
Definition space_at (k n : nat) (s : Sys B64 (md (m3' StateSpace))) :=
  (floats_at 4 9 s, floats_at 5 n s, floats_at 11 3 s, floats_at 9 k s, floats_at 12 3 s).
Example C37_case : exists s, reach3 (m3' StateSpace) szof0 s /\ mode_of s = StepMode /\
  match space_at 3 9 s with
  | (Some a, Some b, Some x, Some u, Some dx) => dx = affine 3 3 3 a b x u /\ nth 1 dx nzero <> nth 1 u nzero
  | _ => False end.
Proof. case3 (newCS false false StateSpace) space_ops. split; [reflexivity|]. vm_compute. split; [reflexivity|discriminate]. Qed.
(** Once the sizes have been changed, which is possible only with an error that terminates the instance (see
    C38), the equation does not hold any more: here m = 2. *)
Definition broken_ops : list (Op3 B64 (md (m3' StateSpace))) :=
  [O3EnterConfigurationMode; O3Set TUInt64 (Some [1%N]) 1 (Some [2%N; 0%N]) 2].
Theorem C37_terminated_refuted : exists s, reach3 (m3' StateSpace) szof0 s /\ mode_of s = Terminated /\
  match space_at 2 6 s with
  | (Some a, Some b, Some x, Some u, Some dx) => dx <> affine 3 3 2 a b x u
  | _ => False end.
Proof. case3 (newCS false false StateSpace) broken_ops. split; [reflexivity|]. vm_compute. discriminate. Qed.
(** So C29 without the condition on the mode is false. *)
Theorem C29_statespace_refuted : exists s, reach3 (m3' StateSpace) szof0 s /\ mode_of s = Terminated /\
  match space_at 2 6 s with
  | (Some a, Some b, Some x, Some u, Some dx) => dx <> affine 3 3 2 a b x u
  | _ => False end.
Proof. exact C37_terminated_refuted. Qed.

(** C38: it is false that the structural parameters can be set: fmi3SetUInt64 never returns OK ... *)
Theorem C38_set_always_refused :
  forall (F : Type) (NF : Num F) szof env fuel s vrs nvr l n st out s' tr,
    reach3 (model_of (F := F) FMI3 StateSpace) szof s -> nvr <> 0 ->
    exec3 (model_of FMI3 StateSpace) szof fuel env (O3Set TUInt64 (Some vrs) nvr (Some l) n) s = Done (st, out, s', tr) -> st = Error.
Proof. exact @structural_refused. Qed.
(** ... for instance for m = 2 in Configuration Mode. *)
Theorem C38_in_range_refuted : exists s, reach3 (m3' StateSpace) szof0 s /\ mode_of s = ConfigurationMode /\
  match exec3 (m3' StateSpace) szof0 0 env0 (O3Set TUInt64 (Some [1%N]) 1 (Some [2%N]) 1) s with
  | Done (Error, _, s', _) => mode_of s' = Terminated | _ => False end.
Proof. case3 (newCS false false StateSpace) [O3EnterConfigurationMode (F := B64) (D := md (m3' StateSpace))]. auto. Qed.
(** What holds: the number of continuous states is n, and a value out of range is refused without effect. *)
Theorem C38_number_of_states :
  forall (F : Type) (NF : Num F) szof fuel env e s k out s' tr n,
    reach3 (model_of (F := F) FMI3 StateSpace) szof s ->
    exec3 (model_of FMI3 StateSpace) szof fuel env (O3GetNumberOfContinuousStates true) s = Done (k, out, s', tr) ->
    get3 (model_of (F := F) FMI3 StateSpace) szof e s TUInt64 2%N [n] ->
    k = OK /\ out = OCount (Some (N.to_nat n)).
Proof. exact @states_n. Qed.
Theorem C38_out_of_range :
  forall (F : Type) (NF : Num F) szof fuel env e s vr v l n st out s' tr,
    reach3 (model_of (F := F) FMI3 StateSpace) szof s -> (5 < v)%N ->
    exec3 (model_of FMI3 StateSpace) szof fuel env (O3Set TUInt64 (Some [vr]) 1 (Some (v :: l)) n) s = Done (st, out, s', tr) ->
    st = Error /\ reads_same (model_of FMI3 StateSpace) szof e s s'.
Proof. exact @out_of_range. Qed.
Example C38_case : exists s, reach3 (m3' StateSpace) szof0 s /\
  match exec3 (m3' StateSpace) szof0 0 env0 (O3GetNumberOfContinuousStates true) s,
        exec3 (m3' StateSpace) szof0 0 env0 (O3Get TUInt64 (Some [2%N]) 1 (Some [0%N]) 1) s,
        exec3 (m3' StateSpace) szof0 0 env0 (O3Set TUInt64 (Some [2%N]) 1 (Some [6%N; 0%N]) 2) s with
  | Done (OK, OCount (Some 3), _, _), Done (OK, OVals TUInt64 (Some [3%N]), _, _), Done (Error, _, _, _) => True | _, _, _ => False end.
Proof. case3 (newCS false false StateSpace) [O3EnterConfigurationMode (F := B64) (D := md (m3' StateSpace))]. exact I. Qed.

Definition PropSpace_all := (@C37_equations, @C29_statespace, @C29_statespace_refuted, @C37_set_then_get, @C37_terminated_refuted, @C38_set_always_refused, @C38_in_range_refuted,
  @C38_number_of_states, @C38_out_of_range).
Print Assumptions PropSpace_all.
