(** Square.v -- B of StateSpace is square in every reachable instance that is not in the state Terminated, so
    what is assigned to any variable is read back. *)
From Coq Require Import List NArith ZArith Bool Arith.
From Verif Require Import Base Instance ModelIface Core Fmi3 Api Fmus SpecModes SpecCreate SpecVars DataFmus Data Dep Fits FmuStateSpace.
Import ListNotations.
Set Implicit Arguments.

Section Square.
  Context {F : Type} {NF : Num F} (szof : N).
  Theorem set_get_space env fuel s t vr l n out s' tr : reach3 (model_of (F := F) FMI3 StateSpace) szof s -> mode_of s <> Terminated ->
    exec3 (model_of FMI3 StateSpace) szof fuel env (O3Set t (Some [vr]) 1 (Some l) n) s = Done (OK, out, s', tr) ->
    n <= length l /\ get3 (model_of FMI3 StateSpace) szof env s' t vr (map (as_read t) (firstn n l)).
  Proof.
    intros R M E. eapply (@set_get F NF StateSpace szof); eauto. intros [_ X]. apply X.
    destruct (sized_reach StateSpace R) as (_ & _ & P). specialize (P M). cbn in P. unfold dims in P.
    injection P as P1 P2 P3. cbn [md model_of StateSpace_model] in *. Lia.lia.
  Qed.
End Square.
