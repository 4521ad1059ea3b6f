(** PropSquare.v -- C08 for the variable B of StateSpace, which C08_set_then_get leaves out. *)
From Coq Require Import List NArith ZArith Bool Arith.
From Verif Require Import Base Instance ModelIface Core Fmi3 Fmi2 Api Fmus NumB64 SpecModes SpecCreate SpecState SpecVars
  Square Samples PropData PropSpace.
Import ListNotations.
Set Implicit Arguments.

(** C08: in every state but Terminated, what was assigned to any variable of StateSpace, including the matrix B,
    is read back. *)
Theorem C08_statespace :
  forall (F : Type) (NF : Num F) szof env fuel s t vr l n out s' tr,
    reach3 (model_of (F := F) FMI3 StateSpace) szof s -> mode_of s <> Terminated ->
    exec3 (model_of FMI3 StateSpace) szof fuel env (O3Set t (Some [vr]) 1 (Some l) n) s = Done (OK, out, s', tr) ->
    n <= length l /\ get3 (model_of FMI3 StateSpace) szof env s' t vr (map (as_read t) (firstn n l)).
Proof. exact @set_get_space. Qed.
Example C08_case_statespace : exists s, reach3 (m3' StateSpace) szof0 s /\ mode_of s = InitializationMode /\
  match exec3 (m3' StateSpace) szof0 fuel0 env0 (O3Set TFloat64 (Some [5%N]) 1 (Some (map lit [1; 2; 3; 4; 5; 6; 7; 8; 9]%Z)) 9) s with
  | Done (OK, _, _, _) => True | _ => False end.
Proof. case3 (newCS false false StateSpace) [O3EnterInitializationMode (F := B64) (D := md (m3' StateSpace)) (lit 0) true (lit 10)]. split; [reflexivity|exact I]. Qed.

(** In Terminated, where FMI 3.0 forbids the call but the FMU accepts it, this is false: after the failed change
    of m to 2, the six values assigned to B are not the six values that are read. *)
Definition B6 : list B64 := map lit [1; 2; 3; 4; 5; 6]%Z.
Theorem C08_statespace_refuted :
  exists s out s' tr, reach3 (m3' StateSpace) szof0 s /\ mode_of s = Terminated /\
    exec3 (m3' StateSpace) szof0 0 env0 (O3Set TFloat64 (Some [5%N]) 1 (Some B6) 6) s = Done (OK, out, s', tr) /\
    ~ get3 (m3' StateSpace) szof0 env0 s' TFloat64 5%N B6.
Proof.
  do 4 eexists. split.
  { apply (@sample3 _ (newCS false false StateSpace) broken_ops); [right; left; do 2 eexists; reflexivity|repeat constructor|vm_compute; reflexivity]. }
  split; [reflexivity|]. split; [vm_compute; reflexivity|]. intros (b & s' & tr & L & E).
  destruct b as [|b1 [|b2 [|b3 [|b4 [|b5 [|b6 [|]]]]]]]; try discriminate L.
  apply (f_equal reals_of) in E. revert E. vm_compute. discriminate.
Qed.

Definition PropSquare_all := (@C08_statespace, @C08_statespace_refuted).
Print Assumptions PropSquare_all.
