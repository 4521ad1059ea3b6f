(** PropBinary.v -- C08 and C09 for binary variables, which fmi3SetBinary assigns and fmi3GetBinary reads. *)
From Coq Require Import List NArith ZArith Bool Arith Init.Byte.
From Verif Require Import Base Instance ModelIface Core Fmi3 Fmi2 Api Fmus NumB64 SpecModes SpecCreate SpecState SpecVars SpecEqs
  FeedBin Samples.
Import ListNotations.
Set Implicit Arguments.

(** C08, C09: if the assignment of [n] bytes to a binary variable returns OK, these bytes are read back, and every
    variable of the other types has the value it had. *)
Theorem C08_C09_binary :
  forall (F : Type) (NF : Num F) szof fuel env vr n ns b bs nv s out s' tr,
    let m := model_of (F := F) FMI3 Feedthrough in
    reach3 m szof s ->
    exec3 m szof fuel env (O3SetBinary (Some [vr]) 1 (Some (n :: ns)) (Some (Some b :: bs)) nv) s = Done (OK, out, s', tr) ->
    n <= length b /\ (forall env', getBin3 m szof env' s' vr (firstn n b)) /\
    (forall env' t vr2 ws, get3 m szof env' s t vr2 ws -> get3 m szof env' s' t vr2 ws).
Proof. exact @bin_set_get. Qed.
(** C09: an assignment to a variable of another type leaves the binary variables (31, the input, and 32, the
    output) as they are. *)
Theorem C09_binary_unchanged :
  forall (F : Type) (NF : Num F) szof fuel env t vr l n s out s' tr vr2 b env',
    let m := model_of (F := F) FMI3 Feedthrough in
    reach3 m szof s ->
    exec3 m szof fuel env (O3Set t (Some [vr]) 1 (Some l) n) s = Done (OK, out, s', tr) ->
    vr2 = 31%N \/ vr2 = 32%N -> vr <> vr2 -> ~ In vr (depends Feedthrough vr2) ->
    getBin3 m szof env s vr2 b -> getBin3 m szof env' s' vr2 b.
Proof. exact @bin_other. Qed.
(** The other FMUs have no binary variables: an assignment never returns OK. *)
Theorem C08_binary_others :
  forall (F : Type) (NF : Num F) szof f fuel env vr sizes values nv s out s' tr, f <> Feedthrough ->
    exec3 (model_of (F := F) FMI3 f) szof fuel env (O3SetBinary (Some [vr]) 1 sizes values nv) s <> Done (OK, out, s', tr).
Proof. exact @bin_none. Qed.
(** Two of three bytes are assigned after a step; the string that was assigned before is still there. *)
Definition bin_ops : list (Op3 B64 (md (m3' Feedthrough))) :=
  [O3Set TString (Some [29%N]) 1 (Some [Some [x68; x69]]) 1; O3EnterInitializationMode (lit 0) true (lit 10); O3ExitInitializationMode;
   O3DoStep (lit 0) (lit 1) true true true true].
Example C08_case_binary : exists s, reach3 (m3' Feedthrough) szof0 s /\ mode_of s = StepMode /\
  match exec3 (m3' Feedthrough) szof0 fuel0 env0 (O3SetBinary (Some [31%N]) 1 (Some [2]) (Some [Some [x61; x62; x63]]) 1) s,
        exec3 (m3' Feedthrough) szof0 fuel0 env0 (O3Get TString (Some [30%N]) 1 (Some [None]) 1) s with
  | Done (OK, _, s', _), Done (OK, OVals TString (Some [Some w]), _, _) => w = [x68; x69] /\
      match exec3 (m3' Feedthrough) szof0 fuel0 env0 (O3GetBinary (Some [32%N]) 1 (Some [0]) (Some [[]]) 1) s' with
      | Done (OK, OBin _ (Some [b]), _, _) => b = [x61; x62] | _ => False end
  | _, _ => False end.
Proof. case3 (newCS false false Feedthrough) bin_ops. split; [reflexivity|]. vm_compute. split; reflexivity. Qed.

Definition PropBinary_all := (@C08_C09_binary, @C09_binary_unchanged, @C08_binary_others).
Print Assumptions PropBinary_all.
