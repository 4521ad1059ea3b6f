(** PropData.v -- properties of reading and assigning variables in FMI 3.0:
    C08, C09, C10, C11, C12, C29, C35, C36. *)
From Coq Require Import List NArith ZArith Bool Arith Init.Byte.
From Verif Require Import Base Instance ModelIface Core Fmi3 Fmi2 Api Fmus NumB64 SpecModes SpecCreate SpecState SpecVars SpecEqs
  Data Dep Feed Samples.
Import ListNotations.
Set Implicit Arguments.

(** C08: a value that was assigned with OK is read back (a string up to its NUL).  [stored] leaves
    out three variables for which this is false, see the refutations below and, for B of StateSpace,
    PropSquare.v. *)
Theorem C08_set_then_get :
  forall (F : Type) (NF : Num F) szof (f : FMU) env fuel s t vr l n out s' tr,
    reach3 (model_of (F := F) FMI3 f) szof s ->
    exec3 (model_of FMI3 f) szof fuel env (O3Set t (Some [vr]) 1 (Some l) n) s = Done (OK, out, s', tr) ->
    stored (model_of FMI3 f) szof f env s vr ->
    n <= length l /\ get3 (model_of FMI3 f) szof env s' t vr (map (as_read t) (firstn n l)).
Proof. exact @set_get_all. Qed.
Example C08_case : exists s, reach3 (m3' VanDerPol) szof0 s /\
  match exec3 (m3' VanDerPol) szof0 fuel0 env0 (O3Set TFloat64 (Some [5%N]) 1 (Some [lit 7]) 1) s with
  | Done (OK, _, _, _) => True | _ => False end.
Proof. case3 (newCS false false VanDerPol) [O3EnterInitializationMode (F := B64) (D := md (m3' VanDerPol)) (lit 0) true (lit 10)]. exact I. Qed.
Example C08_case_array : exists s, reach3 (m3' StateSpace) szof0 s /\
  match exec3 (m3' StateSpace) szof0 fuel0 env0 (O3Set TFloat64 (Some [9%N]) 1 (Some [lit 1; lit 2; lit 3]) 3) s with
  | Done (OK, _, _, _) => True | _ => False end.
Proof. case3 (newCS false false StateSpace) [O3EnterInitializationMode (F := B64) (D := md (m3' StateSpace)) (lit 0) true (lit 10)]. exact I. Qed.

(** The assignment to Boolean_output of Feedthrough is accepted but is lost. *)
Definition bools_of {D} (r : res (Status * Out B64 D * Sys B64 D * list (Event B64))) : option (Status * option (list bool)) :=
  match r with Done (st, OVals TBoolean b, _, _) => Some (st, b) | _ => None end.
Theorem C08_boolean_output_refuted :
  exists s out s' tr, reach3 (m3' Feedthrough) szof0 s /\
    exec3 (m3' Feedthrough) szof0 0 env0 (O3Set TBoolean (Some [28%N]) 1 (Some [true]) 1) s = Done (OK, out, s', tr) /\
    ~ get3 (m3' Feedthrough) szof0 env0 s' TBoolean 28%N [true].
Proof.
  do 4 eexists. split.
  { apply (@sample3 _ (newCS false false Feedthrough) []); [right; left; do 2 eexists; reflexivity|repeat constructor|vm_compute; reflexivity]. }
  split; [vm_compute; reflexivity|]. intros ([|b [|]] & s' & tr & L & E); try discriminate.
  apply (f_equal bools_of) in E. revert E. destruct b; vm_compute; discriminate.
Qed.
Definition reals_of {D} (r : res (Status * Out B64 D * Sys B64 D * list (Event B64))) : option (Status * option (list B64)) :=
  match r with Done (st, OVals TFloat64 b, _, _) => Some (st, b) | _ => None end.
(** The assignment to y3 of Roberts is lost in the ODE formulation. *)
Theorem C08_roberts_y3_refuted :
  exists s out s' tr, reach3 (m3' Roberts) szof0 s /\
    exec3 (m3' Roberts) szof0 0 env0 (O3Set TFloat64 (Some [6%N]) 1 (Some [lit 5]) 1) s = Done (OK, out, s', tr) /\
    ~ get3 (m3' Roberts) szof0 env0 s' TFloat64 6%N [lit 5].
Proof.
  do 4 eexists. split.
  { apply (@sample3 _ (newCS false false Roberts) []); [right; left; do 2 eexists; reflexivity|repeat constructor|vm_compute; reflexivity]. }
  split; [vm_compute; reflexivity|]. intros ([|b [|]] & s' & tr & L & E); try discriminate.
  apply (f_equal reals_of) in E. revert E. vm_compute. discriminate.
Qed.

(** C09: an assignment changes only the variable and those computed from it. *)
Theorem C09_other_variables_unchanged :
  forall (F : Type) (NF : Num F) szof (f : FMU) env fuel s t vr l n out s' tr t2 vr2 ws,
    reach3 (model_of (F := F) FMI3 f) szof s ->
    exec3 (model_of FMI3 f) szof fuel env (O3Set t (Some [vr]) 1 (Some l) n) s = Done (OK, out, s', tr) ->
    vr2 <> vr -> ~ In vr (depends f vr2) ->
    get3 (model_of FMI3 f) szof env s t2 vr2 ws -> get3 (model_of FMI3 f) szof env s' t2 vr2 ws.
Proof. exact @set_other_all. Qed.
Example C09_case : exists s, reach3 (m3' BouncingBall) szof0 s /\
  match exec3 (m3' BouncingBall) szof0 fuel0 env0 (O3Set TFloat64 (Some [1%N]) 1 (Some [lit 7]) 1) s,
        exec3 (m3' BouncingBall) szof0 fuel0 env0 (O3Get TFloat64 (Some [4%N]) 1 (Some [lit 0]) 1) s with
  | Done (OK, _, _, _), Done (OK, _, _, _) => ~ In 1%N (depends BouncingBall 4) | _, _ => False end.
Proof. case3 (newME BouncingBall) (@nil (Op3 B64 (md (m3' BouncingBall)))). intuition discriminate. Qed.

(** C10: a Set of many variables does the same as one Set for each, in the given order: same
    status, same messages, and the same behaviour ever after (for all FMUs but Clocks even the
    same state).  For StateSpace, which has array variables, see below. *)
Theorem C10_many_as_singles :
  forall (F : Type) (NF : Num F) szof (f : FMU) env t vrs xs s,
    f <> StateSpace -> reach3 (model_of (F := F) FMI3 f) szof s ->
    length vrs = length xs -> vrs <> [] ->
    match exec3 (model_of FMI3 f) szof 0 env (O3Set t (Some vrs) (length vrs) (Some xs) (length xs)) s,
          singles (model_of FMI3 f) szof env t vrs xs s with
    | Done (st, _, s1, tr), Done (st', s2, tr') => st' = st /\ tr' = tr /\ (f <> Clocks -> s2 = s1) /\
        forall fuel l, (forall e o i, In (e, o) l -> image3 o = Some i -> saved3 (model_of FMI3 f) szof i) ->
          same_run True 0 0 (run3 (model_of FMI3 f) szof fuel l s1) (run3 (model_of FMI3 f) szof fuel l s2)
    | UB, UB | NoFuel, NoFuel => True
    | _, _ => False
    end.
Proof. exact @multi_same. Qed.
Example C10_case : exists s, reach3 (m3' Dahlquist) szof0 s /\
  match exec3 (m3' Dahlquist) szof0 0 env0 (O3Set TFloat64 (Some [1%N; 3%N; 1%N]) 3 (Some [lit 7; lit 2; lit 5]) 3) s with
  | Done (OK, _, _, _) => True | _ => False end.
Proof. case3 (newME Dahlquist) (@nil (Op3 B64 (md (m3' Dahlquist)))). exact I. Qed.
(** For the structural parameters of StateSpace the number of values that one variable needs
    differs from the number of values that a call needs. *)
Theorem C10_statespace_refuted :
  exists s vrs xs, reach3 (m3' StateSpace) szof0 s /\ length vrs = length xs /\
    match exec3 (m3' StateSpace) szof0 0 env0 (O3Set TUInt64 (Some vrs) (length vrs) (Some xs) (length xs)) s,
          singles (m3' StateSpace) szof0 env0 TUInt64 vrs xs s with
    | Done (_, _, s1, _), Done (_, s2, _) =>
        fst (fst (fst (match exec3 (m3' StateSpace) szof0 0 env0 (O3Get TUInt64 (Some [1%N]) 1 (Some [0%N]) 1) s1 with
                       | Done x => x | _ => (Error, ONone, s1, []) end))) = OK /\
        get3 (m3' StateSpace) szof0 env0 s1 TUInt64 1%N [4%N] /\ get3 (m3' StateSpace) szof0 env0 s2 TUInt64 1%N [3%N]
    | _, _ => False
    end.
Proof.
  eexists. exists [1%N; 2%N], [4%N; 4%N]. split.
  { apply (@sample3 _ (newCS false false StateSpace) [O3EnterConfigurationMode (F := B64) (D := md (m3' StateSpace))]);
      [right; left; do 2 eexists; reflexivity|repeat constructor|vm_compute; reflexivity]. }
  split; [reflexivity|].
  match goal with |- context [exec3 ?m ?z ?f ?e (O3Set ?t ?v ?n ?x ?k) ?s] =>
    let r := eval vm_compute in (exec3 m z f e (O3Set t v n x k) s) in
    replace (exec3 m z f e (O3Set t v n x k) s) with r by (vm_compute; reflexivity) end.
  match goal with |- context [singles ?m ?z ?e ?t ?v ?x ?s] =>
    let r := eval vm_compute in (singles m z e t v x s) in
    replace (singles m z e t v x s) with r by (vm_compute; reflexivity) end.
  cbv beta iota. split; [vm_compute; reflexivity|].
  split; exists [0%N]; do 2 eexists; (split; [reflexivity|vm_compute; reflexivity]).
Qed.

(** C11: an undeclared value reference, or one of another type, is rejected with Error. *)
Theorem C11_get_unknown :
  forall (F : Type) (NF : Num F) (f : FMU) szof env fuel s t vrs nvr buf n st out s' tr,
    reach3 (model_of (F := F) FMI3 f) szof s -> n <= length buf -> nvr <> 0 ->
    Exists (fun vr => ~ declared FMI3 f t vr) (firstn nvr vrs) ->
    exec3 (model_of FMI3 f) szof fuel env (O3Get t (Some vrs) nvr (Some buf) n) s = Done (st, out, s', tr) ->
    st = Error /\ reads_same (model_of FMI3 f) szof env s s'.
Proof. exact @get_unknown. Qed.
Theorem C11_set_unknown :
  forall (F : Type) (NF : Num F) (f : FMU) szof env fuel s t vrs nvr l n st out s' tr,
    reach3 (model_of (F := F) FMI3 f) szof s -> nvr <> 0 ->
    Exists (fun vr => ~ declared FMI3 f t vr) (firstn nvr vrs) ->
    exec3 (model_of FMI3 f) szof fuel env (O3Set t (Some vrs) nvr (Some l) n) s = Done (st, out, s', tr) -> st = Error.
Proof. exact @set_unknown. Qed.
Theorem C11_set_unknown_changes_nothing :
  forall (F : Type) (NF : Num F) (f : FMU) szof env fuel s t vr l n st out s' tr,
    reach3 (model_of (F := F) FMI3 f) szof s -> ~ declared FMI3 f t vr ->
    exec3 (model_of FMI3 f) szof fuel env (O3Set t (Some [vr]) 1 (Some l) n) s = Done (st, out, s', tr) ->
    st = Error /\ reads_same (model_of FMI3 f) szof env s s'.
Proof. exact @set_unknown1. Qed.
Example C11_case : exists s, reach3 (m3' Stair) szof0 s /\
  match exec3 (m3' Stair) szof0 fuel0 env0 (O3Set TFloat64 (Some [1%N]) 1 (Some [lit 7]) 1) s,
        exec3 (m3' Stair) szof0 fuel0 env0 (O3Get TInt32 (Some [1%N; 9%N]) 2 (Some [0; 0]%Z) 2) s with
  | Done (_, _, _, _), Done (_, _, _, _) => True | _, _ => False end.
Proof. case3 (newME Stair) (@nil (Op3 B64 (md (m3' Stair)))). exact I. Qed.

(** C12: the number of values must be the sum of the sizes of the variables (the products of
    their dimensions).  Get writes nothing beyond that number, and if it returns OK it writes
    exactly the values. *)
Theorem C12_get_sizes :
  forall (F : Type) (NF : Num F) (f : FMU) szof env fuel s t vrs nvr buf n st out s' tr,
    reach3 (model_of (F := F) FMI3 f) szof s -> n <= length buf -> nvr <> 0 ->
    exec3 (model_of FMI3 f) szof fuel env (O3Get t (Some vrs) nvr (Some buf) n) s = Done (st, out, s', tr) ->
    exists buf', out = OVals t (Some buf') /\ length buf' = length buf /\ skipn n buf' = skipn n buf /\
    (st = OK -> exists ks vss, Forall2 (sized (model_of FMI3 f) szof env FMI3 f s t) (firstn nvr vrs) ks /\
       n = fold_right Nat.add 0 ks /\
       Forall2 (get3 (model_of FMI3 f) szof env s t) (firstn nvr vrs) vss /\
       map (@length _) vss = ks /\ firstn n buf' = concat vss).
Proof. exact @get_sizes. Qed.
Theorem C12_set_sizes :
  forall (F : Type) (NF : Num F) (f : FMU) szof env fuel s t vrs nvr l n out s' tr,
    reach3 (model_of (F := F) FMI3 f) szof s -> nvr <> 0 ->
    exec3 (model_of FMI3 f) szof fuel env (O3Set t (Some vrs) nvr (Some l) n) s = Done (OK, out, s', tr) ->
    exists ks, Forall2 (sized (model_of FMI3 f) szof env FMI3 f s t) (firstn nvr vrs) ks /\ n = fold_right Nat.add 0 ks.
Proof. exact @set_sizes. Qed.
Example C12_case : exists s, reach3 (m3' StateSpace) szof0 s /\
  match exec3 (m3' StateSpace) szof0 fuel0 env0
          (O3Get TFloat64 (Some [10%N; 0%N; 11%N]) 3 (Some (repeat (lit 0) 7)) 7) s with
  | Done (OK, _, _, _) => True | _ => False end.
Proof. case3 (newME StateSpace) (@nil (Op3 B64 (md (m3' StateSpace)))). exact I. Qed.
(** With no variables every number of values is accepted. *)
Theorem C12_no_variables_refuted :
  exists s s' out tr, reach3 (m3' Stair) szof0 s /\
    exec3 (m3' Stair) szof0 0 env0 (O3Get TFloat64 (Some []) 0 (Some [lit 0; lit 0]) 2) s = Done (OK, out, s', tr) /\ 2 <> 0.
Proof.
  do 4 eexists. split.
  { apply (@sample3 _ (newME Stair) []); [left; reflexivity|repeat constructor|vm_compute; reflexivity]. }
  split; [vm_compute; reflexivity|discriminate].
Qed.
(** GetBinary accepts more values than there are variables. *)
Theorem C12_binary_refuted :
  exists s s' out tr, reach3 (m3' Feedthrough) szof0 s /\
    exec3 (m3' Feedthrough) szof0 0 env0 (O3GetBinary (Some [31%N]) 1 (Some [0; 0]) (Some [[]; []]) 2) s = Done (OK, out, s', tr) /\
    2 <> 1.
Proof.
  do 4 eexists. split.
  { apply (@sample3 _ (newME Feedthrough) []); [left; reflexivity|repeat constructor|vm_compute; reflexivity]. }
  split; [vm_compute; reflexivity|discriminate].
Qed.

(** C29: whenever they can be read, the computed variables satisfy the equations of the FMU. *)
Theorem C29_equations_hold :
  forall (F : Type) (NF : Num F) szof (f : FMU) dae env s y args g xs,
    reach3 (model_of (F := F) FMI3 f) szof s ->
    In (y, args, g) (equations f dae) ->
    (f = Roberts -> get3 (model_of FMI3 f) szof env s TBoolean 1%N [dae]) ->
    Forall2 (fun a x => get3 (model_of FMI3 f) szof env s TFloat64 a [x]) args xs ->
    get3 (model_of FMI3 f) szof env s TFloat64 y [g xs].
Proof. exact @equation_holds. Qed.
Definition C29_ops : list (Op3 B64 (md (m3' VanDerPol))) :=
  [O3EnterInitializationMode (lit 0) true (lit 10); O3Set TFloat64 (Some [5%N]) 1 (Some [lit 7]) 1;
   O3ExitInitializationMode; O3DoStep (lit 0) (lit 1) true true true true].
Example C29_case : exists s, reach3 (m3' VanDerPol) szof0 s /\
  match exec3 (m3' VanDerPol) szof0 fuel0 env0 (O3Get TFloat64 (Some [1%N; 3%N; 5%N]) 3 (Some (repeat (lit 0) 3)) 3) s with
  | Done (OK, _, _, _) => True | _ => False end.
Proof. case3 (newCS false false VanDerPol) C29_ops. exact I. Qed.

(** C35: in every reachable state an output of Feedthrough has the value of its input ... *)
Theorem C35_output_is_input :
  forall (F : Type) (NF : Num F) szof env s t u y vs,
    reach3 (model_of (F := F) FMI3 Feedthrough) szof s -> In (t, u, y) (feedthrough FMI3) ->
    get3 (model_of FMI3 Feedthrough) szof env s t y vs <-> get3 (model_of FMI3 Feedthrough) szof env s t u vs.
Proof. exact @feedthrough_iff. Qed.
Theorem C35_binary_output_is_input :
  forall (F : Type) (NF : Num F) szof env s b, reach3 (model_of (F := F) FMI3 Feedthrough) szof s ->
    getBin3 (model_of FMI3 Feedthrough) szof env s 32%N b <-> getBin3 (model_of FMI3 Feedthrough) szof env s 31%N b.
Proof. exact @bin_iff. Qed.
(** ... and that is the value last assigned with OK: after an assignment and any calls that do not
    touch the input (including failed ones, steps, mode changes) the output has the value. *)
Theorem C35_output_follows_set :
  forall (F : Type) (NF : Num F) szof fuel env env' t u y x n l s0 out s tr obs s' fuel',
    reach3 (model_of (F := F) FMI3 Feedthrough) szof s0 -> In (t, u, y) (feedthrough FMI3) ->
    exec3 (model_of FMI3 Feedthrough) szof fuel env (O3Set t (Some [u]) 1 (Some [x]) n) s0 = Done (OK, out, s, tr) ->
    (forall e o i, In (e, o) l -> image3 o = Some i -> saved3 (model_of FMI3 Feedthrough) szof i) ->
    Forall (fun p => touches3 u (snd p) = false) l ->
    run3 (model_of FMI3 Feedthrough) szof fuel' l s = Done (obs, s') ->
    get3 (model_of FMI3 Feedthrough) szof env' s' t y [as_read t x].
Proof. exact @feed_set. Qed.
Theorem C35_output_kept :
  forall (F : Type) (NF : Num F) szof fuel env env' t u y x l s obs s',
    reach3 (model_of (F := F) FMI3 Feedthrough) szof s -> In (t, u, y) (feedthrough FMI3) ->
    get3 (model_of FMI3 Feedthrough) szof env s t u [x] ->
    (forall e o i, In (e, o) l -> image3 o = Some i -> saved3 (model_of FMI3 Feedthrough) szof i) ->
    Forall (fun p => touches3 u (snd p) = false) l ->
    run3 (model_of FMI3 Feedthrough) szof fuel l s = Done (obs, s') ->
    get3 (model_of FMI3 Feedthrough) szof env' s' t u [x] /\ get3 (model_of FMI3 Feedthrough) szof env' s' t y [x].
Proof. exact @feed_kept. Qed.
Theorem C35_binary_output_kept :
  forall (F : Type) (NF : Num F) szof fuel env env' b l s obs s',
    reach3 (model_of (F := F) FMI3 Feedthrough) szof s ->
    getBin3 (model_of FMI3 Feedthrough) szof env s 31%N b ->
    (forall e o i, In (e, o) l -> image3 o = Some i -> saved3 (model_of FMI3 Feedthrough) szof i) ->
    Forall (fun p => touches3 31%N (snd p) = false) l ->
    run3 (model_of FMI3 Feedthrough) szof fuel l s = Done (obs, s') ->
    getBin3 (model_of FMI3 Feedthrough) szof env' s' 31%N b /\ getBin3 (model_of FMI3 Feedthrough) szof env' s' 32%N b.
Proof. exact @bin_kept. Qed.
(** Before the first assignment it is the start value of the model description. *)
Theorem C35_output_starts :
  forall (F : Type) (NF : Num F) szof fuel env t u y xs l i obs s',
    made3 (model_of (F := F) FMI3 Feedthrough) i -> In (t, u, y) (feedthrough FMI3) ->
    In (SV t u xs) (starts3 Feedthrough) ->
    (forall e o i, In (e, o) l -> image3 o = Some i -> saved3 (model_of FMI3 Feedthrough) szof i) ->
    Forall (fun p => touches3 u (snd p) = false) l ->
    run3 (model_of FMI3 Feedthrough) szof fuel l (mkSys i []) = Done (obs, s') ->
    get3 (model_of FMI3 Feedthrough) szof env s' t y xs.
Proof. exact @feed_start. Qed.
Definition C35_before : list (Op3 B64 (md (m3' Feedthrough))) :=
  [O3EnterInitializationMode (lit 0) true (lit 10); O3ExitInitializationMode].
Definition C35_after : list (Env * Op3 B64 (md (m3' Feedthrough))) :=
  [(env0, O3Set TInt8 (Some [11%N]) 1 (Some [(-3)%Z]) 1);
   (env0, O3DoStep (lit 0) (lit 1) true true true true); (env0, O3Terminate)].
Example C35_case : exists s, reach3 (m3' Feedthrough) szof0 s /\
  match exec3 (m3' Feedthrough) szof0 fuel0 env0 (O3Set TString (Some [29%N]) 1 (Some [Some [x61; x62; x63]]) 1) s with
  | Done (OK, _, s1, _) =>
      match run3 (m3' Feedthrough) szof0 fuel0 C35_after s1 with
      | Done (obs, _) => map (fun x => fst (fst x)) obs = [OK; OK; OK] | _ => False end
  | _ => False end /\ Forall (fun p => touches3 29%N (snd p) = false) C35_after /\ In (TString, 29%N, 30%N) (feedthrough FMI3).
Proof.
  case3 (newCS false false Feedthrough) C35_before. split; [reflexivity|]. split; [repeat constructor|]. tauto.
Qed.

(** C36: strings of 128 characters or more, binary values of more than 128 bytes and values
    outside of the enumeration are rejected and change no variable; all others are stored and
    read back completely. *)
Theorem C36_string_range :
  forall (F : Type) (NF : Num F) szof fuel env b s,
    reach3 (model_of (F := F) FMI3 Feedthrough) szof s ->
    let m := model_of (F := F) FMI3 Feedthrough in
    let o := O3Set TString (Some [29%N]) 1 (Some [Some b]) 1 in
    (128 <= length (cstr b) ->
      exists s' tr, exec3 m szof fuel env o s = Done (Error, ONone, s', tr) /\ forall env', reads_same m szof env' s s' /\
      (forall vr b, vr = 31%N \/ vr = 32%N -> getBin3 m szof env' s vr b -> getBin3 m szof env' s' vr b)) /\
    (length (cstr b) < 128 -> In (mode_of s) (when3 o) ->
      exists s' tr, exec3 m szof fuel env o s = Done (OK, ONone, s', tr) /\
      forall env', get3 m szof env' s' TString 29%N [Some (cstr b)] /\ get3 m szof env' s' TString 30%N [Some (cstr b)]).
Proof. exact @string_range. Qed.
Theorem C36_enumeration_range :
  forall (F : Type) (NF : Num F) szof fuel env v s,
    reach3 (model_of (F := F) FMI3 Feedthrough) szof s ->
    let m := model_of (F := F) FMI3 Feedthrough in
    let o := O3Set TInt64 (Some [33%N]) 1 (Some [v]) 1 in
    (v <> 1%Z /\ v <> 2%Z ->
      exists s' tr, exec3 m szof fuel env o s = Done (Error, ONone, s', tr) /\ forall env', reads_same m szof env' s s' /\
      (forall vr b, vr = 31%N \/ vr = 32%N -> getBin3 m szof env' s vr b -> getBin3 m szof env' s' vr b)) /\
    (v = 1%Z \/ v = 2%Z -> In (mode_of s) (when3 o) ->
      exists s' tr, exec3 m szof fuel env o s = Done (OK, ONone, s', tr) /\
      forall env', get3 m szof env' s' TInt64 33%N [v] /\ get3 m szof env' s' TInt64 34%N [v]).
Proof. exact @enum_range. Qed.
Theorem C36_binary_range :
  forall (F : Type) (NF : Num F) szof fuel env n b s,
    reach3 (model_of (F := F) FMI3 Feedthrough) szof s -> n <= length b ->
    let m := model_of (F := F) FMI3 Feedthrough in
    let o := O3SetBinary (Some [31%N]) 1 (Some [n]) (Some [Some b]) 1 in
    (128 < n ->
      exists s' tr, exec3 m szof fuel env o s = Done (Error, ONone, s', tr) /\ forall env', reads_same m szof env' s s' /\
      (forall vr b, vr = 31%N \/ vr = 32%N -> getBin3 m szof env' s vr b -> getBin3 m szof env' s' vr b)) /\
    (n <= 128 -> In (mode_of s) (when3 o) ->
      exists s' tr, exec3 m szof fuel env o s = Done (OK, ONone, s', tr) /\
      forall env', getBin3 m szof env' s' 31%N (firstn n b) /\ getBin3 m szof env' s' 32%N (firstn n b)).
Proof. exact @binary_range. Qed.
Example C36_case : exists s, reach3 (m3' Feedthrough) szof0 s /\
  In (mode_of s) (when3 (O3Set (F := B64) (D := md (m3' Feedthrough)) TString (Some [29%N]) 1 (Some [Some [x61; x62; x63]]) 1)).
Proof. case3 (newCS false false Feedthrough) C35_before. tauto. Qed.

(** All theorems of this file at once (one by one it takes minutes). *)
Definition PropData_all :=
  (@C08_set_then_get,
   @C08_boolean_output_refuted,
   @C08_roberts_y3_refuted,
   @C09_other_variables_unchanged,
   @C10_many_as_singles,
   @C10_statespace_refuted,
   @C11_get_unknown,
   @C11_set_unknown,
   @C11_set_unknown_changes_nothing,
   @C12_get_sizes,
   @C12_set_sizes,
   @C12_no_variables_refuted,
   @C12_binary_refuted,
   @C29_equations_hold,
   @C35_output_is_input,
   @C35_binary_output_is_input,
   @C35_output_follows_set,
   @C35_output_kept,
   @C35_binary_output_kept,
   @C35_output_starts,
   @C36_string_range,
   @C36_enumeration_range,
   @C36_binary_range).
Print Assumptions PropData_all.
