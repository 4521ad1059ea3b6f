(** PropData2.v -- properties of reading and assigning variables in FMI 2.0:
    C08, C09, C10, C11, C29, C35, C36. *)
From Coq Require Import List NArith ZArith Bool Arith Init.Byte.
From Verif Require Import Base Instance ModelIface Core Fmi3 Fmi2 Api Fmus NumB64 SpecModes SpecCreate SpecState SpecVars SpecEqs
  Data2 Multi2 Feed2 Samples.
Import ListNotations.
Set Implicit Arguments.

(** C08: a value that was assigned with OK is read back, at once if variables may be read in this
    mode, otherwise (after instantiation) once Initialization Mode is entered.  Boolean_output (28)
    of Feedthrough is left out, see the refutation. *)
Theorem C08_fmi2_set_then_get :
  forall (F : Type) (NF : Num F) szof (f : FMU), built2 f = true ->
    forall env fuel s t vr x l out s' tr e,
    let m := model_of (F := F) FMI2 f in
    reach2 m szof s -> (f = Feedthrough -> vr <> 28%N) ->
    exec2 m szof fuel env (O2Set t (Some [vr]) 1 (Some (x :: l))) s = Done (OK, out, s', tr) ->
    (In (mode_of s') (when2 (O2Get (F := F) (D := md m) t None 0 None)) -> get2 m szof env s' t vr (as_read t x)) /\
    (forall fuel0 out0 s1 tr0, exec2 m szof fuel0 e O2EnterInitializationMode s' = Done (OK, out0, s1, tr0) ->
      get2 m szof env s1 t vr (as_read t x)).
Proof. exact @set_get2. Qed.
(** The same for Booleans, with C09: the other variables keep their values. *)
Theorem C08_C09_fmi2_boolean :
  forall (F : Type) (NF : Num F) szof (f : FMU), built2 f = true ->
    forall env fuel s vr z out s' tr e,
    let m := model_of (F := F) FMI2 f in
    reach2 m szof s ->
    exec2 m szof fuel env (O2SetBoolean (Some [vr]) 1 (Some [z])) s = Done (OK, out, s', tr) ->
    ((f = Feedthrough -> vr <> 28%N) ->
     (In (mode_of s') (when2 (O2Get (F := F) (D := md m) TBoolean None 0 None)) -> getB2 m szof env s' vr (negb (Z.eqb z 0))) /\
     (forall fuel0 out0 s1 tr0, exec2 m szof fuel0 e O2EnterInitializationMode s' = Done (OK, out0, s1, tr0) ->
       getB2 m szof env s1 vr (negb (Z.eqb z 0)))) /\
    (forall t2 vr2 x, vr2 <> vr -> ~ In vr (depends f vr2) -> get2 m szof env s t2 vr2 x -> get2 m szof env s' t2 vr2 x) /\
    (forall vr2 b, vr2 <> vr -> ~ In vr (depends f vr2) -> getB2 m szof env s vr2 b -> getB2 m szof env s' vr2 b).
Proof. exact @bool_set2. Qed.
Example C08_fmi2_case : exists s, reach2 (m2' VanDerPol) szof0 s /\
  match exec2 (m2' VanDerPol) szof0 fuel0 env0 (O2Set TFloat64 (Some [5%N]) 1 (Some [lit 7])) s with
  | Done (OK, _, s1, _) =>
      match exec2 (m2' VanDerPol) szof0 fuel0 env0 O2EnterInitializationMode s1 with Done (OK, _, _, _) => True | _ => False end
  | _ => False end.
Proof. case2 CoSimulation [O2SetupExperiment (F := B64) (D := md (m2' VanDerPol)) (lit 0) true (lit 10)]. exact I. Qed.
Example C08_fmi2_boolean_case : exists s, reach2 (m2' Feedthrough) szof0 s /\
  match exec2 (m2' Feedthrough) szof0 fuel0 env0 (O2SetBoolean (Some [27%N]) 1 (Some [1%Z])) s with
  | Done (OK, _, s1, _) => In (mode_of s1) (when2 (O2Get (F := B64) (D := md (m2' Feedthrough)) TBoolean None 0 None))
  | _ => False end.
Proof. case2 CoSimulation [O2EnterInitializationMode (F := B64) (D := md (m2' Feedthrough))]. tauto. Qed.
Definition bools2_of {D} (r : res (Status * Out B64 D * Sys B64 D * list (Event B64))) : option (Status * option (list Z)) :=
  match r with Done (st, OBools2 b, _, _) => Some (st, b) | _ => None end.
Theorem C08_fmi2_boolean_output_refuted :
  exists s out s' tr, reach2 (m2' Feedthrough) szof0 s /\
    exec2 (m2' Feedthrough) szof0 0 env0 (O2SetBoolean (Some [28%N]) 1 (Some [1%Z])) s = Done (OK, out, s', tr) /\
    getB2 (m2' Feedthrough) szof0 env0 s' 28%N false /\ ~ getB2 (m2' Feedthrough) szof0 env0 s' 28%N true.
Proof.
  do 4 eexists. split.
  { apply (@sample2 _ CoSimulation [O2EnterInitializationMode (F := B64) (D := md (m2' Feedthrough)); O2Get TFloat64 (Some [7%N]) 1 (Some [lit 0]);
      O2SetBoolean (Some [27%N]) 1 (Some [0%Z]); O2Get TFloat64 (Some [7%N]) 1 (Some [lit 0])]); [repeat constructor|vm_compute; reflexivity]. }
  split; [vm_compute; reflexivity|]. split; [exists 0%Z; do 2 eexists; vm_compute; reflexivity|].
  intros (z & s' & tr & E). apply (f_equal bools2_of) in E. revert E. vm_compute. discriminate.
Qed.

(** C09: an assignment changes only the variable and those computed from it. *)
Theorem C09_fmi2_other_variables_unchanged :
  forall (F : Type) (NF : Num F) szof (f : FMU), built2 f = true ->
    forall env fuel s t vr l out s' tr,
    let m := model_of (F := F) FMI2 f in
    reach2 m szof s ->
    exec2 m szof fuel env (O2Set t (Some [vr]) 1 (Some l)) s = Done (OK, out, s', tr) ->
    (forall t2 vr2 x, vr2 <> vr -> ~ In vr (depends f vr2) -> get2 m szof env s t2 vr2 x -> get2 m szof env s' t2 vr2 x) /\
    (forall vr2 b, vr2 <> vr -> ~ In vr (depends f vr2) -> getB2 m szof env s vr2 b -> getB2 m szof env s' vr2 b).
Proof. exact @set_other2. Qed.
Example C09_fmi2_case : exists s, reach2 (m2' BouncingBall) szof0 s /\
  match exec2 (m2' BouncingBall) szof0 fuel0 env0 (O2Set TFloat64 (Some [5%N]) 1 (Some [lit 7])) s,
        exec2 (m2' BouncingBall) szof0 fuel0 env0 (O2Get TFloat64 (Some [1%N]) 1 (Some [lit 0])) s with
  | Done (OK, _, _, _), Done (OK, _, _, _) => ~ In 5%N (depends BouncingBall 1) | _, _ => False end.
Proof. case2 CoSimulation [O2EnterInitializationMode (F := B64) (D := md (m2' BouncingBall))]. intuition discriminate. Qed.

(** C10: a Set of many variables is one Set for each, in the given order: same status, messages
    and final state. *)
Theorem C10_fmi2_many_as_singles :
  forall (F : Type) (NF : Num F) szof (f : FMU), built2 f = true ->
    forall env t vrs xs s,
    let m := model_of (F := F) FMI2 f in
    length vrs = length xs -> vrs <> [] -> reach2 m szof s ->
    match exec2 m szof 0 env (O2Set t (Some vrs) (length vrs) (Some xs)) s, singles2 m szof env t vrs xs s with
    | Done (st, _, s1, tr), Done (st', s2, tr') => st' = st /\ tr' = tr /\ s2 = s1
    | UB, UB | NoFuel, NoFuel => True
    | _, _ => False
    end.
Proof. exact @multi2. Qed.
Example C10_fmi2_case : exists s, reach2 (m2' Dahlquist) szof0 s /\
  match exec2 (m2' Dahlquist) szof0 0 env0 (O2Set TFloat64 (Some [1%N; 3%N; 1%N]) 3 (Some [lit 7; lit 2; lit 5])) s with
  | Done (OK, _, _, _) => True | _ => False end.
Proof. case2 CoSimulation [O2EnterInitializationMode (F := B64) (D := md (m2' Dahlquist))]. exact I. Qed.

(** C11: an undeclared value reference, or one of another type, is rejected with Error. *)
Theorem C11_fmi2_get_unknown :
  forall (F : Type) (NF : Num F) szof (f : FMU), built2 f = true ->
    forall env fuel s t vrs nvr buf st out s' tr,
    let m := model_of (F := F) FMI2 f in
    reach2 m szof s -> type2 t = true -> nvr <= length buf -> nvr <> 0 ->
    Exists (fun vr => ~ declared FMI2 f t vr) (firstn nvr vrs) ->
    exec2 m szof fuel env (O2Get t (Some vrs) nvr (Some buf)) s = Done (st, out, s', tr) ->
    st = Error /\ reads_same2 m szof env s s'.
Proof. exact @get_unknown2. Qed.
Theorem C11_fmi2_set_unknown :
  forall (F : Type) (NF : Num F) szof (f : FMU) env fuel s t vrs nvr l st out s' tr,
    let m := model_of (F := F) FMI2 f in
    reach2 m szof s -> type2 t = true -> nvr <> 0 ->
    Exists (fun vr => ~ declared FMI2 f t vr) (firstn nvr vrs) ->
    exec2 m szof fuel env (O2Set t (Some vrs) nvr (Some l)) s = Done (st, out, s', tr) -> st = Error.
Proof. exact @set_unknown2. Qed.
Theorem C11_fmi2_set_unknown_changes_nothing :
  forall (F : Type) (NF : Num F) szof (f : FMU), built2 f = true ->
    forall env fuel s t vr l st out s' tr,
    let m := model_of (F := F) FMI2 f in
    reach2 m szof s -> type2 t = true -> ~ declared FMI2 f t vr ->
    exec2 m szof fuel env (O2Set t (Some [vr]) 1 (Some l)) s = Done (st, out, s', tr) ->
    st = Error /\ reads_same2 m szof env s s'.
Proof. exact @set_unknown1_2. Qed.
Theorem C11_fmi2_boolean_unknown :
  forall (F : Type) (NF : Num F) szof (f : FMU), built2 f = true ->
    forall env fuel s vr z r1 x tr,
    let m := model_of (F := F) FMI2 f in
    reach2 m szof s -> ~ declared FMI2 f TBoolean vr ->
    (exec2 m szof fuel env (O2GetBoolean (Some [vr]) 1 (Some [z])) s = Done r1 ->
       fst (fst (fst r1)) = Error /\ reads_same2 m szof env s (snd (fst r1))) /\
    (exec2 m szof fuel env (O2SetBoolean (Some [vr]) 1 (Some [z])) s = Done (x, tr) ->
       fst (fst x) = Error /\ reads_same2 m szof env s (snd x)).
Proof. exact @bool_unknown2. Qed.
Example C11_fmi2_case : exists s, reach2 (m2' Stair) szof0 s /\
  match exec2 (m2' Stair) szof0 fuel0 env0 (O2Set TFloat64 (Some [1%N]) 1 (Some [lit 7])) s,
        exec2 (m2' Stair) szof0 fuel0 env0 (O2Get TInt32 (Some [1%N; 9%N]) 2 (Some [0; 0]%Z)) s with
  | Done (_, _, _, _), Done (_, _, _, _) => ~ declared FMI2 Stair TFloat64 1 /\ ~ declared FMI2 Stair TInt32 9 | _, _ => False end.
Proof. case2 CoSimulation [O2EnterInitializationMode (F := B64) (D := md (m2' Stair))]. split; intros (k & H); cbv in H; intuition discriminate. Qed.

(** C29: whenever they can be read, the computed variables satisfy the equations of the FMU. *)
Theorem C29_fmi2_equations_hold :
  forall (F : Type) (NF : Num F) szof (f : FMU), built2 f = true ->
    forall env s y args g xs,
    let m := model_of (F := F) FMI2 f in
    reach2 m szof s -> In (y, args, g) (equations f false) ->
    Forall2 (fun a x => get2 m szof env s TFloat64 a x) args xs ->
    get2 m szof env s TFloat64 y (g xs).
Proof. exact @equation_holds2. Qed.
Definition C29_ops2 : list (Op2 B64 (md (m2' VanDerPol))) :=
  [O2SetupExperiment (lit 0) true (lit 10); O2EnterInitializationMode; O2Set TFloat64 (Some [5%N]) 1 (Some [lit 7]);
   O2ExitInitializationMode; O2DoStep (lit 0) (lit 1)].
Example C29_fmi2_case : exists s, reach2 (m2' VanDerPol) szof0 s /\
  match exec2 (m2' VanDerPol) szof0 fuel0 env0 (O2Get TFloat64 (Some [1%N; 3%N; 5%N]) 3 (Some (repeat (lit 0) 3))) s with
  | Done (OK, _, _, _) => True | _ => False end.
Proof. case2 CoSimulation C29_ops2. exact I. Qed.

(** C35: in every reachable state an output of Feedthrough has the value of its input ... *)
Theorem C35_fmi2_output_is_input :
  forall (F : Type) (NF : Num F) szof env s t u y x,
    let m := model_of (F := F) FMI2 Feedthrough in
    reach2 m szof s -> In (t, u, y) (feedthrough FMI2) ->
    read2 m szof env s t y x <-> read2 m szof env s t u x.
Proof. exact @feed_iff2. Qed.
(** ... and that is the value last assigned with OK ... *)
Theorem C35_fmi2_output_follows_set :
  forall (F : Type) (NF : Num F) szof fuel env env' t u y x l s0 out s tr obs s' fuel',
    let m := model_of (F := F) FMI2 Feedthrough in
    reach2 m szof s0 -> In (t, u, y) (feedthrough FMI2) ->
    exec2 m szof fuel env (O2Set t (Some [u]) 1 (Some [x])) s0 = Done (OK, out, s, tr) ->
    (forall e o i, In (e, o) l -> image2 o = Some i -> saved2 m szof i) ->
    Forall (fun p => touches2 u (snd p) = false) l ->
    run2 m szof fuel' l s = Done (obs, s') -> In (mode_of s') (when2 (O2Get (F := F) (D := md m) TFloat64 None 0 None)) ->
    read2 m szof env' s' t y (as_read t x).
Proof. exact @feed_set2. Qed.
Theorem C35_fmi2_boolean_output_follows_set :
  forall (F : Type) (NF : Num F) szof fuel env env' z l s0 out s tr obs s' fuel',
    let m := model_of (F := F) FMI2 Feedthrough in
    reach2 m szof s0 ->
    exec2 m szof fuel env (O2SetBoolean (Some [27%N]) 1 (Some [z])) s0 = Done (OK, out, s, tr) ->
    (forall e o i, In (e, o) l -> image2 o = Some i -> saved2 m szof i) ->
    Forall (fun p => touches2 27%N (snd p) = false) l ->
    run2 m szof fuel' l s = Done (obs, s') -> In (mode_of s') (when2 (O2Get (F := F) (D := md m) TFloat64 None 0 None)) ->
    getB2 m szof env' s' 28%N (negb (Z.eqb z 0)).
Proof. exact @feed_setB2. Qed.
Theorem C35_fmi2_output_kept :
  forall (F : Type) (NF : Num F) szof fuel env env' t u y x l s obs s',
    let m := model_of (F := F) FMI2 Feedthrough in
    reach2 m szof s -> In (t, u, y) (feedthrough FMI2) ->
    read2 m szof env s t u x ->
    (forall e o i, In (e, o) l -> image2 o = Some i -> saved2 m szof i) ->
    Forall (fun p => touches2 u (snd p) = false) l ->
    run2 m szof fuel l s = Done (obs, s') -> In (mode_of s') (when2 (O2Get (F := F) (D := md m) TFloat64 None 0 None)) ->
    read2 m szof env' s' t u x /\ read2 m szof env' s' t y x.
Proof. exact @feed_kept2. Qed.
(** ... or the start value of the model description (for the Boolean: false). *)
Theorem C35_fmi2_output_starts :
  forall (F : Type) (NF : Num F) szof fuel env t u y x l i obs s',
    let m := model_of (F := F) FMI2 Feedthrough in
    made2 m i -> In (t, u, y) (feedthrough FMI2) ->
    In (SV t u [x]) (starts2 Feedthrough) \/ existT (val F) t x = existT (val F) TBoolean false ->
    (forall e o i, In (e, o) l -> image2 o = Some i -> saved2 m szof i) ->
    Forall (fun p => touches2 u (snd p) = false) l ->
    run2 m szof fuel l (mkSys i []) = Done (obs, s') -> In (mode_of s') (when2 (O2Get (F := F) (D := md m) TFloat64 None 0 None)) ->
    read2 m szof env s' t y x.
Proof. exact @feed_start2. Qed.
Definition C35_before2 : list (Op2 B64 (md (m2' Feedthrough))) :=
  [O2SetupExperiment (lit 0) true (lit 10); O2EnterInitializationMode; O2ExitInitializationMode].
Definition C35_after2 : list (Env * Op2 B64 (md (m2' Feedthrough))) :=
  [(env0, O2Set TInt32 (Some [19%N]) 1 (Some [(-3)%Z])); (env0, O2DoStep (lit 0) (lit 1))].
Example C35_fmi2_case : exists s, reach2 (m2' Feedthrough) szof0 s /\
  match exec2 (m2' Feedthrough) szof0 fuel0 env0 (O2Set TFloat64 (Some [7%N]) 1 (Some [lit 3])) s with
  | Done (OK, _, s1, _) =>
      match run2 (m2' Feedthrough) szof0 fuel0 C35_after2 s1 with
      | Done (obs, s2) => map (fun x => fst (fst x)) obs = [OK; OK] /\ mode_of s2 = StepComplete | _ => False end
  | _ => False end /\ Forall (fun p => touches2 7%N (snd p) = false) C35_after2 /\ In (TFloat64, 7%N, 8%N) (feedthrough FMI2).
Proof.
  case2 CoSimulation C35_before2. split; [split; reflexivity|]. split; [repeat constructor|]. tauto.
Qed.

(** C36: strings of 128 characters or more and values outside of the enumeration are rejected and
    change no variable; all others are accepted (and by C08 and C35 read back). *)
Theorem C36_fmi2_string_range :
  forall (F : Type) (NF : Num F) szof fuel env b s,
    let m := model_of (F := F) FMI2 Feedthrough in
    reach2 m szof s ->
    let o := O2Set TString (Some [29%N]) 1 (Some [Some b]) in
    (128 <= length (cstr b) ->
      exists s' tr, exec2 m szof fuel env o s = Done (Error, ONone, s', tr) /\ forall env', reads_same2 m szof env' s s') /\
    (length (cstr b) < 128 -> In (mode_of s) (when2 o) -> exists s' tr, exec2 m szof fuel env o s = Done (OK, ONone, s', tr)).
Proof. exact @string_range2. Qed.
Theorem C36_fmi2_enumeration_range :
  forall (F : Type) (NF : Num F) szof fuel env v s,
    let m := model_of (F := F) FMI2 Feedthrough in
    reach2 m szof s ->
    let o := O2Set TInt32 (Some [33%N]) 1 (Some [v]) in
    (v <> 1%Z /\ v <> 2%Z ->
      exists s' tr, exec2 m szof fuel env o s = Done (Error, ONone, s', tr) /\ forall env', reads_same2 m szof env' s s') /\
    (v = 1%Z \/ v = 2%Z -> In (mode_of s) (when2 o) -> exists s' tr, exec2 m szof fuel env o s = Done (OK, ONone, s', tr)).
Proof. exact @enum_range2. Qed.
Example C36_fmi2_case : exists s, reach2 (m2' Feedthrough) szof0 s /\
  In (mode_of s) (when2 (O2Set (F := B64) (D := md (m2' Feedthrough)) TString (Some [29%N]) 1 (Some [Some [x61; x62; x63]]))).
Proof. case2 CoSimulation [O2EnterInitializationMode (F := B64) (D := md (m2' Feedthrough))]. tauto. Qed.

(** All theorems of this file at once. *)
Definition PropData2_all :=
  (@C08_fmi2_set_then_get,
   @C08_C09_fmi2_boolean,
   @C08_fmi2_boolean_output_refuted,
   @C09_fmi2_other_variables_unchanged,
   @C10_fmi2_many_as_singles,
   @C11_fmi2_get_unknown,
   @C11_fmi2_set_unknown,
   @C11_fmi2_set_unknown_changes_nothing,
   @C11_fmi2_boolean_unknown,
   @C29_fmi2_equations_hold,
   @C35_fmi2_output_is_input,
   @C35_fmi2_output_follows_set,
   @C35_fmi2_boolean_output_follows_set,
   @C35_fmi2_output_kept,
   @C35_fmi2_output_starts,
   @C36_fmi2_string_range,
   @C36_fmi2_enumeration_range).
Print Assumptions PropData2_all.
