(** PropOwn.v -- Model Exchange integrated by the importer, and co-simulation: C81. *)
From Coq Require Import List NArith ZArith Bool Arith Reals.
From Verif Require Import Base Instance ModelIface Core Fmi3 Fmi2 Api Fmus NumB64 NumR SpecModes SpecCreate SpecState SpecVars SpecEqs SpecSteps SpecOde
  SpecOwn Own Samples PropSteps PropMx.
Import ListNotations.
Set Implicit Arguments.

(** C81: in Continuous-Time Mode the importer can make any number of steps of the Euler method, of any step sizes and at any
    times; no call fails. *)
Theorem C81_runs :
  forall (F : Type) (NF : Num F) szof fuel env (f : FMU) ts s, f = Dahlquist \/ f = VanDerPol -> mode_of s = ContinuousTimeMode ->
    exists s', euler_steps (F := F) f szof fuel env ts s s'.
Proof. exact @steps_exist. Qed.
(** The states are then those of the Euler method, from whatever values the states and the parameter had. *)
Theorem C81_dahlquist :
  forall (F : Type) (NF : Num F) szof fuel env e ts s s' (x k : F),
    let m := model_of (F := F) FMI3 Dahlquist in
    reach3 m szof s -> mode_of s = ContinuousTimeMode -> euler_steps Dahlquist szof fuel env ts s s' ->
    get3 m szof e s TFloat64 1 [x] -> get3 m szof e s TFloat64 3 [k] ->
    get3 m szof e s' TFloat64 1 [after_steps (fun h => decay h k) (map fst ts) x] /\ get3 m szof e s' TFloat64 3 [k].
Proof. exact @decay_read. Qed.
Theorem C81_vanderpol :
  forall (F : Type) (NF : Num F) szof fuel env e ts s s' (x0 x1 mu : F),
    let m := model_of (F := F) FMI3 VanDerPol in
    reach3 m szof s -> mode_of s = ContinuousTimeMode -> euler_steps VanDerPol szof fuel env ts s s' ->
    get3 m szof e s TFloat64 1 [x0] -> get3 m szof e s TFloat64 3 [x1] -> get3 m szof e s TFloat64 5 [mu] ->
    let y := after_steps (fun h => swing h mu) (map fst ts) (x0, x1) in
    get3 m szof e s' TFloat64 1 [fst y] /\ get3 m szof e s' TFloat64 3 [snd y] /\ get3 m szof e s' TFloat64 5 [mu].
Proof. exact @swing_read. Qed.
(** A Model Exchange instance [s] and a Co-Simulation instance [c] that agree in all variables but the time: after any
    successful DoStep calls on [c], [n] solver steps in all, and [n] steps of the importer with the same step size on [s],
    they agree again, derivatives included. *)
Theorem C81_same :
  forall (F : Type) (NF : Num F) szof fuel env (f : FMU) l c obs c' s,
    let m := model_of (F := F) FMI3 f in
    f = Dahlquist \/ f = VanDerPol -> reach3 m szof s -> reach3 m szof c -> mode_of s = ContinuousTimeMode ->
    eventModeUsed (ctl (sinst c)) = false -> set_up FMI3 f (sinst c) -> agreeing f szof env s c ->
    Forall (fun o => is_DoStep3 o = true) l ->
    run3 m szof fuel (map (fun o => (env, o)) l) c = Done (obs, c') -> Forall (fun x => fst (fst x) = OK) obs ->
    exists n, clock (m_step m) n c c' /\
      forall ts s', map fst ts = repeat (m_step m) n -> euler_steps f szof fuel env ts s s' -> agreeing f szof env s' c'.
Proof. exact @me_cs. Qed.
(** Dahlquist in exact arithmetic *)
Theorem C81_product : forall (inf : R) hs k x, let NF := NumR inf in
  (after_steps (fun h => decay h k) hs x = x * fold_right (fun h p => (1 - h * k) * p) 1 hs)%R.
Proof. exact decay_product. Qed.

(** binary64: mu is set to 5 in both instances; thirty solver steps by two calls, thirty steps of the importer *)
Definition tuned f : Op3 B64 (md (m3' f)) := O3Set TFloat64 (Some [5%N]) 1 (Some [lit 5]) 1.
Example C81_case : exists s c, reach3 (m3' VanDerPol) szof0 s /\ reach3 (m3' VanDerPol) szof0 c /\ mode_of s = ContinuousTimeMode /\
  eventModeUsed (ctl (sinst c)) = false /\ set_up FMI3 VanDerPol (sinst c) /\ agreeing VanDerPol szof0 env0 s c /\
  get3 (m3' VanDerPol) szof0 env0 s TFloat64 5 [lit 5] /\
  match run3 (m3' VanDerPol) szof0 fuel0 (map (fun o => (env0, o)) [step3 VanDerPol (lit 0) (nlit 1 (-1)); step3 VanDerPol (nlit 1 (-1)) (nlit 2 (-1))]) c with
  | Done (obs, c') => map (fun x => fst (fst x)) obs = [OK; OK] /\ steps_of c' = 30%N
  | _ => False end.
Proof.
  do 2 eexists.
  assert (W : forall A B C : Prop, A -> B -> (A -> B -> C) -> A /\ B /\ C) by tauto. apply W; clear W.
  - apply (@sample3 _ (newME VanDerPol) (tuned VanDerPol :: continuous VanDerPol)); [left; reflexivity|repeat constructor|vm_compute; reflexivity].
  - apply (@sample3 _ (newCS false false VanDerPol) (tuned VanDerPol :: start3 VanDerPol)); [right; left; eexists; eexists; reflexivity|repeat constructor|vm_compute; reflexivity].
  - intros Rs Rc. split; [reflexivity|]. split; [reflexivity|]. split; [split; reflexivity|]. split; [apply vp_alike; [exact Rs|exact Rc|split; reflexivity]|].
    split; [exists [lit 0]; do 2 eexists; split; [reflexivity|vm_compute; reflexivity]|]. vm_compute. auto.
Qed.

Definition PropOwn_all := (@C81_runs, @C81_dahlquist, @C81_vanderpol, @C81_same).
Print Assumptions PropOwn_all.
Definition PropOwn_exact := @C81_product.
Print Assumptions PropOwn_exact.
