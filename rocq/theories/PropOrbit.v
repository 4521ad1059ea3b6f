(** PropOrbit.v -- the trajectory of VanDerPol: C77. *)
From Coq Require Import List NArith ZArith Bool Arith Reals Lra.
From Verif Require Import Base Instance ModelIface Core Fmi3 Fmi2 Api Fmus NumB64 NumR SpecModes SpecCreate SpecState SpecVars SpecEqs SpecSteps SpecOde
  SpecOrbit Orbit Samples SamplesR PropSteps PropDeriv.
Import ListNotations.
Set Implicit Arguments.

(** C77: after any sequence of DoStep calls x0 and x1 are those of the Euler method with a step of 0.01, in every
    arithmetic, however the steps were distributed over the calls; mu is kept. *)
Theorem C77_fmi3_orbit :
  forall (F : Type) (NF : Num F) szof fuel env e l s obs s' (x0 x1 mu : F),
    let m := model_of (F := F) FMI3 VanDerPol in
    reach3 m szof s -> eventModeUsed (ctl (sinst s)) = false -> set_up FMI3 VanDerPol (sinst s) ->
    Forall (fun o => is_DoStep3 o = true) l ->
    run3 m szof fuel (map (fun o => (env, o)) l) s = Done (obs, s') -> Forall (fun x => fst (fst x) = OK) obs ->
    get3 m szof e s TFloat64 1 [x0] -> get3 m szof e s TFloat64 3 [x1] -> get3 m szof e s TFloat64 5 [mu] ->
    exists n, clock (nlit 1 (-2)) n s s' /\ get3 m szof e s' TFloat64 1 [fst (orbit_after n mu (x0, x1))] /\
      get3 m szof e s' TFloat64 3 [snd (orbit_after n mu (x0, x1))] /\ get3 m szof e s' TFloat64 5 [mu].
Proof. exact @orbit3. Qed.
Theorem C77_fmi2_orbit :
  forall (F : Type) (NF : Num F) szof fuel env e l s obs s' (x0 x1 mu : F),
    let m := model_of (F := F) FMI2 VanDerPol in
    reach2 m szof s -> set_up FMI2 VanDerPol (sinst s) ->
    Forall (fun o => is_DoStep2 o = true) l ->
    run2 m szof fuel (map (fun o => (env, o)) l) s = Done (obs, s') -> Forall (fun x => fst (fst x) <> Error) obs ->
    get2 m szof e s TFloat64 1 x0 -> get2 m szof e s TFloat64 3 x1 -> get2 m szof e s TFloat64 5 mu ->
    exists n, clock (nlit 1 (-2)) n s s' /\ get2 m szof e s' TFloat64 1 (fst (orbit_after n mu (x0, x1))) /\
      get2 m szof e s' TFloat64 3 (snd (orbit_after n mu (x0, x1))) /\ get2 m szof e s' TFloat64 5 mu.
Proof. exact @orbit2. Qed.
(** Exact arithmetic: the orbit of mirrored start values is the mirrored orbit; the equilibrium is kept; and without damping
    (mu = 0) the method adds energy at every step. *)
Theorem C77_mirror : forall (inf : R) n mu a b, let NF := NumR inf in
  orbit_after n mu (- a, - b)%R = (- fst (orbit_after n mu (a, b)), - snd (orbit_after n mu (a, b)))%R.
Proof. exact mirror. Qed.
Theorem C77_equilibrium : forall (inf : R) n mu, let NF := NumR inf in orbit_after n mu (0, 0)%R = (0, 0)%R.
Proof. exact still. Qed.
Theorem C77_energy : forall (inf : R) n a b, let NF := NumR inf in let x := orbit_after n 0%R (a, b) in
  (fst x * fst x + snd x * snd x = (1 + / 10000) ^ n * (a * a + b * b))%R.
Proof. exact energy. Qed.
(** binary64, thirty steps by two calls *)
Definition reading f vr s : option B64 :=
  match exec3 (m3' f) szof0 0 env0 (O3Get TFloat64 (Some [vr]) 1 (Some [lit 0]) 1) s with
  | Done (OK, out, _, _) => match vals_of out with Some [x] => Some x | _ => None end | _ => None end.
Example C77_fmi3_case : exists s, reach3 (m3' VanDerPol) szof0 s /\
  eventModeUsed (ctl (sinst s)) = false /\ set_up FMI3 VanDerPol (sinst s) /\
  reading VanDerPol 1 s = Some (lit 2) /\ reading VanDerPol 3 s = Some (lit 0) /\ reading VanDerPol 5 s = Some (lit 1) /\
  match run3 (m3' VanDerPol) szof0 fuel0 (map (fun o => (env0, o)) [step3 VanDerPol (lit 0) (nlit 1 (-1)); step3 VanDerPol (nlit 1 (-1)) (nlit 2 (-1))]) s with
  | Done (obs, s') => map (fun x => fst (fst x)) obs = [OK; OK] /\ steps_of s' = 30%N /\
      reading VanDerPol 1 s' = Some (fst (orbit_after 30 (lit 1) (lit 2, lit 0)))
  | _ => False end.
Proof. case3 (newCS false false VanDerPol) (start3 VanDerPol). repeat split. Qed.

Definition PropOrbit_all := (@C77_fmi3_orbit, @C77_fmi2_orbit).
Print Assumptions PropOrbit_all.
Definition PropOrbit_exact := (@C77_mirror, @C77_equilibrium, @C77_energy).
Print Assumptions PropOrbit_exact.
