(** PropRest.v -- the concentrations of Roberts and the end of the bouncing: C75, C76. *)
From Coq Require Import List NArith ZArith Bool Arith Reals Lra.
From Verif Require Import Base Instance ModelIface Core Fmi3 Fmi2 Api Fmus NumB64 NumR SpecModes SpecCreate SpecState SpecVars SpecEqs SpecSteps SpecOde
  SpecNumeric SpecRest Numeric Rest Samples SamplesR PropSteps PropEvents PropDeriv.
Import ListNotations.
Set Implicit Arguments.

(** C75: Roberts without its own equation for y3.  After any sequence of DoStep calls the concentrations are those of
    the recurrence; they are still those of a mixture, the third has not become smaller, and the residual is 0. *)
Theorem C75_fmi3_mixture :
  forall (inf : R) szof fuel env e l s obs s' y1 y2,
    let NF := NumR inf in
    let m := model_of (F := R) FMI3 Roberts in
    reach3 m szof s -> eventModeUsed (ctl (sinst s)) = false -> set_up FMI3 Roberts (sinst s) ->
    Forall (fun o => is_DoStep3 o = true) l ->
    run3 m szof fuel (map (fun o => (env, o)) l) s = Done (obs, s') -> Forall (fun x => fst (fst x) = OK) obs ->
    get3 m szof e s TBoolean 1 [false] -> get3 m szof e s TFloat64 2 [y1] -> get3 m szof e s TFloat64 4 [y2] ->
    mixture y1 y2 (1 - y1 - y2) ->
    exists n z1 z2 z3, clock (/ 1000000)%R n s s' /\ (z1, z2) = roberts_after n (y1, y2) /\
      get3 m szof e s' TFloat64 2 [z1] /\ get3 m szof e s' TFloat64 4 [z2] /\ get3 m szof e s' TFloat64 6 [z3] /\
      get3 m szof e s' TFloat64 8 [0%R] /\ mixture z1 z2 z3 /\ (1 - y1 - y2 <= z3)%R.
Proof. exact @roberts_mixture3. Qed.
Example C75_fmi3_case : forall inf e, let NF := NumR inf in let m := model_of (F := R) FMI3 Roberts in exists s, reach3 m szof0 s /\
  eventModeUsed (ctl (sinst s)) = false /\ set_up FMI3 Roberts (sinst s) /\ mode_of s = StepMode /\
  get3 m szof0 e s TBoolean 1 [false] /\ get3 m szof0 e s TFloat64 2 [nlit 1 0] /\ get3 m szof0 e s TFloat64 4 [nlit 0 0] /\
  mixture (nlit 1 0) (nlit 0 0) (1 - nlit 1 0 - nlit 0 0).
Proof.
  intros inf e NF m. eexists. split; [apply (@readyR3_reach inf); rnorm; reflexivity|].
  split; [reflexivity|]. split; [split; reflexivity|]. split; [reflexivity|]. unfold get3.
  split; [exists [false]; do 2 eexists; (split; [reflexivity|]); rnorm; reflexivity|].
  split; [exists [0%R]; do 2 eexists; (split; [reflexivity|]); rnorm; reflexivity|].
  split; [exists [0%R]; do 2 eexists; (split; [reflexivity|]); rnorm; reflexivity|].
  unfold mixture. cbn. lra.
Qed.
(** The bound on the second concentration is needed: from pure y2 the first solver step leads to y2 = -29,
    and a DoStep of 1 microsecond, which does 11 of them, ends with NaN and status OK. *)
Definition value_of f vr s : option B64 :=
  match exec3 (m3' f) szof0 0 env0 (O3Get TFloat64 (Some [vr]) 1 (Some [lit 0]) 1) s with
  | Done (OK, out, _, _) => match vals_of out with Some [x] => Some x | _ => None end | _ => None end.
Definition set_value f vr x : Op3 B64 (md (m3' f)) := O3Set TFloat64 (Some [vr]) 1 (Some [x]) 1.
Theorem C75_second_refuted : exists s, reach3 (m3' Roberts) szof0 s /\
  value_of Roberts 2 s = Some (lit 0) /\ value_of Roberts 4 s = Some (lit 1) /\ value_of Roberts 6 s = Some (lit 0) /\
  match exec3 (m3' Roberts) szof0 fuel0 env0 (step3 Roberts (lit 0) (nlit 1 (-6))) s with
  | Done (OK, _, s', _) => value_of Roberts 4 s' = Some SpecFloat.S754_nan
  | _ => False end.
Proof. case3 (newCS false false Roberts) (set_value Roberts 2 (lit 0) :: set_value Roberts 4 (lit 1) :: start3 Roberts). repeat split. Qed.

(** C76: a ball with enough damping comes to rest just above the ground and stays there. *)
Theorem C76_fmi3_rest :
  forall (inf : R) szof e s b,
    let NF := NumR inf in
    let m := model_of (F := R) FMI3 BouncingBall in
    reach3 m szof s -> eventModeUsed (ctl (sinst s)) = false ->
    set_up FMI3 BouncingBall (sinst s) -> current FMI3 BouncingBall (sinst s) -> ball3 inf szof e s b -> damped b ->
    exists N, forall fuel env l obs s', Forall (fun o => is_DoStep3 o = true) l ->
      run3 m szof fuel (map (fun o => (env, o)) l) s = Done (obs, s') -> Forall (fun x => fst (fst x) = OK) obs ->
      exists n, clock (/ 1000)%R n s s' /\ (N <= n -> ball3 inf szof e s' (resting (restitution b))).
Proof. exact @settles3. Qed.
Theorem C76_fmi2_rest :
  forall (inf : R) szof e s b,
    let NF := NumR inf in
    let m := model_of (F := R) FMI2 BouncingBall in
    reach2 m szof s ->
    set_up FMI2 BouncingBall (sinst s) -> current FMI2 BouncingBall (sinst s) -> ball2 inf szof e s b -> damped b ->
    exists N, forall fuel env l obs s', Forall (fun o => is_DoStep2 o = true) l ->
      run2 m szof fuel (map (fun o => (env, o)) l) s = Done (obs, s') -> Forall (fun x => fst (fst x) <> Error) obs ->
      exists n, clock (/ 1000)%R n s s' /\ (N <= n -> ball2 inf szof e s' (resting (restitution b))).
Proof. exact @settles2. Qed.
(** The ball with the start values of the model description; it is just initialised. *)
Example C76_fmi3_case : forall inf e, let NF := NumR inf in exists s b, reach3 (model_of (F := R) FMI3 BouncingBall) szof0 s /\
  eventModeUsed (ctl (sinst s)) = false /\ set_up FMI3 BouncingBall (sinst s) /\ current FMI3 BouncingBall (sinst s) /\
  mode_of s = StepMode /\ ball3 inf szof0 e s b /\ damped b.
Proof.
  intros inf e NF. eexists. exists (mkBall (nlit 1 0) (nlit 0 0) (nopp (nlit 981 (-2))) (nlit 7 (-1))).
  split; [apply (@readyR3_reach inf); rnorm; reflexivity|].
  split; [reflexivity|]. split; [split; reflexivity|]. split; [reflexivity|]. split; [reflexivity|].
  split.
  - unfold ball3, get3. repeat split; exists [0%R]; do 2 eexists; (split; [reflexivity|]); rnorm; reflexivity.
  - unfold damped. cbn. change (Pos.to_nat 1) with 1%nat. change (Pos.to_nat 2) with 2%nat. cbn [pow]. lra.
Qed.
(** With restitution 1, the largest value allowed, it never comes to rest; its speed exceeds every bound. *)
Theorem C76_fmi3_elastic :
  forall (inf : R) szof e s b,
    let NF := NumR inf in
    let m := model_of (F := R) FMI3 BouncingBall in
    reach3 m szof s -> eventModeUsed (ctl (sinst s)) = false ->
    set_up FMI3 BouncingBall (sinst s) -> current FMI3 BouncingBall (sinst s) -> ball3 inf szof e s b -> elastic b ->
    forall w : R, exists N, forall fuel env l obs s', Forall (fun o => is_DoStep3 o = true) l ->
      run3 m szof fuel (map (fun o => (env, o)) l) s = Done (obs, s') -> Forall (fun x => fst (fst x) = OK) obs ->
      exists n, clock (/ 1000)%R n s s' /\ get3 m szof e s' TFloat64 5 [gravity b] /\
        (n = N -> exists v, (w <= v)%R /\ get3 m szof e s' TFloat64 3 [v]).
Proof. exact @elastic3. Qed.
Theorem C76_fmi2_elastic :
  forall (inf : R) szof e s b,
    let NF := NumR inf in
    let m := model_of (F := R) FMI2 BouncingBall in
    reach2 m szof s ->
    set_up FMI2 BouncingBall (sinst s) -> current FMI2 BouncingBall (sinst s) -> ball2 inf szof e s b -> elastic b ->
    forall w : R, exists N, forall fuel env l obs s', Forall (fun o => is_DoStep2 o = true) l ->
      run2 m szof fuel (map (fun o => (env, o)) l) s = Done (obs, s') -> Forall (fun x => fst (fst x) <> Error) obs ->
      exists n, clock (/ 1000)%R n s s' /\ get2 m szof e s' TFloat64 5 (gravity b) /\
        (n = N -> exists v, (w <= v)%R /\ get2 m szof e s' TFloat64 3 v).
Proof. exact @elastic2. Qed.
Example C76_fmi3_elastic_case : forall inf e, let NF := NumR inf in exists s b, reach3 (model_of (F := R) FMI3 BouncingBall) szof0 s /\
  eventModeUsed (ctl (sinst s)) = false /\ set_up FMI3 BouncingBall (sinst s) /\ current FMI3 BouncingBall (sinst s) /\
  mode_of s = StepMode /\ ball3 inf szof0 e s b /\ elastic b.
Proof.
  intros inf e NF. eexists. exists (mkBall (nlit 1 0) (nlit 0 0) (nopp (nlit 981 (-2))) 1%R).
  split; [apply (@afterR3_reach inf BouncingBall (setR inf BouncingBall 6 1 :: startR3 inf BouncingBall)); [repeat constructor|rnorm; reflexivity]|].
  split; [reflexivity|]. split; [split; reflexivity|]. split; [reflexivity|]. split; [reflexivity|].
  split.
  - unfold ball3, get3. repeat split; exists [0%R]; do 2 eexists; (split; [reflexivity|]); rnorm; reflexivity.
  - unfold elastic. cbn. change (Pos.to_nat 2) with 2%nat. cbn [pow]. lra.
Qed.

Print Assumptions C75_second_refuted.
Definition PropRest_exact := (@C75_fmi3_mixture, @C76_fmi3_rest, @C76_fmi2_rest, @C76_fmi3_elastic, @C76_fmi2_elastic).
Print Assumptions PropRest_exact.
