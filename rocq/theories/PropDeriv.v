(** PropDeriv.v -- directional and adjoint derivatives: they are transposes of each other (C33) and the true derivatives (C34). *)
From Coq Require Import List NArith ZArith Bool Arith Reals Lra.
From Verif Require Import Base Instance ModelIface Core Fmi3 Fmi2 Api Fmus NumR SpecModes SpecState SpecVars SpecEqs SpecDeriv Samples SamplesR
  Deriv DerivReal.
Import ListNotations.
Set Implicit Arguments.

(** ** C33: in every state in which derivatives may be asked for, for all lists of unknowns and knowns and all seeds, both calls
    succeed, and <adjoint seed, directional derivative> = <adjoint derivative, directional seed>, in exact arithmetic. *)
Theorem C33_transpose :
  forall (inf : R) (f : FMU) szof, let NF := NumR inf in has_partials f = true ->
  forall fuel env us nu ks nk dseed aseed dbuf abuf s,
    In (mode_of s) (when3 (O3GetDirectionalDerivative (F := R) (D := md (model_of FMI3 f)) None 0 None 0 None None)) ->
    nu <= length us -> nk <= length ks -> nk <= length dseed -> nu <= length aseed -> nu <= length dbuf -> nk <= length abuf ->
    exists dr ar s1 s2,
      exec3 (model_of FMI3 f) szof fuel env (O3GetDirectionalDerivative (Some us) nu (Some ks) nk (Some dseed) (Some dbuf)) s =
        Done (OK, OFloats (Some dr), s1, []) /\
      exec3 (model_of FMI3 f) szof fuel env (O3GetAdjointDerivative (Some us) nu (Some ks) nk (Some aseed) (Some abuf)) s1 =
        Done (OK, OFloats (Some ar), s2, []) /\
      inner nu aseed dr = inner nk ar dseed.
Proof. exact @transpose. Qed.
(** The directional derivative is the matrix of the single answers [partial3] times the seed ... *)
Theorem C33_linear :
  forall (inf : R) (f : FMU) szof, let NF := NumR inf in has_partials f = true ->
  forall fuel env us nu ks nk seed buf s,
    In (mode_of s) (when3 (O3GetDirectionalDerivative (F := R) (D := md (model_of FMI3 f)) None 0 None 0 None None)) ->
    nu <= length us -> nk <= length ks -> nk <= length seed -> nu <= length buf ->
    exists dr s1,
      exec3 (model_of FMI3 f) szof fuel env (O3GetDirectionalDerivative (Some us) nu (Some ks) nk (Some seed) (Some buf)) s =
        Done (OK, OFloats (Some dr), s1, []) /\
      forall i u, i < nu -> nth_error us i = Some u ->
      exists r, nth_error dr i = Some (inner nk r seed) /\ length r = nk /\
        forall j k, j < nk -> nth_error ks j = Some k -> exists x, nth_error r j = Some x /\ partial3 (model_of FMI3 f) szof env s u k x.
Proof. exact @linear3. Qed.
Theorem C33_linear_fmi2 :
  forall (inf : R) (f : FMU) szof, let NF := NumR inf in has_partials f = true ->
  forall fuel env us nu ks nk seed buf s,
    In (mode_of s) (when2 (O2GetDirectionalDerivative (F := R) (D := md (model_of FMI2 f)) None 0 None 0 None None)) ->
    nu <= length us -> nk <= length ks -> nk <= length seed -> nu <= length buf ->
    exists dr s1,
      exec2 (model_of FMI2 f) szof fuel env (O2GetDirectionalDerivative (Some us) nu (Some ks) nk (Some seed) (Some buf)) s =
        Done (OK, OFloats (Some dr), s1, []) /\
      forall i u, i < nu -> nth_error us i = Some u ->
      exists r, nth_error dr i = Some (inner nk r seed) /\ length r = nk /\
        forall j k, j < nk -> nth_error ks j = Some k -> exists x, nth_error r j = Some x /\ partial2 (model_of FMI2 f) szof env s u k x.
Proof. exact @linear2. Qed.
(** ... and the FMUs without an implementation answer Error, in every arithmetic. *)
Theorem C33_absent :
  forall (F : Type) (NF : Num F) f szof fuel env us nu ks nk seed sens s st out s' t,
    has_partials f = false -> 0 < nu -> 0 < nk ->
    In (mode_of s) (when3 (O3GetDirectionalDerivative (F := F) (D := md (model_of FMI3 f)) None 0 None 0 None None)) ->
    exec3 (model_of FMI3 f) szof fuel env (O3GetDirectionalDerivative us nu ks nk seed sens) s = Done (st, out, s', t) \/
    exec3 (model_of FMI3 f) szof fuel env (O3GetAdjointDerivative us nu ks nk seed sens) s = Done (st, out, s', t) -> st = Error.
Proof. exact @absent3. Qed.

(** ** C34: the answer for the derivative of [u] with respect to [k] is the partial derivative of the equation of [u], as a
    function of its arguments, at the values that the FMU shows.  VanDerPol: with respect to the parameter mu only in
    initialization mode.  Roberts: with y3 as an argument of its own, and without the equation of y3.  Missing: the other
    cases, which are false (below). *)
Theorem C34_vanderpol_partial :
  forall (inf : R) szof env s u args g n k xs x,
    let NF := NumR inf in
    reach3 (model_of (F := R) FMI3 VanDerPol) szof s ->
    In (mode_of s) (when3 (O3GetDirectionalDerivative (F := R) (D := md (model_of FMI3 VanDerPol)) None 0 None 0 None None)) ->
    In (u, args, g) (equations VanDerPol false) ->
    Forall2 (fun a y => get3 (model_of FMI3 VanDerPol) szof env s TFloat64 a [y]) args xs -> nth_error args n = Some k ->
    (k <> 5%N \/ mode_of s = InitializationMode) ->
    partial3 (model_of FMI3 VanDerPol) szof env s u k x ->
    derivable_pt_lim (fun z => g (replaced n z xs)) (nth n xs 0%R) x.
Proof. exact @vanderpol3. Qed.
Theorem C34_vanderpol_fmi2_partial :
  forall (inf : R) szof env s u args g n k xs x,
    let NF := NumR inf in
    reach2 (model_of (F := R) FMI2 VanDerPol) szof s ->
    In (mode_of s) (when2 (O2GetDirectionalDerivative (F := R) (D := md (model_of FMI2 VanDerPol)) None 0 None 0 None None)) ->
    In (u, args, g) (equations VanDerPol false) ->
    Forall2 (fun a y => get2 (model_of FMI2 VanDerPol) szof env s TFloat64 a y) args xs -> nth_error args n = Some k ->
    (k <> 5%N \/ mode_of s = InitializationMode) ->
    partial2 (model_of FMI2 VanDerPol) szof env s u k x ->
    derivable_pt_lim (fun z => g (replaced n z xs)) (nth n xs 0%R) x.
Proof. exact @vanderpol2. Qed.
Theorem C34_roberts_partial :
  forall (inf : R) szof env s u args g n k xs x b,
    let NF := NumR inf in
    reach3 (model_of (F := R) FMI3 Roberts) szof s ->
    In (mode_of s) (when3 (O3GetDirectionalDerivative (F := R) (D := md (model_of FMI3 Roberts)) None 0 None 0 None None)) ->
    In (u, args, g) (equations Roberts b) -> u <> 6%N ->
    Forall2 (fun a y => get3 (model_of FMI3 Roberts) szof env s TFloat64 a [y]) args xs -> nth_error args n = Some k ->
    partial3 (model_of FMI3 Roberts) szof env s u k x ->
    derivable_pt_lim (fun z => g (replaced n z xs)) (nth n xs 0%R) x.
Proof. exact @roberts3_true. Qed.
(** With respect to a variable that is not an argument the answer is zero. *)
Theorem C34_zero :
  forall (inf : R) szof f env s u args g k x b,
    let NF := NumR inf in
    has_partials f = true ->
    In (mode_of s) (when3 (O3GetDirectionalDerivative (F := R) (D := md (model_of FMI3 f)) None 0 None 0 None None)) ->
    In (u, args, g) (equations f b) -> ~ In k args ->
    partial3 (model_of FMI3 f) szof env s u k x -> x = 0%R.
Proof. exact @zero3. Qed.

(** the hypotheses of C33 and C34 are met: VanDerPol in step mode with x0 = 2, x1 = 1, mu = 1: the derivative of der(x1) with
    respect to x0 is -5 *)
Definition setR (inf : R) f (vr : N) (x : R) : Op3 R (md (model_of (NF := NumR inf) FMI3 f)) := O3Set TFloat64 (Some [vr]) 1 (Some [x]) 1.
Example C34_case : forall inf : R, let NF := NumR inf in exists s x,
  reach3 (model_of (F := R) FMI3 VanDerPol) szof0 s /\
  In (mode_of s) (when3 (O3GetDirectionalDerivative (F := R) (D := md (model_of FMI3 VanDerPol)) None 0 None 0 None None)) /\
  In (4%N, [1%N; 3%N; 5%N], vanderpol) (equations VanDerPol false) /\
  Forall2 (fun a y => get3 (model_of FMI3 VanDerPol) szof0 env0 s TFloat64 a [y]) [1; 3; 5]%N [2; 1; 1]%R /\
  partial3 (model_of FMI3 VanDerPol) szof0 env0 s 4%N 1%N x /\ x = (-5)%R.
Proof.
  intros inf NF. eexists. eexists.
  split; [apply (@afterR3_reach inf VanDerPol (setR inf VanDerPol 3 1 :: startR3 inf VanDerPol)); [repeat constructor|rnorm; reflexivity]|].
  split; [vm_compute; tauto|]. split; [right; left; reflexivity|].
  split; [|split; [exists 0%R; do 2 eexists; rnorm; reflexivity|cbn; ring]].
  repeat apply Forall2_cons; try apply Forall2_nil; exists [0%R]; do 2 eexists; (split; [reflexivity|]); rnorm; repeat f_equal; cbn; ring.
Qed.

(** Outside initialization mode the derivative with respect to mu is answered as zero, with status OK. *)
Theorem C34_parameter_refuted : forall inf : R, let NF := NumR inf in exists s,
  reach3 (model_of (F := R) FMI3 VanDerPol) szof0 s /\
  Forall2 (fun a y => get3 (model_of FMI3 VanDerPol) szof0 env0 s TFloat64 a [y]) [1; 3; 5]%N [2; 1; 1]%R /\
  exists x, partial3 (model_of FMI3 VanDerPol) szof0 env0 s 4%N 5%N x /\
    ~ derivable_pt_lim (fun z => vanderpol [2%R; 1%R; z]) 1%R x.
Proof.
  intros inf NF. eexists.
  split; [apply (@afterR3_reach inf VanDerPol (setR inf VanDerPol 3 1 :: startR3 inf VanDerPol)); [repeat constructor|rnorm; reflexivity]|].
  split.
  - repeat apply Forall2_cons; try apply Forall2_nil; exists [0%R]; do 2 eexists; (split; [reflexivity|]); rnorm; repeat f_equal; cbn; ring.
  - eexists. split; [exists 0%R; do 2 eexists; rnorm; reflexivity|]. intro D.
    assert (D' : derivable_pt_lim (fun z => vanderpol (NF := NF) [2%R; 1%R; z]) 1%R (-3)%R).
    { apply quadratic'. exists (-2)%R, (-3)%R, 0%R. split; [intro z; cbn; ring|ring]. }
    pose proof (uniqueness_limite _ _ _ _ D' D) as X. revert X. cbn. lra.
Qed.
(** Roberts with dae = false: y3 is 1 - y1 - y2, but the derivative of der(y1) with respect to the state y1 ignores that. *)
Theorem C34_eliminated_refuted : forall inf : R, let NF := NumR inf in exists s y2,
  reach3 (model_of (F := R) FMI3 Roberts) szof0 s /\
  get3 (model_of FMI3 Roberts) szof0 env0 s TBoolean 1%N [false] /\
  get3 (model_of FMI3 Roberts) szof0 env0 s TFloat64 2%N [1%R] /\ get3 (model_of FMI3 Roberts) szof0 env0 s TFloat64 4%N [y2] /\
  exists x, partial3 (model_of FMI3 Roberts) szof0 env0 s 3%N 2%N x /\
    ~ derivable_pt_lim (fun z => roberts1 [z; y2; roberts3 [z; y2]]) 1%R x.
Proof.
  intros inf NF. eexists. exists 1%R.
  assert (H : forall s, reach3 (model_of (F := R) FMI3 Roberts) szof0 s ->
     In (mode_of s) (when3 (O3GetDirectionalDerivative (F := R) (D := md (model_of FMI3 Roberts)) None 0 None 0 None None)) ->
     get3 (model_of FMI3 Roberts) szof0 env0 s TBoolean 1%N [false] -> get3 (model_of FMI3 Roberts) szof0 env0 s TFloat64 2%N [1%R] ->
     get3 (model_of FMI3 Roberts) szof0 env0 s TFloat64 4%N [1%R] -> forall x, partial3 (model_of FMI3 Roberts) szof0 env0 s 3%N 2%N x ->
     ~ derivable_pt_lim (fun z => roberts1 (NF := NF) [z; 1%R; roberts3 (NF := NF) [z; 1%R]]) 1%R x).
  { intros s Re Hm B G1 G2 x Px. apply (@eliminated inf szof0 env0 s 1%R 1%R x Re Hm B G1 G2); [lra|exact Px]. }
  assert (A : forall A B C D E : Prop, A -> B -> C -> D -> (A -> B -> C -> D -> E) -> A /\ B /\ C /\ D /\ E) by tauto.
  apply A.
  - apply (@afterR3_reach inf Roberts (setR inf Roberts 4 1 :: startR3 inf Roberts)); [repeat constructor|rnorm; reflexivity].
  - exists [true]. do 2 eexists. split; [reflexivity|]. rnorm. reflexivity.
  - exists [0%R]. do 2 eexists. split; [reflexivity|]. rnorm. repeat f_equal. cbn. ring.
  - exists [0%R]. do 2 eexists. split; [reflexivity|]. rnorm. reflexivity.
  - intros Re B G1 G2. eexists. split; [exists 0%R; do 2 eexists; rnorm; reflexivity|].
    apply (H _ Re); [vm_compute; tauto|exact B|exact G1|exact G2|]. exists 0%R; do 2 eexists. rnorm. reflexivity.
Qed.

Definition PropDeriv_all := @C33_absent.
Print Assumptions PropDeriv_all.
Definition PropDeriv_real := (@C33_transpose, @C33_linear, @C33_linear_fmi2, @C34_vanderpol_partial, @C34_vanderpol_fmi2_partial, @C34_roberts_partial,
  @C34_zero, C34_parameter_refuted, C34_eliminated_refuted).
Print Assumptions PropDeriv_real.
