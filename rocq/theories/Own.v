(** Own.v -- proofs of C81. *)
From Coq Require Import List NArith ZArith Bool Arith Reals Lia Lra.
From Verif Require Import Base Instance ModelIface Core Fmi3 Fmi2 Api Fmus NumB64 NumR Logic Calls LawsFmus SpecModes SpecCreate SpecState Gate Effect Reach Histories
  FmuBouncingBall FmuDahlquist FmuStair FmuVanDerPol FmuRoberts FmuClocks FmuResource FmuStateSpace FmuFeedthrough
  Sim SimSS SpecVars SpecEqs SpecSteps Vars VarsFmus DataFmus Data Vars2 Data2 Dyn Solver Fits Steps StepsFmus StepProps SpecOde Ode KeepArrays Crossing Course SpecNumeric Numeric SpecOrbit Orbit SpecOwn.
Import ListNotations.
Set Implicit Arguments.

Section Step.
  Context {F : Type} {NF : Num F} (szof : N) (fuel : nat) (env : Env).
  Ltac opened s :=
    destruct s as [[c u o] hp]; cbn [md model_of Dahlquist_model VanDerPol_model] in u, hp |- *;
    destruct u as [u1 u2 u3 u4 u5 u6 u7 [] d]; destruct c as [c1 c2 c3 c4 c5 c6 c7 c8 c9 c10 c11 c12 c13 c14 c15 md c17 c18 c19 c20];
    cbn in *; subst md.
  Ltac ev E := lazy -[nle nlt nadd nmul nopp nsub nlit nzero ndblmin nofN ninf ntrunc] in E.
  Ltac go := lazy -[nle nlt nadd nmul nopp nsub nlit nzero ndblmin nofN ninf ntrunc cstr]; reflexivity.

  Lemma da_step h t (s s' : Sys F (md (model_of (F := F) FMI3 Dahlquist))) : mode_of s = ContinuousTimeMode -> euler_step Dahlquist szof fuel env h t s s' ->
    mode_of s' = ContinuousTimeMode /\ da_k (data (mut (sinst s')) : DAData F) = da_k (data (mut (sinst s)) : DAData F) /\
    da_x (data (mut (sinst s')) : DAData F) = decay h (da_k (data (mut (sinst s)) : DAData F)) (da_x (data (mut (sinst s)) : DAData F)).
  Proof.
    unfold mode_of. intros M (n & x & dx & s1 & s2 & s3 & o3 & o4 & t1 & t2 & t3 & t4 & E1 & E2 & E3 & E4).
    opened s; destruct d as [x0 dx0 k0];
    (destruct n as [|[|n]]; ev E1; try (destruct c8, c14; discriminate E1); []);
    injection E1 as <- <- _; ev E2; injection E2 as <- <- _; ev E3; injection E3 as _ <- _; ev E4; injection E4 as _ <- _;
    repeat split.
  Qed.
  Lemma vp_step h t (s s' : Sys F (md (model_of (F := F) FMI3 VanDerPol))) : mode_of s = ContinuousTimeMode -> euler_step VanDerPol szof fuel env h t s s' ->
    mode_of s' = ContinuousTimeMode /\ vp_mu (data (mut (sinst s')) : VPData F) = vp_mu (data (mut (sinst s)) : VPData F) /\
    vp_pair (data (mut (sinst s')) : VPData F) = swing h (vp_mu (data (mut (sinst s)) : VPData F)) (vp_pair (data (mut (sinst s)) : VPData F)).
  Proof.
    unfold mode_of. intros M (n & x & dx & s1 & s2 & s3 & o3 & o4 & t1 & t2 & t3 & t4 & E1 & E2 & E3 & E4).
    opened s; destruct d as [x0 dx0 x1 dx1 k0];
    (destruct n as [|[|[|n]]]; ev E1; try (destruct c8, c14; discriminate E1); []);
    injection E1 as <- <- _; ev E2; injection E2 as <- <- _; ev E3; injection E3 as _ <- _; ev E4; injection E4 as _ <- _;
    repeat split.
  Qed.
  Definition smooth (f : FMU) : Prop := f = Dahlquist \/ f = VanDerPol.
  Lemma step_exists f h t (s : Sys F (md (model_of (F := F) FMI3 f))) : smooth f -> mode_of s = ContinuousTimeMode -> exists s', euler_step f szof fuel env h t s s'.
  Proof.
    intros [-> | ->] M; unfold mode_of in M.
    - opened s; destruct d as [x0 dx0 k0]; eexists; exists 1; do 11 eexists; (split; [go|]); (split; [go|]); split; go.
    - opened s; destruct d as [x0 dx0 x1 dx1 k0]; eexists; exists 2; do 11 eexists; (split; [go|]); (split; [go|]); split; go.
  Qed.
  Lemma step_reach f h t (s s' : Sys F (md (model_of (F := F) FMI3 f))) : reach3 (model_of (F := F) FMI3 f) szof s -> euler_step f szof fuel env h t s s' ->
    reach3 (model_of (F := F) FMI3 f) szof s'.
  Proof.
    intros R (n & x & dx & s1 & s2 & s3 & o3 & o4 & t1 & t2 & t3 & t4 & E1 & E2 & E3 & E4).
    assert (R1 : reach3 (model_of (F := F) FMI3 f) szof s1) by (eapply reach3_call; [exact R| |exact E1]; intros ? X; discriminate X).
    assert (R2 : reach3 (model_of (F := F) FMI3 f) szof s2) by (eapply reach3_call; [exact R1| |exact E2]; intros ? X; discriminate X).
    assert (R3 : reach3 (model_of (F := F) FMI3 f) szof s3) by (eapply reach3_call; [exact R2| |exact E3]; intros ? X; discriminate X).
    eapply reach3_call; [exact R3| |exact E4]; intros ? X; discriminate X.
  Qed.
  Lemma steps_reach f ts (s s' : Sys F (md (model_of (F := F) FMI3 f))) : reach3 (model_of (F := F) FMI3 f) szof s -> euler_steps f szof fuel env ts s s' ->
    reach3 (model_of (F := F) FMI3 f) szof s'.
  Proof. intros R E. induction E as [s|ts h t s s1 s2 E IH St]; [exact R|]. exact (step_reach (IH R) St). Qed.
  Lemma da_steps ts (s s' : Sys F (md (model_of (F := F) FMI3 Dahlquist))) : mode_of s = ContinuousTimeMode -> euler_steps Dahlquist szof fuel env ts s s' ->
    mode_of s' = ContinuousTimeMode /\ da_k (data (mut (sinst s')) : DAData F) = da_k (data (mut (sinst s)) : DAData F) /\
    da_x (data (mut (sinst s')) : DAData F) = after_steps (fun h => decay h (da_k (data (mut (sinst s)) : DAData F))) (map fst ts) (da_x (data (mut (sinst s)) : DAData F)).
  Proof.
    intros M E. induction E as [s|ts h t s s1 s2 E IH St]; [repeat split; exact M|]. destruct (IH M) as (M1 & K1 & X1).
    destruct (da_step M1 St) as (M2 & K2 & X2). split; [exact M2|]. split; [congruence|]. unfold after_steps in *. rewrite X2, X1, K1, map_app, fold_left_app. reflexivity.
  Qed.
  Lemma vp_steps ts (s s' : Sys F (md (model_of (F := F) FMI3 VanDerPol))) : mode_of s = ContinuousTimeMode -> euler_steps VanDerPol szof fuel env ts s s' ->
    mode_of s' = ContinuousTimeMode /\ vp_mu (data (mut (sinst s')) : VPData F) = vp_mu (data (mut (sinst s)) : VPData F) /\
    vp_pair (data (mut (sinst s')) : VPData F) = after_steps (fun h => swing h (vp_mu (data (mut (sinst s)) : VPData F))) (map fst ts) (vp_pair (data (mut (sinst s)) : VPData F)).
  Proof.
    intros M E. induction E as [s|ts h t s s1 s2 E IH St]; [repeat split; exact M|]. destruct (IH M) as (M1 & K1 & X1).
    destruct (vp_step M1 St) as (M2 & K2 & X2). split; [exact M2|]. split; [congruence|]. unfold after_steps in *. rewrite X2, X1, K1, map_app, fold_left_app. reflexivity.
  Qed.
  Lemma steps_exist f ts (s : Sys F (md (model_of (F := F) FMI3 f))) : smooth f -> mode_of s = ContinuousTimeMode -> exists s', euler_steps f szof fuel env ts s s'.
  Proof.
    intros Sm M. induction ts as [|[h t] ts (s1 & E)] using rev_ind; [exists s; constructor|].
    assert (M1 : mode_of s1 = ContinuousTimeMode) by (destruct Sm as [-> | ->]; [eapply da_steps|eapply vp_steps]; eauto).
    destruct (step_exists h t s1 Sm M1) as (s2 & S2). exists s2. econstructor; eauto.
  Qed.

  Lemma repeat_steps {A} (g : F -> A -> A) h n x : after_steps g (repeat h n) x = Nat.iter n (g h) x.
  Proof.
    revert x. induction n as [|n IH]; intro x; [reflexivity|]. unfold after_steps in *. cbn [repeat fold_left]. rewrite IH.
    change (Nat.iter n (g h) (g h x) = g h (Nat.iter n (g h) x)). clear. induction n as [|n IH]; [reflexivity|].
    change (g h (Nat.iter n (g h) (g h x)) = g h (g h (Nat.iter n (g h) x))). now rewrite IH.
  Qed.
  (** Co-simulation of Dahlquist, in any arithmetic *)
  Lemma da_course' k (i i' : Inst F (md (model_of (F := F) FMI3 Dahlquist))) : (0 < nx (sol i))%nat -> course FMI3 Dahlquist env k i i' ->
    da_k (data (mut i') : DAData F) = da_k (data (mut i) : DAData F) /\
    da_x (data (mut i') : DAData F) = Nat.iter k (decay (nlit 1 (-1)) (da_k (data (mut i) : DAData F))) (da_x (data (mut i) : DAData F)).
  Proof.
    intros N C. revert N. induction C as [i|k i i' p C IH|k i i' i1 C IH S _|k i i' i1 i2 C IH S E _]; intro N.
    - split; reflexivity.
    - exact (IH N).
    - destruct (IH N) as (A & B). destruct (course_ctl C) as (_ & _ & X & _).
      assert (So : solving FMI3 Dahlquist i') by (red; rewrite X; exact N).
      pose proof (sv_euler S So) as Eu. pose proof (sv_frozen S) as Fr.
      apply (f_equal (fun l => nth 0 l nzero)) in Eu.
      assert (Fr' : da_k (data (mut i1) : DAData F) = da_k (data (mut i') : DAData F)) by (apply (f_equal (@da_k F)) in Fr; exact Fr).
      assert (Eu' : da_x (data (mut i1) : DAData F) = decay (nlit 1 (-1)) (da_k (data (mut i') : DAData F)) (da_x (data (mut i') : DAData F))) by exact Eu.
      clear Eu Fr. split; [rewrite Fr'; exact A|]. rewrite Eu', B, A. reflexivity.
    - destruct E as (E & _). discriminate.
  Qed.

  (** What is read depends on parameters and states only *)
  Lemma da_alike (s c : Sys F (md (model_of (F := F) FMI3 Dahlquist))) : reach3 (model_of (F := F) FMI3 Dahlquist) szof s -> reach3 (model_of (F := F) FMI3 Dahlquist) szof c ->
    (agreeing Dahlquist szof env s c <->
     da_k (data (mut (sinst s)) : DAData F) = da_k (data (mut (sinst c)) : DAData F) /\ da_x (data (mut (sinst s)) : DAData F) = da_x (data (mut (sinst c)) : DAData F)).
  Proof.
    intros Rs Rc. split.
    - intro A. split.
      + assert (G : get3 (model_of (F := F) FMI3 Dahlquist) szof env c TFloat64 3 [da_k (data (mut (sinst c)) : DAData F)]) by (apply (@get3_peek F NF szof Dahlquist eq_refl env c TFloat64 _ _ Rc); reflexivity).
        apply A in G; [|discriminate]. apply (@get3_peek F NF szof Dahlquist eq_refl env s TFloat64 _ _ Rs) in G. injection G as G. exact G.
      + assert (G : get3 (model_of (F := F) FMI3 Dahlquist) szof env c TFloat64 1 [da_x (data (mut (sinst c)) : DAData F)]) by (apply (@get3_peek F NF szof Dahlquist eq_refl env c TFloat64 _ _ Rc); reflexivity).
        apply A in G; [|discriminate]. apply (@get3_peek F NF szof Dahlquist eq_refl env s TFloat64 _ _ Rs) in G. injection G as G. exact G.
    - intros (K & X) vr vs V. rewrite (@get3_peek F NF szof Dahlquist eq_refl env s TFloat64 _ _ Rs), (@get3_peek F NF szof Dahlquist eq_refl env c TFloat64 _ _ Rc).
      assert (E : peek (vars_all FMI3 Dahlquist) env (sinst s) TFloat64 vr = peek (vars_all FMI3 Dahlquist) env (sinst c) TFloat64 vr); [|rewrite E; reflexivity].
      clear Rs Rc. destruct s as [[cs us os] hs], c as [[cc uc oc] hc]. cbn [sinst mut] in *.
      destruct us as [? ? ? ? ? ? ? ? [x1 y1 k1]], uc as [? ? ? ? ? ? ? ? [x2 y2 k2]]. cbn [data da_k da_x] in K, X. subst.
      destruct vr as [|[[p|p|]|[p|p|]|]]; try reflexivity. contradiction V; reflexivity.
  Qed.
  Lemma vp_alike (s c : Sys F (md (model_of (F := F) FMI3 VanDerPol))) : reach3 (model_of (F := F) FMI3 VanDerPol) szof s -> reach3 (model_of (F := F) FMI3 VanDerPol) szof c ->
    (agreeing VanDerPol szof env s c <->
     vp_mu (data (mut (sinst s)) : VPData F) = vp_mu (data (mut (sinst c)) : VPData F) /\ vp_pair (data (mut (sinst s)) : VPData F) = vp_pair (data (mut (sinst c)) : VPData F)).
  Proof.
    intros Rs Rc. split.
    - intro A.
      assert (X : forall vr (y : VPData F -> F), vr <> 0%N ->
        (forall s', peek (vars_all FMI3 VanDerPol) env (sinst s') TFloat64 vr = Some [y (data (mut (sinst s')))]) ->
        y (data (mut (sinst s))) = y (data (mut (sinst c)))).
      { intros vr y V P. assert (G : get3 (model_of (F := F) FMI3 VanDerPol) szof env c TFloat64 vr [y (data (mut (sinst c)))]) by (apply (@get3_peek F NF szof VanDerPol eq_refl env c TFloat64 _ _ Rc); apply P).
        apply A in G; [|exact V]. apply (@get3_peek F NF szof VanDerPol eq_refl env s TFloat64 _ _ Rs) in G. rewrite P in G. injection G as G. exact G. }
      split; [apply (X 5%N (@vp_mu F)); [discriminate|reflexivity]|]. unfold vp_pair. f_equal; [apply (X 1%N (@vp_x0 F))|apply (X 3%N (@vp_x1 F))]; (discriminate || reflexivity).
    - intros (K & X) vr vs V. rewrite (@get3_peek F NF szof VanDerPol eq_refl env s TFloat64 _ _ Rs), (@get3_peek F NF szof VanDerPol eq_refl env c TFloat64 _ _ Rc).
      assert (E : peek (vars_all FMI3 VanDerPol) env (sinst s) TFloat64 vr = peek (vars_all FMI3 VanDerPol) env (sinst c) TFloat64 vr); [|rewrite E; reflexivity].
      clear Rs Rc. destruct s as [[cs us os] hs], c as [[cc uc oc] hc]. cbn [sinst mut] in *.
      destruct us as [? ? ? ? ? ? ? ? [x1 y1 x1' y1' k1]], uc as [? ? ? ? ? ? ? ? [x2 y2 x2' y2' k2]]. unfold vp_pair in X. cbn [data vp_mu vp_x0 vp_x1] in K, X. injection X as -> ->. subst.
      destruct vr as [|[[[p|p|]|[p|p|]|]|[[p|p|]|[p|p|]|]|]]; try reflexivity. contradiction V; reflexivity.
  Qed.
  Theorem me_cs f l c obs c' s : smooth f -> reach3 (model_of (F := F) FMI3 f) szof s -> reach3 (model_of (F := F) FMI3 f) szof c -> mode_of s = ContinuousTimeMode ->
    eventModeUsed (ctl (sinst c)) = false -> set_up FMI3 f (sinst c) -> agreeing f szof env s c ->
    Forall (fun o => is_DoStep3 o = true) l ->
    run3 (model_of (F := F) FMI3 f) szof fuel (map (fun o => (env, o)) l) c = Done (obs, c') -> Forall (fun x => fst (fst x) = OK) obs ->
    exists n, clock (m_step (model_of (F := F) FMI3 f)) n c c' /\
      forall ts s', map fst ts = repeat (m_step (model_of (F := F) FMI3 f)) n -> euler_steps f szof fuel env ts s s' -> agreeing f szof env s' c'.
  Proof.
    intros Sm Rs Rc M Em (Su & _) Al Fl E Ok. destruct (@course3 _ NF szof f fuel env l c obs c' Rc Em Fl E Ok) as (n & C & K).
    assert (Rc' : reach3 (model_of (F := F) FMI3 f) szof c').
    { apply (@run3_reach F NF (model_of (F := F) FMI3 f) szof fuel (map (fun o => (env, o)) l) c obs c' Rc); [|exact E]. intros e0 o i I Im. apply in_map_iff in I as (o' & Q & I). injection Q as _ ->. rewrite Forall_forall in Fl. apply Fl in I. destruct o; discriminate. }
    exists n. split; [exact C|]. intros ts s' L Es. pose proof (steps_reach Rs Es) as Rs'.
    destruct Sm as [-> | ->].
    - apply da_alike; auto. apply da_alike in Al; auto. destruct Al as (A1 & A2). destruct (da_steps M Es) as (_ & B1 & B2).
      assert (Nx : (0 < nx (sol (sinst c)))%nat) by (rewrite Su; cbn; lia). destruct (da_course' Nx K) as (D1 & D2).
      split; [congruence|]. rewrite B2, D2, L, A1, A2, repeat_steps. reflexivity.
    - apply vp_alike; auto. apply vp_alike in Al; auto. destruct Al as (A1 & A2). destruct (vp_steps M Es) as (_ & B1 & B2).
      assert (Nx : (0 < nx (sol (sinst c)))%nat) by (rewrite Su; cbn; lia). destruct (vp_course Nx K) as (D1 & D2).
      split; [congruence|]. rewrite B2, D2, L, A1, A2, repeat_steps. reflexivity.
  Qed.
End Step.

Section Readings.
  Context {F : Type} {NF : Num F} (szof : N) (fuel : nat) (env e : Env).
  Theorem decay_read ts s s' (x k : F) : reach3 (model_of (F := F) FMI3 Dahlquist) szof s -> mode_of s = ContinuousTimeMode ->
    euler_steps Dahlquist szof fuel env ts s s' ->
    get3 (model_of (F := F) FMI3 Dahlquist) szof e s TFloat64 1 [x] -> get3 (model_of (F := F) FMI3 Dahlquist) szof e s TFloat64 3 [k] ->
    get3 (model_of (F := F) FMI3 Dahlquist) szof e s' TFloat64 1 [after_steps (fun h => decay h k) (map fst ts) x] /\ get3 (model_of (F := F) FMI3 Dahlquist) szof e s' TFloat64 3 [k].
  Proof.
    intros R M E Gx Gk. pose proof (steps_reach R E) as R'. destruct (da_steps M E) as (_ & K & X).
    apply (@get3_peek F NF szof Dahlquist eq_refl e s TFloat64 _ _ R) in Gx, Gk. injection Gx as Gx. injection Gk as Gk.
    assert (Gx' : da_x (data (mut (sinst s)) : DAData F) = x) by exact Gx. assert (Gk' : da_k (data (mut (sinst s)) : DAData F) = k) by exact Gk.
    rewrite Gk', Gx' in X. rewrite Gk' in K.
    split; apply (@get3_peek F NF szof Dahlquist eq_refl e s' TFloat64 _ _ R').
    - refine (f_equal (fun y : F => Some [y]) X).
    - refine (f_equal (fun y : F => Some [y]) K).
  Qed.
  Theorem swing_read ts s s' (x0 x1 mu : F) : reach3 (model_of (F := F) FMI3 VanDerPol) szof s -> mode_of s = ContinuousTimeMode ->
    euler_steps VanDerPol szof fuel env ts s s' ->
    get3 (model_of (F := F) FMI3 VanDerPol) szof e s TFloat64 1 [x0] -> get3 (model_of (F := F) FMI3 VanDerPol) szof e s TFloat64 3 [x1] ->
    get3 (model_of (F := F) FMI3 VanDerPol) szof e s TFloat64 5 [mu] ->
    let y := after_steps (fun h => swing h mu) (map fst ts) (x0, x1) in
    get3 (model_of (F := F) FMI3 VanDerPol) szof e s' TFloat64 1 [fst y] /\ get3 (model_of (F := F) FMI3 VanDerPol) szof e s' TFloat64 3 [snd y] /\
    get3 (model_of (F := F) FMI3 VanDerPol) szof e s' TFloat64 5 [mu].
  Proof.
    intros R M E G0 G1 Gm y. pose proof (steps_reach R E) as R'. destruct (vp_steps M E) as (_ & K & X).
    apply (@get3_peek F NF szof VanDerPol eq_refl e s TFloat64 _ _ R) in G0, G1, Gm. injection G0 as G0. injection G1 as G1. injection Gm as Gm.
    assert (P : vp_pair (data (mut (sinst s)) : VPData F) = (x0, x1)) by (unfold vp_pair; rewrite <- G0, <- G1; reflexivity).
    assert (Q : vp_mu (data (mut (sinst s)) : VPData F) = mu) by exact Gm. rewrite P, Q in X. rewrite Q in K. subst y. rewrite <- X.
    split; [|split]; apply (@get3_peek F NF szof VanDerPol eq_refl e s' TFloat64 _ _ R').
    - reflexivity.
    - reflexivity.
    - refine (f_equal (fun y : F => Some [y]) K).
  Qed.
End Readings.
Lemma decay_product (inf : R) hs k x : let NF := NumR inf in
  (after_steps (fun h => decay h k) hs x = x * fold_right (fun h p => (1 - h * k) * p) 1 hs)%R.
Proof.
  intros NF. revert x. induction hs as [|h hs IH]; intro x; unfold after_steps in *; cbn [fold_left fold_right]; [lra|].
  rewrite IH. unfold decay. cbn [nadd nmul nopp NF NumR]. lra.
Qed.
