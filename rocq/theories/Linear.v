(** Linear.v -- proofs of C78. *)
From Coq Require Import List NArith ZArith Bool Arith Reals Lia Lra.
From Verif Require Import Base Instance ModelIface Core Fmi3 Fmi2 Api Fmus NumB64 NumR Logic Calls LawsFmus SpecModes SpecCreate SpecState Gate Effect Reach Histories
  FmuBouncingBall FmuDahlquist FmuStair FmuVanDerPol FmuRoberts FmuClocks FmuResource FmuStateSpace FmuFeedthrough
  Sim SimSS SpecVars SpecEqs SpecSteps Vars VarsFmus DataFmus Data Vars2 Data2 Dyn Solver Fits Steps StepsFmus StepProps SpecOde Ode KeepArrays Crossing Course SpecNumeric Numeric SpecSpace Space SpecLinear.
Import ListNotations.
Set Implicit Arguments.

Section Linear.
  Context {F : Type} {NF : Num F}.
  Notation m := (model_of (F := F) FMI3 StateSpace).
  Notation S0 := (SSData F).
  Definition dat (i : Inst F (md m)) : S0 := data (mut i).
  (** the right-hand side for the parameters and inputs of [d] *)
  Definition rhs (d : S0) (x : list F) : list F :=
    map (fun i => sumprod 3 (nth i (ss_B d) []) (ss_u d) (sumprod 3 (nth i (ss_A d) []) x nzero)) (seq 0 3).
  Definition euler_next (d : S0) (x : list F) : list F := euler_of (nlit 1 (-3)) x (rhs d x).
  Lemma nth_firstn_lt T (l : list T) n j z : j < n -> nth j (firstn n l) z = nth j l z.
  Proof. revert n j. induction l as [|a l IH]; intros [|n] [|j] L; try lia; try reflexivity. cbn. apply IH. lia. Qed.
  Lemma rhs_firstn d x : rhs d (firstn 3 x) = rhs d x.
  Proof. unfold rhs, sumprod. cbn [seq map fold_left]. rewrite !nth_firstn_lt by lia. reflexivity. Qed.
  Definition same_frozen (d d' : S0) : Prop := frozen FMI3 StateSpace d = frozen FMI3 StateSpace d'.
  Lemma frozen_fields (d d' : S0) : same_frozen d d' -> ss_m d = ss_m d' /\ ss_n d = ss_n d' /\ ss_r d = ss_r d' /\
    ss_A d = ss_A d' /\ ss_B d = ss_B d' /\ ss_C d = ss_C d' /\ ss_D d = ss_D d' /\ ss_u d = ss_u d'.
  Proof. unfold same_frozen. cbn. intros H. injection H as -> -> -> -> -> -> -> _ ->. auto 10. Qed.
  Lemma ss_course env k (i i' : Inst F (md m)) : 0 < nx (sol i) -> ss_m (dat i) = 3 -> ss_n (dat i) = 3 -> course FMI3 StateSpace env k i i' ->
    same_frozen (dat i') (dat i) /\ firstn 3 (ss_x (dat i')) = Nat.iter k (euler_next (dat i)) (firstn 3 (ss_x (dat i))).
  Proof.
    intros N Hm Hn C. revert N Hm Hn. induction C as [i|k i i' p C IH|k i i' i1 C IH S _|k i i' i1 i2 C IH S _ Hd]; intros N Hm Hn.
    - split; reflexivity.
    - exact (IH N Hm Hn).
    - destruct (IH N Hm Hn) as (A & B). destruct (course_ctl C) as (_ & _ & X & _).
      assert (So : solving FMI3 StateSpace i') by (red; rewrite X; exact N).
      pose proof (sv_euler S So) as Eu. pose proof (sv_frozen S) as Fr.
      assert (Fr' : same_frozen (dat i1) (dat i')) by exact Fr.
      destruct (frozen_fields A) as (Fm & Fn & _ & FA & FB & _ & _ & Fu). destruct (frozen_fields Fr') as (_ & Fn1 & _).
      split; [unfold same_frozen in *; congruence|].
      assert (Eu' : firstn (ss_n (dat i1)) (ss_x (dat i1)) = euler_of (nlit 1 (-3)) (firstn (ss_n (dat i')) (ss_x (dat i')))
        (map (fun j => sumprod (ss_m (dat i')) (nth j (ss_B (dat i')) []) (ss_u (dat i')) (sumprod (ss_n (dat i')) (nth j (ss_A (dat i')) []) (ss_x (dat i')) nzero)) (seq 0 (ss_n (dat i'))))) by exact Eu.
      rewrite Fn1, Fn, Fm, Hn, Hm, FA, FB, Fu in Eu'. rewrite Eu'.
      change (Nat.iter (Datatypes.S k) (euler_next (dat i)) (firstn 3 (ss_x (dat i)))) with (euler_next (dat i) (Nat.iter k (euler_next (dat i)) (firstn 3 (ss_x (dat i))))).
      rewrite <- B. unfold euler_next. rewrite rhs_firstn. reflexivity.
    - destruct (IH N Hm Hn) as (A & B). destruct (course_ctl C) as (_ & _ & X & _).
      assert (So : solving FMI3 StateSpace i') by (red; rewrite X; exact N).
      pose proof (sv_euler S So) as Eu. pose proof (sv_frozen S) as Fr.
      destruct Hd as ((u & t & E & _ & (b & d & Mu & Fd & Sd) & _) & _).
      assert (Du : data u = data (mut i1)) by (cbn in E; injection E as <- _; reflexivity).
      rewrite Du in Fd, Sd. assert (Dd : data (mut i2) = d) by (rewrite Mu; reflexivity). rewrite <- Dd in Fd, Sd.
      assert (Fr' : same_frozen (dat i1) (dat i')) by exact Fr. assert (Fr2 : same_frozen (dat i2) (dat i1)) by exact Fd.
      destruct (frozen_fields A) as (Fm & Fn & _ & FA & FB & _ & _ & Fu). destruct (frozen_fields Fr') as (_ & Fn1 & _). destruct (frozen_fields Fr2) as (_ & Fn2 & _).
      split; [unfold same_frozen in *; congruence|].
      assert (Sd' : firstn (ss_n (dat i2)) (ss_x (dat i2)) = firstn (ss_n (dat i1)) (ss_x (dat i1))) by exact Sd.
      assert (Eu' : firstn (ss_n (dat i1)) (ss_x (dat i1)) = euler_of (nlit 1 (-3)) (firstn (ss_n (dat i')) (ss_x (dat i')))
        (map (fun j => sumprod (ss_m (dat i')) (nth j (ss_B (dat i')) []) (ss_u (dat i')) (sumprod (ss_n (dat i')) (nth j (ss_A (dat i')) []) (ss_x (dat i')) nzero)) (seq 0 (ss_n (dat i'))))) by exact Eu.
      rewrite Fn2, Fn1, Fn, Hn in Sd'. rewrite Fn1, Fn, Fm, Hn, Hm, FA, FB, Fu in Eu'. rewrite Sd', Eu'.
      change (Nat.iter (Datatypes.S k) (euler_next (dat i)) (firstn 3 (ss_x (dat i)))) with (euler_next (dat i) (Nat.iter k (euler_next (dat i)) (firstn 3 (ss_x (dat i))))).
      rewrite <- B. unfold euler_next. rewrite rhs_firstn. reflexivity.
  Qed.

  Ltac fives H := apply five in H; destruct H as (? & ? & ? & ? & ? & ->).
  Lemma rhs_affine (d : S0) p q x : shape d -> sub2 3 3 (ss_A d) = Some p -> sub2 3 3 (ss_B d) = Some q ->
    rhs d x = affine 3 3 3 (concat p) (concat q) x (firstn 3 (ss_u d)).
  Proof.
    intros W. destruct W. destruct sh_A as [A1 A2], sh_B as [B1 B2]. unfold row, SS_MAX in *. destruct d. cbn in *. intros Ep Eq.
    fives A1. fives B1. fives sh_u. 
    repeat match goal with H : Forall _ (_ :: _) |- _ => inversion H; subst; clear H end.
    repeat match goal with H : length _ = 5 |- _ => fives H end.
    cbn in Ep, Eq. injection Ep as <-. injection Eq as <-. reflexivity.
  Qed.
  Lemma iter_same A (f g : A -> A) k x : (forall y, f y = g y) -> Nat.iter k f x = Nat.iter k g x.
  Proof. intros H. induction k as [|k IH]; [reflexivity|]. change (f (Nat.iter k f x) = g (Nat.iter k g x)). now rewrite IH, H. Qed.
End Linear.

Section Api.
  Context {F : Type} {NF : Num F} (szof : N).
  Notation m := (model_of (F := F) FMI3 StateSpace).
  (** what the variables that no solver step changes are read from *)
  Lemma read_frozen (k k' : Ctl F) (w w' : SSData F) : shape w -> shape w' -> same_frozen w' w -> forall vr, In vr [1; 2; 3]%N ->
    ss_value TUInt64 vr k' (ss_recalc w') = ss_value TUInt64 vr k (ss_recalc w).
  Proof.
    intros W W' Fr vr I. destruct (frozen_fields Fr) as (Fm & Fn & Fo & FA & FB & FC & FD & Fu).
    destruct (ss_recalc_eq W) as (? & ? & _ & _ & _ & _ & ->). destruct (ss_recalc_eq W') as (? & ? & _ & _ & _ & _ & ->).
    cbn in I. repeat (destruct I as [<-|I]); try contradiction; cbn; congruence.
  Qed.
  Lemma read_frozen' (k k' : Ctl F) (w w' : SSData F) : shape w -> shape w' -> same_frozen w' w -> forall vr, In vr [4; 5; 6; 7; 9]%N ->
    ss_value TFloat64 vr k' (ss_recalc w') = ss_value TFloat64 vr k (ss_recalc w).
  Proof.
    intros W W' Fr vr I. destruct (frozen_fields Fr) as (Fm & Fn & Fo & FA & FB & FC & FD & Fu).
    destruct (ss_recalc_eq W) as (? & ? & _ & _ & _ & _ & ->). destruct (ss_recalc_eq W') as (? & ? & _ & _ & _ & _ & ->).
    cbn in I. repeat (destruct I as [<-|I]); try contradiction; unfold ss_value, ss_var; cbn; congruence.
  Qed.
  Lemma read_x (k : Ctl F) (w : SSData F) : shape w -> ss_n w = 3 -> ss_value TFloat64 11 k (ss_recalc w) = Some (firstn 3 (ss_x w)).
  Proof.
    intros W Hn. destruct (ss_recalc_eq W) as (? & ? & _ & _ & _ & _ & ->). cbn. unfold sub1. rewrite Hn. destruct W. unfold row in *. rewrite sh_x. reflexivity.
  Qed.
  Lemma read_u (k : Ctl F) (w : SSData F) : shape w -> ss_m w = 3 -> ss_value TFloat64 9 k (ss_recalc w) = Some (firstn 3 (ss_u w)).
  Proof.
    intros W Hn. destruct (ss_recalc_eq W) as (? & ? & _ & _ & _ & _ & ->). cbn. unfold sub1. rewrite Hn. destruct W. unfold row in *. rewrite sh_u. reflexivity.
  Qed.
  Lemma read_ab (k : Ctl F) (w : SSData F) a b : shape w -> ss_m w = 3 -> ss_n w = 3 ->
    ss_value TFloat64 4 k (ss_recalc w) = Some a -> ss_value TFloat64 5 k (ss_recalc w) = Some b ->
    exists p q, sub2 3 3 (ss_A w) = Some p /\ sub2 3 3 (ss_B w) = Some q /\ a = concat p /\ b = concat q.
  Proof.
    intros W Hm Hn. destruct (ss_recalc_eq W) as (? & ? & _ & _ & _ & _ & ->). unfold ss_value, ss_var. cbn [ss_n ss_m ss_A ss_B set_ss_y set_ss_der_x].
    rewrite Hm, Hn. intros Ga Gb. destruct (sub2 3 3 (ss_A w)) as [p|] eqn:Ep; [|discriminate]. destruct (sub2 3 3 (ss_B w)) as [q|] eqn:Eq; [|discriminate].
    injection Ga as <-. injection Gb as <-. eauto 10.
  Qed.
  Theorem linear3 fuel env e l s obs s' dm dn dr a b c d u x : reach3 m szof s -> eventModeUsed (ctl (sinst s)) = false ->
    set_up FMI3 StateSpace (sinst s) -> mode_of s <> Terminated ->
    Forall (fun o => is_DoStep3 o = true) l ->
    run3 m szof fuel (map (fun o => (env, o)) l) s = Done (obs, s') -> Forall (fun x => fst (fst x) = OK) obs ->
    let get t := get3 m szof e s t in
    get TUInt64 1%N [dm] -> get TUInt64 2%N [dn] -> get TUInt64 3%N [dr] ->
    get TFloat64 4%N a -> get TFloat64 5%N b -> get TFloat64 6%N c -> get TFloat64 7%N d -> get TFloat64 9%N u -> get TFloat64 11%N x ->
    exists k, clock (nlit 1 (-3)) k s s' /\
      let get t := get3 m szof e s' t in
      let x' := linear_after (F := F) k (N.to_nat dn) (N.to_nat dm) a b u x in
      get TFloat64 11%N x' /\ get TFloat64 10%N (affine (N.to_nat dr) (N.to_nat dn) (N.to_nat dm) c d x' u) /\
      get TFloat64 4%N a /\ get TFloat64 5%N b /\ get TFloat64 6%N c /\ get TFloat64 7%N d /\ get TFloat64 9%N u.
  Proof.
    intros Re Em (Su & _) Mo Fl E Ok get Gm Gn Gr Ga Gb Gc Gd Gu Gx. subst get.
    destruct (@course3 _ NF szof StateSpace fuel env l s obs s' Re Em Fl E Ok) as (n & C & K).
    assert (Re' : reach3 m szof s').
    { apply (@run3_reach F NF m szof fuel (map (fun o => (env, o)) l) s obs s' Re); [|exact E]. intros e0 o i I Im. apply in_map_iff in I as (o' & Q & I). injection Q as _ ->. rewrite Forall_forall in Fl. apply Fl in I. destruct o; discriminate. }
    assert (Md : mode_of s' = mode_of s) by exact (proj1 (course_ctl K)).
    pose proof (wf_reach FMI3 StateSpace Re) as W. pose proof (wf_reach FMI3 StateSpace Re') as W'.
    assert (Sh : shape (dat (sinst s))) by exact W. assert (Sh' : shape (dat (sinst s'))) by exact W'.
    pose proof (proj2 (proj2 (@sized_reach F NF szof StateSpace s Re)) Mo) as Hd. cbn [ss_dims] in Hd. unfold dims in Hd. injection Hd as Hm Hn Hr.
    assert (Hm' : ss_m (dat (sinst s)) = 3) by exact Hm. assert (Hn' : ss_n (dat (sinst s)) = 3) by exact Hn.
    assert (Nx : 0 < nx (sol (sinst s))).
    { rewrite Su. change (0 < length (firstn (ss_n (dat (sinst s))) (ss_x (dat (sinst s))))). rewrite Hn'. rewrite firstn_length. destruct Sh. unfold row in *. rewrite sh_x. unfold SS_MAX. apply (Nat.lt_0_succ 2). }
    destruct (@ss_course F NF env n (sinst s) (sinst s') Nx Hm' Hn' K) as (Fr & X).
    pose proof (frozen_fields Fr) as (_ & Fn & _).
    pose proof Gm as Gm0. pose proof Gn as Gn0. pose proof Gr as Gr0. pose proof Ga as Ga0. pose proof Gb as Gb0. pose proof Gc as Gc0. pose proof Gd as Gd0. pose proof Gu as Gu0.
    apply (get1_iff (vars_all FMI3 StateSpace) szof e s TUInt64 _ _ W) in Gm, Gn, Gr.
    apply (get1_iff (vars_all FMI3 StateSpace) szof e s TFloat64 _ _ W) in Ga, Gb, Gc, Gd, Gu, Gx.
    destruct Gm as (CrU & Gm), Gn as (_ & Gn), Gr as (_ & Gr), Ga as (Cr & Ga), Gb as (_ & Gb), Gc as (_ & Gc), Gd as (_ & Gd), Gu as (_ & Gu), Gx as (_ & Gx).
    assert (Can : forall t, canread (vars_all FMI3 StateSpace) e t (sinst s) -> canread (vars_all FMI3 StateSpace) e t (sinst s')).
    { intros t (M & _). split; [unfold mode_of in Md; rewrite Md; exact M|]. destruct (dirty (mut (sinst s'))); [exists []; reflexivity|]. intros _. discriminate. }
    destruct (@read_ab (ctl (sinst s)) (dat (sinst s)) a b Sh Hm' Hn' Ga Gb) as (p & q & Ep & Eq & -> & ->).
    assert (Ux : u = firstn 3 (ss_u (dat (sinst s)))).
    { pose proof (read_u (ctl (sinst s)) Sh Hm') as Q. assert (Gu' : ss_value TFloat64 9 (ctl (sinst s)) (ss_recalc (dat (sinst s))) = Some u) by exact Gu. congruence. }
    assert (Xx : x = firstn 3 (ss_x (dat (sinst s)))).
    { pose proof (read_x (ctl (sinst s)) Sh Hn') as Q. assert (Gx' : ss_value TFloat64 11 (ctl (sinst s)) (ss_recalc (dat (sinst s))) = Some x) by exact Gx. congruence. }
    assert (Dm : N.to_nat dm = 3).
    { assert (Q : ss_value TUInt64 1 (ctl (sinst s)) (ss_recalc (dat (sinst s))) = Some [dm]) by exact Gm. destruct (ss_recalc_eq Sh) as (? & ? & _ & _ & _ & _ & Z). rewrite Z in Q. cbn in Q. injection Q as <-. rewrite Nnat.Nat2N.id. exact Hm'. }
    assert (Dn : N.to_nat dn = 3).
    { assert (Q : ss_value TUInt64 2 (ctl (sinst s)) (ss_recalc (dat (sinst s))) = Some [dn]) by exact Gn. destruct (ss_recalc_eq Sh) as (? & ? & _ & _ & _ & _ & Z). rewrite Z in Q. cbn in Q. injection Q as <-. rewrite Nnat.Nat2N.id. exact Hn'. }
    assert (X' : firstn 3 (ss_x (dat (sinst s'))) = linear_after n 3 3 (concat p) (concat q) u x).
    { rewrite X, Ux, Xx. unfold linear_after. apply iter_same. intros y. unfold euler_next, linear_next, euler_of. rewrite (rhs_affine y Sh Ep Eq). reflexivity. }
    assert (Gx' : get3 m szof e s' TFloat64 11%N (linear_after n 3 3 (concat p) (concat q) u x)).
    { apply (get1_iff (vars_all FMI3 StateSpace) szof e s' TFloat64 _ _ W'). split; [exact (Can TFloat64 Cr)|]. rewrite <- X'. apply (@read_x (ctl (sinst s')) (dat (sinst s')) Sh'). rewrite Fn. exact Hn'. }
    assert (KU : forall vr vs, In vr [1; 2; 3]%N -> peek (vars_all FMI3 StateSpace) e (sinst s) TUInt64 vr = Some vs -> get3 m szof e s' TUInt64 vr vs).
    { intros vr vs I P. apply (get1_iff (vars_all FMI3 StateSpace) szof e s' TUInt64 _ _ W'). split; [exact (Can TUInt64 CrU)|].
      refine (eq_trans _ P). exact (@read_frozen (ctl (sinst s)) (ctl (sinst s')) _ _ Sh Sh' Fr vr I). }
    assert (KF : forall vr vs, In vr [4; 5; 6; 7; 9]%N -> peek (vars_all FMI3 StateSpace) e (sinst s) TFloat64 vr = Some vs -> get3 m szof e s' TFloat64 vr vs).
    { intros vr vs I P. apply (get1_iff (vars_all FMI3 StateSpace) szof e s' TFloat64 _ _ W'). split; [exact (Can TFloat64 Cr)|].
      refine (eq_trans _ P). exact (@read_frozen' (ctl (sinst s)) (ctl (sinst s')) _ _ Sh Sh' Fr vr I). }
    assert (Mo' : mode_of s' <> Terminated) by (rewrite Md; exact Mo).
    apply KU in Gm, Gn, Gr; try (cbn; tauto). apply KF in Ga, Gb, Gc, Gd, Gu; try (cbn; tauto).
    destruct (@space_equations F NF szof e s' dm dn dr (concat p) (concat q) c d _ u Re' Mo' Gm Gn Gr Ga Gb Gc Gd Gu Gx') as (_ & Gy).
    exists n. split; [exact C|]. cbv zeta. rewrite Dm, Dn in *. auto 10.
  Qed.
End Api.

Section Mix.
  Variable inf : R.
  Local Instance NRl : Num R := NumR inf.
  Local Open Scope R_scope.
  Lemma zero_R : nzero (F := R) = 0.
  Proof. change (IZR 0 * powerRZ 10 0 = 0). lra. Qed.
  Lemma nth_mix a b : forall v w, length v = length w -> forall j, nth j (mix a b v w) 0 = a * nth j v 0 + b * nth j w 0.
  Proof.
    unfold mix. induction v as [|p v IH]; intros [|q w] L j; try discriminate; [destruct j; cbn; lra|].
    destruct j; [reflexivity|]. cbn. apply IH. cbn in L. lia.
  Qed.
  Lemma mix_length a b v w : length v = length w -> length (mix a b v w) = length v.
  Proof. intros L. unfold mix. rewrite map_length, combine_length, <- L. apply Nat.min_id. Qed.
  Lemma sumprod_mix a b n row v w s t : length v = length w ->
    sumprod n row (mix a b v w) (a * s + b * t) = a * sumprod n row v s + b * sumprod n row w t.
  Proof.
    intros L. unfold sumprod. rewrite zero_R. generalize (seq 0 n). intros js. revert s t. induction js as [|j js IH]; intros s t; [reflexivity|].
    cbn [fold_left]. rewrite <- IH. f_equal.
    change (a * s + b * t + nth j row 0 * nth j (mix a b v w) 0 = a * (s + nth j row 0 * nth j v 0) + b * (t + nth j row 0 * nth j w 0)).
    rewrite nth_mix by exact L. ring.
  Qed.
  Lemma affine_mix a b rows n k A B v w p q : length v = length w -> length p = length q ->
    affine rows n k A B (mix a b v w) (mix a b p q) = mix a b (affine rows n k A B v p) (affine rows n k A B w q).
  Proof.
    intros L1 L2. unfold affine. generalize (seq 0 rows). induction l as [|i l IH]; [reflexivity|].
    cbn [map]. assert (Mc : forall x y v' w', mix a b (x :: v') (y :: w') = (a * x + b * y) :: mix a b v' w') by reflexivity.
    rewrite Mc, <- IH. f_equal.
    assert (Z : nzero (F := R) = a * nzero (F := R) + b * nzero (F := R)) by (rewrite zero_R; ring).
    rewrite Z at 1. rewrite sumprod_mix by exact L1. rewrite sumprod_mix by exact L2. reflexivity.
  Qed.
  Lemma step_mix a b h : forall v w dv dw, length v = length w -> length dv = length v -> length dw = length v ->
    map (fun p => nadd (F := R) (fst p) (nmul h (snd p))) (combine (mix a b v w) (mix a b dv dw)) =
    mix a b (map (fun p => nadd (F := R) (fst p) (nmul h (snd p))) (combine v dv)) (map (fun p => nadd (F := R) (fst p) (nmul h (snd p))) (combine w dw)).
  Proof.
    induction v as [|x v IH]; intros [|y w] [|dx dv] [|dy dw] L1 L2 L3; try discriminate; [reflexivity|].
    unfold mix in *. cbn [combine map fst snd]. f_equal; [|apply IH; cbn in *; lia].
    change (a * x + b * y + h * (a * dx + b * dy) = a * (x + h * dx) + b * (y + h * dy)). ring.
  Qed.
  Lemma affine_length rows n k (A B x u : list R) : length (affine rows n k A B x u) = rows.
  Proof. unfold affine. now rewrite map_length, seq_length. Qed.
  Theorem superposition a b k n m A B u u' : length u = length u' -> forall x x', length x = n -> length x' = n ->
    linear_after k n m A B (mix a b u u') (mix a b x x') = mix a b (linear_after k n m A B u x) (linear_after k n m A B u' x') /\
    length (linear_after k n m A B u x) = n /\ length (linear_after k n m A B u' x') = n.
  Proof.
    intros Lu x x' L L'. induction k as [|k (IH & I1 & I2)]; [cbn; auto|].
    change (linear_after (S k) n m A B (mix a b u u') (mix a b x x')) with (linear_next n m A B (mix a b u u') (linear_after k n m A B (mix a b u u') (mix a b x x'))).
    change (linear_after (S k) n m A B u x) with (linear_next n m A B u (linear_after k n m A B u x)).
    change (linear_after (S k) n m A B u' x') with (linear_next n m A B u' (linear_after k n m A B u' x')).
    rewrite IH. unfold linear_next. rewrite affine_mix by (congruence || lia). split; [|split].
    - apply step_mix; rewrite ?affine_length; congruence.
    - rewrite map_length, combine_length, affine_length, I1. apply Nat.min_id.
    - rewrite map_length, combine_length, affine_length, I2. apply Nat.min_id.
  Qed.
End Mix.
Theorem superposed (inf : R) a b k n m r A B C D u u' x x' :
  let NF := NumR inf in
  length u = length u' -> length x = n -> length x' = n ->
  let xs := linear_after k n m A B u x in let xs' := linear_after k n m A B u' x' in
  linear_after k n m A B (mix a b u u') (mix a b x x') = mix a b xs xs' /\
  affine r n m C D (mix a b xs xs') (mix a b u u') = mix a b (affine r n m C D xs u) (affine r n m C D xs' u').
Proof.
  intros NF Lu L L' xs xs'. destruct (@superposition inf a b k n m A B u u' Lu x x' L L') as (E & I1 & I2). split; [exact E|].
  apply affine_mix; [exact (eq_trans I1 (eq_sym I2))|exact Lu].
Qed.
