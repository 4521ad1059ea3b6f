(** DerivReal.v -- directional and adjoint derivatives over the real numbers. *)
From Coq Require Import List NArith ZArith Bool Arith Lia Reals Lra.
From Verif Require Import Base Instance ModelIface Core Fmi3 Fmi2 Api Fmus NumR Logic SpecModes SpecState SpecVars SpecEqs SpecDeriv Reach Calls Vars VarsFmus
  DataFmus Data Numeric Deriv FmuVanDerPol FmuRoberts.
Import ListNotations.
Set Implicit Arguments.
Local Open Scope R_scope.

Lemma Forall2_imp {A B} (P Q : A -> B -> Prop) l m : (forall a b, P a b -> Q a b) -> Forall2 P l m -> Forall2 Q l m.
Proof. intros H. induction 1; constructor; auto. Qed.
(** ** Sums *)
Fixpoint dot (a b : list R) : R := match a, b with x :: a', y :: b' => x * y + dot a' b' | _, _ => 0 end.
Lemma inner_dot n a b : inner n a b = dot (firstn n a) (firstn n b).
Proof. revert a b. induction n as [|n IH]; intros [|x a] [|y b]; cbn; try reflexivity. now rewrite IH. Qed.
Lemma dot_affine {K} (x y : K -> R) c ks d : dot (map (fun k => x k * c + y k) ks) d = c * dot (map x ks) d + dot (map y ks) d.
Proof. revert d. induction ks as [|k ks IH]; intros [|w d]; cbn; try ring. rewrite IH. ring. Qed.
Lemma dot_zero {K} (ks : list K) d : dot (map (fun _ => 0) ks) d = 0.
Proof. revert d. induction ks as [|k ks IH]; intros [|w d]; cbn; try ring. rewrite IH. ring. Qed.
Lemma dot_swap {U K} (J : U -> K -> R) us a ks d :
  dot a (map (fun u => dot (map (J u) ks) d) us) = dot (map (fun k => dot (map (fun u => J u k) us) a) ks) d.
Proof.
  revert a. induction us as [|u us IH]; intros a; cbn [map].
  - rewrite (map_ext _ (fun _ => 0)) by (intro; destruct a; reflexivity). rewrite dot_zero. destruct a; reflexivity.
  - destruct a as [|x a].
    + symmetry. transitivity (dot (map (fun _ : K => 0) ks) d); [f_equal; apply map_ext; reflexivity|apply dot_zero].
    + cbn [dot]. rewrite IH. symmetry. apply (dot_affine (J u) (fun k => dot (map (fun u0 => J u0 k) us) a) x).
Qed.

Lemma cut {A} (g : A -> R) n l r : (n <= length l)%nat -> firstn n (map g (firstn n l) ++ r) = map g (firstn n l).
Proof.
  intro H. rewrite firstn_app, map_length, firstn_length, Nat.min_l by assumption. rewrite Nat.sub_diag. cbn [firstn]. rewrite app_nil_r.
  apply firstn_all2. rewrite map_length, firstn_length. lia.
Qed.

Section R.
  Variable inf : R.
  Local Instance NR : Num R := NumR inf.

  Lemma row_dot J others seed acc : row J others seed acc = acc + dot (map J others) seed.
  Proof.
    unfold row. revert seed acc. induction others as [|o l IH]; intros [|w seed] acc; cbn [combine fold_left map dot]; try ring.
    rewrite IH. unfold term. cbn. ring.
  Qed.
  Lemma nzero_0 : nzero = 0 :> R. Proof. cbn. ring. Qed.
  Lemma one_1 : nlit 1 0 = 1 :> R. Proof. cbn. ring. Qed.

  Section Fmu.
    Variables (f : FMU) (szof : N).
    Notation m3 := (model_of (F := R) FMI3 f).
    Notation m2 := (model_of (F := R) FMI2 f).
    Notation J3 s := (jac FMI3 f (ctl (sinst s)) (data (mut (sinst s)))).
    Notation J2 s := (jac FMI2 f (ctl (sinst s)) (data (mut (sinst s)))).
    Hypothesis P : has_partials f = true.

    Lemma transpose fuel env us nu ks nk dseed aseed dbuf abuf s :
      In (mode_of s) (when3 (O3GetDirectionalDerivative (F := R) (D := md m3) None 0 None 0 None None)) ->
      (nu <= length us)%nat -> (nk <= length ks)%nat -> (nk <= length dseed)%nat -> (nu <= length aseed)%nat ->
      (nu <= length dbuf)%nat -> (nk <= length abuf)%nat ->
      exists dr ar s1 s2,
        exec3 m3 szof fuel env (O3GetDirectionalDerivative (Some us) nu (Some ks) nk (Some dseed) (Some dbuf)) s = Done (OK, OFloats (Some dr), s1, []) /\
        exec3 m3 szof fuel env (O3GetAdjointDerivative (Some us) nu (Some ks) nk (Some aseed) (Some abuf)) s1 = Done (OK, OFloats (Some ar), s2, []) /\
        inner nu aseed dr = inner nk ar dseed.
    Proof.
      intros Hm L1 L2 L3 L4 L5 L6.
      destruct (@directional3 R NR f szof P fuel env us nu ks nk dseed dbuf s Hm L1 L5 L2 L3) as (s1 & E1 & (K1 & K2) & _).
      assert (Hm1 : In (mode_of s1) (when3 (O3GetDirectionalDerivative (F := R) (D := md m3) None 0 None 0 None None))).
      { unfold mode_of in *. rewrite K1. exact Hm. }
      destruct (@adjoint3 R NR f szof P fuel env us nu ks nk aseed abuf s1 Hm1 L1 L6 L2 L4) as (s2 & E2 & _).
      do 4 eexists. split; [exact E1|]. split; [exact E2|].
      rewrite !inner_dot.
      rewrite !cut by assumption.
      erewrite map_ext by (intro; rewrite row_dot, nzero_0, Rplus_0_l; reflexivity).
      rewrite dot_swap. f_equal. apply map_ext. intro k. rewrite row_dot, nzero_0, Rplus_0_l. f_equal. apply map_ext. intro u. symmetry. apply K2.
    Qed.

    Lemma partial3_iff env s u k x :
      In (mode_of s) (when3 (O3GetDirectionalDerivative (F := R) (D := md m3) None 0 None 0 None None)) ->
      partial3 m3 szof env s u k x <-> x = J3 s u k.
    Proof.
      intros Hm. assert (E : forall b, exists s', exec3 m3 szof 0 env (O3GetDirectionalDerivative (Some [u]) 1 (Some [k]) 1 (Some [nlit 1 0]) (Some [b])) s =
        Done (OK, OFloats (Some [J3 s u k]), s', [])).
      { intro b. destruct (@directional3 R NR f szof P 0 env [u] 1 [k] 1 [nlit 1 0] [b] s Hm) as (s' & E & _); [cbn; lia..|].
        exists s'. rewrite E. cbn [firstn map skipn app]. rewrite row_dot, nzero_0. cbn [map dot]. rewrite one_1. do 5 f_equal. f_equal. f_equal. ring. }
      split.
      - intros (b & s' & t & H). destruct (E b) as (s2 & E2). rewrite E2 in H. inversion H. reflexivity.
      - intros ->. destruct (E 0) as (s' & E'). exists 0, s', []. exact E'.
    Qed.
    Lemma partial2_iff env s u k x :
      In (mode_of s) (when2 (O2GetDirectionalDerivative (F := R) (D := md m2) None 0 None 0 None None)) ->
      partial2 m2 szof env s u k x <-> x = J2 s u k.
    Proof.
      intros Hm. assert (E : forall b, exists s', exec2 m2 szof 0 env (O2GetDirectionalDerivative (Some [u]) 1 (Some [k]) 1 (Some [nlit 1 0]) (Some [b])) s =
        Done (OK, OFloats (Some [J2 s u k]), s', [])).
      { intro b. destruct (@directional2 R NR f szof P 0 env [u] 1 [k] 1 [nlit 1 0] [b] s Hm) as (s' & E & _); [cbn; lia..|].
        exists s'. rewrite E. cbn [firstn map skipn app]. rewrite row_dot, nzero_0. cbn [map dot]. rewrite one_1. do 5 f_equal. f_equal. f_equal. ring. }
      split.
      - intros (b & s' & t & H). destruct (E b) as (s2 & E2). rewrite E2 in H. inversion H. reflexivity.
      - intros ->. destruct (E 0) as (s' & E'). exists 0, s', []. exact E'.
    Qed.

    (** The directional derivative is the Jacobian times the seed; the adjoint derivative its transpose times the seed. *)
    Lemma linear_list (J : N -> N -> R) us nu ks nk seed buf :
      (nu <= length us)%nat -> (nk <= length ks)%nat -> (nk <= length seed)%nat ->
      let dr := map (fun u => row (J u) (firstn nk ks) (firstn nk seed) nzero) (firstn nu us) ++ skipn nu buf in
      forall i u, (i < nu)%nat -> nth_error us i = Some u ->
      exists r, nth_error dr i = Some (inner nk r seed) /\ length r = nk /\
        forall j k, (j < nk)%nat -> nth_error ks j = Some k -> nth_error r j = Some (J u k).
    Proof.
      intros L1 L2 L3 dr i u Hi Hu. exists (map (J u) (firstn nk ks)). subst dr.
      assert (Q : nth_error (firstn nu us) i = Some u).
      { rewrite <- Hu. clear -Hi. revert us i Hi. induction nu as [|n IH]; intros us i Hi; [lia|]. destruct us, i; cbn; auto. apply IH. lia. }
      split; [|split].
      - rewrite nth_error_app1 by (rewrite map_length, firstn_length; lia).
        rewrite (map_nth_error _ _ _ Q), row_dot, nzero_0, Rplus_0_l, inner_dot. do 2 f_equal.
        symmetry. apply firstn_all2. rewrite map_length, firstn_length. lia.
      - rewrite map_length, firstn_length. lia.
      - intros j k Hj Hk. apply map_nth_error. rewrite <- Hk. clear -Hj. revert ks j Hj.
        induction nk as [|n IH]; intros ks j Hj; [lia|]. destruct ks, j; cbn; auto. apply IH. lia.
    Qed.
    Lemma linear3 fuel env us nu ks nk seed buf s :
      In (mode_of s) (when3 (O3GetDirectionalDerivative (F := R) (D := md m3) None 0 None 0 None None)) ->
      (nu <= length us)%nat -> (nk <= length ks)%nat -> (nk <= length seed)%nat -> (nu <= length buf)%nat ->
      exists dr s1,
        exec3 m3 szof fuel env (O3GetDirectionalDerivative (Some us) nu (Some ks) nk (Some seed) (Some buf)) s = Done (OK, OFloats (Some dr), s1, []) /\
        forall i u, (i < nu)%nat -> nth_error us i = Some u ->
        exists r, nth_error dr i = Some (inner nk r seed) /\ length r = nk /\
          forall j k, (j < nk)%nat -> nth_error ks j = Some k -> exists x, nth_error r j = Some x /\ partial3 m3 szof env s u k x.
    Proof.
      intros Hm L1 L2 L3 L4.
      destruct (@directional3 R NR f szof P fuel env us nu ks nk seed buf s Hm L1 L4 L2 L3) as (s1 & E1 & _).
      do 2 eexists. split; [exact E1|]. intros i u Hi Hu.
      destruct (@linear_list (J3 s) us nu ks nk seed buf L1 L2 L3 i u Hi Hu) as (r & A & B & C).
      exists r. split; [exact A|]. split; [exact B|]. intros j k Hj Hk. exists (J3 s u k). split; [eauto|]. apply partial3_iff; auto.
    Qed.
    Lemma linear2 fuel env us nu ks nk seed buf s :
      In (mode_of s) (when2 (O2GetDirectionalDerivative (F := R) (D := md m2) None 0 None 0 None None)) ->
      (nu <= length us)%nat -> (nk <= length ks)%nat -> (nk <= length seed)%nat -> (nu <= length buf)%nat ->
      exists dr s1,
        exec2 m2 szof fuel env (O2GetDirectionalDerivative (Some us) nu (Some ks) nk (Some seed) (Some buf)) s = Done (OK, OFloats (Some dr), s1, []) /\
        forall i u, (i < nu)%nat -> nth_error us i = Some u ->
        exists r, nth_error dr i = Some (inner nk r seed) /\ length r = nk /\
          forall j k, (j < nk)%nat -> nth_error ks j = Some k -> exists x, nth_error r j = Some x /\ partial2 m2 szof env s u k x.
    Proof.
      intros Hm L1 L2 L3 L4.
      destruct (@directional2 R NR f szof P fuel env us nu ks nk seed buf s Hm L1 L4 L2 L3) as (s1 & E1 & _).
      do 2 eexists. split; [exact E1|]. intros i u Hi Hu.
      destruct (@linear_list (J2 s) us nu ks nk seed buf L1 L2 L3 i u Hi Hu) as (r & A & B & C).
      exists r. split; [exact A|]. split; [exact B|]. intros j k Hj Hk. exists (J2 s u k). split; [eauto|]. apply partial2_iff; auto.
    Qed.
  End Fmu.

  (** ** True derivatives *)
  Lemma quadratic (g : R -> R) a b c x : (forall z, g z = a + b * z + c * (z * z)) -> derivable_pt_lim g x (b + 2 * c * x).
  Proof.
    intros H eps He. set (d := eps / (Rabs c + 1)).
    assert (Hc : 0 < Rabs c + 1) by (pose proof (Rabs_pos c); lra).
    assert (Hd : 0 < d) by (apply Rdiv_lt_0_compat; assumption).
    exists (mkposreal d Hd). intros h Hh Lh. cbn in Lh. rewrite !H.
    replace ((a + b * (x + h) + c * ((x + h) * (x + h)) - (a + b * x + c * (x * x))) / h - (b + 2 * c * x)) with (c * h) by (field; exact Hh).
    rewrite Rabs_mult. apply Rle_lt_trans with (Rabs c * d).
    - apply Rmult_le_compat_l; [apply Rabs_pos|lra].
    - apply Rlt_le_trans with ((Rabs c + 1) * d); [apply Rmult_lt_compat_r; lra|]. unfold d. right. field. lra.
  Qed.
  Lemma quadratic' (g : R -> R) l x : (exists a b c, (forall z, g z = a + b * z + c * (z * z)) /\ l = b + 2 * c * x) -> derivable_pt_lim g x l.
  Proof. intros (a & b & c & H & ->). apply quadratic with a. exact H. Qed.

  Section True.
    Variable szof : N.
    Notation m3 f := (model_of (F := R) FMI3 f).
    Notation m2 f := (model_of (F := R) FMI2 f).


    Ltac lits := rewrite ?one_1, ?nzero_0; cbn [nlit NR NumR].
    Lemma vp_true c d u args g n k : In (u, args, g) (equations (F := R) VanDerPol false) -> nth_error args n = Some k ->
      (k <> 5%N \/ mode c = InitializationMode) ->
      forall xs, Forall2 (fun a y => vp_value TFloat64 a c d = Some y) args xs ->
      derivable_pt_lim (fun z => g (replaced n z xs)) (nth n xs 0) (vp_partial c d u k).
    Proof.
      intros I Hn Hm xs V. cbn [equations In] in I. destruct I as [I|[I|[]]]; inversion I; subst u args g; clear I.
      - inversion V as [|? x ? ? V1 V2]; subst. inversion V2; subst. clear V V2. injection V1 as <-.
        destruct n as [|[|n]]; inversion Hn; subst k. apply quadratic'. exists 0, 1, 0. split; [intro z; cbn; ring|].
        cbn. ring.
      - inversion V as [|? x ? ? V1 V2]; subst. inversion V2 as [|? y ? ? V3 V4]; subst. inversion V4 as [|? z ? ? V5 V6]; subst. inversion V6; subst.
        clear V V2 V4 V6. injection V1 as <-. injection V3 as <-. injection V5 as <-.
        destruct n as [|[|[|[|n]]]]; inversion Hn; subst k; cbn [nth].
        + apply quadratic'. exists (vp_mu d * vp_x1 d), (-1), (- (vp_mu d * vp_x1 d)). split; [intro z; cbn; ring|]. cbn. ring.
        + apply quadratic'. exists (- vp_x0 d), (vp_mu d * (1 - vp_x0 d * vp_x0 d)), 0. split; [intro z; cbn; ring|]. cbn. ring.
        + apply quadratic'. exists (- vp_x0 d), ((1 - vp_x0 d * vp_x0 d) * vp_x1 d), 0. split; [intro z; cbn; ring|].
          destruct Hm as [Hm|Hm]; [congruence|]. unfold vp_partial. cbn [vp_var N.eqb Pos.eqb]. rewrite Hm. change (ModelState_eqb InitializationMode InitializationMode) with true. cbn. ring.
    Qed.
    Lemma ro_true d u args g n k b : In (u, args, g) (equations (F := R) Roberts b) -> u <> 6%N -> nth_error args n = Some k ->
      forall c xs, Forall2 (fun a y => ro_value TFloat64 a c d = Some y) args xs ->
      derivable_pt_lim (fun z => g (replaced n z xs)) (nth n xs 0) (ro_partial d u k).
    Proof.
      intros I Hu Hn c xs V. cbn [equations In] in I.
      assert (I' : In (u, args, g) [(3, [2; 4; 6], roberts1); (5, [2; 4; 6], roberts2); (8, [2; 4; 6], roberts_r)]%N).
      { apply in_app_or in I as [I|I]; [exact I|]. destruct b; [destruct I|]. destruct I as [I|[]]. inversion I. congruence. }
      clear I. assert (A : args = [2; 4; 6]%N) by (destruct I' as [I|[I|[I|[]]]]; inversion I; reflexivity). subst args.
      inversion V as [|? x ? ? V1 V2]; subst. inversion V2 as [|? y ? ? V3 V4]; subst. inversion V4 as [|? z ? ? V5 V6]; subst. inversion V6; subst.
      clear V V2 V4 V6. injection V1 as <-. injection V3 as <-. injection V5 as <-.
      assert (L4 : powerRZ 10 4 = 10000) by (unfold powerRZ; change (Pos.to_nat 4) with 4%nat; cbn [pow]; ring).
      assert (L7 : powerRZ 10 7 = 10000000) by (unfold powerRZ; change (Pos.to_nat 7) with 7%nat; cbn [pow]; ring).
      set (q := powerRZ 10 (-2)).
      destruct I' as [I|[I|[I|[]]]]; inversion I; subst u g; clear I;
        destruct n as [|[|[|[|n]]]]; inversion Hn; subst k; cbn [nth]; apply quadratic'.
      - exists (10000 * ro_y2 d * ro_y3 d), (- (4 * q)), 0. split; [intro z; unfold roberts1, arg, replaced; cbn [firstn skipn app nth]; cbn -[powerRZ]; fold q; rewrite L4; ring|].
        unfold ro_partial. cbn -[powerRZ]. fold q. ring.
      - exists (- (4 * q) * ro_y1 d), (10000 * ro_y3 d), 0. split; [intro z; unfold roberts1, arg, replaced; cbn [firstn skipn app nth]; cbn -[powerRZ]; fold q; rewrite L4; ring|].
        unfold ro_partial. cbn -[powerRZ]. rewrite L4. ring.
      - exists (- (4 * q) * ro_y1 d), (10000 * ro_y2 d), 0. split; [intro z; unfold roberts1, arg, replaced; cbn [firstn skipn app nth]; cbn -[powerRZ]; fold q; rewrite L4; ring|].
        unfold ro_partial. cbn -[powerRZ]. rewrite L4. ring.
      - exists (- (10000 * ro_y2 d * ro_y3 d) - 30000000 * ro_y2 d * ro_y2 d), (4 * q), 0. split; [intro z; unfold roberts2, arg, replaced; cbn [firstn skipn app nth]; cbn -[powerRZ]; fold q; rewrite L4, L7; ring|].
        unfold ro_partial. cbn -[powerRZ]. fold q. ring.
      - exists (4 * q * ro_y1 d), (- 10000 * ro_y3 d), (-30000000). split; [intro z; unfold roberts2, arg, replaced; cbn [firstn skipn app nth]; cbn -[powerRZ]; fold q; rewrite L4, L7; ring|].
        unfold ro_partial. cbn -[powerRZ]. rewrite L4, L7. ring.
      - exists (4 * q * ro_y1 d - 30000000 * ro_y2 d * ro_y2 d), (- 10000 * ro_y2 d), 0. split; [intro z; unfold roberts2, arg, replaced; cbn [firstn skipn app nth]; cbn -[powerRZ]; fold q; rewrite L4, L7; ring|].
        unfold ro_partial. cbn -[powerRZ]. rewrite L4. ring.
      - exists (ro_y2 d + ro_y3 d - 1), 1, 0. split; [intro z; unfold roberts_r, arg, replaced; cbn; ring|]. unfold ro_partial. cbn. ring.
      - exists (ro_y1 d + ro_y3 d - 1), 1, 0. split; [intro z; unfold roberts_r, arg, replaced; cbn; ring|]. unfold ro_partial. cbn. ring.
      - exists (ro_y1 d + ro_y2 d - 1), 1, 0. split; [intro z; unfold roberts_r, arg, replaced; cbn; ring|]. unfold ro_partial. cbn. ring.
    Qed.

    Definition asks3 f (s : Sys R (md (m3 f))) : Prop :=
      In (mode_of s) (when3 (O3GetDirectionalDerivative (F := R) (D := md (m3 f)) None 0 None 0 None None)).
    Definition asks2 f (s : Sys R (md (m2 f))) : Prop :=
      In (mode_of s) (when2 (O2GetDirectionalDerivative (F := R) (D := md (m2 f)) None 0 None 0 None None)).

    Lemma vanderpol3 env s u args g n k xs x : reach3 (m3 VanDerPol) szof s -> asks3 VanDerPol s ->
      In (u, args, g) (equations (F := R) VanDerPol false) ->
      Forall2 (fun a y => get3 (m3 VanDerPol) szof env s TFloat64 a [y]) args xs -> nth_error args n = Some k ->
      (k <> 5%N \/ mode_of s = InitializationMode) -> partial3 (m3 VanDerPol) szof env s u k x ->
      derivable_pt_lim (fun z => g (replaced n z xs)) (nth n xs 0) x.
    Proof.
      intros Re Hm I V Hn Hk Hp. apply (@partial3_iff VanDerPol szof eq_refl env s u k x Hm) in Hp as ->.
      change (jac FMI3 VanDerPol (ctl (sinst s)) (data (mut (sinst s))) u k) with (vp_partial (ctl (sinst s)) (vp_calc (data (mut (sinst s)))) u k).
      apply vp_true with args; auto.
      eapply Forall2_imp; [|exact V]. intros a y H.
      apply (@get3_peek R NR szof VanDerPol eq_refl env s TFloat64 a [y] Re) in H.
      change (option_map (fun q => [q]) (vp_value TFloat64 a (ctl (sinst s)) (vp_calc (data (mut (sinst s))))) = Some [y]) in H.
      destruct (vp_value _ _ _ _); inversion H. reflexivity.
    Qed.
    Lemma vanderpol2 env s u args g n k xs x : reach2 (m2 VanDerPol) szof s -> asks2 VanDerPol s ->
      In (u, args, g) (equations (F := R) VanDerPol false) ->
      Forall2 (fun a y => get2 (m2 VanDerPol) szof env s TFloat64 a y) args xs -> nth_error args n = Some k ->
      (k <> 5%N \/ mode_of s = InitializationMode) -> partial2 (m2 VanDerPol) szof env s u k x ->
      derivable_pt_lim (fun z => g (replaced n z xs)) (nth n xs 0) x.
    Proof.
      intros Re Hm I V Hn Hk Hp. apply (@partial2_iff VanDerPol szof eq_refl env s u k x Hm) in Hp as ->.
      change (jac FMI2 VanDerPol (ctl (sinst s)) (data (mut (sinst s))) u k) with (vp_partial (ctl (sinst s)) (vp_calc (data (mut (sinst s)))) u k).
      apply vp_true with args; auto.
      eapply Forall2_imp; [|exact V]. intros a y H.
      apply (@get2_peek R NR szof VanDerPol eq_refl eq_refl env s TFloat64 a y Re) in H as (_ & H).
      change (option_map (fun q => [q]) (vp_value TFloat64 a (ctl (sinst s)) (vp_calc (data (mut (sinst s))))) = Some [y]) in H.
      destruct (vp_value _ _ _ _); inversion H. reflexivity.
    Qed.
    Lemma roberts3_true env s u args g n k xs x b : reach3 (m3 Roberts) szof s -> asks3 Roberts s ->
      In (u, args, g) (equations (F := R) Roberts b) -> u <> 6%N ->
      Forall2 (fun a y => get3 (m3 Roberts) szof env s TFloat64 a [y]) args xs -> nth_error args n = Some k ->
      partial3 (m3 Roberts) szof env s u k x ->
      derivable_pt_lim (fun z => g (replaced n z xs)) (nth n xs 0) x.
    Proof.
      intros Re Hm I Hu V Hn Hp. apply (@partial3_iff Roberts szof eq_refl env s u k x Hm) in Hp as ->.
      change (jac FMI3 Roberts (ctl (sinst s)) (data (mut (sinst s))) u k) with (ro_partial (ro_calc (data (mut (sinst s)))) u k).
      apply ro_true with args b (ctl (sinst s)); auto.
      eapply Forall2_imp; [|exact V]. intros a y H.
      apply (@get3_peek R NR szof Roberts eq_refl env s TFloat64 a [y] Re) in H.
      change (option_map (fun q => [q]) (ro_value TFloat64 a (ctl (sinst s)) (ro_calc (data (mut (sinst s))))) = Some [y]) in H.
      destruct (ro_value _ _ _ _); inversion H. reflexivity.
    Qed.

    (** Variables that do not occur in an equation *)
    Lemma zero3 f env s u args g k x b : has_partials f = true -> asks3 f s -> In (u, args, g) (equations (F := R) f b) -> ~ In k args ->
      partial3 (m3 f) szof env s u k x -> x = 0.
    Proof.
      intros P Hm I Hk Hp. apply (@partial3_iff f szof P env s u k x Hm) in Hp as ->.
      destruct f; try discriminate P; cbn [equations] in I.
      - assert (X : In u [3; 5; 8]%N /\ args = [2; 4; 6]%N \/ u = 6%N).
        { apply in_app_or in I as [I|I].
          - left. destruct I as [I|[I|[I|[]]]]; inversion I; cbn; auto.
          - right. destruct b; [destruct I|]. destruct I as [I|[]]; inversion I; reflexivity. }
        change (ro_partial (ro_calc (data (mut (sinst s)))) u k = 0). unfold ro_partial.
        destruct X as [(Iu & ->)| ->].
        + destruct Iu as [<-|[<-|[<-|[]]]]; cbn [ro_var]; destruct (ro_var k) as [[]|] eqn:Ek; try apply nzero_0; exfalso; apply Hk;
            destruct k as [|p]; try discriminate; do 4 (destruct p as [p|p|]; try discriminate; cbn; auto).
        + cbn [ro_var]. apply nzero_0.
      - change (vp_partial (ctl (sinst s)) (data (mut (sinst s))) u k = 0). unfold vp_partial.
        destruct I as [I|[I|[]]]; inversion I; subst u args; cbn [vp_var]; destruct (vp_var k) as [[]|] eqn:Ek; try apply nzero_0; exfalso; apply Hk;
          destruct k as [|p]; try discriminate; do 4 (destruct p as [p|p|]; try discriminate; cbn; auto).
    Qed.
  End True.
End R.

(** ** Where the answers are not the derivatives *)
Section Wrong.
  Variable inf : R.
  Local Instance NRw : Num R := NumR inf.
  Lemma mu_outside szof env s x0 x1 mu x : let m := model_of (F := R) FMI3 VanDerPol in
    reach3 m szof s -> @asks3 inf VanDerPol s -> mode_of s <> InitializationMode ->
    get3 m szof env s TFloat64 1%N [x0] -> get3 m szof env s TFloat64 3%N [x1] -> get3 m szof env s TFloat64 5%N [mu] ->
    (1 - x0 * x0) * x1 <> 0 -> partial3 m szof env s 4%N 5%N x ->
    x = 0 /\ ~ derivable_pt_lim (fun z => vanderpol [x0; x1; z]) mu x.
  Proof.
    intros m Re Hm Nm G0 G1 G2 Nz Hp. apply (@partial3_iff inf VanDerPol szof eq_refl env s 4%N 5%N x Hm) in Hp.
    assert (X : x = 0).
    { rewrite Hp. change (vp_partial (ctl (sinst s)) (data (mut (sinst s))) 4%N 5%N = 0). unfold vp_partial. unfold mode_of in Nm.
      replace (ModelState_eqb (mode (ctl (sinst s))) InitializationMode) with false
        by (destruct (mode (ctl (sinst s))); try reflexivity; contradiction). cbn. ring. }
    split; [exact X|]. intro D. apply Nz.
    assert (D' : derivable_pt_lim (fun z => vanderpol [x0; x1; z]) mu ((1 - x0 * x0) * x1)).
    { apply quadratic'. exists (- x0), ((1 - x0 * x0) * x1), 0. split; [intro z; cbn; ring|ring]. }
    rewrite X in D. exact (uniqueness_limite _ _ _ _ D' D).
  Qed.
  Lemma eliminated szof env s y1 y2 x : let m := model_of (F := R) FMI3 Roberts in
    reach3 m szof s -> @asks3 inf Roberts s -> get3 m szof env s TBoolean 1%N [false] ->
    get3 m szof env s TFloat64 2%N [y1] -> get3 m szof env s TFloat64 4%N [y2] -> y2 <> 0 ->
    partial3 m szof env s 3%N 2%N x ->
    ~ derivable_pt_lim (fun z => roberts1 [z; y2; roberts3 [z; y2]]) y1 x.
  Proof.
    intros m Re Hm _ _ _ Nz Hp D. apply (@partial3_iff inf Roberts szof eq_refl env s 3%N 2%N x Hm) in Hp.
    assert (L4 : powerRZ 10 4 = 10000) by (unfold powerRZ; change (Pos.to_nat 4) with 4%nat; cbn [pow]; ring).
    set (q := powerRZ 10 (-2)) in *.
    assert (X : x = - (4 * q)) by (rewrite Hp; reflexivity).
    assert (D' : derivable_pt_lim (fun z => roberts1 [z; y2; roberts3 [z; y2]]) y1 (- (4 * q) - 10000 * y2)).
    { apply quadratic'. exists (10000 * y2 * (1 - y2)), (- (4 * q) - 10000 * y2), 0. split; [|ring].
      intro z. unfold roberts1, roberts3, arg. cbn [nth]. cbn -[powerRZ]. fold q. rewrite L4. cbn. ring. }
    rewrite X in D. pose proof (uniqueness_limite _ _ _ _ D' D). lra.
  Qed.
End Wrong.
