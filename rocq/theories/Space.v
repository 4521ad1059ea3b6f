(** Space.v -- proofs for C37. *)
From Coq Require Import List NArith ZArith Bool Arith Lia.
From Verif Require Import Base Instance ModelIface Core Fmi3 Api FmuStateSpace Fmus Logic SpecModes LawsFmus Reach SpecVars Vars VarsFmus DataFmus
  Calls Data SpecSteps SpecOde SpecSpace Fits Ode.
Import ListNotations.
Set Implicit Arguments.
Section Space.
  Context {F : Type} {NF : Num F}.
  Notation m := (model_of (F := F) FMI3 StateSpace).
  Lemma five T (l : list T) : length l = 5 -> exists a b c d e, l = [a; b; c; d; e].
  Proof. intro H. do 5 (destruct l as [|? l]; [discriminate H|]). destruct l; [|discriminate H]. repeat eexists. Qed.
  Ltac fives H := apply five in H; destruct H as (? & ? & ? & ? & ? & ->).
  Lemma affine_rows (P Q : list (list F)) x u l : length P = 5 -> length Q = 5 -> length x = 5 -> length u = 5 ->
    Forall (fun r => length r = 5) P -> Forall (fun r => length r = 5) Q ->
    lin 3 3 3 P Q x u = Some l -> exists p q, sub2 3 3 P = Some p /\ sub2 3 3 Q = Some q /\ l = affine 3 3 3 (concat p) (concat q) (firstn 3 x) (firstn 3 u).
  Proof.
    intros LP LQ Lx Lu FP FQ E. fives LP. fives LQ. fives Lx. fives Lu.
    repeat match goal with H : Forall _ (_ :: _) |- _ => inversion H; subst; clear H end.
    repeat match goal with H : length _ = 5 |- _ => fives H end.
    do 2 eexists. split; [reflexivity|]. split; [reflexivity|]. cbn in E. injection E as <-. reflexivity.
  Qed.
  Lemma space_values (k : Ctl F) (w : SSData F) dm dn dr a b c d x u : SimSS.shape w -> ss_m w = 3 -> ss_n w = 3 -> ss_r w = 3 ->
    let value t vr := ss_value t vr k (ss_recalc w) in
    value TUInt64 1%N = Some [dm] -> value TUInt64 2%N = Some [dn] -> value TUInt64 3%N = Some [dr] ->
    value TFloat64 4%N = Some a -> value TFloat64 5%N = Some b -> value TFloat64 6%N = Some c -> value TFloat64 7%N = Some d ->
    value TFloat64 9%N = Some u -> value TFloat64 11%N = Some x ->
    value TFloat64 12%N = Some (affine (N.to_nat dn) (N.to_nat dn) (N.to_nat dm) a b x u) /\
    value TFloat64 10%N = Some (affine (N.to_nat dr) (N.to_nat dn) (N.to_nat dm) c d x u).
  Proof.
    intros W Hm Hn Hr value. subst value. destruct (ss_recalc_eq W) as (dx & y & L1 & L2 & E1 & E2 & ->). cbn.
    destruct W. destruct sh_A as [A1 A2], sh_B as [B1 B2], sh_C as [C1 C2], sh_D as [D1 D2]. unfold SimSS.row, SS_MAX in *.
    rewrite Hm, Hn, Hr in *. intros Gm Gn Gr. injection Gm as <-. injection Gn as <-. injection Gr as <-. cbn [N.to_nat].
    apply affine_rows in E1; [|assumption..]. apply affine_rows in E2; [|assumption..].
    destruct E1 as (p & q & Ep & Eq & ->), E2 as (p' & q' & Ep' & Eq' & ->).
    intros Ga Gb Gc Gd Gu Gx.
    assert (G : forall (l : list (list F)) r, match l with [] => None | r0 :: a' => match sub1 3 r0 with Some x0 => match match a' with [] => None | r1 :: a'0 => match sub1 3 r1 with Some x1 => match match a'0 with [] => None | r2 :: _ => match sub1 3 r2 with Some x2 => Some [x2] | None => None end end with Some y => Some (x1 :: y) | None => None end | None => None end end with Some y => Some (x0 :: y) | None => None end | None => None end end = r -> sub2 3 3 l = r) by (intros l r <-; reflexivity).
    unfold option_map in *.
    repeat match type of Ga with match ?X with _ => _ end = _ => change X with (sub2 3 3 (ss_A w)) in Ga end.
    rewrite Ep in Ga. 
    repeat match type of Gb with match ?X with _ => _ end = _ => change X with (sub2 3 3 (ss_B w)) in Gb end.
    repeat match type of Gc with match ?X with _ => _ end = _ => change X with (sub2 3 3 (ss_C w)) in Gc end.
    repeat match type of Gd with match ?X with _ => _ end = _ => change X with (sub2 3 3 (ss_D w)) in Gd end.
    rewrite Eq in Gb. rewrite Ep' in Gc. rewrite Eq' in Gd. injection Ga as <-. injection Gb as <-. injection Gc as <-. injection Gd as <-.
    unfold sub1 in Gu, Gx. rewrite sh_u, sh_x in *. injection Gu as <-. injection Gx as <-.
    split; reflexivity.
  Qed.
  Context (szof : N).
  Theorem space_equations env s dm dn dr a b c d x u : reach3 m szof s -> mode_of s <> Terminated ->
    let get t := get3 m szof env s t in
    get TUInt64 1%N [dm] -> get TUInt64 2%N [dn] -> get TUInt64 3%N [dr] ->
    get TFloat64 4%N a -> get TFloat64 5%N b -> get TFloat64 6%N c -> get TFloat64 7%N d -> get TFloat64 9%N u -> get TFloat64 11%N x ->
    get TFloat64 12%N (affine (N.to_nat dn) (N.to_nat dn) (N.to_nat dm) a b x u) /\
    get TFloat64 10%N (affine (N.to_nat dr) (N.to_nat dn) (N.to_nat dm) c d x u).
  Proof.
    intros Re Mo get. subst get. pose proof (wf_reach FMI3 StateSpace Re) as W.
    intros Gm Gn Gr Ga Gb Gc Gd Gu Gx.
    apply (get1_iff (vars_all FMI3 StateSpace) szof env s TUInt64 _ _ W) in Gm, Gn, Gr.
    apply (get1_iff (vars_all FMI3 StateSpace) szof env s TFloat64 _ _ W) in Ga, Gb, Gc, Gd, Gu, Gx.
    destruct Gm as (_ & Gm), Gn as (_ & Gn), Gr as (_ & Gr), Ga as (Cr & Ga), Gb as (_ & Gb), Gc as (_ & Gc), Gd as (_ & Gd), Gu as (_ & Gu), Gx as (_ & Gx).
    pose proof (proj2 (proj2 (@sized_reach F NF szof StateSpace s Re)) Mo) as Hd. cbn [ss_dims] in Hd. unfold dims in Hd. injection Hd as Hm Hn Hr.
    pose proof (space_values (ctl (sinst s)) W Hm Hn Hr Gm Gn Gr Ga Gb Gc Gd Gu Gx) as (P1 & P2).
    split; apply (get1_iff (vars_all FMI3 StateSpace) szof env s TFloat64 _ _ W); split; assumption.
  Qed.
End Space.
Section Structural.
  Context {F : Type} {NF : Num F} (szof : N).
  Notation m := (model_of (F := F) FMI3 StateSpace).
  (** A structural parameter out of range is refused and nothing changes but the mode. *)
  Lemma range_call env vr v l n k (i : Inst F (SSData F)) st k' i' tr : (5 < v)%N ->
    call (StateSpace_model (F := F)) env (ss_setUInt64 vr (Some (v :: l)) n k) i = Done ((st, k'), i', tr) -> k = 0 -> st = Error /\ i' = i.
  Proof.
    intros Hv E ->. unfold call, ss_setUInt64, nnSet in E. unfold mbind, mctl, bind, ret in E. cbv beta iota in E.
    assert (H : (N.of_nat SS_MAX <? v)%N = true) by (apply N.ltb_lt; exact Hv).
    destruct (negb _).
    - unfold failSet, mlogError, mbind, bind, mret, mtell, tell, ret, mctl in E. cbn in E. destruct (_ && _) in E; inversion E; subst; destruct i; auto.
    - cbn [mrd rd nth_error] in E. unfold mrd, rd, ret in E. cbn [nth_error] in E. cbv beta iota in E. rewrite H in E.
      unfold thenDirty, mbind, bind, failSet, mlogError, mret, mctl, mtell, tell, ret, bind in E. cbn in E.
      destruct (ss_var vr) as [[]|]; unfold mbind, bind in E; cbn in E; destruct (_ && _) in E; inversion E; subst; destruct i; auto.
  Qed.
  Theorem out_of_range fuel env e s vr v l n st out s' tr : reach3 m szof s -> (5 < v)%N ->
    exec3 m szof fuel env (O3Set TUInt64 (Some [vr]) 1 (Some (v :: l)) n) s = Done (st, out, s', tr) ->
    st = Error /\ reads_same m szof e s s'.
  Proof.
    intros Re Hv E. cbn [exec3] in E. rewrite outI_eq in E.
    destruct (fmi3Set _ _ _ _ _ _ _ _) as [[[[st0 x] j] t1]| |] eqn:Ef; try discriminate. injection E; intros; subst. clear E.
    assert (Q : st = Error /\ j = set_ctl (set_mode Terminated (ctl (sinst s))) (sinst s)).
    { unfold fmi3Set in Ef. apply BEGIN_any in Ef. destruct Ef as [(_ & Ef)|(-> & _ & ->)]; [|auto].
      cbn [Nat.eqb ASSERT_NOT_NULL] in Ef. apply bind_Done in Ef as ([s2 k2] & i2 & t4 & t5 & E3 & E4 & _).
      cbn [set_loop] in E3. apply bind_Done in E3 as ([s3 k3] & i3 & t6 & t7 & E5 & E6 & _).
      apply range_call in E5; [|exact Hv|reflexivity]. destruct E5 as (-> & ->).
      cbn in E6. inversion E6; subst. cbn in E4. inversion E4; subst. auto. }
    destruct Q as (-> & ->). split; [reflexivity|].
    pose proof (wf_reach FMI3 StateSpace Re) as W.
    apply (@alike_reads F NF StateSpace szof e s _ W); [|right; reflexivity].
    split; [eexists; reflexivity|]. split; [exact W|]. split; [left; reflexivity|auto].
  Qed.
  Lemma value_n (k : Ctl F) (w : SSData F) n : SimSS.shape w -> ss_value TUInt64 2%N k (ss_recalc w) = Some [n] -> N.of_nat (ss_n w) = n.
  Proof. intros W G. destruct (ss_recalc_eq W) as (dx & y & _ & _ & _ & _ & Q). rewrite Q in G. cbn in G. congruence. Qed.
  (** The number of continuous states is the value of n. *)
  Theorem states_n fuel env e s k out s' tr n : reach3 m szof s ->
    exec3 m szof fuel env (O3GetNumberOfContinuousStates true) s = Done (k, out, s', tr) -> get3 m szof e s TUInt64 2%N [n] ->
    k = OK /\ out = OCount (Some (N.to_nat n)).
  Proof.
    intros Re E G. pose proof (wf_reach FMI3 StateSpace Re) as W.
    apply (get1_iff (vars_all FMI3 StateSpace) szof e s TUInt64 _ _ W) in G. destruct G as ((Hm & _) & G).
    pose proof (@value_n (ctl (sinst s)) (data (mut (sinst s))) n W G) as G'.
    cbn [exec3] in E. rewrite outI_eq in E. unfold fmi3GetNumberOfContinuousStates, fmi3GetNumber in E. rewrite BEGIN_pass in E.
    - cbn in E. injection E; intros; subst. split; [reflexivity|]. now rewrite Nnat.Nat2N.id.
    - pose proof (proj1 (reach3_observable (model_laws FMI3 StateSpace) Re)) as H. unfold mode_of in H. revert H. generalize (mode (ctl (sinst s))). intros md0 H.
      cbn in H; repeat (destruct H as [<-|H]; [discriminate|]); destruct H.
  Qed.
End Structural.
