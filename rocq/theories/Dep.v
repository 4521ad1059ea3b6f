(** Dep.v -- lemmas on computed variables and on the exceptions to set-then-get
    (proofs of C08, C09, C10, C29, C35). *)
From Coq Require Import List NArith ZArith Bool Arith Lia.
From Verif Require Import Base Instance ModelIface Core Fmi3 Fmi2 Api Logic Calls Fmus SpecModes Gate
  SpecVars SpecEqs SpecState Vars VarsFmus DataFmus Data Multi Sim Sim3 SimSys SimFmus SimMade Histories.
From Verif Require Import FmuBouncingBall FmuDahlquist FmuStair FmuVanDerPol FmuRoberts
  FmuClocks FmuResource FmuStateSpace FmuFeedthrough.
Import ListNotations.
Set Implicit Arguments.

Section Dep.
  Context {F : Type} {NF : Num F} (szof : N).

  Lemma stored_keeps f env fuel s t vr l n out s' tr : reach3 (model_of (F := F) FMI3 f) szof s ->
    exec3 (model_of FMI3 f) szof fuel env (O3Set t (Some [vr]) 1 (Some l) n) s = Done (OK, out, s', tr) ->
    stored (model_of FMI3 f) szof f env s vr -> ~ overwritten FMI3 f vr (data (mut (sinst s))).
  Proof.
    intros R _ St O. pose proof (wf_reach _ _ R) as W. destruct f; cbn [overwritten stored] in *; try contradiction.
    - destruct O as (-> & O). specialize (St eq_refl). apply (get1_iff ro_laws szof env s TBoolean 1%N _ W) in St as (_ & P).
      unfold peek in P. cbn in P. unfold ro_alg in P. cbn [md model_of Roberts_model] in *.
      destruct (ro_dae (data (mut (sinst s)))) eqn:X; cbn in P; congruence.
    - destruct O as (-> & O). destruct (St eq_refl) as (k & G1 & G2).
      apply (get1_iff ss_laws szof env s TUInt64 1%N _ W) in G1 as (_ & P1).
      apply (get1_iff ss_laws szof env s TUInt64 2%N _ W) in G2 as (_ & P2).
      unfold peek in P1, P2.
      change (ss_value TUInt64 1 (ctl (sinst s)) (ss_recalc (data (mut (sinst s)))) = Some [k]) in P1.
      change (ss_value TUInt64 2 (ctl (sinst s)) (ss_recalc (data (mut (sinst s)))) = Some [k]) in P2.
      destruct (ss_recalc_eq W) as (dx & y & _ & _ & _ & _ & Q). rewrite Q in P1, P2.
      cbn in P1, P2. cbn [md model_of StateSpace_model] in *. apply O. injection P1. injection P2. lia.
  Qed.
  Lemma set_get_all f env fuel s t vr l n out s' tr : reach3 (model_of (F := F) FMI3 f) szof s ->
    exec3 (model_of FMI3 f) szof fuel env (O3Set t (Some [vr]) 1 (Some l) n) s = Done (OK, out, s', tr) ->
    stored (model_of FMI3 f) szof f env s vr ->
    n <= length l /\ get3 (model_of FMI3 f) szof env s' t vr (map (as_read t) (firstn n l)).
  Proof. intros R E St. eapply set_get; eauto. eapply stored_keeps; eauto. Qed.

  (** The structural parameters of StateSpace cannot be set. *)
  Lemma ss_structural vr l nV k env (i : Inst F (SSData F)) k' i' tr :
    call (StateSpace_model (F := F)) env (ss_setUInt64 vr (Some l) nV k) i = Done ((OK, k'), i', tr) -> k' < nV.
  Proof.
    rewrite call_eq.
    assert (Fl : forall k0 u t0 k1 u1 t1, failSet (F := F) (D := SSData F) k0 env (ctl i) u = Done ((OK, k1), u1, t0) -> t1 = t0 -> False).
    { intros k0 u t0 k1 u1 t1. unfold failSet, mbind, mlogError, mret, bind. destruct (logErrors (ctl i) && hasLogger (ctl i)); discriminate. }
    unfold ss_setUInt64, nnSet. unfold mbind at 1. unfold mctl. unfold bind at 1. cbv beta iota. cbn [ret].
    destruct (negb _).
    { cbn [md StateSpace_model] in *. destruct (failSet k env (ctl i) (mut i)) as [[[[st k1] u] t0]| |] eqn:E; try discriminate.
      intro H. injection H; intros; subst. exfalso. eapply Fl; eauto. }
    unfold mbind at 1, mrd, rd. destruct (nth_error l k) as [v|]; [|discriminate]. unfold bind at 1. cbn [ret].
    unfold thenDirty, mbind at 1. unfold bind at 1.
    intro H. 
    assert (K : forall set : nat -> SSData F -> SSData F,
      match (if N.ltb (N.of_nat SS_MAX) v then failSet (S k)
             else if nvalues_ok (S k) 1 nV then mbind (mmodd (set (N.to_nat v))) (fun _ => mret (OK, S k)) else failSet (S k)) env (ctl i) (mut i) with
      | Done ((OK, k1), _, _) => k1 < nV | _ => True end).
    { intro set. destruct (N.ltb _ _); [|destruct (nvalues_ok (S k) 1 nV) eqn:En].
      - destruct (failSet (S k) env (ctl i) (mut i)) as [[[[[] k1] u] t0]| |] eqn:E; auto. exfalso; eapply Fl; eauto.
      - cbn. unfold nvalues_ok in En. apply Nat.leb_le in En. rewrite Nat.add_comm in En. exact En.
      - destruct (failSet (S k) env (ctl i) (mut i)) as [[[[[] k1] u] t0]| |] eqn:E; auto. exfalso; eapply Fl; eauto. }
    assert (K' : match failSet (F := F) (D := SSData F) (S k) env (ctl i) (mut i) with Done ((OK, k1), _, _) => k1 < nV | _ => True end).
    { destruct (failSet (S k) env (ctl i) (mut i)) as [[[[[] k1] u] t0]| |] eqn:E; auto. exfalso; eapply Fl; eauto. }
    match type of H with match match match match ?X with _ => _ end with _ => _ end with _ => _ end with _ => _ end = _ =>
      assert (K2 : match X with Done ((OK, k1), _, _) => k1 < nV | _ => True end);
      [destruct (ss_var vr) as [[]|]; solve [apply K|exact K']|];
      destruct X as [[[[[] k1] u] t0]| |] end; cbn in H; try discriminate H; injection H; intros; subst; exact K2.
  Qed.
  Lemma ss_structural_loop l nV env : forall n vrs k (i : Inst F (SSData F)) k' i' tr, vl_wf ss_laws (data (mut i)) -> n <> 0 ->
    set_loop (StateSpace_model (F := F)) env TUInt64 vrs n (Some l) nV k OK i = Done ((OK, k'), i', tr) -> k' < nV.
  Proof.
    induction n as [|n IH]; intros vrs k i k' i' tr W Hn E; [contradiction|]. cbn [set_loop] in E.
    destruct vrs as [|vr vrs]; [discriminate|].
    apply bind_Done in E as ([s k1] & i1 & t1 & t2 & E1 & E2 & ->).
    pose proof (@set_call _ _ ss_laws env _ _ _ _ _ _ _ _ _ _ W E1) as (_ & _ & Q). destruct s; try contradiction.
    - destruct Q as (vs & d & b & _ & _ & _ & _ & U & Wd & _).
      rewrite CALL_ok in E2. cbn [stops] in E2. destruct n as [|n].
      + cbn [set_loop] in E2. inversion E2; subst. exact (@ss_structural _ _ _ _ _ _ _ _ _ E1).
      + assert (W1 : vl_wf ss_laws (data (mut i1))) by (rewrite U; exact Wd). eapply (IH _ _ i1 _ _ _ W1); eauto.
    - rewrite CALL_err in E2. discriminate.
  Qed.
  Lemma structural_refused env fuel s vrs nvr l n st out s' tr : reach3 (model_of (F := F) FMI3 StateSpace) szof s -> nvr <> 0 ->
    exec3 (model_of FMI3 StateSpace) szof fuel env (O3Set TUInt64 (Some vrs) nvr (Some l) n) s = Done (st, out, s', tr) -> st = Error.
  Proof.
    intros R Hn E. pose proof (wf_reach _ _ R) as W. pose proof E as E0. apply (set3_spec (vars_all FMI3 StateSpace)) in E0; [|exact W|exact Hn].
    destruct E0 as (_ & _ & _ & n' & vs & d & b & _ & _ & _ & _ & _ & _ & _ & [(-> & _ & Hm & _)|(-> & _)]); [exfalso|reflexivity].
    cbn [exec3] in E. rewrite outI_eq in E. unfold fmi3Set in E. rewrite BEGIN_pass in E by exact Hm.
    destruct (Nat.eqb_spec nvr 0); [contradiction|]. cbn [ASSERT_NOT_NULL] in E.
    match type of E with match ?X with _ => _ end = _ => destruct X as [[[[st0 y] i'] t0]| |] eqn:G end; try discriminate.
    injection E; intros; subst. apply bind_Done in G as ([s2 k2] & i2 & t2 & t3 & E1 & E2 & _).
    destruct (stops s2) eqn:Hs; [inversion E2; subst; discriminate|].
    assert (Ho : s2 = OK).
    { pose proof (@set_loop_spec _ _ (vars_all FMI3 StateSpace) env TUInt64 n nvr vrs l 0 _ _ _ _ _ W ltac:(lia) E1) as (_ & _ & ? & ? & ? & ? & _ & _ & _ & _ & _ & _ & _ & [(-> & _)|(-> & _)]); [reflexivity|discriminate]. }
    subst s2. apply ss_structural_loop in E1; [|exact W|exact Hn]. rewrite bind_modM in E2.
    destruct (Nat.eqb_spec k2 n); [lia|]. cbn [negb] in E2. rewrite bind_logError, CALLk_err in E2. discriminate.
  Qed.
  Lemma set_other_all f env fuel s t vr l n out s' tr t2 vr2 ws : reach3 (model_of (F := F) FMI3 f) szof s ->
    exec3 (model_of FMI3 f) szof fuel env (O3Set t (Some [vr]) 1 (Some l) n) s = Done (OK, out, s', tr) ->
    vr2 <> vr -> ~ In vr (depends f vr2) ->
    get3 (model_of FMI3 f) szof env s t2 vr2 ws -> get3 (model_of FMI3 f) szof env s' t2 vr2 ws.
  Proof.
    intros R E. eapply set_other; eauto.
    assert (Q : f = StateSpace \/ f <> StateSpace) by (destruct f; auto; right; discriminate). destruct Q as [->|Q]; [left|right; exact Q].
    intros ->. apply structural_refused in E; [discriminate|exact R|discriminate].
  Qed.

  (** Set of many variables and the sequence of Sets, with every continuation. *)
  Lemma dirtied_R lg vals (i : Inst F (CLData F)) : instR (Clocks_model (F := F)) (rel lg false vals FMI3 Clocks) True True i i ->
    instR (Clocks_model (F := F)) (rel lg false vals FMI3 Clocks) True True i (dirtied (Clocks_model (F := F)) i).
  Proof.
    intros [A B C]. constructor; cbn; auto. destruct B. constructor; cbn; auto. intros [].
  Qed.
  Lemma multi_same f env t vrs xs s : f <> StateSpace -> reach3 (model_of (F := F) FMI3 f) szof s ->
    length vrs = length xs -> vrs <> [] ->
    match exec3 (model_of FMI3 f) szof 0 env (O3Set t (Some vrs) (length vrs) (Some xs) (length xs)) s,
          singles (model_of FMI3 f) szof env t vrs xs s with
    | Done (st, _, s1, tr), Done (st', s2, tr') => st' = st /\ tr' = tr /\ (f <> Clocks -> s2 = s1) /\
        forall fuel l, (forall e o i, In (e, o) l -> image3 o = Some i -> saved3 (model_of FMI3 f) szof i) ->
          same_run True 0 0 (run3 (model_of FMI3 f) szof fuel l s1) (run3 (model_of FMI3 f) szof fuel l s2)
    | UB, UB | NoFuel, NoFuel => True
    | _, _ => False
    end.
  Proof.
    intros Hf R L Hn. pose proof (@multi_all _ _ f szof env t vrs xs s Hf R L Hn) as K.
    destruct (exec3 _ _ _ _ _ _) as [[[[st o] s1] tr]| |] eqn:E; destruct (singles _ _ _ _ _ _ _) as [[[st' s2] tr']| |]; auto.
    destruct K as (-> & -> & K). split; [reflexivity|]. split; [reflexivity|]. split.
    { intro Hc. destruct K as [->|(X & _)]; [reflexivity|contradiction]. }
    intros fuel l I.
    assert (R1 : reach3 (model_of FMI3 f) szof s1).
    { eapply reach3_call; [exact R| |exact E]. intros i X. discriminate. }
    pose proof (rel_diag True True FMI3 f R1) as Dg.
    assert (R' : sysR (model_of FMI3 f) (rel True false True FMI3 f) yes yes 0 0 s1 s2).
    { destruct K as [->|(-> & ->)]; [exact Dg|]. destruct Dg as [[M Dg] H]. split; [|exact H]. split; [exact M|]. now apply dirtied_R. }
    pose proof (run3_same True True FMI3 f fuel l R' I) as Q. now rewrite !rebases3_0 in Q.
  Qed.

  (** The equations. *)
  Lemma equation_holds f dae env s y args g xs : reach3 (model_of (F := F) FMI3 f) szof s ->
    In (y, args, g) (equations f dae) ->
    (f = Roberts -> get3 (model_of FMI3 f) szof env s TBoolean 1%N [dae]) ->
    Forall2 (fun a x => get3 (model_of FMI3 f) szof env s TFloat64 a [x]) args xs ->
    get3 (model_of FMI3 f) szof env s TFloat64 y [g xs].
  Proof.
    intros R I Dq A. pose proof (wf_reach _ _ R) as W.
    assert (C : canread (vars_all FMI3 f) env TFloat64 (sinst s)).
    { destruct A as [|a x args xs G _]; [|now apply (get1_iff (vars_all FMI3 f) szof env s TFloat64 a _ W) in G as (C & _)].
      clear -I; destruct f, dae; cbn in I; intuition congruence. }
    assert (A' : Forall2 (fun a x => peek (vars_all FMI3 f) env (sinst s) TFloat64 a = Some [x]) args xs).
    { clear -A W. induction A; constructor; auto. now apply (get1_iff (vars_all FMI3 f) szof env s TFloat64 _ _ W) in H as (_ & P). }
    apply (get1_iff (vars_all FMI3 f) szof env s TFloat64 y _ W). split; [exact C|].
    clear A C. unfold peek in *.
    assert (Hd : f = Roberts -> option_map (fun d => ro_dae d) (match f return md (model_of FMI3 f) -> option (ROData F) with Roberts => @Some _ | _ => fun _ => None end (data (mut (sinst s)))) = Some dae).
    { intros ->. specialize (Dq eq_refl). apply (get1_iff ro_laws szof env s TBoolean 1%N _ W) in Dq as (_ & P).
      unfold peek in P. cbn in P. cbn. unfold ro_alg in P. cbn [md model_of Roberts_model] in *.
      destruct (ro_dae (data (mut (sinst s)))) eqn:X; cbn in P; congruence. }
    destruct f; cbn [equations] in I; try contradiction.
    - cbn in I. repeat (destruct I as [I|I]; [injection I as <- <- <-; inversion A' as [|? ? ? ? P1 P2]; subst; inversion P2; subst; cbn in *; congruence|]). destruct I.
    - cbn in I. destruct I as [I|[]]. injection I as <- <- <-. inversion A' as [|? ? ? ? P1 P2]; subst. inversion P2 as [|? ? ? ? P3 P4]; subst. inversion P4; subst.
      cbn in P1, P3 |- *. injection P1 as <-. injection P3 as <-. reflexivity.
    - cbn in I. repeat (destruct I as [I|I]; [injection I as <- <- <-; inversion A' as [|? ? ? ? P1 P2]; subst; inversion P2; subst; cbn in *; congruence|]). destruct I.
    - specialize (Hd eq_refl). cbn in Hd. injection Hd as Hd. 
      change (vl_recalc (vars_all FMI3 Roberts) env (ctl (sinst s)) (data (mut (sinst s)))) with (ro_calc (data (mut (sinst s)))) in *.
      cbn [md model_of Roberts_model] in *. destruct (data (mut (sinst s))) as [d y1 dy1 y2 dy2 y3 r g1 g2]. cbn in Hd. subst d.
      destruct dae; cbn in I; repeat (destruct I as [I|I]; [injection I as <- <- <-; inversion A' as [|? ? ? ? P1 P2]; subst; inversion P2 as [|? ? ? ? P3 P4]; subst; 
        try (inversion P4 as [|? ? ? ? P5 P6]; subst; try (inversion P6; subst)); cbn in *; 
        repeat match goal with H : Some [_] = Some [_] |- _ => injection H as <- end; reflexivity|]); destruct I.
    - cbn in I. repeat (destruct I as [I|I]; [injection I as <- <- <-; inversion A' as [|? ? ? ? P1 P2]; subst; inversion P2 as [|? ? ? ? P3 P4]; subst; 
        try (inversion P4 as [|? ? ? ? P5 P6]; subst; try (inversion P6; subst)); cbn in *; 
        repeat match goal with H : Some [_] = Some [_] |- _ => injection H as <- end; reflexivity|]). destruct I.
  Qed.

  (** Feedthrough *)
  Lemma feedthrough_iff env s t u y vs : reach3 (model_of (F := F) FMI3 Feedthrough) szof s ->
    In (t, u, y) (feedthrough FMI3) ->
    get3 (model_of FMI3 Feedthrough) szof env s t y vs <-> get3 (model_of FMI3 Feedthrough) szof env s t u vs.
  Proof.
    intros R I. pose proof (wf_reach _ _ R) as W.
    rewrite !(get1_iff (vars_all FMI3 Feedthrough) szof env s _ _ _ W).
    enough (peek (vars_all FMI3 Feedthrough) env (sinst s) t y = peek (vars_all FMI3 Feedthrough) env (sinst s) t u) as -> by tauto.
    unfold peek. cbn in I. repeat (destruct I as [I|I]; [injection I as <- <- <-; reflexivity|]). destruct I.
  Qed.
End Dep.
