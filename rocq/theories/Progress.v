(** Progress.v -- a DoStep with acceptable arguments succeeds (C55). *)
From Coq Require Import List NArith ZArith Bool Arith Lia Reals.
From Verif Require Import Base Instance ModelIface Core Fmi3 Fmi2 Api Fmus NumR SpecModes SpecCreate SpecState SpecSteps SpecOde SpecSafe
  Logic Dyn Solver Fits Steps StepsFmus StepProps StepReal Ode SafeAll SimSS SpecVars Data Reach.
Import ListNotations.
Set Implicit Arguments.

Section Progress.
  Context {F : Type} {NF : Num F} (v : Version) (f : FMU) (env : Env).
  Notation m := (model_of (F := F) v f).
  Notation D := (md m).
  Notation Y := (dyn_all (F := F) v f).
  Notation EV := (events_all (F := F) v f env).

  Lemma update_ok c u st u' t : f <> Stair -> m_eventUpdate m = true -> m_eventUpdateF m env c u = Done (st, u', t) -> st = OK.
  Proof.
    intros N He E. destruct f; try discriminate He; try congruence; cbn in E.
    - unfold FmuBouncingBall.bb_eventUpdate, mbind, mdata, mmodd, mmod, mret, bind, ret in E. cbn in E.
      match type of E with context [FmuBouncingBall.bb_bounces ?d] => destruct (FmuBouncingBall.bb_bounces d) end; cbn in E; now injection E as <- _ _.
    - now injection E as <- _ _.
    - now injection E as <- _ _.
    - now injection E as <- _ _.
  Qed.
  Lemma call_ok i st i' t : f <> Stair -> m_eventUpdate m = true -> call m env (m_eventUpdateF m) i = Done (st, i', t) -> st = OK.
  Proof.
    intros N He E. unfold call in E. destruct (m_eventUpdateF m env (ctl i) (mut i)) as [[[x u] t0]| |] eqn:E1; try discriminate.
    injection E as <- _ _. eapply update_ok; eauto.
  Qed.
  Definition watched (i : Inst F D) : Prop := 0 < m_maxZ m -> nz (sol i) <> 0.

  Lemma passed3_progress ehn i st e go i' t : f <> Stair -> fit Y i -> watched i -> passed3 env Y ehn i st e go i' t -> st = OK /\ watched i'.
  Proof.
    intros N Ft W P. unfold watched in *.
    assert (En0 : forall i0 t0, @entered F m env ehn i i0 t0 -> nz (sol i0) = nz (sol i)).
    { unfold entered. intros i0 t0 En. destruct (m_eventUpdate m && ehn) eqn:B; [|destruct En as (-> & _); reflexivity].
      apply andb_prop in B as [He _]. destruct En as (s & E). destruct (fit_call EV He Ft E) as (_ & _ & -> & _). reflexivity. }
    destruct P as [i0 t0 i1 En F0 St A|i0 t0 i1 En F0 St A Em|i0 t0 i1 i2 t1 i3 En F0 St A Em Ec Rf|i0 t0 i1 i2 t1 En F0 St A Em (s & Ec & Er) t2 N2].
    - split; [reflexivity|]. rewrite (sd_nz St), (En0 _ _ En). exact W.
    - split; [reflexivity|]. rewrite (sd_nz St), (En0 _ _ En). exact W.
    - split; [reflexivity|]. destruct (fit_call EV (event_at_eu Y _ A) (sd_fit St) Ec) as (_ & _ & S2 & _).
      unfold refreshed in Rf. destruct (Nat.ltb 0 (m_maxZ m)).
      + destruct Rf as (_ & _ & _ & -> & _). rewrite S2, (sd_nz St), (En0 _ _ En). exact W.
      + rewrite Rf, S2, (sd_nz St), (En0 _ _ En). exact W.
    - exfalso. pose proof (call_ok _ N (event_at_eu Y _ A) Ec) as ->. destruct Er as [Er|(M & Z)]; [discriminate|].
      destruct (fit_call EV (event_at_eu Y _ A) (sd_fit St) Ec) as (_ & _ & S2 & _). rewrite S2, (sd_nz St), (En0 _ _ En) in Z. exact (W M Z).
  Qed.
  Lemma loop3_progress fuel : forall ncp ehn i st e r i' t, f <> Stair -> fit Y i -> watched i ->
    doStep_loop m env fuel ncp ehn OK i = Done ((st, e, r), i', t) -> st = OK.
  Proof.
    induction fuel as [|fuel IH]; intros ncp ehn i st e r i' t N Ft W E; [discriminate|].
    rewrite loop3_eq in E. destruct (pointReached m ncp (ctl i) || (ehn && earlyReturnAllowed (ctl i))); [now injection E as <- _ _ _ _|].
    unfold bind in E. pose proof (pass3_spec EV ehn Ft) as Ps.
    destruct (pass3 m env ehn OK i) as [[[[[st1 e1] go] i1] t1]| |] eqn:Ep; try discriminate. cbn in Ps.
    destruct (passed3_progress N Ft W Ps) as (-> & W1).
    destruct (passed3_ok EV Ft Ps) as (_ & [(_ & F1 & _)|(X & _)]); [|discriminate].
    destruct go.
    - destruct (doStep_loop m env fuel ncp e1 OK i1) as [[[[[st2 e2] r2] i2] t2]| |] eqn:El; try discriminate.
      injection E as <- _ _ _ _. eapply IH; eauto.
    - cbn in E. now injection E as <- _ _ _ _.
  Qed.
  Lemma loop2_progress fuel : forall ncp i st r i' t, f <> Stair -> fit Y i ->
    doStep2_loop m env fuel ncp OK i = Done ((st, r), i', t) -> st <> Error.
  Proof.
    induction fuel as [|fuel IH]; intros ncp i st r i' t N Ft E; [discriminate|].
    rewrite loop2_eq in E. destruct (pointReached m ncp (ctl i)); [injection E as <- _ _ _; discriminate|].
    unfold bind in E. pose proof (pass2_spec EV Ft) as Ps.
    destruct (pass2 m env OK i) as [[[[st1 go] i1] t1]| |] eqn:Ep; try discriminate. cbn in Ps.
    assert (st1 <> Error).
    { intro X. destruct Ps as [i1 F0 St A|i1 i2 t1 F0 St A Ec|i1 i2 t1 F0 St A Ec].
      - destruct (terminateSimulation _); discriminate.
      - destruct (terminateSimulation _); discriminate.
      - pose proof (call_ok _ N (event_at_eu Y _ A) Ec). discriminate. }
    destruct (passed2_ok EV Ft Ps) as (_ & [(F1 & _ & S1 & _)|(X & _)]); [|contradiction].
    destruct go.
    - subst st1. destruct (doStep2_loop m env fuel ncp OK i1) as [[[[st2 r2] i2] t2]| |] eqn:El; try discriminate.
      injection E as <- _ _ _. eapply IH; eauto.
    - cbn in E. now injection E as <- _ _ _.
  Qed.
End Progress.

Lemma set_up_watched {F} {NF : Num F} v f (i : Inst F (md (model_of (F := F) v f))) : set_up v f i -> watched v f i.
Proof. intros (_ & Z) H. rewrite Z. destruct f; cbn in *; lia. Qed.

Section Calls.
  Context {F : Type} {NF : Num F} (szof : N) (f : FMU).
  Theorem succeeds3 fuel env ccp h p1 p2 p3 p4 s st out s' t :
    let m := model_of (F := F) FMI3 f in
    f <> Stair -> reach3 m szof s -> mode_of s = StepMode -> set_up FMI3 f (sinst s) -> acceptable s ccp h ->
    exec3 m szof fuel env (O3DoStep ccp h p1 p2 p3 p4) s = Done (st, out, s', t) -> st = OK.
  Proof.
    intros m N R M U A E. apply dostep3 in E as [(_ & [X|X] & _)|(_ & _ & _ & e & r & i' & k & El & _)]; [congruence|contradiction| |exact R].
    eapply loop3_progress; eauto; [|now apply set_up_watched]. apply (@sane_reach F NF szof f s R). rewrite M. discriminate.
  Qed.
  Theorem progress3 fuel env ccp h s K :
    let m := model_of (F := F) FMI3 f in
    f <> Stair -> reach3 m szof s -> location_fits FMI3 f (resourceLocation (ctl (sinst s))) ->
    mode_of s = StepMode -> set_up FMI3 f (sinst s) -> acceptable s ccp h ->
    K < fuel -> beyond (nadd (after (m_step m) K (ctl (sinst s))) (m_step m)) (nadd ccp h) = true ->
    exists out s' t, exec3 m szof fuel env (O3DoStep ccp h true true true true) s = Done (OK, out, s', t).
  Proof.
    intros m N R L M U A Hk B.
    pose proof (@returns3 F NF szof f fuel env ccp h true true true true s K R Hk B) as NF1.
    assert (NU : exec3 m szof fuel env (O3DoStep ccp h true true true true) s <> UB).
    { apply (@no_ub3 F NF szof f fuel env _ s R); [cbn; auto|]. split; [exact L|]. destruct f; try exact I. congruence. }
    fold m in NF1. destruct (exec3 m szof fuel env (O3DoStep ccp h true true true true) s) as [[[[st out] s'] t]| |] eqn:E; [|contradiction|contradiction].
    assert (X : st = OK) by (eapply succeeds3; eauto). subst st. eauto.
  Qed.
  Theorem succeeds2 fuel env ccp h s st out s' t : built2 f = true ->
    let m := model_of (F := F) FMI2 f in
    f <> Stair -> reach2 m szof s -> mode_of s = StepComplete -> acceptable s ccp h ->
    exec2 m szof fuel env (O2DoStep ccp h) s = Done (st, out, s', t) -> st = OK \/ st = Discard /\ terminateSimulation (mut (sinst s')) = true.
  Proof.
    intros Bf m N R M A E. assert (NS : f <> StateSpace) by (intros ->; discriminate).
    apply (dostep2 NS) in E as [(_ & [X|X] & _)|(_ & _ & _ & r & i' & k & El & Hk & L & Es)]; [congruence|contradiction| |exact R].
    assert (Ne : st <> Error) by (eapply loop2_progress; eauto; apply (@sane_reach2 F NF szof f Bf s R)).
    destruct (lq_end L) as [(X & _)|[(X & Ft & _ & -> & _ & T)|(X & _)]]; auto; [|contradiction].
    right. rewrite Es. auto.
  Qed.
  Theorem progress2 fuel env ccp h s K : built2 f = true ->
    let m := model_of (F := F) FMI2 f in
    f <> Stair -> reach2 m szof s -> mode_of s = StepComplete -> acceptable s ccp h ->
    K < fuel -> beyond (nadd (after (m_step m) K (ctl (sinst s))) (m_step m)) (nadd ccp h) = true ->
    exists st out s' t, exec2 m szof fuel env (O2DoStep ccp h) s = Done (st, out, s', t) /\ (st = OK \/ st = Discard /\ terminateSimulation (mut (sinst s')) = true).
  Proof.
    intros Bf m N R M A Hk B.
    pose proof (@returns2 F NF szof f Bf fuel env ccp h s K R Hk B) as NF1.
    assert (NU : exec2 m szof fuel env (O2DoStep ccp h) s <> UB).
    { apply (@no_ub2 F NF szof f fuel env _ s R); [exact I|]. split; [intros _ X; discriminate X|]. destruct f; try exact I. congruence. }
    fold m in NF1. destruct (exec2 m szof fuel env (O2DoStep ccp h) s) as [[[[st out] s'] t]| |] eqn:E; [|contradiction|contradiction].
    exists st, out, s', t. split; [reflexivity|]. eapply succeeds2; eauto.
  Qed.
End Calls.

(** In exact arithmetic every step returns. *)
Section Exact.
  Variable inf : R.
  Local Instance NR' : Num R := NumR inf.
  Theorem progress3_R szof f env ccp h s :
    let m := model_of (F := R) FMI3 f in
    f <> Stair -> reach3 m szof s -> location_fits FMI3 f (resourceLocation (ctl (sinst s))) ->
    mode_of s = StepMode -> set_up FMI3 f (sinst s) -> acceptable s ccp h ->
    on_grid (m_step m) (ctl (sinst s)) -> (steps_of s < 2 ^ 62)%N -> (Rabs (start_of s) + Rabs (ccp + h) + 1 <= m_step m * IZR (2 ^ 60))%R ->
    exists K, forall fuel, K < fuel ->
      exists out s' t, exec3 m szof fuel env (O3DoStep ccp h true true true true) s = Done (OK, out, s', t).
  Proof.
    intros m N Rs L M U A G Ls B.
    destruct (@returns_R inf (m_step m) (start_of s) (steps_of s) (ccp + h)%R (step_pos inf FMI3 f) Ls B (ctl (sinst s)) G eq_refl eq_refl) as (K & X).
    exists K. intros fuel Hf. exact (@progress3 R _ szof f fuel env ccp h s K N Rs L M U A Hf X).
  Qed.
  Theorem progress2_R szof f env ccp h s : built2 f = true ->
    let m := model_of (F := R) FMI2 f in
    f <> Stair -> reach2 m szof s -> mode_of s = StepComplete -> acceptable s ccp h ->
    on_grid (m_step m) (ctl (sinst s)) -> (steps_of s < 2 ^ 62)%N -> (Rabs (start_of s) + Rabs (ccp + h) + 1 <= m_step m * IZR (2 ^ 60))%R ->
    exists K, forall fuel, K < fuel ->
      exists st out s' t, exec2 m szof fuel env (O2DoStep ccp h) s = Done (st, out, s', t) /\ (st = OK \/ st = Discard /\ terminateSimulation (mut (sinst s')) = true).
  Proof.
    intros Bf m N Rs M A G Ls B.
    destruct (@returns_R inf (m_step m) (start_of s) (steps_of s) (ccp + h)%R (step_pos inf FMI2 f) Ls B (ctl (sinst s)) G eq_refl eq_refl) as (K & X).
    exists K. intros fuel Hf. exact (@progress2 R _ szof f fuel env ccp h s K Bf N Rs M A Hf X).
  Qed.
End Exact.
