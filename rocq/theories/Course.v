(** Course.v -- sequences of DoStep calls as one course of solver steps. *)
From Coq Require Import List NArith ZArith Bool Arith Lia.
From Verif Require Import Base Instance ModelIface Core Fmi3 Fmi2 Api Fmus Logic Calls LawsFmus SpecModes SpecCreate SpecState Gate Effect Reach Histories
  FmuBouncingBall FmuDahlquist FmuStair FmuVanDerPol FmuRoberts FmuClocks FmuResource FmuStateSpace FmuFeedthrough
  Sim SimSS SpecVars SpecEqs SpecSteps VarsFmus DataFmus Dyn Solver Fits Steps StepsFmus StepProps SpecOde Ode KeepArrays Crossing.
Import ListNotations.
Set Implicit Arguments.

Section Course.
  Context {F : Type} {NF : Num F} (v : Version) (f : FMU) (env : Env).
  Notation m := (model_of (F := F) v f).
  Notation D := (md m).
  (** an event was handled, in the way of FMI 3.0 or of FMI 2.0 *)
  Definition happened (i i' : Inst F D) : Prop :=
    updated v f env i i' /\ (0 < length (indicators v f (data (mut i'))) -> stored v f i' = stored v f i \/ stored v f i' = indicators v f (data (mut i'))).
  (** solver steps, with the events handled, and changes of the next communication point *)
  Inductive course : nat -> Inst F D -> Inst F D -> Prop :=
  | course_0 i : course 0 i i
  | course_next k i i' p : course k i i' -> course k i (set_ctl (set_nextCommunicationPoint p (ctl i')) i')
  | course_quiet k i i' i1 : course k i i' -> solver_step v f i' i1 -> ~ eventful v f i' i1 -> course (S k) i i1
  | course_event k i i' i1 i2 : course k i i' -> solver_step v f i' i1 -> eventful v f i' i1 -> happened i1 i2 -> course (S k) i i2.

  Lemma course_trans k2 j i' : course k2 j i' -> forall k1 i, course k1 i j -> course (k1 + k2) i i'.
  Proof.
    induction 1; intros k1 i0 C.
    - rewrite Nat.add_0_r. exact C.
    - apply course_next. auto.
    - rewrite Nat.add_succ_r. eapply course_quiet; eauto.
    - rewrite Nat.add_succ_r. eapply course_event; eauto.
  Qed.
  Lemma with_course (h : Inst F D -> Inst F D -> Prop) k i i' : (forall a b, h a b -> happened a b) -> steps_with v f h k i i' -> course k i i'.
  Proof.
    intro H. induction 1 as [i|k i i1 i' S N _ IH|k i i1 i2 i' S N Hd _ IH].
    - constructor.
    - apply (@course_trans _ _ _ IH 1). eapply course_quiet; [apply course_0|exact S|exact N].
    - apply (@course_trans _ _ _ IH 1). eapply course_event; [apply course_0|exact S|exact N|apply H, Hd].
  Qed.
End Course.

Section Course3.
  Context {F : Type} {NF : Num F} (szof : N) (f : FMU).
  Notation m := (model_of (F := F) FMI3 f).
  Notation D := (md m).
  Lemma course_one3 fuel env ccp h p1 p2 p3 p4 s out s' t :
    reach3 m szof s -> eventModeUsed (ctl (sinst s)) = false ->
    exec3 m szof fuel env (O3DoStep ccp h p1 p2 p3 p4) s = Done (OK, out, s', t) ->
    eventModeUsed (ctl (sinst s')) = false /\ exists k, clock (m_step m) k s s' /\ course FMI3 f env k (sinst s) (sinst s').
  Proof.
    intros R Em E.
    apply dostep3 in E as [(X & _)|(M & A & _ & e & r & i' & k0 & El & Hk & L & C)]; [discriminate| |exact R].
    destruct C as [(X & _)|(_ & Es & ->)]; [discriminate|].
    assert (Sn : sane FMI3 f (sinst s)) by (apply (@sane_reach F NF szof f s R); rewrite M; discriminate).
    destruct (@loop3_inside F NF FMI3 f env fuel _ _ _ _ _ _ Sn Em El) as (_ & _ & (k & _ & W & Ck) & _).
    split. { rewrite Es. cbn. rewrite Ck. destruct (bumps_fields m k (ctl (sinst s))) as (_ & _ & _ & _ & _ & -> & _). exact Em. }
    exists k. split.
    { apply (@clock_of F NF f k s s' (mode (ctl i')) (if r then nadd ccp h else time (ctl i'))). rewrite Es. cbn [ctl set_ctl]. rewrite <- Ck. destruct (ctl i'); reflexivity. }
    rewrite Es. apply course_next. refine (@with_course F NF FMI3 f env _ _ _ _ _ W). intros a b (U & Z). split; auto.
  Qed.
  Theorem course3 fuel env : forall l s obs s', reach3 m szof s -> eventModeUsed (ctl (sinst s)) = false ->
    Forall (fun o => is_DoStep3 o = true) l ->
    run3 m szof fuel (map (fun o => (env, o)) l) s = Done (obs, s') -> Forall (fun x => fst (fst x) = OK) obs ->
    exists k, clock (m_step m) k s s' /\ course FMI3 f env k (sinst s) (sinst s').
  Proof.
    induction l as [|o l IH]; intros s obs s' R Em Fl E Ok.
    - cbn in E. injection E as <- <-. exists 0. split; [apply clock_refl; reflexivity|constructor].
    - inversion Fl as [|o0 l0 Ho Hl]; subst. destruct o; try discriminate Ho. cbn [map] in E.
      apply run_cons in E as (st & out & s1 & t1 & obs1 & E1 & E2 & ->).
      inversion Ok as [|x0 l0 Hs Ok1]; subst. cbn in Hs. subst st.
      destruct (@course_one3 fuel env _ _ _ _ _ _ s out s1 t1 R Em E1) as (Em1 & k & C1 & K1).
      assert (R1' : reach3 m szof s1) by (eapply reach3_call; [exact R| |exact E1]; discriminate).
      destruct (IH _ _ _ R1' Em1 Hl E2 Ok1) as (k2 & C2 & K2).
      exists (k + k2). split; [eapply clock_trans; eassumption|]. eapply course_trans; eassumption.
  Qed.
End Course3.

Section Course2.
  Context {F : Type} {NF : Num F} (szof : N) (f : FMU) (Bf : built2 f = true).
  Notation m := (model_of (F := F) FMI2 f).
  Notation D := (md m).
  Local Lemma NS : f <> StateSpace.
  Proof. intros ->. discriminate Bf. Qed.
  Lemma course_one2 fuel env ccp h s st out s' t :
    reach2 m szof s -> st <> Error ->
    exec2 m szof fuel env (O2DoStep ccp h) s = Done (st, out, s', t) ->
    exists k, clock (m_step m) k s s' /\ course FMI2 f env k (sinst s) (sinst s') /\
      (st = OK -> k = 0 \/ terminateSimulation (mut (sinst s')) = false) /\ (st <> OK -> st = Discard /\ terminateSimulation (mut (sinst s')) = true).
  Proof.
    intros R Ne E. apply (dostep2 NS) in E as [(X & _)|(M & A & _ & r & i' & k0 & El & Hk & L & Es)]; [congruence| |exact R].
    destruct (@loop2_inside F NF FMI2 f env fuel _ _ _ _ _ _ (@sane_reach2 F NF szof f Bf s R) Ne El) as (_ & (k & _ & W & Ck & Kt) & Z).
    exists k. split.
    { apply (@clock_of2 F NF f k s s' (mode (ctl i')) (if r then nadd ccp h else nextCommunicationPoint (ctl i'))). rewrite Es, <- Ck. destruct r; cbn; destruct (ctl i'); reflexivity. }
    assert (K : course FMI2 f env k (sinst s) i') by (refine (@with_course F NF FMI2 f env _ _ _ _ _ W); intros a b (U & W'); split; auto).
    assert (Mt : mut (sinst s') = mut i') by (rewrite Es; destruct r; reflexivity). rewrite Mt.
    split; [rewrite Es; destruct r; [apply course_next|]; exact K|]. split; [exact Kt|].
    intro N. destruct Z as [(X & _)|(X & _ & Y)]; [contradiction|]. auto.
  Qed.
  Theorem course2 fuel env : forall l s obs s', reach2 m szof s ->
    Forall (fun o => is_DoStep2 o = true) l ->
    run2 m szof fuel (map (fun o => (env, o)) l) s = Done (obs, s') -> Forall (fun x => fst (fst x) <> Error) obs ->
    exists k, clock (m_step m) k s s' /\ course FMI2 f env k (sinst s) (sinst s').
  Proof.
    induction l as [|o l IH]; intros s obs s' R Fl E Ok.
    - cbn in E. injection E as <- <-. exists 0. split; [apply clock_refl; reflexivity|constructor].
    - inversion Fl as [|o0 l0 Ho Hl]; subst. destruct o; try discriminate Ho. cbn [map] in E.
      apply run_cons in E as (st & out & s1 & t1 & obs1 & E1 & E2 & ->).
      inversion Ok as [|x0 l0 Hs Ok1]; subst. cbn in Hs.
      destruct (@course_one2 fuel env _ _ s _ out s1 t1 R Hs E1) as (k & C1 & K1 & _).
      assert (R1' : reach2 m szof s1) by (eapply reach2_call; [exact R| |exact E1]; discriminate).
      destruct (IH _ _ _ R1' Hl E2 Ok1) as (k2 & C2 & K2).
      exists (k + k2). split; [eapply clock_trans; eassumption|]. eapply course_trans; eassumption.
  Qed.
  Theorem conf2 fuel env s out s' t : reach2 m szof s ->
    exec2 m szof fuel env O2ExitInitializationMode s = Done (OK, out, s', t) -> set_up FMI2 f (sinst s') /\ current FMI2 f (sinst s').
  Proof.
    intros R E.
    assert (R' : reach2 m szof s') by (eapply reach2_call; [exact R| |exact E]; discriminate).
    apply (@sized_ready F NF FMI2 f (sinst s) (sinst s')); [apply (@sane_reach2 F NF szof f Bf s R)|apply (@sane_reach2 F NF szof f Bf s' R')|].
    apply (@exec2_sized _ _ _ _ _ szof fuel env s out s' t E).
  Qed.
End Course2.
