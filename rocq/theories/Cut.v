(** Cut.v -- the solver steps of several DoStep calls are the same whichever way they are cut (C21). *)
From Coq Require Import List NArith ZArith Bool Arith Lia.
From Verif Require Import Base Instance ModelIface Core Fmi3 Fmi2 Api Fmus Logic Calls LawsFmus SpecModes SpecCreate SpecState Reach Histories
  Sim Sim3 SimSys Sim2 SimSys2 SimMade SpecVars SpecEqs SpecSteps Dyn Solver Fits Steps StepsFmus StepProps.
Import ListNotations.
Set Implicit Arguments.

(** ** One pass of the loop does not depend on the communication point. *)
Section Pass.
  Context {F : Type} {NF : Num F} (m : Model F) (P : Rel (md m)) (env : Env).
  Notation D := (md m).
  Hypothesis L : SimLaws m P.
  Hypothesis He : r_env P env.

  Lemma same_pass3 E ehn st : Sim3.same m P E True (pass3 m env ehn st).
  Proof.
    unfold pass3. apply same_getC. intros i j R. pose proof (ir_ctl R) as C. rewrite (cr_early C), (cr_event C). clear C.
    generalize (earlyReturnAllowed (ctl i)) as er, (eventModeUsed (ctl i)) as ev. intros er ev. revert i j R.
    match goal with |- forall i j, instR _ _ _ _ i j -> orel _ _ (?f i) (?g j) => change (Sim3.same m P E True f) end.
    apply same_bind.
    { destruct (m_eventUpdate m) eqn:EU; [|apply same_ret]. destruct ehn; cbn [andb]; [|apply same_ret].
      apply same_bind; [apply same_call; [exact He|apply (msim_event L EU)]|]. intro; apply same_ret. }
    intro ehn1. apply same_bind; [now apply same_doFixedStep|]. intros [[s se] te].
    apply same_bind; [apply same_CALL|]. intro st1. destruct (stops st1); [apply same_ret|].
    assert (Rest : forall (e2 : bool) (st2 : Status), Sim3.same m P E True (let* u := getM m in ret (st2, e2, negb (terminateSimulation u)))%sw).
    { intros e2 st2. apply same_getM. intros i j R. rewrite (mr_term (ir_mut R)). apply (same_ret _ R). }
    destruct (m_eventUpdate m) eqn:EU; [|apply Rest].
    destruct (match se with Some true => Some true | Some false => te | None => None end) as [[|]|];
      [|apply Rest|apply same_ub].
    destruct ev.
    - destruct er; [apply same_ret|apply Rest].
    - apply same_bind; [apply same_call; [exact He|apply (msim_event L EU)]|]. intro s2.
      apply same_bind; [apply same_CALL|]. intro st2. destruct (stops st2); [apply same_ret|].
      destruct (Nat.ltb 0 (m_maxZ m)).
      + apply (@same_prez _ m P env L He E _ (fun s3 => let* st3 := CALL m st2 s3 in
             if stops st3 then ret (st3, ehn1, false) else
             if er then ret (st3, ehn1, false) else
             (let* u := getM m in ret (st3, ehn1, negb (terminateSimulation u))))%sw).
        intro s3. apply same_bind; [apply same_CALL|]. intro st3.
        destruct (stops st3); [apply same_ret|]. destruct er; [apply same_ret|apply Rest].
      + destruct er; [apply same_ret|apply Rest].
  Qed.
  Lemma same_pass2 E st : Sim3.same m P E True (pass2 m env st).
  Proof.
    unfold pass2. apply same_bind; [now apply same_doFixedStep|]. intros [[s se] te].
    apply same_bind; [apply same_CALL|]. intro st1. destruct (stops st1); [apply same_ret|].
    assert (Rest : forall st2 : Status, Sim3.same m P E True (let* u := getM m in if terminateSimulation u then ret (Discard, false) else ret (st2, true))%sw).
    { intros st2. apply same_getM. intros i j R. rewrite (mr_term (ir_mut R)). destruct (terminateSimulation (mut i)); apply (same_ret _ R). }
    destruct (m_eventUpdate m) eqn:EU; [|apply Rest].
    destruct (match se with Some true => Some true | Some false => te | None => None end) as [[|]|];
      [|apply Rest|apply same_ub].
    apply same_bind; [apply same_call; [exact He|apply (msim_event L EU)]|]. intro s2.
    apply same_bind; [apply same_CALL|]. intro st2. destruct (stops st2); [apply same_ret|apply Rest].
  Qed.
End Pass.

(** ** [k] passes *)
Section Walk.
  Context {F : Type} {NF : Num F} (m : Model F) (env : Env).
  Notation D := (md m).
  Fixpoint walk3 (k : nat) (i i' : Inst F D) : Prop :=
    match k with
    | O => i' = i
    | S k => exists go i1 t, pass3 m env false OK i = Done ((OK, false, go), i1, t) /\ walk3 k i1 i'
    end.
  Fixpoint walk2 (k : nat) (i i' : Inst F D) : Prop :=
    match k with
    | O => i' = i
    | S k => exists st go i1 t, st <> Error /\ pass2 m env OK i = Done ((st, go), i1, t) /\ walk2 k i1 i'
    end.
  Lemma walk3_app k k' : forall i i1 i2, walk3 k i i1 -> walk3 k' i1 i2 -> walk3 (k + k') i i2.
  Proof.
    induction k as [|k IH]; intros i i1 i2 A B; cbn [walk3 walk2 Nat.add] in *; [now subst|].
    destruct A as (go & j & t & E & A). exists go, j, t. split; [exact E|]. eapply IH; eauto.
  Qed.
  Lemma walk2_app k k' : forall i i1 i2, walk2 k i i1 -> walk2 k' i1 i2 -> walk2 (k + k') i i2.
  Proof.
    induction k as [|k IH]; intros i i1 i2 A B; cbn [walk3 walk2 Nat.add] in *; [now subst|].
    destruct A as (st & go & j & t & H & E & A). exists st, go, j, t. split; [exact H|]. split; [exact E|]. eapply IH; eauto.
  Qed.

  Variable (P : Rel (md m)).
  Hypothesis L : SimLaws m P.
  Hypothesis He : r_env P env.
  Notation sameC := (instR m P False True).
  Lemma walk3_same k : forall i j i', sameC i j -> walk3 k i i' -> exists j', walk3 k j j' /\ sameC i' j'.
  Proof.
    induction k as [|k IH]; intros i j i' R W; cbn [walk3 walk2 Nat.add] in *; [subst; eauto|].
    destruct W as (go & i1 & t & E & W). pose proof (@same_pass3 _ _ m P env L He False false OK _ _ R) as S. rewrite E in S.
    destruct (pass3 m env false OK j) as [[[[[st e] g] j1] t']| |] eqn:Ej; cbn in S; try tauto.
    destruct S as ((Eq & R1) & _). injection Eq as <- <- <-. destruct (IH _ _ _ R1 W) as (j' & W' & R'). exists j'. eauto 10.
  Qed.
  Lemma walk2_same k : forall i j i', sameC i j -> walk2 k i i' -> exists j', walk2 k j j' /\ sameC i' j'.
  Proof.
    induction k as [|k IH]; intros i j i' R W; cbn [walk3 walk2 Nat.add] in *; [subst; eauto|].
    destruct W as (st & go & i1 & t & H & E & W). pose proof (@same_pass2 _ _ m P env L He False OK _ _ R) as S. rewrite E in S.
    destruct (pass2 m env OK j) as [[[[st' g] j1] t']| |] eqn:Ej; cbn in S; try tauto.
    destruct S as ((Eq & R1) & _). injection Eq as <- <-. destruct (IH _ _ _ R1 W) as (j' & W' & R'). exists j'. split; [|exact R']. exists st, go, j1, t'. auto.
  Qed.
  Lemma walk3_back k : forall i j j', sameC i j -> walk3 k j j' -> exists i', walk3 k i i' /\ sameC i' j'.
  Proof.
    induction k as [|k IH]; intros i j j' R W; cbn [walk3 walk2 Nat.add] in *; [subst; eauto|].
    destruct W as (go & j1 & t & E & W). pose proof (@same_pass3 _ _ m P env L He False false OK _ _ R) as S. rewrite E in S.
    destruct (pass3 m env false OK i) as [[[[[st e] g] i1] t']| |] eqn:Ei; cbn in S; try tauto.
    destruct S as ((Eq & R1) & _). injection Eq as -> -> ->. destruct (IH _ _ _ R1 W) as (i' & W' & R'). exists i'. eauto 10.
  Qed.
  Lemma walk2_back k : forall i j j', sameC i j -> walk2 k j j' -> exists i', walk2 k i i' /\ sameC i' j'.
  Proof.
    induction k as [|k IH]; intros i j j' R W; cbn [walk3 walk2 Nat.add] in *; [subst; eauto|].
    destruct W as (st & go & j1 & t & H & E & W). pose proof (@same_pass2 _ _ m P env L He False OK _ _ R) as S. rewrite E in S.
    destruct (pass2 m env OK i) as [[[[st' g] i1] t']| |] eqn:Ei; cbn in S; try tauto.
    destruct S as ((Eq & R1) & _). injection Eq as -> ->. destruct (IH _ _ _ R1 W) as (i' & W' & R'). exists i'. split; [|exact R']. exists st, go, i1, t'. auto.
  Qed.
  Lemma walk3_fun k : forall i a b, walk3 k i a -> walk3 k i b -> a = b.
  Proof.
    induction k as [|k IH]; intros i a b A B; cbn [walk3 walk2 Nat.add] in *; [congruence|].
    destruct A as (? & ? & ? & E & A), B as (? & ? & ? & E' & B). rewrite E in E'. injection E'; intros; subst. eauto.
  Qed.
  Lemma walk2_fun k : forall i a b, walk2 k i a -> walk2 k i b -> a = b.
  Proof.
    induction k as [|k IH]; intros i a b A B; cbn [walk3 walk2 Nat.add] in *; [congruence|].
    destruct A as (? & ? & ? & ? & _ & E & A), B as (? & ? & ? & ? & _ & E' & B). rewrite E in E'. injection E'; intros; subst. eauto.
  Qed.

  (** The loops walk. *)
  Context (WF : md m -> Prop) (Y : Dyn m WF).
  Hypothesis EV : Events env Y.
  Lemma pass3_plain i st e go i' t : fit Y i -> eventModeUsed (ctl i) = false -> pass3 m env false OK i = Done ((st, e, go), i', t) ->
    e = false /\ (st = OK /\ fit Y i' /\ ctl i' = bump m (ctl i) \/ st = Error /\ go = false).
  Proof.
    intros Ft Em E. pose proof (pass3_spec EV false Ft) as S. rewrite E in S. cbn in S.
    split; [inversion S; subst; auto; congruence|].
    destruct (passed3_ok EV Ft S) as (_ & [(A & B & C & _)|(A & B & _)]); auto.
  Qed.
  Lemma loop3_walk fuel : forall ncp i e r i' t, fit Y i -> eventModeUsed (ctl i) = false ->
    doStep_loop m env fuel ncp false OK i = Done ((OK, e, r), i', t) -> exists k, k <= fuel /\ walk3 k i i' /\ ctl i' = bumps m k (ctl i) /\ fit Y i'.
  Proof.
    induction fuel as [|fuel IH]; intros ncp i e r i' t Ft Em E; [discriminate|].
    rewrite loop3_eq in E. cbn [andb] in E. rewrite orb_false_r in E. destruct (pointReached m ncp (ctl i)) eqn:Pr.
    { injection E; intros; subst. exists 0. split; [lia|]. repeat (split; [reflexivity|]). exact Ft. }
    unfold bind in E. destruct (pass3 m env false OK i) as [[[[[st1 e1] go] i1] t1]| |] eqn:Ep; try discriminate.
    destruct (pass3_plain Ft Em Ep) as (-> & [(-> & F1 & C1)|(-> & ->)]); [|discriminate].
    assert (Em1 : eventModeUsed (ctl i1) = false) by (rewrite C1; exact Em).
    destruct go.
    - destruct (doStep_loop m env fuel ncp false OK i1) as [[[[[st2 e2] r2] i2] t2]| |] eqn:El; try discriminate.
      injection E; intros; subst. destruct (IH _ _ _ _ _ _ F1 Em1 El) as (k & Hk & W & C & Fk). exists (S k). split; [lia|].
      split; [cbn [walk3 walk2]; eauto 10|]. split; [|exact Fk]. rewrite C, C1. reflexivity.
    - injection E; intros; subst. exists 1. split; [lia|]. split; [cbn [walk3 walk2]; exists false, i', t1; auto|]. split; [exact C1|exact F1].
  Qed.
  Lemma loop2_walk fuel : forall ncp i st r i' t, fit Y i -> st <> Error ->
    doStep2_loop m env fuel ncp OK i = Done ((st, r), i', t) -> exists k, k <= fuel /\ walk2 k i i' /\ ctl i' = bumps m k (ctl i) /\ fit Y i'.
  Proof.
    induction fuel as [|fuel IH]; intros ncp i st r i' t Ft Hs E; [discriminate|].
    rewrite loop2_eq in E. destruct (pointReached m ncp (ctl i)) eqn:Pr.
    { injection E; intros; subst. exists 0. split; [lia|]. repeat (split; [reflexivity|]). exact Ft. }
    unfold bind in E. pose proof (pass2_spec EV Ft) as S.
    destruct (pass2 m env OK i) as [[[[st1 go] i1] t1]| |] eqn:Ep; try discriminate. cbn in S.
    destruct (passed2_ok EV Ft S) as (_ & [(F1 & C1 & Hst & _)|(-> & -> & _)]).
    2:{ injection E; intros; subst. congruence. }
    destruct go; subst st1.
    - destruct (doStep2_loop m env fuel ncp OK i1) as [[[[st2 r2] i2] t2]| |] eqn:El; try discriminate.
      injection E; intros; subst. destruct (IH _ _ _ _ _ _ F1 Hs El) as (k & Hk & W & C & Fk). exists (Datatypes.S k). split; [lia|].
      split; [cbn [walk3 walk2]; exists OK, true, i1, t1; repeat split; auto; discriminate|]. split; [|exact Fk]. rewrite C, C1. reflexivity.
    - injection E; intros; subst. exists 1. split; [lia|]. split; [cbn [walk3 walk2]; exists Discard, false, i', t1; auto|]. split; [exact C1|exact F1].
  Qed.
End Walk.

Section Det.
  Context {F : Type} {NF : Num F} {D : Type}.
  Lemma walk_det h (s s1 s2 : Sys F D) k1 k2 : clock h k1 s s1 -> clock h k2 s s2 ->
    (steps_of s + N.of_nat k1 < two64)%N -> (steps_of s + N.of_nat k2 < two64)%N -> steps_of s1 = steps_of s2 -> k1 = k2.
  Proof.
    intros (_ & _ & _ & A) (_ & _ & _ & B) L1 L2 E. rewrite A, B in E.
    assert (X : forall k, (steps_of s + N.of_nat k < two64)%N -> match k with O => steps_of s | S _ => later (steps_of s) k end = (steps_of s + N.of_nat k)%N).
    { intros [|k] L0; [lia|]. now apply N.mod_small. }
    rewrite !X in E by assumption. lia.
  Qed.
End Det.

Section Three.
  Context {F : Type} {NF : Num F} (szof : N) (f : FMU).
  Notation m := (model_of (F := F) FMI3 f).
  Notation D := (md m).
  Notation P := (rel (F := F) True false True FMI3 f).
  Notation sameC := (instR m P False True).
  Let L : SimLaws m P := sim_all True false True FMI3 f.
  Let NX : r_cross P = false := rel_nocross True True FMI3 f.

  Lemma same_reads3 (s s1 s2 : Sys F D) i : sameC i (sinst s1) -> sameC i (sinst s2) -> forall e, reads_same m szof e s1 s2.
  Proof.
    intros A B e t vr vs (buf & s' & tr & Lb & E). exists buf.
    cbn [exec3] in E |- *. rewrite outI_eq in E |- *.
    pose proof (@same_Get _ m P e L (rel_env True false True FMI3 f e) NX False True t (Some [vr]) 1 (Some buf) (length vs) _ _ A) as G1.
    pose proof (@same_Get _ m P e L (rel_env True false True FMI3 f e) NX False True t (Some [vr]) 1 (Some buf) (length vs) _ _ B) as G2.
    destruct (fmi3Get m e t (Some [vr]) 1 (Some buf) (length vs) (sinst s1)) as [[[[st1 x1] i1] t1]| |]; try discriminate.
    destruct (fmi3Get m e t (Some [vr]) 1 (Some buf) (length vs) i) as [[[[st x] i'] t']| |]; cbn in G1; try tauto.
    destruct (fmi3Get m e t (Some [vr]) 1 (Some buf) (length vs) (sinst s2)) as [[[[st2 x2] i2] t2]| |]; cbn in G2; try tauto.
    destruct G1 as ((G1 & _) & _), G2 as ((G2 & _) & _). injection G1 as -> ->. injection G2 as <- <-.
    assert (st1 = OK /\ OVals (F := F) (D := D) t x1 = OVals t (Some vs)) as (Hs & Hx).
    { split; [exact (f_equal (fun r => match r with Done (a, _, _, _) => a | _ => Fatal end) E)|].
      exact (f_equal (fun r => match r with Done (_, a, _, _) => a | _ => OVals t x1 end) E). }
    rewrite Hs, Hx. do 2 eexists. split; [exact Lb|reflexivity].
  Qed.
  Lemma refl3 s : reach3 m szof s -> instR m P True True (sinst s) (sinst s).
  Proof. intro R. pose proof (rel_diag True True FMI3 f R) as [[_ H] _]. exact H. Qed.
  Lemma ncp_same j i p : sameC j i -> sameC j (set_ctl (set_nextCommunicationPoint p (ctl i)) i).
  Proof. intros [C U S]. constructor; [|exact U|exact S]. destruct C. constructor; cbn; auto; tauto. Qed.

  Lemma cut3_call fuel env o s out s' t : reach3 m szof s -> eventModeUsed (ctl (sinst s)) = false -> is_DoStep3 o = true ->
    exec3 m szof fuel env o s = Done (OK, out, s', t) ->
    eventModeUsed (ctl (sinst s')) = false /\ exists k i', k <= fuel /\ walk3 m env k (sinst s) i' /\
      (forall j, sameC j i' -> sameC j (sinst s')) /\ clock (m_step m) k s s'.
  Proof.
    intros R Em Di E. destruct o; try discriminate Di.
    apply dostep3 in E as [(X & _)|(M & _ & _ & e & r & i' & k0 & El & _ & _ & C)]; [discriminate| |exact R].
    destruct C as [(X & _)|(_ & Es & _)]; [discriminate|].
    assert (Ft : fit (dyn_all (F := F) FMI3 f) (sinst s)) by (apply (@fit_reach _ _ szof f s R); rewrite M; discriminate).
    destruct (loop3_walk (events_all FMI3 f env) _ _ Ft Em El) as (k & Hk & W & Ck & Fk).
    split. { rewrite Es. cbn. rewrite Ck. now destruct (bumps_fields m k (ctl (sinst s))) as (_ & _ & _ & _ & _ & -> & _). }
    exists k, i'. split; [exact Hk|]. split; [exact W|]. split.
    - intros j J. rewrite Es. now apply ncp_same.
    - apply (@clock_of F NF f k s s' (mode (ctl i')) (if r then nadd ccp h else time (ctl i'))). rewrite Es, <- Ck. cbn. destruct (ctl i'); reflexivity.
  Qed.
  Lemma cut3 fuel env : forall l s obs s' j, reach3 m szof s -> eventModeUsed (ctl (sinst s)) = false -> sameC j (sinst s) ->
    Forall (fun o => is_DoStep3 o = true) l -> run3 m szof fuel (map (fun o => (env, o)) l) s = Done (obs, s') -> Forall (fun x => fst (fst x) = OK) obs ->
    exists k j', k <= fuel * length l /\ walk3 m env k j j' /\ sameC j' (sinst s') /\ clock (m_step m) k s s'.
  Proof.
    induction l as [|o l IH]; intros s obs s' j R Em J Di E Ok.
    - inversion E; subst. exists 0, j. split; [lia|]. split; [reflexivity|]. split; [exact J|now apply clock_refl].
    - cbn [map] in E. apply run_cons in E as (st & out & s1 & t & obs' & E1 & E2 & ->). inversion Ok; subst. cbn in *. subst st. inversion Di; subst.
      assert (R1 : reach3 m szof s1) by (eapply reach3_call; [exact R| |exact E1]; destruct o; try discriminate; congruence).
      destruct (@cut3_call fuel env o s out s1 t R Em H1 E1) as (Em1 & k & i1 & Hk & W & S & C).
      destruct (@walk3_back _ _ m env P L (rel_env True false True FMI3 f env) k _ _ _ J W) as (j1 & Wj & J1).
      destruct (IH s1 obs' s' j1 R1 Em1 (S _ J1) H3 E2 H2) as (k' & j2 & Hk' & W' & S' & C').
      exists (k + k'), j2. split; [lia|]. split; [eapply walk3_app; eauto|]. split; [exact S'|]. eapply clock_trans; eauto.
  Qed.

  Theorem trajectory3 fuel env l1 l2 s obs1 obs2 s1 s2 : reach3 m szof s -> eventModeUsed (ctl (sinst s)) = false ->
    Forall (fun o => is_DoStep3 o = true) l1 -> Forall (fun o => is_DoStep3 o = true) l2 ->
    run3 m szof fuel (map (fun o => (env, o)) l1) s = Done (obs1, s1) -> Forall (fun x => fst (fst x) = OK) obs1 ->
    run3 m szof fuel (map (fun o => (env, o)) l2) s = Done (obs2, s2) -> Forall (fun x => fst (fst x) = OK) obs2 ->
    (steps_of s + N.of_nat (fuel * length l1) < two64)%N -> (steps_of s + N.of_nat (fuel * length l2) < two64)%N ->
    steps_of s1 = steps_of s2 ->
    time_of s1 = time_of s2 /\ forall e, reads_same m szof e s1 s2.
  Proof.
    intros R Em D1 D2 E1 O1 E2 O2 L1 L2 Es.
    assert (S0 : sameC (sinst s) (sinst s)) by (eapply instR_weaken; [| |exact (refl3 R)]; tauto).
    destruct (@cut3 fuel env l1 s obs1 s1 _ R Em S0 D1 E1 O1) as (k1 & i1 & K1 & W1 & S1 & C1).
    destruct (@cut3 fuel env l2 s obs2 s2 _ R Em S0 D2 E2 O2) as (k2 & i2 & K2 & W2 & S2 & C2).
    assert (k1 = k2) by (eapply walk_det; [exact C1|exact C2|lia|lia|exact Es]). subst k2.
    assert (i2 = i1) by (eapply walk3_fun; [exact W2|exact W1]); subst i2.
    split; [destruct C1 as (-> & _), C2 as (-> & _); reflexivity|].
    intro e. eapply same_reads3; eauto.
  Qed.
End Three.

Section Two.
  Context {F : Type} {NF : Num F} (szof : N) (f : FMU).
  Hypothesis Bf : built2 f = true.
  Notation m := (model_of (F := F) FMI2 f).
  Notation D := (md m).
  Notation P := (rel (F := F) True false True FMI2 f).
  Notation sameC := (instR m P False True).
  Let L : SimLaws m P := sim_all True false True FMI2 f.
  Let NX : r_cross P = false := rel_nocross True True FMI2 f.
  Let NS : f <> StateSpace. Proof. intros ->. discriminate. Qed.

  Lemma same_reads2 (s s1 s2 : Sys F D) i : sameC i (sinst s1) -> sameC i (sinst s2) -> forall e, reads_same2 m szof e s1 s2.
  Proof.
    intros A B e. split.
    - intros t vr vs (y & s' & tr & E). exists y.
      cbn [exec2] in E |- *. rewrite outI_eq in E |- *.
      pose proof (@same2_Get _ m P e L (rel_env True false True FMI2 f e) NX False True t (Some [vr]) 1 (Some [y]) _ _ A) as G1.
      pose proof (@same2_Get _ m P e L (rel_env True false True FMI2 f e) NX False True t (Some [vr]) 1 (Some [y]) _ _ B) as G2.
      destruct (fmi2GetV m e t (Some [vr]) 1 (Some [y]) (sinst s1)) as [[[[st1 x1] i1] t1]| |]; try discriminate.
      destruct (fmi2GetV m e t (Some [vr]) 1 (Some [y]) i) as [[[[st x] i'] t']| |]; cbn in G1; try tauto.
      destruct (fmi2GetV m e t (Some [vr]) 1 (Some [y]) (sinst s2)) as [[[[st2 x2] i2] t2]| |]; cbn in G2; try tauto.
      destruct G1 as ((G1 & _) & _), G2 as ((G2 & _) & _). injection G1 as -> ->. injection G2 as <- <-.
      assert (st1 = OK /\ OVals (F := F) (D := D) t x1 = OVals t (Some [vs])) as (Hs & Hx).
      { split; [exact (f_equal (fun r => match r with Done (a, _, _, _) => a | _ => Fatal end) E)|].
        exact (f_equal (fun r => match r with Done (_, a, _, _) => a | _ => OVals t x1 end) E). }
      rewrite Hs, Hx. do 2 eexists. reflexivity.
    - intros vr b (y & s' & tr & E). exists y.
      cbn [exec2] in E |- *. rewrite outI_eq in E |- *.
      assert (G : forall E S, Sim3.same m P E S (fmi2GetBoolean m e (Some [vr]) 1 (Some [y]))).
      { intros E0 S0. unfold fmi2GetBoolean. apply same2_BEGIN; [exact NX|]. apply same2_getBoolean_loop; auto. exact (rel_env True false True FMI2 f e). }
      pose proof (G False True _ _ A) as G1. pose proof (G False True _ _ B) as G2. clear G.
      destruct (fmi2GetBoolean m e (Some [vr]) 1 (Some [y]) (sinst s1)) as [[[[st1 x1] i1] t1]| |]; try discriminate.
      destruct (fmi2GetBoolean m e (Some [vr]) 1 (Some [y]) i) as [[[[st x] i'] t']| |]; cbn in G1; try tauto.
      destruct (fmi2GetBoolean m e (Some [vr]) 1 (Some [y]) (sinst s2)) as [[[[st2 x2] i2] t2]| |]; cbn in G2; try tauto.
      destruct G1 as ((G1 & _) & _), G2 as ((G2 & _) & _). injection G1 as -> ->. injection G2 as <- <-.
      injection E; intros; subst. do 2 eexists. reflexivity.
  Qed.
  Lemma refl2 s : reach2 m szof s -> instR m P True True (sinst s) (sinst s).
  Proof. intro R. pose proof (rel_diag2 True True FMI2 f R) as [[_ H] _]. exact H. Qed.
  Lemma ncp_same2 j i p : sameC j i -> sameC j (set_ctl (set_nextCommunicationPoint p (ctl i)) i).
  Proof. intros [C U S]. constructor; [|exact U|exact S]. destruct C. constructor; cbn; auto; tauto. Qed.

  Lemma cut2_call fuel env o s st out s' t : reach2 m szof s -> is_DoStep2 o = true -> st <> Error ->
    exec2 m szof fuel env o s = Done (st, out, s', t) ->
    exists k i', k <= fuel /\ walk2 m env k (sinst s) i' /\ (forall j, sameC j i' -> sameC j (sinst s')) /\ clock (m_step m) k s s'.
  Proof.
    intros R Di Ne E. destruct o; try discriminate Di.
    apply (dostep2 NS) in E as [(X & _)|(M & _ & _ & r & i' & k0 & El & _ & _ & Es)]; [congruence| |exact R].
    destruct (loop2_walk (events_all FMI2 f env) _ _ (@fit_reach2 _ _ szof f s NS R) Ne El) as (k & Hk & W & Ck & Fk).
    exists k, i'. split; [exact Hk|]. split; [exact W|]. split.
    - intros j J. rewrite Es. destruct r; [now apply ncp_same2|exact J].
    - apply (@clock_of2 F NF f k s s' (mode (ctl i')) (if r then nadd ccp h else nextCommunicationPoint (ctl i'))). rewrite Es, <- Ck. destruct r; cbn; destruct (ctl i'); reflexivity.
  Qed.
  Lemma cut2 fuel env : forall l s obs s' j, reach2 m szof s -> sameC j (sinst s) ->
    Forall (fun o => is_DoStep2 o = true) l -> run2 m szof fuel (map (fun o => (env, o)) l) s = Done (obs, s') -> Forall (fun x => fst (fst x) <> Error) obs ->
    exists k j', k <= fuel * length l /\ walk2 m env k j j' /\ sameC j' (sinst s') /\ clock (m_step m) k s s'.
  Proof.
    induction l as [|o l IH]; intros s obs s' j R J Di E Ok.
    - inversion E; subst. exists 0, j. split; [lia|]. split; [reflexivity|]. split; [exact J|now apply clock_refl].
    - cbn [map] in E. apply run_cons in E as (st & out & s1 & t & obs' & E1 & E2 & ->). inversion Ok; subst. cbn in *. inversion Di; subst.
      assert (R1 : reach2 m szof s1) by (eapply reach2_call; [exact R| |exact E1]; destruct o; try discriminate; congruence).
      destruct (@cut2_call fuel env o s st out s1 t R H3 H1 E1) as (k & i1 & Hk & W & S & C).
      destruct (@walk2_back _ _ m env P L (rel_env True false True FMI2 f env) k _ _ _ J W) as (j1 & Wj & J1).
      destruct (IH s1 obs' s' j1 R1 (S _ J1) H4 E2 H2) as (k' & j2 & Hk' & W' & S' & C').
      exists (k + k'), j2. split; [lia|]. split; [eapply walk2_app; eauto|]. split; [exact S'|]. eapply clock_trans; eauto.
  Qed.
  Theorem trajectory2 fuel env l1 l2 s obs1 obs2 s1 s2 : reach2 m szof s ->
    Forall (fun o => is_DoStep2 o = true) l1 -> Forall (fun o => is_DoStep2 o = true) l2 ->
    run2 m szof fuel (map (fun o => (env, o)) l1) s = Done (obs1, s1) -> Forall (fun x => fst (fst x) <> Error) obs1 ->
    run2 m szof fuel (map (fun o => (env, o)) l2) s = Done (obs2, s2) -> Forall (fun x => fst (fst x) <> Error) obs2 ->
    (steps_of s + N.of_nat (fuel * length l1) < two64)%N -> (steps_of s + N.of_nat (fuel * length l2) < two64)%N ->
    steps_of s1 = steps_of s2 ->
    time_of s1 = time_of s2 /\ forall e, reads_same2 m szof e s1 s2.
  Proof.
    intros R D1 D2 E1 O1 E2 O2 L1 L2 Es.
    assert (S0 : sameC (sinst s) (sinst s)) by (eapply instR_weaken; [| |exact (refl2 R)]; tauto).
    destruct (@cut2 fuel env l1 s obs1 s1 _ R S0 D1 E1 O1) as (k1 & i1 & K1 & W1 & S1 & C1).
    destruct (@cut2 fuel env l2 s obs2 s2 _ R S0 D2 E2 O2) as (k2 & i2 & K2 & W2 & S2 & C2).
    assert (k1 = k2) by (eapply walk_det; [exact C1|exact C2|lia|lia|exact Es]). subst k2.
    assert (i2 = i1) by (eapply walk2_fun; [exact W2|exact W1]); subst i2.
    split; [destruct C1 as (-> & _), C2 as (-> & _); reflexivity|].
    intro e. eapply same_reads2; eauto.
  Qed.
End Two.
