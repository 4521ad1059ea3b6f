(** Mx2.v -- proofs of C52 and C53: event update, output derivatives, completed integrator steps, status functions. *)
From Coq Require Import List NArith ZArith Bool Arith Lia.
From Verif Require Import Base Instance ModelIface Core Fmi3 Fmi2 Api Fmus Logic Calls LawsFmus SpecModes SpecCreate SpecState Gate Effect Reach Histories
  FmuBouncingBall FmuDahlquist FmuStair FmuVanDerPol FmuRoberts FmuClocks FmuResource FmuStateSpace FmuFeedthrough
  Sim SimSS SpecVars SpecEqs SpecSteps Vars VarsFmus DataFmus Data Vars2 Data2 Dyn Solver Fits SpecEuler SpecOde Ode Flags Modes Steps StepProps SpecMx Mx.
Import ListNotations.
Set Implicit Arguments.

Section Events.
  Context {F : Type} {NF : Num F} (szof : N).

  (** The event update of the model itself. *)
  Definition info_of {D} (u : Mut F D) : EventInfo F :=
    mkEventInfo (newDiscreteStatesNeeded u) (terminateSimulation u) (nominalsChanged u) (valuesChanged u) (nextEventTimeDefined u) (nextEventTime u).
  Lemma update3_eq f env fuel s : reach3 (model_of (F := F) FMI3 f) szof s ->
    forall u', (if m_eventUpdate (model_of (F := F) FMI3 f) then m_eventUpdateF (model_of (F := F) FMI3 f) env (ctl (sinst s)) (mut (sinst s)) = Done (OK, u', []) else u' = mut (sinst s)) ->
    exec3 (model_of FMI3 f) szof fuel env O3UpdateDiscreteStates s =
      Done (OK, OEventInfo (Some (info_of u')), mkSys (set_mut u' (sinst s)) (heap s), []).
  Proof.
    intros R u' H. cbn [exec3]. rewrite outI_eq. unfold fmi3UpdateDiscreteStates.
    rewrite BEGIN_pass by exact (any_state f R).
    destruct (m_eventUpdate (model_of FMI3 f)).
    - match goal with |- context [bind (call ?mm env _) ?g ?ii] => pose proof (@bind_call_done _ mm env _ _ _ g ii _ _ H) as G' end.
      rewrite G'. rewrite CALLk_ok, bind_getM. reflexivity.
    - subst u'. rewrite bind_getM. cbn [ret]. destruct s as [[c u so] h]. reflexivity.
  Qed.
  Lemma update2_eq f env fuel s : mode_of s = EventMode ->
    forall u', (if m_eventUpdate (model_of (F := F) FMI2 f) then m_eventUpdateF (model_of (F := F) FMI2 f) env (ctl (sinst s)) (mut (sinst s)) = Done (OK, u', []) else u' = mut (sinst s)) ->
    exec2 (model_of FMI2 f) szof fuel env (O2NewDiscreteStates true) s =
      Done (OK, OEventInfo (Some (info_of u')), mkSys (set_mut u' (sinst s)) (heap s), []).
  Proof.
    intros M u' H. cbn [exec2]. rewrite outI_eq. unfold fmi2NewDiscreteStates.
    rewrite BEGIN2_pass by (unfold mode_of in M; rewrite M; discriminate).
    destruct (m_eventUpdate (model_of FMI2 f)).
    - match goal with |- context [bind (call ?mm env _) ?g ?ii] => pose proof (@bind_call_done _ mm env _ _ _ g ii _ _ H) as G' end.
      rewrite G'. rewrite CALLk_ok, bind_getM. reflexivity.
    - subst u'. rewrite bind_getM. cbn [ret]. destruct s as [[c u so] h]. reflexivity.
  Qed.

  (** FMUs without events of their own. *)
  Definition eventless (f : FMU) : Prop := f <> BouncingBall /\ f <> Stair.
  Lemma eventless_update v f env (c : Ctl F) (u : Mut F (md (model_of v f))) : eventless f -> flags v f u ->
    exists u', (if m_eventUpdate (model_of (F := F) v f) then m_eventUpdateF (model_of (F := F) v f) env c u = Done (OK, u', []) else u' = u) /\
      info_of u' = only_values false /\ data u' = data u /\ (depicts f = false -> u' = u).
  Proof.
    intros (N1 & N2) G. destruct u. destruct f; try congruence; cbn [flags] in G; unfold quietRO, calmU, quiet, idle in G; cbn in G;
      decompose [and] G; subst; eexists; (split; [reflexivity|]); split; try reflexivity; split; try reflexivity; discriminate.
  Qed.
  Theorem update_eventless_3 f env fuel s : eventless f -> reach3 (model_of (F := F) FMI3 f) szof s ->
    exists s', exec3 (model_of FMI3 f) szof fuel env O3UpdateDiscreteStates s = Done (OK, OEventInfo (Some (only_values false)), s', []) /\
      mode_of s' = mode_of s /\ forall e, reads_same (model_of FMI3 f) szof e s s'.
  Proof.
    intros Hf R. destruct (@eventless_update FMI3 f env (ctl (sinst s)) (mut (sinst s)) Hf (@flags_reach3 F NF szof FMI3 f s R)) as (u' & H & I & Dd & P).
    pose proof (@update3_eq f env fuel s R u' H) as E. rewrite I in E.
    eexists. split; [exact E|]. split; [reflexivity|]. intros e t vr vs G.
    assert (R' : reach3 (model_of FMI3 f) szof (mkSys (set_mut u' (sinst s)) (heap s))) by (eapply reach3_call; [exact R| |exact E]; discriminate).
    destruct (depicts f) eqn:Ef.
    - apply (@get3_iff _ _ szof f e s t vr vs Ef R) in G. apply (@get3_iff _ _ szof f e _ t vr vs Ef R').
      rewrite <- G. unfold peek. cbn [ctl mut set_mut sinst]. now rewrite Dd.
    - rewrite (P eq_refl). destruct s as [[c u so] h]. exact G.
  Qed.
  Theorem update_eventless_2 f env fuel s : eventless f -> built2 f = true -> reach2 (model_of (F := F) FMI2 f) szof s -> mode_of s = EventMode ->
    exists s', exec2 (model_of FMI2 f) szof fuel env (O2NewDiscreteStates true) s = Done (OK, OEventInfo (Some (only_values false)), s', []) /\
      mode_of s' = mode_of s /\ forall e t vr x, get2 (model_of FMI2 f) szof e s t vr x -> get2 (model_of FMI2 f) szof e s' t vr x.
  Proof.
    intros Hf Bf R M. destruct (@eventless_update FMI2 f env (ctl (sinst s)) (mut (sinst s)) Hf (@flags_reach2 F NF szof FMI2 f s R)) as (u' & H & I & Dd & P).
    pose proof (@update2_eq f env fuel s M u' H) as E. rewrite I in E.
    eexists. split; [exact E|]. split; [reflexivity|]. intros e t vr x G.
    assert (R' : reach2 (model_of FMI2 f) szof (mkSys (set_mut u' (sinst s)) (heap s))) by (eapply reach2_call; [exact R| |exact E]; discriminate).
    destruct (depicts f) eqn:Ef.
    - apply (@get2_iff' _ _ szof f e s t vr x Ef Bf R) in G. destruct G as (G1 & G). apply (@get2_iff' _ _ szof f e _ t vr x Ef Bf R'). split; [exact G1|].
      rewrite <- G. unfold peek. cbn [ctl mut set_mut sinst]. now rewrite Dd.
    - rewrite (P eq_refl). destruct s as [[c u so] h]. exact G.
  Qed.

  (** BouncingBall *)
  Lemma ball_update v env (c : Ctl F) (u : Mut F (BBData F)) : flags v BouncingBall u ->
    exists u', m_eventUpdateF (model_of (F := F) v BouncingBall) env c u = Done (OK, u', []) /\
      info_of u' = only_values (bb_bounces (data u)) /\ data u' = if bb_bounces (data u) then bb_bounce (data u) else data u.
  Proof.
    intro G. destruct u. cbn [flags] in G; unfold calmU, quiet, idle in G; cbn in G. decompose [and] G; subst.
    cbn [m_eventUpdateF model_of BouncingBall_model]. unfold bb_eventUpdate. rewrite data_ok. cbn [Instance.data].
    destruct (bb_bounces data) eqn:Eb; eexists; (split; [reflexivity|]); split; reflexivity.
  Qed.
  Lemma ball_peek v env (c : Ctl F) so (u u' : Mut F (BBData F)) :
    data u' = (if bb_bounces (data u) then bb_bounce (data u) else data u) ->
    ball_event (fun vr x => peek (vars_all v BouncingBall) env (mkInst c u so) TFloat64 vr = Some [x])
      (fun vr x => peek (vars_all v BouncingBall) env (mkInst c u' so) TFloat64 vr = Some [x]) (bb_bounces (data u)).
  Proof.
    intro E. set (d := data u) in *. set (d' := data u') in *.
    exists (bb_h d), (bb_v d), (bb_g d), (bb_e d), V_MIN, (bb_h d'), (bb_v d'), (bb_g d').
    do 8 (split; [reflexivity|]). split; [|split; [|split]].
    - assert (Ee : bb_e d' = bb_e d) by (rewrite E; unfold bb_bounce; destruct (bb_bounces d), (nlt (nmul (nopp (bb_v d)) (bb_e d)) V_MIN); reflexivity).
      rewrite <- Ee. reflexivity.
    - unfold bb_bounces. now rewrite andb_true_iff.
    - intro H. rewrite H in E. rewrite E. unfold bounce, bb_bounce. destruct (nlt (nmul (nopp (bb_v d)) (bb_e d)) V_MIN) eqn:El; cbn; auto 10.
    - intro H. rewrite H in E. rewrite E. auto.
  Qed.
  Lemma ball_map (g1 g1' g2 g2' : N -> F -> Prop) b : (forall vr x, g1 vr x -> g2 vr x) -> (forall vr x, g1' vr x -> g2' vr x) ->
    ball_event g1 g1' b -> ball_event g2 g2' b.
  Proof.
    intros H H' (h & v & g & e & vm & h' & v' & g' & A1 & A2 & A3 & A4 & A5 & A6 & A7 & A8 & A9 & A). exists h, v, g, e, vm, h', v', g'.
    repeat (split; [auto; fail|]). exact A.
  Qed.
  Theorem update_ball_3 env fuel s : reach3 (model_of (F := F) FMI3 BouncingBall) szof s ->
    exists changed s', exec3 (model_of FMI3 BouncingBall) szof fuel env O3UpdateDiscreteStates s = Done (OK, OEventInfo (Some (only_values changed)), s', []) /\
      mode_of s' = mode_of s /\
      forall e, ball_event (fun vr x => get3 (model_of FMI3 BouncingBall) szof e s TFloat64 vr [x])
        (fun vr x => get3 (model_of FMI3 BouncingBall) szof e s' TFloat64 vr [x]) changed.
  Proof.
    intros R. destruct (@ball_update FMI3 env (ctl (sinst s)) (mut (sinst s)) (@flags_reach3 F NF szof FMI3 BouncingBall s R)) as (u' & H & I & Dd).
    pose proof (@update3_eq BouncingBall env fuel s R u' H) as E. rewrite I in E.
    eexists _, _. split; [exact E|]. split; [reflexivity|]. intros e.
    assert (R' : reach3 (model_of FMI3 BouncingBall) szof (mkSys (set_mut u' (sinst s)) (heap s))) by (eapply reach3_call; [exact R| |exact E]; discriminate).
    eapply ball_map; [| |exact (@ball_peek FMI3 e (ctl (sinst s)) (sol (sinst s)) (mut (sinst s)) u' Dd)]; cbv beta.
    - intros vr x G. apply (@get3_iff _ _ szof BouncingBall e s TFloat64 vr [x] eq_refl R). destruct s as [[c u so] h]. exact G.
    - intros vr x G. apply (@get3_iff _ _ szof BouncingBall e _ TFloat64 vr [x] eq_refl R'). exact G.
  Qed.
  Theorem update_ball_2 env fuel s : reach2 (model_of (F := F) FMI2 BouncingBall) szof s -> mode_of s = EventMode ->
    exists changed s', exec2 (model_of FMI2 BouncingBall) szof fuel env (O2NewDiscreteStates true) s = Done (OK, OEventInfo (Some (only_values changed)), s', []) /\
      mode_of s' = mode_of s /\
      forall e, ball_event (fun vr x => get2 (model_of FMI2 BouncingBall) szof e s TFloat64 vr x)
        (fun vr x => get2 (model_of FMI2 BouncingBall) szof e s' TFloat64 vr x) changed.
  Proof.
    intros R M. destruct (@ball_update FMI2 env (ctl (sinst s)) (mut (sinst s)) (@flags_reach2 F NF szof FMI2 BouncingBall s R)) as (u' & H & I & Dd).
    pose proof (@update2_eq BouncingBall env fuel s M u' H) as E. rewrite I in E.
    eexists _, _. split; [exact E|]. split; [reflexivity|]. intros e.
    assert (R' : reach2 (model_of FMI2 BouncingBall) szof (mkSys (set_mut u' (sinst s)) (heap s))) by (eapply reach2_call; [exact R| |exact E]; discriminate).
    assert (M2 : N.land (bit2 (mode_of s)) MASK2_GetReal <> 0%N) by (rewrite M; discriminate).
    eapply ball_map; [| |exact (@ball_peek FMI2 e (ctl (sinst s)) (sol (sinst s)) (mut (sinst s)) u' Dd)]; cbv beta.
    - intros vr x G. apply (@get2_iff' _ _ szof BouncingBall e s TFloat64 vr x eq_refl eq_refl R). split; [exact M2|]. destruct s as [[c u so] h]. exact G.
    - intros vr x G. apply (@get2_iff' _ _ szof BouncingBall e _ TFloat64 vr x eq_refl eq_refl R'). split; [exact M2|exact G].
  Qed.

  (** Stair *)
  Definition due_ (c : Ctl F) (u : Mut F STData) : bool := nextEventTimeDefined u && isClose (time c) (nextEventTime u).
  Lemma stair_update v env (c : Ctl F) (u : Mut F STData) : flags v Stair u -> (- 2147483648 <= st_counter (data u) < 2147483647)%Z ->
    let k := (if due_ c u then st_counter (data u) + 1 else st_counter (data u))%Z in
    let tn := if due_ c u then nadd (nextEventTime u) (nlit 1 0) else nextEventTime u in
    exists u', data u' = mkST k /\ 
      if Z.leb k 10
      then m_eventUpdateF (model_of (F := F) v Stair) env c u = Done (OK, u', []) /\ info_of u' = mkEventInfo false (Z.leb 10 k) false false true tn
      else m_eventUpdateF (model_of (F := F) v Stair) env c u = Done (Error, u', warn c).
  Proof.
    intros G B k tn. destruct u. cbn [flags] in G; unfold calmST, idle in G; cbn in G. decompose [and] G; subst.
    assert (Hi : in_int (st_counter data + 1) = true).
    { unfold in_int, INT_MIN, INT_MAX. apply andb_true_iff. split; apply Z.leb_le; cbn in B; lia. }
    unfold k, tn, due_. cbn [Instance.data Instance.nextEventTimeDefined Instance.nextEventTime].
    cbn [m_eventUpdateF model_of Stair_model]. unfold st_eventUpdate, st_tick, fail, mlogError, warn.
    cbv [mbind mret mget mctl mdata mmodd mmod bind ret getS modS mub ubM set_data Instance.data Instance.nextEventTimeDefined Instance.nextEventTime].
    rewrite Hi. destruct (nextEventTimeDefined && isClose (time c) nextEventTime); cbn [app];
      cbv [set_nextEventTime st_counter Instance.data Instance.nextEventTimeDefined Instance.nextEventTime]; fold (st_counter data);
      rewrite Z.ltb_antisym.
    - destruct (Z.leb (st_counter data + 1) 10) eqn:L; cbn [negb].
      + eexists. split; [|split; [reflexivity|reflexivity]]. reflexivity.
      + destruct (logErrors c && hasLogger c); (eexists; split; [|reflexivity]; reflexivity).
    - destruct (Z.leb (st_counter data) 10) eqn:L; cbn [negb].
      + eexists. split; [|split; [reflexivity|reflexivity]]. destruct data; reflexivity.
      + destruct (logErrors c && hasLogger c); (eexists; split; [|reflexivity]; destruct data; reflexivity).
  Qed.
  Theorem update_stair_3 env fuel s c : reach3 (model_of (F := F) FMI3 Stair) szof s ->
    get3 (model_of FMI3 Stair) szof env s TInt32 1 [c] -> (- 2147483648 <= c < 2147483647)%Z ->
    exists c' info s', stair_event s c c' info /\
      (if Z.leb c' 10
       then exec3 (model_of FMI3 Stair) szof fuel env O3UpdateDiscreteStates s = Done (OK, OEventInfo (Some info), s', []) /\ mode_of s' = mode_of s
       else exists tr, exec3 (model_of FMI3 Stair) szof fuel env O3UpdateDiscreteStates s = Done (Error, OEventInfo None, s', tr) /\ mode_of s' = Terminated) /\
      get3 (model_of FMI3 Stair) szof env s' TInt32 1 [c'].
  Proof.
    intros R G B. pose proof G as G0. apply (@get3_iff _ _ szof Stair env s TInt32 1%N [c] eq_refl R) in G. injection G as G.
    subst c.
    destruct (@stair_update FMI3 env (ctl (sinst s)) (mut (sinst s)) (@flags_reach3 F NF szof FMI3 Stair s R) B) as (u' & Dd & H).
    match type of Dd with data u' = mkST ?K => set (k := K) in * end.
    assert (P : forall i' : Inst F STData, data (mut i') = data u' -> peek (vars_all FMI3 Stair) env i' TInt32 1 = Some [k]) by (intros i' Ei; rewrite Dd in Ei; unfold peek; cbn -[k]; rewrite Ei; reflexivity).
    exists k, (mkEventInfo false (Z.leb 10 k) false false true (if due s then nadd (nextEventTime (mut (sinst s))) (nlit 1 0) else nextEventTime (mut (sinst s)))).
    assert (S : stair_event s (st_counter (data (mut (sinst s)))) k (mkEventInfo false (Z.leb 10 k) false false true (if due s then nadd (nextEventTime (mut (sinst s))) (nlit 1 0) else nextEventTime (mut (sinst s))))).
    { split; reflexivity. }
    destruct (Z.leb k 10) eqn:L.
    - destruct H as (H & I). pose proof (eq_trans (@update3_eq Stair env fuel s R u' H) (f_equal (fun q => Done (OK, OEventInfo (Some q), mkSys (set_mut u' (sinst s)) (heap s), [])) I)) as E.
      assert (R' : reach3 (model_of FMI3 Stair) szof (mkSys (set_mut u' (sinst s)) (heap s))) by (eapply reach3_call; [exact R| |exact E]; discriminate).
      exists (mkSys (set_mut u' (sinst s)) (heap s)). split; [exact S|]. split.
      + split; [exact E|reflexivity].
      + apply (@get3_iff _ _ szof Stair env _ TInt32 1%N _ eq_refl R'). apply P. reflexivity.
    - assert (E : exec3 (model_of FMI3 Stair) szof fuel env O3UpdateDiscreteStates s =
        Done (Error, OEventInfo None, mkSys (set_ctl (set_mode Terminated (ctl (sinst s))) (set_mut u' (sinst s))) (heap s), warn (ctl (sinst s)))).
      { cbn [exec3]. rewrite outI_eq. unfold fmi3UpdateDiscreteStates. rewrite BEGIN_pass by exact (any_state Stair R).
        cbn [m_eventUpdate model_of Stair_model]. unfold bind at 1, call. cbn [model_of] in H. rewrite H. rewrite CALLk_err. now rewrite app_nil_r. }
      assert (R' : reach3 (model_of FMI3 Stair) szof (mkSys (set_ctl (set_mode Terminated (ctl (sinst s))) (set_mut u' (sinst s))) (heap s))) by (eapply reach3_call; [exact R| |exact E]; discriminate).
      eexists. split; [exact S|]. split.
      + eexists. split; [exact E|reflexivity].
      + apply (@get3_iff _ _ szof Stair env _ TInt32 1%N _ eq_refl R'). apply P. reflexivity.
  Qed.
  Theorem update_stair_2 env fuel s c : reach2 (model_of (F := F) FMI2 Stair) szof s -> mode_of s = EventMode ->
    get2 (model_of FMI2 Stair) szof env s TInt32 1 c -> (- 2147483648 <= c < 2147483647)%Z ->
    exists c' info s', stair_event s c c' info /\
      (if Z.leb c' 10
       then exec2 (model_of FMI2 Stair) szof fuel env (O2NewDiscreteStates true) s = Done (OK, OEventInfo (Some info), s', []) /\ mode_of s' = mode_of s
       else exists tr, exec2 (model_of FMI2 Stair) szof fuel env (O2NewDiscreteStates true) s = Done (Error, OEventInfo None, s', tr) /\ mode_of s' = Terminated) /\
      get2 (model_of FMI2 Stair) szof env s' TInt32 1 c'.
  Proof.
    intros R M G B. pose proof G as G0. apply (@get2_iff' _ _ szof Stair env s TInt32 1%N c eq_refl eq_refl R) in G. destruct G as (M2 & G). injection G as G.
    subst c.
    destruct (@stair_update FMI2 env (ctl (sinst s)) (mut (sinst s)) (@flags_reach2 F NF szof FMI2 Stair s R) B) as (u' & Dd & H).
    match type of Dd with data u' = mkST ?K => set (k := K) in * end.
    assert (P : forall i' : Inst F STData, data (mut i') = data u' -> peek (vars_all FMI2 Stair) env i' TInt32 1 = Some [k]) by (intros i' Ei; rewrite Dd in Ei; unfold peek; cbn -[k]; rewrite Ei; reflexivity).
    exists k, (mkEventInfo false (Z.leb 10 k) false false true (if due s then nadd (nextEventTime (mut (sinst s))) (nlit 1 0) else nextEventTime (mut (sinst s)))).
    assert (S : stair_event s (st_counter (data (mut (sinst s)))) k (mkEventInfo false (Z.leb 10 k) false false true (if due s then nadd (nextEventTime (mut (sinst s))) (nlit 1 0) else nextEventTime (mut (sinst s))))).
    { split; reflexivity. }
    destruct (Z.leb k 10) eqn:L.
    - destruct H as (H & I). pose proof (eq_trans (@update2_eq Stair env fuel s M u' H) (f_equal (fun q => Done (OK, OEventInfo (Some q), mkSys (set_mut u' (sinst s)) (heap s), [])) I)) as E.
      assert (R' : reach2 (model_of FMI2 Stair) szof (mkSys (set_mut u' (sinst s)) (heap s))) by (eapply reach2_call; [exact R| |exact E]; discriminate).
      exists (mkSys (set_mut u' (sinst s)) (heap s)). split; [exact S|]. split.
      + split; [exact E|reflexivity].
      + apply (@get2_iff' _ _ szof Stair env _ TInt32 1%N _ eq_refl eq_refl R'). split; [exact M2|]. apply P. reflexivity.
    - assert (E : exec2 (model_of FMI2 Stair) szof fuel env (O2NewDiscreteStates true) s =
        Done (Error, OEventInfo None, mkSys (set_ctl (set_mode Terminated (ctl (sinst s))) (set_mut u' (sinst s))) (heap s), warn (ctl (sinst s)))).
      { cbn [exec2]. rewrite outI_eq. unfold fmi2NewDiscreteStates. rewrite BEGIN2_pass by (unfold mode_of in M; rewrite M; discriminate).
        cbn [m_eventUpdate model_of Stair_model]. unfold bind at 1, call. cbn [model_of] in H. rewrite H. rewrite CALLk_err. now rewrite app_nil_r. }
      assert (R' : reach2 (model_of FMI2 Stair) szof (mkSys (set_ctl (set_mode Terminated (ctl (sinst s))) (set_mut u' (sinst s))) (heap s))) by (eapply reach2_call; [exact R| |exact E]; discriminate).
      eexists. split; [exact S|]. split.
      + eexists. split; [exact E|reflexivity].
      + apply (@get2_iff' _ _ szof Stair env _ TInt32 1%N _ eq_refl eq_refl R'). split; [discriminate|]. apply P. reflexivity.
  Qed.
End Events.

Section Others.
  Context {F : Type} {NF : Num F} (szof : N).

  (** CompletedIntegratorStep *)
  Theorem completed_3 f env fuel (s : Sys F (md (model_of FMI3 f))) : mode_of s = ContinuousTimeMode ->
    exec3 (model_of FMI3 f) szof fuel env (O3CompletedIntegratorStep (Some tt) (Some tt)) s = Done (OK, OFlags (Some (false, false)), s, []).
  Proof.
    intro M. cbn [exec3]. rewrite outI_eq. unfold fmi3CompletedIntegratorStep. rewrite BEGIN_pass by (unfold mode_of in M; rewrite M; discriminate).
    destruct s. reflexivity.
  Qed.
  Theorem completed_2 f env fuel (s : Sys F (md (model_of FMI2 f))) : mode_of s = ContinuousTimeMode ->
    exec2 (model_of FMI2 f) szof fuel env (O2CompletedIntegratorStep (Some tt) (Some tt)) s = Done (OK, OFlags (Some (false, false)), s, []).
  Proof.
    intro M. cbn [exec2]. rewrite outI_eq. unfold fmi2CompletedIntegratorStep. rewrite BEGIN2_pass by (unfold mode_of in M; rewrite M; discriminate).
    destruct s. reflexivity.
  Qed.

  (** Output derivatives of BouncingBall *)
  Definition der_of (d : BBData F) (vr : N) : F := if N.eqb vr 1 then bb_v d else bb_g d.
  Definition offer (vr : N) (o : Z) : bool := (N.eqb vr 1 || N.eqb vr 3) && Z.eqb o 1.
  Lemma offer_spec vr o : offer vr o = true <-> offered vr o.
  Proof. unfold offer, offered. now rewrite andb_true_iff, orb_true_iff, !N.eqb_eq, Z.eqb_eq. Qed.
  Lemma bb_od v env (c : Ctl F) (u : Mut F (md (model_of v BouncingBall))) vr o :
    if offer vr o
    then exists u', m_getOutputDerivative (model_of (F := F) v BouncingBall) false vr o env c u = Done ((OK, Some (der_of (data u) vr)), u', []) /\ data u' = data u
    else exists u' t, m_getOutputDerivative (model_of (F := F) v BouncingBall) false vr o env c u = Done ((Error, None), u', t).
  Proof.
    unfold offer, der_of. cbn [m_getOutputDerivative model_of BouncingBall_model]. unfold bb_getOutputDerivative, bb_calculateValues.
    cbv [mbind mret mget mctl mdata mmodd mmod bind ret getS modS mlogError].
    destruct (Z.eqb o 1); cbn [negb]; rewrite ?andb_true_r, ?andb_false_r.
    - unfold bb_var. destruct (N.eqb_spec vr 1) as [->|N1]; [eexists; split; reflexivity|]. cbn [orb].
      destruct (N.eqb_spec vr 3) as [->|N3]; [eexists; split; reflexivity|].
      destruct (N.eqb vr 0), (N.eqb vr 2), (N.eqb vr 4), (N.eqb vr 5), (N.eqb vr 6), (N.eqb vr 7), (logErrors c && hasLogger c); eexists _, _; reflexivity.
    - destruct (logErrors c && hasLogger c); eexists _, _; reflexivity.
  Qed.
  Fixpoint offers (vrs : list N) (os : list Z) : bool :=
    match vrs, os with vr :: vrs, o :: os => offer vr o && offers vrs os | _, _ => true end.
  Lemma offers_spec vrs os : length vrs = length os -> offers vrs os = true <-> Forall2 offered vrs os.
  Proof.
    revert os. induction vrs as [|vr vrs IH]; intros [|o os] L; try discriminate L; cbn.
    - split; constructor.
    - rewrite andb_true_iff, offer_spec, IH by (injection L; auto). split; [intros (A & B); constructor; auto|inversion 1; auto].
  Qed.
  Lemma od_loop v env vs2 : forall vs1 os1 os2 (xs b2 : list F) (i : Inst F (md (model_of v BouncingBall))), length os1 = length vs1 -> length xs = length vs1 ->
    length os2 = length vs2 -> length vs2 <= length b2 ->
    if offers vs2 os2
    then exists i', outputDerivative_loop (model_of (F := F) v BouncingBall) env (Some (vs1 ++ vs2)) (length vs2) (length vs1) (Some (os1 ++ os2)) (Some (xs ++ b2)) OK i =
           Done ((OK, Some (xs ++ map (der_of (data (mut i))) vs2 ++ skipn (length vs2) b2)), i', [])
    else exists b' i' t, outputDerivative_loop (model_of (F := F) v BouncingBall) env (Some (vs1 ++ vs2)) (length vs2) (length vs1) (Some (os1 ++ os2)) (Some (xs ++ b2)) OK i =
           Done ((Error, b'), i', t).
  Proof.
    induction vs2 as [|vr vs2 IH]; intros vs1 os1 os2 xs b2 i L1 Lx L2 Lb.
    - destruct os2; [|discriminate L2]. cbn. exists i. reflexivity.
    - destruct os2 as [|o os2]; [discriminate L2|]. destruct b2 as [|b b2]; [cbn in Lb; lia|].
      cbn [offers length outputDerivative_loop].
      pose proof (@bb_od v env (ctl i) (mut i) vr o) as H.
      assert (E1 : nth_error (vs1 ++ vr :: vs2) (length vs1) = Some vr) by (rewrite nth_error_app2, Nat.sub_diag by lia; reflexivity).
      assert (E2 : nth_error (os1 ++ o :: os2) (length vs1) = Some o) by (rewrite <- L1, nth_error_app2, Nat.sub_diag by lia; reflexivity).
      unfold rd. rewrite E1, E2, !bind_ret_l. cbn [isNull andb].
      destruct (offer vr o); cbn [andb].
      + destruct H as (u' & H & Dd).
        match goal with |- context [bind (call ?mm env _) ?g i] => pose proof (@bind_call_done _ mm env _ _ _ g i _ _ H) as G' end.
        rewrite G'. cbn [fst snd]. unfold wr at 1 2. 
        assert (Ll : Nat.ltb (length vs1) (length (xs ++ b :: b2)) = true) by (apply Nat.ltb_lt; rewrite app_length; cbn; lia).
        rewrite Ll, !bind_ret_l, !CALLk_ok.
        assert (Eu : upd (xs ++ b :: b2) (length vs1) (der_of (data (mut i)) vr) = (xs ++ [der_of (data (mut i)) vr]) ++ b2).
        { rewrite <- app_assoc. rewrite <- Lx. generalize (der_of (data (mut i)) vr). clear. intro y. induction xs; cbn; [reflexivity|]. now rewrite IHxs. }
        rewrite Eu.
        specialize (IH (vs1 ++ [vr]) (os1 ++ [o]) os2 (xs ++ [der_of (data (mut i)) vr]) b2 (set_mut u' i)).
        rewrite !app_length, <- !app_assoc in IH. cbn [length app] in IH. rewrite !Nat.add_1_r in IH.
        cbn [mut set_mut] in IH. rewrite Dd in IH. rewrite <- !app_assoc. cbn [app map skipn].
        cbn [length] in Lb. injection L2 as L2. apply IH; lia.
      + destruct H as (u' & t & H). unfold bind at 1, call. rewrite H. cbn [fst snd].
        rewrite bind_ret_l, CALLk_err. eexists _, _, _. reflexivity.
  Qed.

  Lemma Forall2_map A B (P Q : A -> B -> Prop) (H : forall x y, P x y -> Q x y) l l' : Forall2 P l l' -> Forall2 Q l l'.
  Proof. induction 1; constructor; auto. Qed.
  Lemma der_peek v env (i : Inst F (md (model_of v BouncingBall))) vr x : vr = 1%N \/ vr = 3%N ->
    x = der_of (data (mut i)) vr -> peek (vars_all v BouncingBall) env i TFloat64 (vr + 1) = Some [x].
  Proof. intros [->| ->] ->; reflexivity. Qed.
  Lemma ders_peek v env (i : Inst F (md (model_of v BouncingBall))) vrs os : Forall2 offered vrs os ->
    Forall2 (fun vr x => peek (vars_all v BouncingBall) env i TFloat64 (vr + 1) = Some [x]) vrs (map (der_of (data (mut i))) vrs).
  Proof. induction 1 as [|vr o vrs os (H & _) _ IH]; constructor; auto. now apply der_peek. Qed.
  Theorem out_ders_3 env fuel s vrs os b : reach3 (model_of (F := F) FMI3 BouncingBall) szof s ->
    mode_of s = StepMode \/ mode_of s = Terminated -> length os = length vrs -> length vrs <= length b ->
    answers (exec3 (model_of FMI3 BouncingBall) szof fuel env (O3GetOutputDerivatives (Some vrs) (length vrs) (Some os) (Some b)) s) b (length vrs)
      (fun _ => Forall2 offered vrs os) (Forall2 (fun vr x => get3 (model_of FMI3 BouncingBall) szof env s TFloat64 (vr + 1) [x]) vrs).
  Proof.
    intros R M L Lb. unfold answers. cbn [exec3]. rewrite outI_eq. unfold fmi3GetOutputDerivatives.
    rewrite BEGIN_pass by (unfold mode_of in M; destruct M as [M|M]; rewrite M; discriminate).
    cbn [m_outputDerivative model_of BouncingBall_model].
    pose proof (@od_loop FMI3 env vrs [] [] os [] b (sinst s) eq_refl eq_refl L Lb) as H. pose proof (offers_spec vrs os (eq_sym L)) as Q.
    destruct (offers vrs os) eqn:E.
    - destruct H as (i' & H). cbn [app length model_of] in H. rewrite H.
      eexists OK, _, _, _. split; [reflexivity|]. split; [auto|]. split; [rewrite <- Q; tauto|]. intros _.
      exists (map (der_of (data (mut (sinst s)))) vrs). split; [reflexivity|]. split; [apply map_length|].
      eapply Forall2_map; [|exact (ders_peek (v := FMI3) env (sinst s) (proj1 Q eq_refl))]. cbv beta. intros vr x Hx. now apply (@get3_iff F NF szof BouncingBall env s TFloat64 (vr + 1)%N [x] eq_refl R).
    - destruct H as (b' & i' & t & H). cbn [app length model_of] in H. rewrite H.
      eexists Error, _, _, _. split; [reflexivity|]. split; [auto|]. split; [rewrite <- Q; split; discriminate|discriminate].
  Qed.
  Theorem out_ders_2 env fuel s vrs os b : reach2 (model_of (F := F) FMI2 BouncingBall) szof s ->
    mode_of s = StepComplete \/ mode_of s = Terminated -> length os = length vrs -> length vrs <= length b ->
    answers (exec2 (model_of FMI2 BouncingBall) szof fuel env (O2GetRealOutputDerivatives (Some vrs) (length vrs) (Some os) (Some b)) s) b (length vrs)
      (fun _ => Forall2 offered vrs os) (Forall2 (fun vr x => get2 (model_of FMI2 BouncingBall) szof env s TFloat64 (vr + 1) x) vrs).
  Proof.
    intros R M L Lb. unfold answers. cbn [exec2]. rewrite outI_eq. unfold fmi2GetRealOutputDerivatives.
    assert (M2 : N.land (bit2 (mode_of s)) MASK2_GetReal <> 0%N) by (destruct M as [M|M]; rewrite M; discriminate).
    rewrite BEGIN2_pass by (unfold mode_of in M; destruct M as [M|M]; rewrite M; discriminate).
    cbn [m_outputDerivative model_of BouncingBall_model].
    pose proof (@od_loop FMI2 env vrs [] [] os [] b (sinst s) eq_refl eq_refl L Lb) as H. pose proof (offers_spec vrs os (eq_sym L)) as Q.
    destruct (offers vrs os) eqn:E.
    - destruct H as (i' & H). cbn [app length model_of] in H. rewrite H.
      eexists OK, _, _, _. split; [reflexivity|]. split; [auto|]. split; [rewrite <- Q; tauto|]. intros _.
      exists (map (der_of (data (mut (sinst s)))) vrs). split; [reflexivity|]. split; [apply map_length|].
      eapply Forall2_map; [|exact (ders_peek (v := FMI2) env (sinst s) (proj1 Q eq_refl))]. cbv beta. intros vr x Hx. apply (@get2_iff' F NF szof BouncingBall env s TFloat64 (vr + 1)%N x eq_refl eq_refl R). auto.
    - destruct H as (b' & i' & t & H). cbn [app length model_of] in H. rewrite H.
      eexists Error, _, _, _. split; [reflexivity|]. split; [auto|]. split; [rewrite <- Q; split; discriminate|discriminate].
  Qed.
  (** The other FMUs offer none. *)
  Theorem no_out_ders_3 f env fuel (s : Sys F (md (model_of FMI3 f))) vrs n os b : f <> BouncingBall -> mode_of s = StepMode \/ mode_of s = Terminated ->
    exists t s', exec3 (model_of FMI3 f) szof fuel env (O3GetOutputDerivatives vrs n os b) s = Done (Error, OFloats b, s', t).
  Proof.
    intros Nf M. cbn [exec3]. rewrite outI_eq. unfold fmi3GetOutputDerivatives.
    rewrite BEGIN_pass by (unfold mode_of in M; destruct M as [M|M]; rewrite M; discriminate). assert (Ho : m_outputDerivative (model_of (F := F) FMI3 f) = false) by (destruct f; try reflexivity; congruence).
      rewrite Ho. unfold NOT_IMPLEMENTED. rewrite bind_assoc, bind_logError, bind_ret_l. eexists _, _. reflexivity.
  Qed.
  Theorem no_out_ders_2 f env fuel (s : Sys F (md (model_of FMI2 f))) vrs n os b : f <> BouncingBall -> mode_of s = StepComplete \/ mode_of s = Terminated ->
    exists t s', exec2 (model_of FMI2 f) szof fuel env (O2GetRealOutputDerivatives vrs n os b) s = Done (Error, OFloats b, s', t).
  Proof.
    intros Nf M. cbn [exec2]. rewrite outI_eq. unfold fmi2GetRealOutputDerivatives.
    rewrite BEGIN2_pass by (unfold mode_of in M; destruct M as [M|M]; rewrite M; discriminate). assert (Ho : m_outputDerivative (model_of (F := F) FMI2 f) = false) by (destruct f; try reflexivity; congruence).
      rewrite Ho. rewrite bind_logError, CALLk_err. eexists _, _. reflexivity.
  Qed.

  (** Status functions of FMI 2 *)
  Theorem last_time_2 f env fuel (s : Sys F (md (model_of FMI2 f))) : mode_of s = StepComplete \/ mode_of s = Terminated ->
    exec2 (model_of FMI2 f) szof fuel env (O2GetRealStatus LastSuccessfulTime true) s = Done (OK, OReal (Some (time_of s)), s, []).
  Proof.
    intro M. cbn [exec2]. rewrite outI_eq. unfold fmi2GetRealStatus. rewrite BEGIN2_pass by (unfold mode_of in M; destruct M as [M|M]; rewrite M; discriminate).
    rewrite bind_getC. destruct s. reflexivity.
  Qed.
  Theorem terminated_2 f env fuel (s : Sys F (md (model_of FMI2 f))) : mode_of s = StepComplete \/ mode_of s = Terminated ->
    exec2 (model_of FMI2 f) szof fuel env (O2GetBooleanStatus KTerminated true) s = Done (OK, OBool (Some (terminateSimulation (mut (sinst s)))), s, []).
  Proof.
    intro M. cbn [exec2]. rewrite outI_eq. unfold fmi2GetBooleanStatus. rewrite BEGIN2_pass by (unfold mode_of in M; destruct M as [M|M]; rewrite M; discriminate).
    rewrite bind_getM. destruct s. reflexivity.
  Qed.
  Theorem explained_2 f env fuel ccp h s out s' t : built2 f = true -> reach2 (model_of (F := F) FMI2 f) szof s ->
    exec2 (model_of FMI2 f) szof fuel env (O2DoStep ccp h) s = Done (Discard, out, s', t) ->
    (forall e k, exec2 (model_of FMI2 f) szof k e (O2GetBooleanStatus KTerminated true) s' = Done (OK, OBool (Some true), s', [])) /\
    (forall e k, exec2 (model_of FMI2 f) szof k e (O2GetRealStatus LastSuccessfulTime true) s' = Done (OK, OReal (Some (time_of s')), s', [])).
  Proof.
    intros Bf R E. destruct (@reaches2 F NF szof f Bf fuel env ccp h s Discard out s' t R E) as (_ & _ & T).
    destruct (proj2 (@mode_graph2 F NF f szof s R) _ _ _ _ _ _ _ E) as (_ & _ & _ & G).
    assert (M : mode_of s = StepComplete).
    { destruct (in_dec (fun a b : ModelState => ltac:(decide equality) : {a = b} + {a <> b}) (mode_of s) (when2 (O2DoStep (D := md (model_of FMI2 f)) ccp h))) as [[M|[]]|N]; [auto|].
      exfalso. pose proof (@gate2 F NF (model_of FMI2 f) szof fuel env _ s N) as Q. rewrite Q in E. discriminate E. }
    assert (M' : mode_of s' = StepComplete) by (rewrite G; auto).
    split; intros e k; [rewrite terminated_2 by auto; now rewrite T|now apply last_time_2; auto].
  Qed.
End Others.
