(** Steps.v -- the loops of fmi3DoStep and fmi2DoStep as iterations of one pass, and one pass in closed form. *)
From Coq Require Import List NArith ZArith Bool Arith Lia.
From Verif Require Import Base Instance ModelIface Core Fmi3 Fmi2 Logic Calls Sim Dyn Solver.
Import ListNotations.
Set Implicit Arguments.

Section Steps.
  Context {F : Type} {NF : Num F} (m : Model F).
  Notation D := (md m).
  Variable env : Env.

  (** One pass of the loop of fmi3DoStep after the test for the end (fmi3Functions.c 1241-1272), with
      the flag that says whether the loop goes on. *)
  Definition pass3 (ehn : bool) (st : Status) : AF F D (Status * bool * bool) :=
    (let* c := getC m in
     let* ehn := if m_eventUpdate m && ehn then call m env (m_eventUpdateF m) ;;; ret false else ret ehn in
     let* r := doFixedStep m env in
     let '(s, se, te) := r in
     let* st := CALL m st s in
     if stops st then ret (st, ehn, false) else
     let rest ehn st := let* u := getM m in ret (st, ehn, negb (terminateSimulation u)) in
     if m_eventUpdate m then
       match (match se with Some true => Some true | Some false => te | None => None end) with
       | None => ubM
       | Some false => rest ehn st
       | Some true =>
           if eventModeUsed c then
             if earlyReturnAllowed c then ret (st, true, false) else rest true st
           else
             let* s := call m env (m_eventUpdateF m) in
             let* st := CALL m st s in
             if stops st then ret (st, ehn, false) else
             if Nat.ltb 0 (m_maxZ m) then
               let* o := getSol m in
               let* r := call m env (m_getEventIndicators m (Some (prez o)) (nz o)) in
               match snd r with None => ubM | Some p => modSol m (set_prez p) end ;;;
               let* st := CALL m st (fst r) in
               if stops st then ret (st, ehn, false) else
               if earlyReturnAllowed c then ret (st, ehn, false) else rest ehn st
             else
               if earlyReturnAllowed c then ret (st, ehn, false) else rest ehn st
       end
     else rest ehn st)%sw.

  Lemma loop3_eq fuel ncp ehn st i :
    doStep_loop m env (S fuel) ncp ehn st i =
    if pointReached m ncp (ctl i) || (ehn && earlyReturnAllowed (ctl i)) then Done ((st, ehn, pointReached m ncp (ctl i)), i, [])
    else bind (pass3 ehn st) (fun r => let '(st, e, go) := r in if go then doStep_loop m env fuel ncp e st else ret (st, e, false)) i.
  Proof.
    cbn [doStep_loop]. rewrite bind_getC. cbv zeta.
    destruct (pointReached m ncp (ctl i)) eqn:P; [reflexivity|]. cbn [orb].
    destruct (ehn && earlyReturnAllowed (ctl i)) eqn:E; [reflexivity|].
    unfold pass3. rewrite bind_assoc. rewrite bind_getC. set (c := ctl i). rewrite bind_assoc. apply bind_ext. intros e j.
    rewrite bind_assoc. apply bind_ext. intros [[s se] te] k. rewrite bind_assoc. apply bind_ext. intros st1 i1.
    destruct (stops st1); [now rewrite bind_ret_l|].
    assert (R : forall e st1 i1, bind (getM m) (fun u => if terminateSimulation u then ret (st1, e, false) else doStep_loop m env fuel ncp e st1) i1 =
      bind (let* u := getM m in ret (st1, e, negb (terminateSimulation u)))%sw
        (fun r => let '(st, e, go) := r in if go : bool then doStep_loop m env fuel ncp e st else ret (st, e, false)) i1).
    { intros. rewrite bind_assoc. apply bind_ext. intros u i2. rewrite bind_ret_l. now destruct (terminateSimulation u). }
    destruct (m_eventUpdate m); [|apply R].
    destruct (match se with Some true => Some true | Some false => te | None => None end) as [[]|]; [|apply R|reflexivity].
    destruct (eventModeUsed c).
    { destruct (earlyReturnAllowed c); [now rewrite bind_ret_l|apply R]. }
    rewrite bind_assoc. apply bind_ext. intros s1 i2. rewrite bind_assoc. apply bind_ext. intros st2 i3.
    destruct (stops st2); [now rewrite bind_ret_l|].
    destruct (Nat.ltb 0 (m_maxZ m)).
    2:{ destruct (earlyReturnAllowed c); [now rewrite bind_ret_l|apply R]. }
    rewrite bind_assoc. apply bind_ext. intros o i4. rewrite bind_assoc. apply bind_ext. intros r i5.
    rewrite bind_assoc. apply bind_ext. intros [] i6. rewrite bind_assoc. apply bind_ext. intros st3 i7.
    destruct (stops st3); [now rewrite bind_ret_l|].
    destruct (earlyReturnAllowed c); [now rewrite bind_ret_l|apply R].
  Qed.

  (** The same for fmi2DoStep (fmi2Functions.c 536-547). *)
  Definition pass2 (st : Status) : AF F D (Status * bool) :=
    (let* r := doFixedStep m env in
     let '(s, se, te) := r in
     let* st := CALL m st s in
     if stops st then ret (st, false) else
     let rest st := let* u := getM m in if terminateSimulation u then ret (Discard, false) else ret (st, true) in
     if m_eventUpdate m then
       match (match se with Some true => Some true | Some false => te | None => None end) with
       | None => ubM
       | Some false => rest st
       | Some true =>
           let* s := call m env (m_eventUpdateF m) in
           let* st := CALL m st s in
           if stops st then ret (st, false) else rest st
       end
     else rest st)%sw.
  Lemma loop2_eq fuel ncp st i :
    doStep2_loop m env (S fuel) ncp st i =
    if pointReached m ncp (ctl i) then Done ((st, true), i, [])
    else bind (pass2 st) (fun r => let '(st, go) := r in if go then doStep2_loop m env fuel ncp st else ret (st, false)) i.
  Proof.
    cbn [doStep2_loop]. rewrite bind_getC. cbv zeta.
    destruct (pointReached m ncp (ctl i)) eqn:P; [reflexivity|].
    unfold pass2. rewrite bind_assoc. apply bind_ext. intros [[s se] te] k. rewrite bind_assoc. apply bind_ext. intros st1 i1.
    destruct (stops st1); [now rewrite bind_ret_l|].
    assert (R : forall st1 i1, bind (getM m) (fun u => if terminateSimulation u then ret (Discard, false) else doStep2_loop m env fuel ncp st1) i1 =
      bind (let* u := getM m in if terminateSimulation u then ret (Discard, false) else ret (st1, true))%sw
        (fun r => let '(st, go) := r in if go : bool then doStep2_loop m env fuel ncp st else ret (st, false)) i1).
    { intros. rewrite bind_assoc. apply bind_ext. intros u i2. now destruct (terminateSimulation u); rewrite bind_ret_l. }
    destruct (m_eventUpdate m); [|apply R].
    destruct (match se with Some true => Some true | Some false => te | None => None end) as [[]|]; [|apply R|reflexivity].
    rewrite bind_assoc. apply bind_ext. intros s1 i2. rewrite bind_assoc. apply bind_ext. intros st2 i3.
    destruct (stops st2); [now rewrite bind_ret_l|apply R].
  Qed.
  (** ** In states that fit the solver *)
  Context (WF : md m -> Prop) (Y : Dyn m WF).
  Definition no_update (t : list (Event F)) : Prop := forall a, ~ In (EIntermediateUpdate a) t.
  Record Events : Prop := mkEvents {
    eu_upd : m_eventUpdate m = true -> forall c u, WF (data u) ->
      match m_eventUpdateF m env c u with
      | Done (st, u', t) => (st = OK \/ st = Error) /\ WF (data u') /\ length (dy_x Y (data u')) = length (dy_x Y (data u)) /\ no_update t
      | UB => True
      | NoFuel => False
      end;
    eu_nz0 : m_eventUpdate m = true -> 0 < m_maxZ m -> forall c u b, exists t,
      m_getEventIndicators m (Some b) 0 env c u = Done ((Error, Some b), u, t) /\ no_update t }.
  Hypothesis EV : Events.

  Definition event_at (i : Inst F D) : bool := m_eventUpdate m && (state_event Y i || time_event m i).
  Definition fails (i : Inst F D) : Inst F D := set_ctl (set_mode Terminated (ctl i)) i.
  (** the event handling before the step, if an event is pending *)
  Definition entered (ehn : bool) (i i0 : Inst F D) (t : list (Event F)) : Prop :=
    if m_eventUpdate m && ehn then exists s, call m env (m_eventUpdateF m) i = Done (s, i0, t) else i0 = i /\ t = [].
  (** the refresh of the stored indicators after the event handling *)
  Definition refreshed (i i' : Inst F D) : Prop :=
    if Nat.ltb 0 (m_maxZ m) then
      nz (sol i) > 0 /\ ctl i' = ctl i /\ mut i' = dy_tz Y (mut i) /\ nz (sol i') = nz (sol i) /\ nx (sol i') = nx (sol i) /\
      exists p, sol i' = set_prez p (sol i) /\ length p = length (prez (sol i)) /\ firstn (nz (sol i)) p = dy_z Y (data (mut i))
    else i' = i.

  Inductive passed3 (ehn : bool) (i : Inst F D) : Status -> bool -> bool -> Inst F D -> list (Event F) -> Prop :=
  | P_quiet i0 t0 i1 : entered ehn i i0 t0 -> fit Y i0 -> stepped Y i0 i1 -> event_at i0 = false ->
      passed3 ehn i OK (ehn && negb (m_eventUpdate m)) (negb (terminateSimulation (mut i1))) i1 (t0 ++ told m i0)
  | P_mode i0 t0 i1 : entered ehn i i0 t0 -> fit Y i0 -> stepped Y i0 i1 -> event_at i0 = true -> eventModeUsed (ctl i) = true ->
      passed3 ehn i OK true (negb (earlyReturnAllowed (ctl i)) && negb (terminateSimulation (mut i1))) i1 (t0 ++ told m i0)
  | P_event i0 t0 i1 i2 t1 i3 : entered ehn i i0 t0 -> fit Y i0 -> stepped Y i0 i1 -> event_at i0 = true -> eventModeUsed (ctl i) = false ->
      call m env (m_eventUpdateF m) i1 = Done (OK, i2, t1) -> refreshed i2 i3 ->
      passed3 ehn i OK (ehn && negb (m_eventUpdate m)) (negb (earlyReturnAllowed (ctl i)) && negb (terminateSimulation (mut i3))) i3 (t0 ++ told m i0 ++ t1)
  | P_error i0 t0 i1 i2 t1 : entered ehn i i0 t0 -> fit Y i0 -> stepped Y i0 i1 -> event_at i0 = true -> eventModeUsed (ctl i) = false ->
      (exists s, call m env (m_eventUpdateF m) i1 = Done (s, i2, t1) /\ (s = Error \/ 0 < m_maxZ m /\ nz (sol i2) = 0)) ->
      forall t2, no_update t2 ->
      passed3 ehn i Error (ehn && negb (m_eventUpdate m)) false (fails i2) (t0 ++ told m i0 ++ t1 ++ t2).

  Lemma fit_call i s i' t : m_eventUpdate m = true -> fit Y i -> call m env (m_eventUpdateF m) i = Done (s, i', t) ->
    fit Y i' /\ ctl i' = ctl i /\ sol i' = sol i /\ (s = OK \/ s = Error) /\ no_update t.
  Proof.
    intros He [W Sz Hx Hz] E. unfold call in E. pose proof (eu_upd EV He (ctl i) (mut i) W) as K.
    destruct (m_eventUpdateF m env (ctl i) (mut i)) as [[[st u'] t']| |]; try discriminate. inversion E; subst.
    destruct K as (K1 & K2 & K3 & K4). split; [|auto]. constructor; cbn; auto.
    - rewrite K3. exact Hx.
    - rewrite (dy_zlen Y _ (data (mut i))). exact Hz.
  Qed.

  Lemma bind_fails X st s (k : Status -> AF F D X) i : st = OK -> s = OK \/ s = Error ->
    bind (CALL m st s) k i = match s with OK => k OK i | _ => k Error (fails i) end.
  Proof. intros -> [-> | ->]; [apply CALL_ok|apply CALL_err]. Qed.

  Definition is_pass3 ehn i (r : res ((Status * bool * bool) * Inst F D * list (Event F))) : Prop :=
    match r with Done ((st, e, go), i', t) => passed3 ehn i st e go i' t | UB => True | NoFuel => False end.

  Lemma pass3_spec ehn i : fit Y i -> is_pass3 ehn i (pass3 ehn OK i).
  Proof.
    intro Ft. unfold pass3. rewrite bind_getC. set (c := ctl i).
    (* the event handling before the step *)
    assert (En : match bind (if m_eventUpdate m && ehn then (call m env (m_eventUpdateF m) ;;; ret false)%sw else ret ehn)
                   (fun e => ret e) i with
                 | Done (e, i0, t0) => entered ehn i i0 t0 /\ fit Y i0 /\ ctl i0 = c /\ e = ehn && negb (m_eventUpdate m)
                 | UB => True | NoFuel => False end).
    { unfold entered. destruct (m_eventUpdate m && ehn) eqn:B.
      - apply andb_prop in B as [He Hh]. subst. unfold bind at 1. pose proof (fun s i' t => @fit_call i s i' t He Ft) as K.
        pose proof (eu_upd EV He (ctl i) (mut i) (ft_wf Ft)) as K2.
        unfold bind. unfold call in *. destruct (m_eventUpdateF m env (ctl i) (mut i)) as [[[s u] t]| |]; auto.
        destruct (K _ _ _ eq_refl) as (K3 & K4 & _). cbn. rewrite !app_nil_r. split; [eauto|]. split; [exact K3|]. split; [reflexivity|]. now rewrite He.
      - cbn. split; [auto|]. split; [exact Ft|]. split; [reflexivity|]. destruct ehn, (m_eventUpdate m); auto; discriminate. }
    unfold bind at 1. unfold bind at 1 in En.
    destruct ((if m_eventUpdate m && ehn then (call m env (m_eventUpdateF m) ;;; ret false)%sw else ret ehn) i) as [[[e i0] t0]| |]; auto.
    cbn in En. rewrite app_nil_r in En. destruct En as (En & F0 & C0 & ->). set (e := ehn && negb (m_eventUpdate m)).
    destruct (doFixedStep_eq env F0) as (i1 & Es & St).
    unfold bind at 1. rewrite Es. cbv beta iota.
    rewrite bind_fails by auto. cbn [stops].
    assert (Ev : m_eventUpdate m = true -> event_at i0 = state_event Y i0 || time_event m i0) by (intro; unfold event_at; rewrite H; auto).
    destruct (m_eventUpdate m) eqn:He.
    2:{ unfold event_at in *. rewrite bind_getM. cbn. rewrite app_nil_r. unfold e. rewrite <- He. eapply P_quiet; eauto. unfold event_at. now rewrite He. }
    assert (M : (if state_event Y i0 then Some true else Some (time_event m i0)) = Some (event_at i0)) by (rewrite Ev by auto; now destruct (state_event Y i0)).
    rewrite M. destruct (event_at i0) eqn:A.
    2:{ rewrite bind_getM. cbn. rewrite app_nil_r. unfold e. rewrite <- He. eapply P_quiet; eauto. }
    destruct (eventModeUsed c) eqn:Em.
    { destruct (earlyReturnAllowed c) eqn:Er.
      - cbn. rewrite app_nil_r. pose proof (@P_mode ehn i i0 t0 i1 En F0 St A Em) as K. fold c in K. rewrite Er in K. exact K.
      - rewrite bind_getM. cbn. rewrite app_nil_r. pose proof (@P_mode ehn i i0 t0 i1 En F0 St A Em) as K. fold c in K. rewrite Er in K. exact K. }
    pose proof (eu_upd EV He (ctl i1) (mut i1) (ft_wf (sd_fit St))) as K2.
    destruct (call m env (m_eventUpdateF m) i1) as [[[s i2] t1]| |] eqn:Ec.
    2:{ unfold bind at 1. rewrite Ec. exact I. }
    2:{ unfold call in Ec. destruct (m_eventUpdateF m env (ctl i1) (mut i1)) as [[[? ?] ?]| |]; solve [discriminate Ec|destruct K2]. }
    destruct (fit_call He (sd_fit St) Ec) as (F2 & C2 & S2 & O2 & N2). clear K2.
    unfold bind at 1. rewrite Ec. cbv beta iota. rewrite bind_fails by auto.
    destruct O2 as [-> | ->].
    2:{ cbn. rewrite app_nil_r. replace (told m i0 ++ t1) with (told m i0 ++ t1 ++ []) by now rewrite app_nil_r.
        unfold e. rewrite <- He. eapply P_error; eauto. intros a []. }
    cbn [stops].
    assert (Fin : forall i3, refreshed i2 i3 -> (if earlyReturnAllowed c then ret (OK, e, false)
             else (let* u := getM m in ret (OK, e, negb (terminateSimulation u)))%sw) i3 =
             Done ((OK, e, negb (earlyReturnAllowed c) && negb (terminateSimulation (mut i3))), i3, [])).
    { intros. destruct (earlyReturnAllowed c); reflexivity. }
    destruct (Nat.ltb 0 (m_maxZ m)) eqn:Hz.
    2:{ assert (R : refreshed i2 i2) by (unfold refreshed; rewrite Hz; reflexivity).
        rewrite (Fin _ R). cbn. rewrite app_nil_r. unfold e. rewrite <- He. eapply P_event; eauto. }
    rewrite bind_getSol. apply Nat.ltb_lt in Hz.
    destruct (Nat.eq_dec (nz (sol i2)) 0) as [Z0|Z0].
    { rewrite Z0. destruct (eu_nz0 EV He Hz (ctl i2) (mut i2) (prez (sol i2))) as (t2 & Eg & N3).
      unfold bind at 1. unfold call at 1. rewrite Eg. cbn [snd fst]. cbv beta iota.
      rewrite bind_modSol. rewrite bind_fails by auto. cbn. rewrite app_nil_r.
      unfold e. rewrite <- He.
      assert (Q : fails (set_sol (set_prez (prez (sol i2)) (sol i2)) (set_mut (mut i2) i2)) = fails i2) by (destruct i2 as [? ? []]; reflexivity).
      cbn in Q |- *. rewrite Q. eapply P_error; eauto. }
    destruct (ft_nz F2) as [Z1|Z1]; [lia|].
    assert (Zl : 0 < length (dy_z Y (data (mut i2))) <= length (prez (sol i2))).
    { destruct F2 as [W (Sz1 & Sz2 & Sz3 & Sx1 & Sx2 & Sx3) _ _]. lia. }
    pose proof (dy_getz Y env (ctl i2) (mut i2) (prez (sol i2)) (ft_wf F2) Zl) as G. rewrite <- Z1 in G.
    rewrite (@bind_call_done _ m env _ _ _ _ i2 _ _ G). cbn [fst snd]. rewrite bind_modSol. rewrite bind_fails by auto. cbn [stops].
    match goal with |- context [set_sol ?o ?j] => set (i3 := set_sol o j) end.
    assert (R : refreshed i2 i3).
    { unfold refreshed. rewrite (proj2 (Nat.ltb_lt _ _) Hz). unfold i3. cbn [ctl mut sol set_sol set_mut set_prez nz nx].
      split; [lia|]. repeat (split; [reflexivity|]). eexists. split; [reflexivity|].
      split; [rewrite app_length, skipn_length; lia|]. rewrite Z1, firstn_app, firstn_all, Nat.sub_diag. cbn. apply app_nil_r. }
    rewrite (Fin _ R). cbv beta iota. unfold is_pass3. rewrite app_nil_r. unfold e. rewrite <- He.
    exact (@P_event ehn i i0 t0 i1 i2 t1 i3 En F0 St A Em Ec R).
  Qed.

  Inductive passed2 (i : Inst F D) : Status -> bool -> Inst F D -> list (Event F) -> Prop :=
  | Q_quiet i1 : fit Y i -> stepped Y i i1 -> event_at i = false ->
      passed2 i (if terminateSimulation (mut i1) then Discard else OK) (negb (terminateSimulation (mut i1))) i1 (told m i)
  | Q_event i1 i2 t1 : fit Y i -> stepped Y i i1 -> event_at i = true ->
      call m env (m_eventUpdateF m) i1 = Done (OK, i2, t1) ->
      passed2 i (if terminateSimulation (mut i2) then Discard else OK) (negb (terminateSimulation (mut i2))) i2 (told m i ++ t1)
  | Q_error i1 i2 t1 : fit Y i -> stepped Y i i1 -> event_at i = true ->
      call m env (m_eventUpdateF m) i1 = Done (Error, i2, t1) ->
      passed2 i Error false (fails i2) (told m i ++ t1).
  Definition is_pass2 i (r : res ((Status * bool) * Inst F D * list (Event F))) : Prop :=
    match r with Done ((st, go), i', t) => passed2 i st go i' t | UB => True | NoFuel => False end.
  Lemma pass2_spec i : fit Y i -> is_pass2 i (pass2 OK i).
  Proof.
    intro Ft. unfold pass2. destruct (doFixedStep_eq env Ft) as (i1 & Es & St).
    unfold bind at 1. rewrite Es. cbv beta iota. rewrite bind_fails by auto. cbn [stops].
    assert (R : forall j, (let* u := getM m in if terminateSimulation u then ret (Discard, false) else ret (OK, true))%sw j =
      Done ((if terminateSimulation (mut j) then Discard else OK, negb (terminateSimulation (mut j))), j, [])).
    { intro j. rewrite bind_getM. now destruct (terminateSimulation (mut j)). }
    assert (Ev : m_eventUpdate m = true -> event_at i = state_event Y i || time_event m i) by (intro H; unfold event_at; rewrite H; auto).
    destruct (m_eventUpdate m) eqn:He.
    2:{ rewrite R. cbn. rewrite app_nil_r. apply Q_quiet; auto. unfold event_at. now rewrite He. }
    assert (M : (if state_event Y i then Some true else Some (time_event m i)) = Some (event_at i)) by (rewrite Ev by auto; now destruct (state_event Y i)).
    rewrite M. destruct (event_at i) eqn:A.
    2:{ rewrite R. cbn. rewrite app_nil_r. now apply Q_quiet. }
    pose proof (eu_upd EV He (ctl i1) (mut i1) (ft_wf (sd_fit St))) as K2.
    destruct (call m env (m_eventUpdateF m) i1) as [[[s i2] t1]| |] eqn:Ec.
    2:{ unfold bind at 1. rewrite Ec. exact I. }
    2:{ unfold call in Ec. destruct (m_eventUpdateF m env (ctl i1) (mut i1)) as [[[? ?] ?]| |]; solve [discriminate Ec|destruct K2]. }
    destruct (fit_call He (sd_fit St) Ec) as (F2 & C2 & S2 & O2 & N2). clear K2.
    unfold bind at 1. rewrite Ec. cbv beta iota. rewrite bind_fails by auto.
    destruct O2 as [-> | ->]; cbn [stops].
    - rewrite R. cbn. rewrite app_nil_r. eapply Q_event; eauto.
    - cbn. rewrite app_nil_r. eapply Q_error; eauto.
  Qed.

  Lemma refreshed_fit i i' : fit Y i -> refreshed i i' -> fit Y i' /\ ctl i' = ctl i /\ terminateSimulation (mut i') = terminateSimulation (mut i).
  Proof.
    intros Ft. unfold refreshed. destruct (Nat.ltb 0 (m_maxZ m)); [|intros ->; auto].
    intros (P & C & M & Z & X & p & S & Lp & Q). destruct (dy_tz_ok Y (mut i) (ft_wf Ft)) as (W & Hx & Hz & d & b & E).
    split; [|split; [exact C|rewrite M, E; reflexivity]]. destruct Ft as [W0 (Sz1 & Sz2 & Sz3 & Sx1 & Sx2 & Sx3) Fx Fz].
    constructor.
    - rewrite M. exact W.
    - rewrite S. unfold sizesR. cbn. repeat split; auto. lia.
    - rewrite M, Hx, X. exact Fx.
    - rewrite M, Hz, Z. exact Fz.
  Qed.

  (** ** Time *)
  Fixpoint bumps (k : nat) (c : Ctl F) : Ctl F := match k with O => c | S k => bumps k (bump m c) end.
  Lemma bumps_add j k c : bumps (j + k) c = bumps k (bumps j c).
  Proof. revert c. induction j; cbn; auto. Qed.
  Lemma bumps_S k c : bumps (S k) c = bump m (bumps k c).
  Proof. rewrite <- Nat.add_1_r, bumps_add. reflexivity. Qed.
  Lemma bump_mode x c : bump m (set_mode x c) = set_mode x (bump m c).
  Proof. reflexivity. Qed.
  Lemma bumps_mode k x c : bumps k (set_mode x c) = set_mode x (bumps k c).
  Proof. revert c. induction k; intro c; cbn; auto. rewrite bump_mode. apply IHk. Qed.
  Lemma bumps_fields k c : startTime (bumps k c) = startTime c /\ stopTime (bumps k c) = stopTime c /\ mode (bumps k c) = mode c /\
    nextCommunicationPoint (bumps k c) = nextCommunicationPoint c /\ earlyReturnAllowed (bumps k c) = earlyReturnAllowed c /\
    eventModeUsed (bumps k c) = eventModeUsed c /\ hasIntermediateUpdate (bumps k c) = hasIntermediateUpdate c.
  Proof. revert c. induction k; intro c; cbn [bumps]; [repeat split|]. destruct (IHk (bump m c)) as (-> & -> & -> & -> & -> & -> & ->). repeat split. Qed.

  (** the intermediate updates in a trace *)
  Definition updates (t : list (Event F)) : list F := flat_map (fun e => match e with EIntermediateUpdate a => [a] | _ => [] end) t.
  Lemma updates_none t : no_update t -> updates t = [].
  Proof.
    induction t as [|e t IH]; intro H; [reflexivity|]. unfold updates. cbn [flat_map]. fold (updates t).
    rewrite IH by (intros a K; apply (H a); now right). destruct e; auto. destruct (H time). now left.
  Qed.
  Lemma updates_app t1 t2 : updates (t1 ++ t2) = updates t1 ++ updates t2.
  Proof. apply flat_map_app. Qed.
  Definition times (k : nat) (c : Ctl F) : list F := map (fun j => time (bumps (S j) c)) (seq 0 k).
  Definition announced (k : nat) (c : Ctl F) : list F := if hasIntermediateUpdate c then times k c else [].
  Lemma announced_S k c : announced (S k) c = announced 1 c ++ announced k (bump m c).
  Proof.
    unfold announced. change (hasIntermediateUpdate (bump m c)) with (hasIntermediateUpdate c). destruct (hasIntermediateUpdate c); [|reflexivity].
    unfold times. cbn [seq map app]. f_equal. rewrite <- seq_shift, map_map. reflexivity.
  Qed.
  Lemma announced_mode k x c : announced k (set_mode x c) = announced k c.
  Proof. unfold announced, times. cbn [hasIntermediateUpdate set_mode]. destruct (hasIntermediateUpdate c); auto. apply map_ext. intro j. now rewrite bumps_mode. Qed.
  Lemma updates_told i : updates (told m i) = announced 1 (ctl i).
  Proof. unfold told, announced. now destruct (hasIntermediateUpdate (ctl i)). Qed.

  Lemma entered_fit ehn i i0 t : fit Y i -> entered ehn i i0 t -> fit Y i0 /\ ctl i0 = ctl i /\ no_update t.
  Proof.
    intros Ft. unfold entered. destruct (m_eventUpdate m) eqn:He; cbn [andb].
    - destruct ehn; [|intros [-> ->]; split; [exact Ft|]; split; [reflexivity|]; intros a []]. intros (s & E). destruct (fit_call He Ft E) as (K & C & _ & _ & N). auto.
    - intros [-> ->]. split; [exact Ft|]. split; [reflexivity|]. intros a [].
  Qed.
  Lemma event_at_eu i : event_at i = true -> m_eventUpdate m = true.
  Proof. unfold event_at. now destruct (m_eventUpdate m). Qed.

  Lemma passed3_ok ehn i st e go i' t : fit Y i -> passed3 ehn i st e go i' t ->
    updates t = announced 1 (ctl i) /\
    (st = OK /\ fit Y i' /\ ctl i' = bump m (ctl i) /\
       (go = false -> earlyReturnAllowed (ctl i) = true \/ terminateSimulation (mut i') = true) /\
       (m_eventUpdate m = false -> e = ehn)
     \/ st = Error /\ go = false /\ ctl i' = set_mode Terminated (bump m (ctl i))).
  Proof.
    intros Ft P.
    assert (U : forall i0 t0 t1, entered ehn i i0 t0 -> no_update t1 -> updates (t0 ++ told m i0 ++ t1) = announced 1 (ctl i)).
    { intros i0 t0 t1 En N. destruct (@entered_fit _ _ _ _ Ft En) as (_ & C & N0). rewrite !updates_app, updates_told, C, !updates_none by auto.
      cbn. apply app_nil_r. }
    assert (U0 : forall i0 t0, entered ehn i i0 t0 -> updates (t0 ++ told m i0) = announced 1 (ctl i)).
    { intros i0 t0 En. rewrite <- (app_nil_r (told m i0)). apply U; auto. intros a []. }
    destruct P as [i0 t0 i1 En F0 St A|i0 t0 i1 En F0 St A Em|i0 t0 i1 i2 t1 i3 En F0 St A Em Ec R|i0 t0 i1 i2 t1 En F0 St A Em (s & Ec & _) t2 N2];
      destruct (@entered_fit _ _ _ _ Ft En) as (_ & C0 & _).
    - split; [now apply U0|]. left. split; [reflexivity|]. split; [exact (sd_fit St)|]. split; [rewrite (sd_ctl St), C0; reflexivity|].
      split; [intro H; right; now apply negb_false_iff|]. intros ->. apply andb_true_r.
    - split; [now apply U0|]. left. split; [reflexivity|]. split; [exact (sd_fit St)|]. split; [rewrite (sd_ctl St), C0; reflexivity|].
      split; [|intro H; apply event_at_eu in A; congruence]. intro H. destruct (earlyReturnAllowed (ctl i)); auto. right. now apply negb_false_iff.
    - destruct (fit_call (event_at_eu _ A) (sd_fit St) Ec) as (F2 & C2 & _ & _ & N1).
      destruct (@refreshed_fit _ _ F2 R) as (F3 & C3 & _).
      split; [now apply U|]. left. split; [reflexivity|]. split; [exact F3|]. split; [rewrite C3, C2, (sd_ctl St), C0; reflexivity|].
      split; [|intro H; apply event_at_eu in A; congruence]. intro H. destruct (earlyReturnAllowed (ctl i)); auto. right. now apply negb_false_iff.
    - destruct (fit_call (event_at_eu _ A) (sd_fit St) Ec) as (F2 & C2 & _ & _ & N1).
      split; [apply U; auto; intros a K; apply in_app_or in K as [K|K]; [exact (N1 _ K)|exact (N2 _ K)]|]. right. split; [reflexivity|]. split; [reflexivity|].
      unfold fails. cbn [ctl set_ctl]. rewrite C2, (sd_ctl St), C0. reflexivity.
  Qed.
  Lemma passed2_ok i st go i' t : fit Y i -> passed2 i st go i' t ->
    updates t = announced 1 (ctl i) /\
    (fit Y i' /\ ctl i' = bump m (ctl i) /\ st = (if go then OK else Discard) /\ go = negb (terminateSimulation (mut i'))
     \/ st = Error /\ go = false /\ ctl i' = set_mode Terminated (bump m (ctl i))).
  Proof.
    intros Ft P. destruct P as [i1 F0 St A|i1 i2 t1 F0 St A Ec|i1 i2 t1 F0 St A Ec].
    - split; [apply updates_told|]. left. split; [exact (sd_fit St)|]. split; [exact (sd_ctl St)|]. split; [now destruct (terminateSimulation _)|reflexivity].
    - destruct (fit_call (event_at_eu _ A) (sd_fit St) Ec) as (F2 & C2 & _ & _ & N1).
      split; [rewrite updates_app, updates_told, (updates_none N1); apply app_nil_r|]. left. split; [exact F2|]. split; [now rewrite C2, (sd_ctl St)|].
      split; [now destruct (terminateSimulation _)|reflexivity].
    - destruct (fit_call (event_at_eu _ A) (sd_fit St) Ec) as (F2 & C2 & _ & _ & N1).
      split; [rewrite updates_app, updates_told, (updates_none N1); apply app_nil_r|]. right. split; [reflexivity|]. split; [reflexivity|].
      unfold fails. cbn [ctl set_ctl]. now rewrite C2, (sd_ctl St).
  Qed.

  (** ** The loops *)
  Record looped3 (ncp : F) (i : Inst F D) (st : Status) (reached : bool) (i' : Inst F D) (t : list (Event F)) (k : nat) : Prop := mkLooped3 {
    lp_updates : updates t = announced k (ctl i);
    lp_before : forall j, j < k -> pointReached m ncp (bumps j (ctl i)) = false;
    lp_end : st = OK /\ fit Y i' /\ ctl i' = bumps k (ctl i) /\ reached = true /\ pointReached m ncp (ctl i') = true
             \/ st = OK /\ fit Y i' /\ ctl i' = bumps k (ctl i) /\ reached = false /\
                (earlyReturnAllowed (ctl i) = true \/ terminateSimulation (mut i') = true)
             \/ st = Error /\ reached = false /\ ctl i' = set_mode Terminated (bumps k (ctl i)) }.
  Lemma loop3_spec fuel : forall ncp ehn i, fit Y i ->
    match doStep_loop m env fuel ncp ehn OK i with
    | Done ((st, e, reached), i', t) => exists k, k <= fuel /\ looped3 ncp i st reached i' t k
    | UB => True
    | NoFuel => forall j, j < fuel -> pointReached m ncp (bumps j (ctl i)) = false
    end.
  Proof.
    induction fuel as [|fuel IH]; intros ncp ehn i Ft; [cbn; intros; lia|].
    rewrite loop3_eq. destruct (pointReached m ncp (ctl i) || (ehn && earlyReturnAllowed (ctl i))) eqn:P.
    { exists 0. split; [lia|]. constructor.
      - unfold announced, times. cbn. now destruct (hasIntermediateUpdate (ctl i)).
      - intros; lia.
      - destruct (pointReached m ncp (ctl i)); [left; auto|]. right; left. apply andb_prop in P as [_ P]. auto 7. }
    apply orb_false_elim in P as [P _].
    pose proof (pass3_spec ehn Ft) as K. unfold bind. destruct (pass3 ehn OK i) as [[[[[st e] go] i1] t1]| |]; auto; [|destruct K].
    cbn [is_pass3] in K. destruct (passed3_ok Ft K) as [U [(-> & F1 & C1 & G & _)|(-> & -> & C1)]].
    2:{ cbn. rewrite app_nil_r. exists 1. split; [lia|]. constructor.
        - exact U.
        - intros j Hj. assert (j = 0) by lia. subst. exact P.
        - right; right. auto. }
    destruct go.
    2:{ cbn. rewrite app_nil_r. exists 1. split; [lia|]. constructor.
        - exact U.
        - intros j Hj. assert (j = 0) by lia. subst. exact P.
        - right; left. repeat (split; [first [assumption|reflexivity|lia]|]). exact (G eq_refl). }
    specialize (IH ncp e i1 F1). destruct (doStep_loop m env fuel ncp e OK i1) as [[[[[st e'] r] i2] t2]| |]; auto.
    - destruct IH as (k & Hk & [A B C]). rewrite C1 in A, B, C. exists (S k). split; [lia|]. constructor.
      + rewrite updates_app, U, A. symmetry. apply announced_S.
      + intros [|j] Hj; [exact P|]. apply B. lia.
      + cbn [bumps]. destruct C as [C|[C|C]]; [left; exact C| |right; right; exact C].
        right; left. destruct C as (C2 & C3 & C4 & C5 & C7). repeat (split; [first [assumption|reflexivity]|]). exact C7.
    - intros [|j] Hj; [exact P|]. rewrite C1 in IH. apply IH. lia.
  Qed.

  Record looped2 (ncp : F) (i : Inst F D) (st : Status) (finished : bool) (i' : Inst F D) (t : list (Event F)) (k : nat) : Prop := mkLooped2 {
    lq_updates : updates t = announced k (ctl i);
    lq_before : forall j, j < k -> pointReached m ncp (bumps j (ctl i)) = false;
    lq_end : st = OK /\ fit Y i' /\ ctl i' = bumps k (ctl i) /\ finished = true /\ pointReached m ncp (ctl i') = true
             \/ st = Discard /\ fit Y i' /\ ctl i' = bumps k (ctl i) /\ finished = false /\ k > 0 /\ terminateSimulation (mut i') = true
             \/ st = Error /\ finished = false /\ ctl i' = set_mode Terminated (bumps k (ctl i)) }.
  Lemma loop2_spec fuel : forall ncp i, fit Y i ->
    match doStep2_loop m env fuel ncp OK i with
    | Done ((st, finished), i', t) => exists k, k <= fuel /\ looped2 ncp i st finished i' t k
    | UB => True
    | NoFuel => forall j, j < fuel -> pointReached m ncp (bumps j (ctl i)) = false
    end.
  Proof.
    induction fuel as [|fuel IH]; intros ncp i Ft; [cbn; intros; lia|].
    rewrite loop2_eq. destruct (pointReached m ncp (ctl i)) eqn:P.
    { exists 0. split; [lia|]. constructor.
      - unfold announced, times. cbn. now destruct (hasIntermediateUpdate (ctl i)).
      - intros; lia.
      - left. auto. }
    pose proof (pass2_spec Ft) as K. unfold bind. destruct (pass2 OK i) as [[[[st go] i1] t1]| |]; auto; [|destruct K].
    cbn [is_pass2] in K. destruct (passed2_ok Ft K) as [U [(F1 & C1 & -> & G)|(-> & -> & C1)]].
    2:{ cbn. rewrite app_nil_r. exists 1. split; [lia|]. constructor.
        - exact U.
        - intros j Hj. assert (j = 0) by lia. subst. exact P.
        - right; right. auto. }
    destruct go.
    2:{ cbn. rewrite app_nil_r. exists 1. split; [lia|]. constructor.
        - exact U.
        - intros j Hj. assert (j = 0) by lia. subst. exact P.
        - right; left. repeat (split; [first [assumption|reflexivity|lia]|]). symmetry in G. now apply negb_false_iff. }
    specialize (IH ncp i1 F1). destruct (doStep2_loop m env fuel ncp OK i1) as [[[[st r] i2] t2]| |]; auto.
    - destruct IH as (k & Hk & [A B C]). rewrite C1 in A, B, C. exists (S k). split; [lia|]. constructor.
      + rewrite updates_app, U, A. symmetry. apply announced_S.
      + intros [|j] Hj; [exact P|]. apply B. lia.
      + cbn [bumps]. destruct C as [C|[C|C]]; [left; exact C| |right; right; exact C].
        right; left. destruct C as (C2 & C3 & C4 & C5 & C6 & C7). repeat (split; [first [assumption|reflexivity|lia]|]). exact C7.
    - intros [|j] Hj; [exact P|]. rewrite C1 in IH. apply IH. lia.
  Qed.
End Steps.
