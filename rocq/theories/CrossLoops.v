(** CrossLoops.v -- one pass of the solver loop of fmi2DoStep and of fmi3DoStep, side by side. *)
From Coq Require Import List NArith ZArith Bool Arith Lia.
From Verif Require Import Base Instance ModelIface Core Fmi3 Fmi2 Api Fmus Logic SpecModes Gate Frame Frame3 Calls Sim Sim3 SimFmus Dyn Solver Steps FmuBouncingBall Cross.
Import ListNotations.
Set Implicit Arguments.


(** ** FMUs without event indicators *)
Section Flat.
  Context {F : Type} {NF : Num F} (m : Model F) (P : Rel (md m)).
  Notation D := (md m).
  Hypothesis L : SimLaws m P.
  Hypothesis W : Laws m.
  Hypothesis He : forall env, r_env P env.
  Hypothesis Z0 : m_maxZ m = 0.
  Definition solF (_ : Mut F D) (o o' : Sol F) : Prop := solR m True o o'.

  Lemma flat_pass env i j : instR m P True False i j -> solF (mut i) (sol i) (sol j) ->
    eventModeUsed (ctl i) = false -> earlyReturnAllowed (ctl i) = false ->
    orel P (passQ m P solF) (pass2 m env OK i) (pass3 m env false OK j).
  Proof.
    intros R S Ev Er. assert (R1 : instR m P True True i j) by (destruct R; constructor; assumption).
    assert (Ev' : eventModeUsed (ctl j) = false) by (rewrite (cr_event (ir_ctl R)); exact Ev).
    assert (Er' : earlyReturnAllowed (ctl j) = false) by (rewrite (cr_early (ir_ctl R)); exact Er).
    unfold pass2, pass3. rewrite bind_getC. rewrite andb_false_r, bind_ret_l. rewrite Ev', Er'. clear Ev' Er'.
    eapply orel_bind.
    { apply orel_facts with (U := fun r i' => okerr (fst (fst r)) /\ eventModeUsed (ctl i') = false /\ earlyReturnAllowed (ctl i') = false)
        (V := fun _ _ => True); [apply (or_doFixedStep env L (He env) R1)| |auto].
      intros x i' t E. pose proof (moving_doFixedStep W env i) as M. rewrite E in M. destruct M as (O & (a & n & C) & _).
      split; [exact O|]. rewrite C. cbn. auto. }
    clear i j R R1 S Ev Er. intros [[s se] te] r' i j ([<- R] & (O & Ev & Er) & _). cbn [fst] in O.
    assert (Bad : forall i0 j0, instR m P True True i0 j0 -> eventModeUsed (ctl i0) = false -> earlyReturnAllowed (ctl i0) = false ->
      orel P (passQ m P solF) ((ret (Error, false) : AF F D _) (set_ctl (set_mode Terminated (ctl i0)) i0)) ((ret (Error, false, false) : AF F D _) (set_ctl (set_mode Terminated (ctl j0)) j0))).
    { intros i0 j0 R0 E1 E2. apply orel_ret. cbn. split; [reflexivity|]. split; [|tauto].
      assert (R2 : instR m P True False i0 j0) by (eapply instR_weaken; [| |exact R0]; auto).
      eapply instR_ctl; [exact R2|]. apply cr_set_mode; [apply R0|apply modeR_refl]. }
    assert (Rest : forall i0 j0, instR m P True True i0 j0 -> eventModeUsed (ctl i0) = false -> earlyReturnAllowed (ctl i0) = false ->
      orel P (passQ m P solF) ((let* u := getM m in if terminateSimulation u then ret (Discard, false) else ret (OK, true))%sw i0)
         ((let* u := getM m in ret (OK, false, negb (terminateSimulation u)))%sw j0)).
    { intros i0 j0 R0 E1 E2. rewrite !bind_getM, (mr_term (ir_mut R0)). pose proof (mr_term (ir_mut R0)) as T.
      assert (R2 : instR m P True False i0 j0) by (eapply instR_weaken; [| |exact R0]; auto).
      destruct (terminateSimulation (mut i0)); cbn [negb]; apply orel_ret; cbn; (split; [reflexivity|]); (split; [exact R2|]);
        pose proof (ir_sol R0); unfold solF; tauto. }
    destruct O as [->| ->].
    2: { rewrite !CALL_err. cbn [stops]. now apply Bad. }
    rewrite !CALL_ok. cbn [stops]. destruct (m_eventUpdate m) eqn:EU; [|now apply Rest].
    destruct (match se with Some true => Some true | Some false => te | None => None end) as [[]|]; [|now apply Rest|exact I].
    rewrite Z0. cbn [Nat.ltb Nat.leb].
    eapply orel_bind.
    { apply orel_facts with (U := fun r i' => okerr r /\ ctl i' = ctl i) (V := fun _ _ => True);
        [exact (@same_call _ m P env (He env) _ _ _ _ (msim_event L EU) _ _ R)| |auto].
      intros x i' t E. unfold call in E. pose proof (l_event W env (ctl i) (mut i)) as G. unfold gd in G.
      destruct (m_eventUpdateF m env (ctl i) (mut i)) as [[[r u] t']| |]; inversion E; subst. split; [apply G|reflexivity]. }
    intros s r' i1 j1 ([<- R1] & (O & C) & _). destruct O as [->| ->].
    - rewrite !CALL_ok. cbn [stops]. apply Rest; [exact R1|now rewrite C..].
    - rewrite !CALL_err. cbn [stops]. apply Bad; [exact R1|now rewrite C..].
  Qed.
End Flat.

(** ** BouncingBall: the FMI 2 loop does not refresh the stored event indicator after a bounce *)
Section Ball.
  Context {F : Type} {NF : Num F}.
  (** The ball rises after a bounce: adding one step of a speed that is zero or at least v_min to
      the smallest positive number gives no number below or equal to zero. *)
  Definition rising : Prop :=
    nle (ndblmin : F) nzero = false /\
    forall v : F, v = nzero \/ nlt v V_MIN = false -> nle (nadd ndblmin (nmul bb_step v)) nzero = false.
  Hypothesis RI : rising.
  Context (vals : Prop) (NV : ~ vals) (lg : Prop).
  Notation m := (BouncingBall_model (F := F)).
  Notation D := (md m).
  Notation P := (relBB (F := F) lg true vals).

  Definition keepB (u u' : Mut F D) : Prop :=
    bb_h (data u') = bb_h (data u) /\ bb_v (data u') = bb_v (data u) /\ nominalsChanged u' = nominalsChanged u /\
    terminateSimulation u' = terminateSimulation u /\ nextEventTimeDefined u' = nextEventTimeDefined u.
  Definition bounced (u : Mut F D) : Prop :=
    bb_h (data u) = ndblmin /\ (bb_v (data u) = nzero \/ nlt (bb_v (data u)) V_MIN = false) /\
    nominalsChanged u = false /\ terminateSimulation u = false /\ nextEventTimeDefined u = false.
  Definition solB (u : Mut F D) (o o' : Sol F) : Prop :=
    nz o = 1 /\ nz o' = 1 /\ nx o = 2 /\ nx o' = 2 /\
    (firstn 1 (prez o') = firstn 1 (prez o) \/ bounced u /\ firstn 1 (prez o') = [ndblmin]).
  Lemma solB_keep u u' o o' : keepB u u' -> solB u o o' -> solB u' o o'.
  Proof.
    intros (A & B & C & E & G) (N1 & N2 & N3 & N4 & [H|[(H1 & H2 & H3 & H4 & H5) H]]); unfold solB; repeat (split; [assumption|]); [now left|].
    right. split; [|exact H]. unfold bounced. rewrite A, B, C, E, G. auto.
  Qed.
  Lemma solB_start u o o' : solR m True o o' -> readied m o -> solB u o o'.
  Proof.
    intros [S S' Nz Nx Pz] [Rz Rx]. destruct (Rz ltac:(cbn; lia)) as [? Ez], (Rx ltac:(cbn; lia)) as [? Ex]. cbn in Ez, Ex.
    unfold solB. rewrite (Nz I), (Nx I), Ez, Ex. repeat (split; [reflexivity|]). left. rewrite Ez in Pz. now apply Pz.
  Qed.

  Definition bb_stepd (d : D) : D := mkBB (nadd (bb_h d) (nmul bb_step (bb_v d))) (nadd (bb_v d) (nmul bb_step (bb_g d))) (bb_g d) (bb_e d).
  Definition evented (u : Mut F D) : Mut F D :=
    set_dirty true (set_nextEventTimeDefined false (set_terminateSimulation false (set_nominalsChanged false
      (set_valuesChanged (bb_bounces (data u)) (set_data (if bb_bounces (data u) then bb_bounce (data u) else data u) u))))).
  Lemma event_eq env i : call m env bb_eventUpdate i = Done (OK, set_mut (evented (mut i)) i, []).
  Proof.
    destruct i as [c [a b d0 e g h k l d] o]. unfold call, bb_eventUpdate, evented, mdata, mbind. cbn [mut ctl sol data set_mut].
    unfold mget, getS, mret. cbv [bind]. cbn. destruct (bb_bounces d); reflexivity.
  Qed.
  Definition stepsto (i i1 : Inst F D) : Prop :=
    ctl i1 = bump m (ctl i) /\ (exists b, mut i1 = set_dirty b (set_data (bb_stepd (data (mut i))) (mut i))) /\
    sizesR m (sol i1) /\ nx (sol i1) = 2 /\ nz (sol i1) = 1 /\ firstn 1 (prez (sol i1)) = [bb_indicator (bb_stepd (data (mut i)))].
  Lemma step_eq env i : sizesR m (sol i) -> nz (sol i) = 1 -> nx (sol i) = 2 -> exists i1,
    doFixedStep m env i = Done ((OK, Some (crosses (firstn 1 (prez (sol i))) [bb_indicator (bb_stepd (data (mut i)))]),
        Some (time_event m i)), i1, told m i) /\ stepsto i i1.
  Proof.
    intros S Hz Hx. assert (Ft : fit bb_dyn i) by (constructor; [exact I|exact S|right; exact Hx|right; exact Hz]).
    destruct (doFixedStep_eq env Ft) as (i1 & E & St). exists i1.
    assert (Eu : exists b, stepu bb_dyn (sol i) (mut i) = set_dirty b (set_data (bb_stepd (data (mut i))) (mut i))).
    { exists true. unfold stepu. rewrite Hx. cbn. destruct (mut i) as [? ? ? ? ? ? ? ? [h v g e]]. reflexivity. }
    destruct Eu as [b Eu]. destruct St as [Sc Sm Sx Sz Sp Sf]. split.
    - rewrite E. unfold state_event. rewrite Hz, Eu. reflexivity.
    - unfold next_mut in Sm. rewrite Eu in Sm. unfold stepsto. split; [exact Sc|]. split.
      { exists false. etransitivity; [exact Sm|]. unfold stepz. rewrite Hz. destruct (mut i); reflexivity. }
      split; [apply Sf|]. split; [congruence|]. split; [congruence|]. rewrite Hz, Eu in Sp. apply Sp. lia.
  Qed.

  Lemma bind_event env X (k : Status -> AF F D X) i :
    bind (call m env bb_eventUpdate) k i = k OK (set_mut (evented (mut i)) i).
  Proof. unfold bind. rewrite event_eq. now destruct (k OK _) as [[[? ?] ?]| |]. Qed.
  (** The refresh of the stored event indicator in the FMI 3 loop. *)
  Lemma refresh_eq env X (k : Status -> AF F D X) i : nz (sol i) = 1 -> length (prez (sol i)) = 1 ->
    (let* o := getSol m in
     let* r := call m env (m_getEventIndicators m (Some (prez o)) (nz o)) in
     match snd r with None => ubM | Some p => modSol m (set_prez p) end ;;; k (fst r))%sw i =
    k OK (set_sol (set_prez [bb_indicator (data (mut i))] (sol i)) (set_mut (set_dirty false (mut i)) i)).
  Proof.
    intros Hz Lp. rewrite bind_getSol, Hz. destruct (prez (sol i)) as [|p [|]] eqn:Ep; try discriminate.
    pose proof (dy_getz bb_dyn env (ctl i) (mut i) [p] I ltac:(cbn; lia)) as G. cbn [length dy_z bb_dyn skipn app] in G.
    rewrite (bind_call_done m env _ _ _ G). cbn [snd fst]. rewrite bind_modSol. reflexivity.
  Qed.

  Lemma ball_pass env i j : instR m P True False i j -> solB (mut i) (sol i) (sol j) ->
    eventModeUsed (ctl i) = false -> earlyReturnAllowed (ctl i) = false ->
    orel P (passQ m P solB) (pass2 m env OK i) (pass3 m env false OK j).
  Proof.
    intros R (Nz & Nz' & Nx & Nx' & S) Ev Er.
    assert (Ev' : eventModeUsed (ctl j) = false) by (rewrite (cr_event (ir_ctl R)); exact Ev).
    assert (Er' : earlyReturnAllowed (ctl j) = false) by (rewrite (cr_early (ir_ctl R)); exact Er).
    destruct (step_eq env _ (sr_sizes (ir_sol R)) Nz Nx) as (i1 & E2 & C1 & (b1 & M1) & Sz1 & X1 & Z1 & P1).
    destruct (step_eq env _ (sr_sizes' (ir_sol R)) Nz' Nx') as (j1 & E3 & C1' & (b1' & M1') & Sz1' & X1' & Z1' & P1').
    pose proof (mr_data (ir_mut R)) as Dt. cbn [r_data relBB] in Dt. rewrite Dt in M1', P1', E3.
    unfold pass2, pass3. rewrite bind_getC. rewrite andb_false_r, bind_ret_l. rewrite Ev', Er'.
    eapply orel_bind with (Q1 := fun r r' i0 j0 => r = (OK, Some (crosses (firstn 1 (prez (sol i))) [bb_indicator (bb_stepd (data (mut i)))]), Some (time_event m i)) /\
       r' = (OK, Some (crosses (firstn 1 (prez (sol j))) [bb_indicator (bb_stepd (data (mut i)))]), Some (time_event m i)) /\ i0 = i1 /\ j0 = j1).
    { rewrite E2, E3. assert (Te : time_event m j = time_event m i).
      { unfold time_event, bump. cbn [time set_time set_nSteps]. now rewrite (mr_ned (ir_mut R)), (mr_net (ir_mut R)), (cr_nSteps (ir_ctl R)), (cr_start (ir_ctl R)). }
      assert (Tl : told m j = told m i).
      { unfold told, bump. cbn [time set_time set_nSteps]. now rewrite (cr_iu (ir_ctl R)), (cr_nSteps (ir_ctl R)), (cr_start (ir_ctl R)). }
      rewrite Te, Tl. cbn. split; [auto|apply traceR_refl]. }
    intros r r' i0 j0 (-> & -> & -> & ->). clear E2 E3. rewrite !CALL_ok. cbn [stops].
    cbn [m_eventUpdate BouncingBall_model m_maxZ Nat.ltb Nat.leb m_eventUpdateF].
    assert (Rc : ctlR P True (ctl i1) (ctl j1)).
    { rewrite C1, C1'. unfold bump. cbn [time set_time set_nSteps]. rewrite (cr_nSteps (ir_ctl R)), (cr_start (ir_ctl R)). destruct (ir_ctl R). constructor; cbn; auto. }
    assert (Rm : mutR (D := D) P (mut i1) (mut j1)).
    { rewrite M1, M1'. destruct (ir_mut R). constructor; cbn; auto; intros []. }
    assert (Ev1 : eventModeUsed (ctl i1) = false /\ earlyReturnAllowed (ctl i1) = false) by (rewrite C1; cbn; auto).
    set (z := bb_indicator (bb_stepd (data (mut i)))) in *.
    (* the end of a pass *)
    assert (Rest : forall (u u' : Mut F D) (o o' : Sol F), mutR (D := D) P u u' -> sizesR m o -> sizesR m o' -> solB u o o' ->
      orel P (passQ m P solB) ((let* u := getM m in if terminateSimulation u then ret (Discard, false) else ret (OK, true))%sw (mkInst (ctl i1) u o))
         ((let* u := getM m in ret (OK, false, negb (terminateSimulation u)))%sw (mkInst (ctl j1) u' o'))).
    { intros u u' o o' Ru So So' Sb. rewrite !bind_getM. cbn [mut]. rewrite (mr_term Ru). pose proof (mr_term Ru) as T.
      assert (R2 : instR m P True False (mkInst (ctl i1) u o) (mkInst (ctl j1) u' o')).
      { constructor; cbn; auto. constructor; auto; intros []. }
      destruct (terminateSimulation u); cbn [negb]; apply orel_ret; cbn; (split; [reflexivity|]); (split; [exact R2|]); tauto. }
    assert (Eta : forall (i : Inst F D), i = mkInst (ctl i) (mut i) (sol i)) by (intros []; reflexivity).
    (* no event in FMI 3 and a spurious one in FMI 2 change nothing *)
    destruct S as [S|[Bo S]].
    - (* the stored indicators agree *)
      rewrite S. set (ev := match crosses (firstn 1 (prez (sol i))) [z] with true => Some true | false => Some (time_event m i) end).
      change (match Some (crosses (firstn 1 (prez (sol i))) [z]) with Some true => Some true | Some false => Some (time_event m i) | None => None end) with ev.
      destruct ev as [[]|]; [| |exact I].
      + rewrite !bind_event, !CALL_ok. cbn [stops].
        match goal with |- orel _ _ _ ?b => assert (Eb : b = (let* u := getM m in ret (OK, false, negb (terminateSimulation u)))%sw
          (set_sol (set_prez [bb_indicator (data (evented (mut j1)))] (sol j1)) (set_mut (set_dirty false (evented (mut j1))) j1))) end.
        { etransitivity; [refine (refresh_eq env (fun s => let* st := CALL m OK s in if stops st then ret (st, false, false) else
              (let* u := getM m in ret (st, false, negb (terminateSimulation u))))%sw (set_mut (evented (mut j1)) j1) _ _); [exact Z1'|apply Sz1']|].
          rewrite CALL_ok. reflexivity. }
        rewrite Eb. clear Eb.
        apply Rest.
        * rewrite M1, M1'. destruct (ir_mut R). constructor; cbn; auto; try (intros []; fail).
        * exact Sz1.
        * destruct Sz1' as (A1 & A2 & A3 & A4). split; [exact A1|]. split; [reflexivity|]. exact (conj A3 A4).
        * unfold solB. cbn [sol set_sol set_mut nz nx set_prez prez mut]. repeat (split; [assumption|]).
          rewrite P1, M1, M1'. unfold evented, bounced. cbn [data set_dirty set_data set_nextEventTimeDefined set_terminateSimulation
            set_nominalsChanged set_valuesChanged nominalsChanged terminateSimulation nextEventTimeDefined firstn].
          destruct (bb_bounces (bb_stepd (data (mut i)))); [right|left; reflexivity].
          assert (Bh : bb_h (bb_bounce (bb_stepd (data (mut i)))) = ndblmin) by (unfold bb_bounce; destruct (nlt _ _); reflexivity).
          split; [split; [exact Bh|]; split; [|auto]|unfold bb_indicator; rewrite Bh, (proj1 RI), andb_false_r; reflexivity].
          unfold bb_bounce. destruct (nlt (nmul (nopp (bb_v (bb_stepd (data (mut i))))) (bb_e (bb_stepd (data (mut i))))) V_MIN) eqn:Ev2; [left; reflexivity|right; exact Ev2].
      + rewrite (Eta i1), (Eta j1). apply Rest; auto. unfold solB. repeat (split; [assumption|]). left. congruence.
    - (* just after a bounce *)
      rewrite S. destruct Bo as (B1 & B2 & B3 & B4 & B5). destruct RI as [RI0 RI1].
      assert (Up : nle (bb_h (bb_stepd (data (mut i)))) nzero = false) by (cbn [bb_h bb_stepd]; rewrite B1; now apply RI1).
      assert (Ez : z = bb_h (bb_stepd (data (mut i)))).
      { unfold z, bb_indicator. rewrite Up. now rewrite andb_false_r. }
      assert (C3 : crosses [ndblmin] [z] = false).
      { unfold crosses, crossed. cbn [existsb combine fst snd]. rewrite RI0, Ez, Up. now rewrite andb_false_r. }
      rewrite C3. assert (Te : time_event m i = false) by (unfold time_event; now rewrite B5). rewrite Te.
      assert (So : forall u, solB u (sol i1) (sol j1)).
      { intro u. unfold solB. repeat (split; [assumption|]). left. congruence. }
      destruct (crosses (firstn 1 (prez (sol i))) [z]).
      + rewrite bind_event, CALL_ok. cbn [stops]. rewrite (Eta j1). apply Rest; auto.
        rewrite M1, M1'. assert (Nb : bb_bounces (bb_stepd (data (mut i))) = false) by (unfold bb_bounces; now rewrite Up).
        unfold evented. cbn [data set_dirty set_data]. rewrite Nb. destruct (ir_mut R). constructor; cbn; auto; try (intros []; fail); try congruence; try (intro; contradiction); (etransitivity; [eassumption|assumption]).
      + rewrite (Eta i1), (Eta j1). apply Rest; auto.
  Qed.
End Ball.
