(** StepsFmus.v -- calls of DoStep in reachable instances of the FMUs. *)
From Coq Require Import List NArith ZArith Bool Arith Lia.
From Verif Require Import Base Instance ModelIface Core Fmi3 Fmi2 Api Fmus Logic Calls LawsFmus SpecModes Gate Reach Sim SimSS SpecVars Vars DataFmus Data SpecSteps Dyn Solver Fits Steps
  FmuBouncingBall FmuDahlquist FmuStair FmuVanDerPol FmuRoberts FmuClocks FmuResource FmuStateSpace FmuFeedthrough.
Import ListNotations.
Set Implicit Arguments.

Section StepsFmus.
  Context {F : Type} {NF : Num F}.

  Lemma no_nil : no_update (F := F) [].
  Proof. intros a []. Qed.
  Lemma no_log s c (b : bool) : no_update (F := F) (if b then [ELog s c] else []).
  Proof. destruct b; [|apply no_nil]. intros a [H|[]]. discriminate H. Qed.

  Lemma events_all v f env : Events env (dyn_all (F := F) v f).
  Proof.
    constructor.
    - intros He c u W.
      assert (G : match m_eventUpdateF (model_of v f) env c u with
        | Done (st, u', t) => (st = OK \/ st = Error) /\ wf_dyn v f (data u') /\ length (dy_x (dyn_all v f) (data u')) = length (dy_x (dyn_all v f) (data u)) /\
                              (t = [] \/ t = [ELog Error CatLogStatusError])
        | UB => True | NoFuel => False end).
      { destruct f; try discriminate He.
        - cbn. unfold bb_eventUpdate, mbind, mdata, mmodd, mmod, mret, bind, ret. cbn. match goal with |- context [bb_bounces ?d] => destruct (bb_bounces d) end; cbn; auto 10.
        - cbv [m_eventUpdateF model_of Clocks_model cl_eventUpdate mret ret]. cbn. auto 10.
        - cbn. unfold ft_eventUpdate, mbind, mmod, mret, bind, ret. cbn. auto 10.
        - cbn. unfold st_eventUpdate, st_tick, fail, mlogError, mbind, mctl, mget, mdata, mmodd, mmod, mub, mret, bind, ret, getS, modS. cbn.
          destruct (_ && _); cbn.
          + destruct (in_int _); cbn; [|exact I]. destruct (Z.ltb _ _); cbn; [|auto 10]. destruct (_ && _); cbn; auto 10.
          + destruct (Z.ltb _ _); cbn; [|auto 10]. destruct (_ && _); cbn; auto 10.
        - cbn. unfold ss_eventUpdate, mbind, mmod, mret, bind, ret. cbn. auto 10. }
      destruct (m_eventUpdateF (model_of v f) env c u) as [[[st u'] t]| |]; auto.
      destruct G as (G1 & G2 & G3 & G4). repeat (split; [assumption|]). destruct G4; subst; intros a H; cbn in H; intuition discriminate.
    - intros He Hz c u b. destruct f; try discriminate He; try (cbn in Hz; lia).
      cbn. unfold bb_getEventIndicators, arrGet, mlogError, mbind, mret, bind, ret. change (Nat.eqb 0 1) with false. cbv iota beta. destruct (logErrors c && hasLogger c); eexists; (split; [reflexivity|]).
      + intros a [H|[]]; discriminate H.
      + apply no_nil.
  Qed.

  (** ** Numbers of steps and times *)
  Section Bumps.
    Context (m : Model F).
    Lemma later_S n k : later (N.modulo (n + 1) two64) k = later n (S k).
    Proof.
      unfold later. rewrite N.add_mod_idemp_l by discriminate. f_equal. lia.
    Qed.
    Lemma bumps_nSteps k c : k > 0 -> nSteps (bumps m k c) = later (nSteps c) k.
    Proof.
      revert c. induction k as [|k IH]; intros c H; [lia|]. cbn [bumps]. destruct k.
      - cbn [bumps bump nSteps set_time set_nSteps]. unfold later. reflexivity.
      - rewrite IH by lia. apply (later_S (nSteps c)).
    Qed.
    Lemma bumps_time k c : time (bumps m k c) = after (m_step m) k c.
    Proof.
      destruct k; [reflexivity|]. rewrite bumps_S. cbn [after bump time set_time set_nSteps]. unfold grid. f_equal.
      - apply bumps_fields.
      - f_equal. f_equal. destruct k; [reflexivity|]. rewrite bumps_nSteps by lia. unfold later.
        rewrite N.add_mod_idemp_l by discriminate. f_equal. lia.
    Qed.
    Lemma reached_beyond ncp c : pointReached m ncp c = beyond (nadd (time c) (m_step m)) ncp.
    Proof. reflexivity. Qed.
  End Bumps.

  Context (szof : N).

  (** ** FMI 3 *)
  Section Three.
    Context (f : FMU).
    Notation m := (model_of (F := F) FMI3 f).
    Notation D := (md m).
    Notation Y := (dyn_all (F := F) FMI3 f).

    Definition none3 : Out F D := ODoStep (mkDoStepOut None None None None).
    Lemma dostep3_refused fuel env ccp h p1 p2 p3 p4 s : mode_of s = StepMode -> ~ acceptable s ccp h ->
      exec3 m szof fuel env (O3DoStep ccp h p1 p2 p3 p4) s = Done (Error, none3, with_mode Terminated s, refusal s).
    Proof.
      intros M A. cbn [exec3]. rewrite outI_eq. unfold fmi3DoStep. rewrite BEGIN_pass by (unfold mode_of in M; rewrite M; discriminate).
      rewrite bind_getC. unfold acceptable, end_of, stop_of, beyond in A.
      assert (G : (logError m env ;;; CALLk m OK Error (mkDoStepOut None None None None) (fun st => ret (st, mkDoStepOut None None None None)))%sw (sinst s) =
        Done ((Error, mkDoStepOut (F := F) None None None None), set_ctl (set_mode Terminated (ctl (sinst s))) (sinst s), refusal s)).
      { rewrite bind_logError. rewrite CALLk_err. rewrite app_nil_r. reflexivity. }
      destruct (isClose ccp (nextCommunicationPoint (ctl (sinst s)))); cbn [negb]; [|rewrite G; reflexivity].
      destruct (nle h nzero); [rewrite G; reflexivity|].
      destruct (nlt (stopTime (ctl (sinst s))) (nadd ccp h) && negb (isClose (nadd ccp h) (stopTime (ctl (sinst s))))); [rewrite G; reflexivity|].
      exfalso. apply A. auto.
    Qed.
    Lemma dostep3 fuel env ccp h p1 p2 p3 p4 s st out s' t : reach3 m szof s ->
      exec3 m szof fuel env (O3DoStep ccp h p1 p2 p3 p4) s = Done (st, out, s', t) ->
      st = Error /\ (mode_of s <> StepMode \/ ~ acceptable s ccp h) /\ out = none3 /\ s' = with_mode Terminated s /\ t = refusal s
      \/ mode_of s = StepMode /\ acceptable s ccp h /\ heap s' = heap s /\ exists e r i' k,
         doStep_loop m env fuel (nadd ccp h) false OK (sinst s) = Done ((st, e, r), i', t) /\
         k <= fuel /\ looped3 Y (nadd ccp h) (sinst s) st r i' t k /\
         (st = Error /\ sinst s' = i' \/
          st = OK /\ sinst s' = set_ctl (set_nextCommunicationPoint (if r then nadd ccp h else time (ctl i')) (ctl i')) i' /\
          out = ODoStep (mkDoStepOut (Some e) (Some (terminateSimulation (mut i'))) (Some (earlyReturnAllowed (ctl i') && negb r)) (Some (time (ctl i'))))).
    Proof.
      intros R E. destruct (mode_dec (mode_of s) StepMode) as [M|M].
      2:{ left. assert (N : O3DoStep (D := D) ccp h p1 p2 p3 p4 <> O3NotImplemented) by discriminate.
          assert (W : ~ In (mode_of s) (when3 (O3DoStep (D := D) ccp h p1 p2 p3 p4))) by (cbn [when3 In]; intros [K|[]]; congruence).
          rewrite (@gate3 _ _ m szof fuel env _ s N (@reach3_modes _ _ _ szof (@model_laws F NF FMI3 f) _ R) W) in E.
          injection E; intros; subst. auto. }
      assert (Dc : {acceptable s ccp h} + {~ acceptable s ccp h}).
      { unfold acceptable. destruct (isClose ccp (end_of s)), (nle h nzero), (beyond (nadd ccp h) (stop_of s));
          first [left; repeat split; reflexivity|right; intros (A & B & C); discriminate]. }
      destruct Dc as [A|A].
      2:{ left. rewrite dostep3_refused in E by auto. injection E; intros; subst. auto. }
      right. split; [exact M|]. split; [exact A|].
      cbn [exec3] in E. rewrite outI_eq in E. unfold fmi3DoStep in E. rewrite BEGIN_pass in E by (unfold mode_of in M; rewrite M; discriminate).
      rewrite bind_getC in E. destruct A as (A1 & A2 & A3). unfold end_of, stop_of, beyond in A1, A3. rewrite A1, A2, A3 in E. cbn [negb] in E.
      destruct (negb (p1 && p2 && p3)); [discriminate|].
      assert (Ft : fit Y (sinst s)) by (apply (@fit_reach _ _ szof f s R); rewrite M; discriminate).
      pose proof (loop3_spec (events_all FMI3 f env) fuel (nadd ccp h) false Ft) as K.
      unfold bind at 1 in E.
      destruct (doStep_loop m env fuel (nadd ccp h) false OK (sinst s)) as [[[[[st0 e] r] i'] t0]| |] eqn:El; try discriminate.
      destruct K as (k & Hk & L). cbv beta iota in E.
      destruct (lp_end L) as [(-> & _)|[(-> & _)|(-> & _)]]; cbn [stops] in E.
      - rewrite bind_getM, bind_getC in E. destruct (negb p4); [discriminate|]. rewrite bind_modC in E. unfold ret in E. rewrite app_nil_r in E.
        injection E; intros; subst. split; [reflexivity|]. exists e, r, i', k. split; [reflexivity|]. split; [exact Hk|]. split; [exact L|]. right; auto.
      - rewrite bind_getM, bind_getC in E. destruct (negb p4); [discriminate|]. rewrite bind_modC in E. unfold ret in E. rewrite app_nil_r in E.
        injection E; intros; subst. split; [reflexivity|]. exists e, r, i', k. split; [reflexivity|]. split; [exact Hk|]. split; [exact L|]. right; auto.
      - unfold ret in E. rewrite app_nil_r in E. injection E; intros; subst. split; [reflexivity|]. exists e, r, i', k. split; [reflexivity|]. split; [exact Hk|]. split; [exact L|]. left; auto.
    Qed.
    (** running out of fuel *)
    Lemma dostep3_fuel fuel env ccp h p1 p2 p3 p4 s : reach3 m szof s ->
      exec3 m szof fuel env (O3DoStep ccp h p1 p2 p3 p4) s = NoFuel ->
      mode_of s = StepMode /\ acceptable s ccp h /\
      forall j, j < fuel -> beyond (nadd (after (m_step m) j (ctl (sinst s))) (m_step m)) (nadd ccp h) = false.
    Proof.
      intros R E. destruct (mode_dec (mode_of s) StepMode) as [M|M].
      2:{ assert (N : O3DoStep (D := D) ccp h p1 p2 p3 p4 <> O3NotImplemented) by discriminate.
          assert (W : ~ In (mode_of s) (when3 (O3DoStep (D := D) ccp h p1 p2 p3 p4))) by (cbn [when3 In]; intros [K|[]]; congruence).
          rewrite (@gate3 _ _ m szof fuel env _ s N (@reach3_modes _ _ _ szof (@model_laws F NF FMI3 f) _ R) W) in E. discriminate. }
      split; [exact M|].
      assert (A : acceptable s ccp h).
      { unfold acceptable. destruct (isClose ccp (end_of s)) eqn:A1; [destruct (nle h nzero) eqn:A2; [|destruct (beyond (nadd ccp h) (stop_of s)) eqn:A3; [|auto]]|];
          (rewrite dostep3_refused in E; [discriminate|exact M|unfold acceptable; intros (B1 & B2 & B3); congruence]). }
      split; [exact A|].
      cbn [exec3] in E. rewrite outI_eq in E. unfold fmi3DoStep in E. rewrite BEGIN_pass in E by (unfold mode_of in M; rewrite M; discriminate).
      rewrite bind_getC in E. destruct A as (A1 & A2 & A3). unfold end_of, stop_of, beyond in A1, A3. rewrite A1, A2, A3 in E. cbn [negb] in E.
      destruct (negb (p1 && p2 && p3)); [discriminate|].
      assert (Ft : fit Y (sinst s)) by (apply (@fit_reach _ _ szof f s R); rewrite M; discriminate).
      pose proof (loop3_spec (events_all FMI3 f env) fuel (nadd ccp h) false Ft) as K.
      unfold bind at 1 in E.
      destruct (doStep_loop m env fuel (nadd ccp h) false OK (sinst s)) as [[[[[st0 e] r] i'] t0]| |] eqn:El; try discriminate.
      - exfalso. destruct K as (k & Hk & L). cbv beta iota in E.
        destruct (lp_end L) as [(-> & _)|[(-> & _)|(-> & _)]]; cbn [stops] in E; try discriminate;
          rewrite bind_getM, bind_getC in E; destruct (negb p4); discriminate.
      - intros j Hj. rewrite <- bumps_time. exact (K j Hj).
    Qed.
  End Three.

  (** ** FMI 2 *)
  Section Two.
    Context (f : FMU) (Nf : f <> StateSpace).
    Notation m := (model_of (F := F) FMI2 f).
    Notation D := (md m).
    Notation Y := (dyn_all (F := F) FMI2 f).

    Lemma dostep2_refused fuel env ccp h s : mode_of s = StepComplete -> ~ acceptable s ccp h ->
      exec2 m szof fuel env (O2DoStep ccp h) s = Done (Error, ONone, with_mode Terminated s, refusal s).
    Proof.
      intros M A. cbn [exec2]. rewrite outI_eq. unfold fmi2DoStep. rewrite BEGIN2_pass by (unfold mode_of in M; rewrite M; discriminate).
      rewrite bind_getC. unfold acceptable, end_of, stop_of, beyond in A.
      assert (G : (logError m env ;;; CALLk m OK Error tt (fun st => ret (st, tt)))%sw (sinst s) =
        Done ((Error, tt), set_ctl (set_mode Terminated (ctl (sinst s))) (sinst s), refusal s)).
      { rewrite bind_logError. rewrite CALLk_err. rewrite app_nil_r. reflexivity. }
      assert (G2 : (logError m env ;;; setMode m Terminated ;;; CALLk m OK Error tt (fun st => ret (st, tt)))%sw (sinst s) =
        Done ((Error, tt), set_ctl (set_mode Terminated (ctl (sinst s))) (sinst s), refusal s)).
      { rewrite bind_logError. unfold setMode. rewrite bind_modC. rewrite CALLk_err. rewrite app_nil_r. reflexivity. }
      destruct (isClose ccp (nextCommunicationPoint (ctl (sinst s)))); cbn [negb]; [|rewrite G2; reflexivity].
      destruct (nle h nzero); [rewrite G; reflexivity|].
      destruct (nlt (stopTime (ctl (sinst s))) (nadd ccp h) && negb (isClose (nadd ccp h) (stopTime (ctl (sinst s))))); [rewrite G; reflexivity|].
      exfalso. apply A. auto.
    Qed.
    Lemma dostep2 fuel env ccp h s st out s' t : reach2 m szof s ->
      exec2 m szof fuel env (O2DoStep ccp h) s = Done (st, out, s', t) ->
      st = Error /\ (mode_of s <> StepComplete \/ ~ acceptable s ccp h) /\ s' = with_mode Terminated s /\ t = refusal s
      \/ mode_of s = StepComplete /\ acceptable s ccp h /\ heap s' = heap s /\ exists r i' k,
         doStep2_loop m env fuel (nadd ccp h) OK (sinst s) = Done ((st, r), i', t) /\
         k <= fuel /\ looped2 Y (nadd ccp h) (sinst s) st r i' t k /\
         sinst s' = (if r then set_ctl (set_nextCommunicationPoint (nadd ccp h) (ctl i')) i' else i').
    Proof.
      intros R E. destruct (mode_dec (mode_of s) StepComplete) as [M|M].
      2:{ left. assert (W : ~ In (mode_of s) (when2 (O2DoStep (D := D) ccp h))) by (cbn [when2 In]; intros [K|[]]; congruence).
          rewrite (@gate2 _ _ m szof fuel env _ s W) in E. injection E; intros; subst. auto. }
      assert (Dc : {acceptable s ccp h} + {~ acceptable s ccp h}).
      { unfold acceptable. destruct (isClose ccp (end_of s)), (nle h nzero), (beyond (nadd ccp h) (stop_of s));
          first [left; repeat split; reflexivity|right; intros (A & B & C); discriminate]. }
      destruct Dc as [A|A].
      2:{ left. rewrite dostep2_refused in E by auto. injection E; intros; subst. auto. }
      right. split; [exact M|]. split; [exact A|].
      cbn [exec2] in E. rewrite outI_eq in E. unfold fmi2DoStep in E. rewrite BEGIN2_pass in E by (unfold mode_of in M; rewrite M; discriminate).
      rewrite bind_getC in E. destruct A as (A1 & A2 & A3). unfold end_of, stop_of, beyond in A1, A3. rewrite A1, A2, A3 in E. cbn [negb] in E.
      assert (Ft : fit Y (sinst s)) by (apply (@fit_reach2 _ _ szof f s Nf R)).
      pose proof (loop2_spec (events_all FMI2 f env) fuel (nadd ccp h) Ft) as K.
      unfold bind at 1 in E.
      destruct (doStep2_loop m env fuel (nadd ccp h) OK (sinst s)) as [[[[st0 r] i'] t0]| |] eqn:El; try discriminate.
      destruct K as (k & Hk & L). cbv beta iota in E. destruct r.
      - rewrite bind_modC in E. unfold ret in E. rewrite app_nil_r in E. injection E; intros; subst.
        split; [reflexivity|]. exists true, i', k. auto.
      - unfold ret in E. rewrite app_nil_r in E. injection E; intros; subst. split; [reflexivity|]. exists false, i', k. auto.
    Qed.
    Lemma dostep2_fuel fuel env ccp h s : reach2 m szof s ->
      exec2 m szof fuel env (O2DoStep ccp h) s = NoFuel ->
      mode_of s = StepComplete /\ acceptable s ccp h /\
      forall j, j < fuel -> beyond (nadd (after (m_step m) j (ctl (sinst s))) (m_step m)) (nadd ccp h) = false.
    Proof.
      intros R E. destruct (mode_dec (mode_of s) StepComplete) as [M|M].
      2:{ assert (W : ~ In (mode_of s) (when2 (O2DoStep (D := D) ccp h))) by (cbn [when2 In]; intros [K|[]]; congruence).
          rewrite (@gate2 _ _ m szof fuel env _ s W) in E. discriminate. }
      split; [exact M|].
      assert (A : acceptable s ccp h).
      { unfold acceptable. destruct (isClose ccp (end_of s)) eqn:A1; [destruct (nle h nzero) eqn:A2; [|destruct (beyond (nadd ccp h) (stop_of s)) eqn:A3; [|auto]]|];
          (rewrite dostep2_refused in E; [discriminate|exact M|unfold acceptable; intros (B1 & B2 & B3); congruence]). }
      split; [exact A|].
      cbn [exec2] in E. rewrite outI_eq in E. unfold fmi2DoStep in E. rewrite BEGIN2_pass in E by (unfold mode_of in M; rewrite M; discriminate).
      rewrite bind_getC in E. destruct A as (A1 & A2 & A3). unfold end_of, stop_of, beyond in A1, A3. rewrite A1, A2, A3 in E. cbn [negb] in E.
      assert (Ft : fit Y (sinst s)) by (apply (@fit_reach2 _ _ szof f s Nf R)).
      pose proof (loop2_spec (events_all FMI2 f env) fuel (nadd ccp h) Ft) as K.
      unfold bind at 1 in E.
      destruct (doStep2_loop m env fuel (nadd ccp h) OK (sinst s)) as [[[[st0 r] i'] t0]| |] eqn:El; try discriminate.
      - exfalso. cbv beta iota in E. destruct r; discriminate.
      - intros j Hj. rewrite <- bumps_time. exact (K j Hj).
    Qed.
  End Two.
End StepsFmus.
