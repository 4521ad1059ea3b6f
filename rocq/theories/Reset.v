(** Reset.v -- after Reset an instance behaves like a new one (C16). *)
From Coq Require Import List NArith ZArith Bool Arith Lia.
From Verif Require Import Base Instance ModelIface Core Fmi3 Fmi2 Api Fmus Logic Calls SpecModes SpecHist SpecState SpecReset
  Gate Effect Reach Histories LawsFmus Sim Sim3 SimSys Sim2 SimSys2 SimFmus SimFT SimSS SimMade Flags Fits
  FmuBouncingBall FmuDahlquist FmuStair FmuVanDerPol FmuRoberts FmuClocks FmuResource FmuStateSpace FmuFeedthrough.
Import ListNotations.
Set Implicit Arguments.

Section Reset.
  Context {F : Type} {NF : Num F} (szof : N).
  Notation M v f := (model_of (F := F) v f).

  (** The data after setStartValues and the final [dirty = true]. *)
  Lemma start_total v f env c u : exists w, m_setStartValues (M v f) env c u = Done (OK, w, []).
  Proof. destruct f; eexists; reflexivity. Qed.

  Lemma start_mutR (lg : Prop) v f env c u w e2 c2 b w2 :
    flags v f u ->
    m_setStartValues (M v f) env c u = Done (OK, w, []) ->
    m_setStartValues (M v f) e2 c2 (mkMut false false false false false nzero false b (md0 (M v f))) = Done (OK, w2, []) ->
    mutR (rel lg false False v f) (set_dirty true w) (set_dirty true w) -> mutR (rel lg false False v f) (set_dirty true w2) (set_dirty true w2) ->
    match f return Mut F (md (M v f)) -> Mut F (md (M v f)) -> Prop with
    | Stair => fun i _ => terminateSimulation i = false
    | StateSpace => fun i i0 => ss_x0 (data i) = ss_x0 (data i0)
    | _ => fun _ _ => True
    end u (set_dirty true w2) ->
    mutR (rel lg false False v f) (set_dirty true w2) (set_dirty true w).
  Proof.
    destruct f; cbn [flags model_of rel m_setStartValues BouncingBall_model Clocks_model Dahlquist_model Feedthrough_model
      Resource_model Roberts_model Stair_model StateSpace_model VanDerPol_model md md0]; intros J E E2 S S2 H.
    all: cbv [bb_setStartValues cl_setStartValues da_setStartValues ft_setStartValues re_setStartValues ro_setStartValues
      st_setStartValues ss_setStartValues vp_setStartValues mbind mmod mmodd mret bind modS ret] in E, E2;
      injection E as <-; injection E2 as <-.
    all: try (destruct u as [? ? ? ? ? ? ? ? [? ? ? ? ? ? ? ? ?]]).
    all: unfold quietRO, calmU, calmST, quiet, idle in J; cbn in J, H.
    all: constructor; cbn; try tauto; try intuition congruence.
    - exact (mr_data S2).
    - pose proof (s_sh (mr_data S)) as A. pose proof (s_sh (mr_data S2)) as B. constructor; cbn; auto.
  Qed.

  (** New instances. *)
  Record fresh v f (i : Inst F (md (M v f))) : Prop := mkFresh {
    fr_start : startTime (ctl i) = nzero; fr_time : time (ctl i) = nzero; fr_steps : nSteps (ctl i) = 0%N;
    fr_status : istatus (ctl i) = OK; fr_mode : mode (ctl i) = Instantiated; fr_nx : nx (sol i) = 0; fr_nz : nz (sol i) = 0;
    fr_mut : exists env c b w, m_setStartValues (M v f) env c (mkMut false false false false false nzero false b (md0 (M v f))) = Done (OK, w, [])
               /\ mut i = set_dirty true w }.
  Lemma create_fresh v f env lg iu e n t r lo ty i tr :
    createModelInstance (M v f) env lg iu e n t r lo ty = Done (Some i, tr) -> fresh v f i.
  Proof.
    unfold createModelInstance. destruct n as [n|]; [|discriminate].
    destruct (Nat.eqb (strlen n) 0); [discriminate|]. destruct t as [t|]; [|discriminate].
    destruct (Nat.eqb (strlen t) 0); [discriminate|]. destruct (negb (streq t (m_token (M v f)))); [discriminate|].
    unfold bind, call. cbn [ctl mut blank].
    match goal with |- context [m_setStartValues ?m ?e ?c ?u] => destruct (start_total v f e c u) as [w E]; rewrite E end.
    cbn. intro H; inversion H; subst; cbn. constructor; try reflexivity. cbn. eauto 8.
  Qed.
  Lemma fresh_ctl v f (i : Inst F (md (M v f))) c : fresh v f i -> startTime c = startTime (ctl i) -> time c = time (ctl i) ->
    nSteps c = nSteps (ctl i) -> istatus c = istatus (ctl i) -> mode c = mode (ctl i) -> fresh v f (set_ctl c i).
  Proof. intros [] A B C D E. constructor; cbn; congruence || auto. Qed.
  Lemma made_fresh v f i : made3 (M v f) i -> fresh v f i.
  Proof.
    intros [(env & n & t & r & b & e & l & tr & H)|[(env & n & t & r & b & ev & er & e & l & iu & tr & H)
      |(env & n & t & r & b & e & l & cu & lo & ul & tr & H)]].
    - unfold fmi3InstantiateModelExchange in H. destruct (m_modelExchange _); [|discriminate].
      eapply create_fresh; exact H.
    - unfold fmi3InstantiateCoSimulation in H. destruct (negb _ && ev); [discriminate|].
      destruct (createModelInstance _ _ _ _ _ _ _ _ _ _) as [[[j|] t0]| |] eqn:E; inversion H; subst.
      apply create_fresh in E. apply fresh_ctl; auto; symmetry; apply E.
    - unfold fmi3InstantiateScheduledExecution in H. destruct (m_scheduled _); [|discriminate].
      destruct (createModelInstance _ _ _ _ _ _ _ _ _ _) as [[[j|] t0]| |] eqn:E; inversion H; subst.
      apply create_fresh in E. apply fresh_ctl; auto; symmetry; apply E.
  Qed.
  Lemma made_fresh2 v f i : made2 (M v f) i -> fresh v f i.
  Proof.
    intros (env & n & ty & t & r & e & l & b & tr & H). unfold fmi2Instantiate in H.
    destruct l; [|discriminate]. eapply create_fresh; exact H.
  Qed.

  (** What Reset does. *)
  Definition reset_ctl (c : Ctl F) : Ctl F :=
    set_istatus OK (set_nSteps 0%N (set_time nzero (set_startTime nzero (set_mode Instantiated c)))).
  Lemma reset_eq v f env (i : Inst F (md (M v f))) : exists w,
    m_setStartValues (M v f) env (reset_ctl (ctl i)) (mut i) = Done (OK, w, []) /\
    reset (M v f) env i = Done (OK, mkInst (reset_ctl (ctl i)) (set_dirty true w) (sol i), []).
  Proof.
    destruct (start_total v f env (reset_ctl (ctl i)) (mut i)) as [w E]. exists w. split; [exact E|].
    unfold reset, setMode. rewrite !bind_modC. unfold bind, call. destruct i as [c u o]. cbn [ctl mut sol set_ctl] in *.
    unfold reset_ctl in E. rewrite E. reflexivity.
  Qed.
  Lemma Reset3_eq v f env (i : Inst F (md (M v f))) w : In (mode (ctl i)) modes3 ->
    reset (M v f) env i = Done (OK, w, []) -> fmi3Reset (M v f) env i = Done ((OK, tt), w, []).
  Proof.
    intros Hm E. unfold fmi3Reset. rewrite BEGIN_pass; [|now apply SimSys.any_pass]. unfold bind at 1. rewrite E. reflexivity.
  Qed.

  Definition eqE16 (a : ModelState) : Prop :=
    match a with Instantiated | ConfigurationMode | Terminated => False | _ => True end.
  Definition eqS16 (m : Model F) (a : ModelState) : Prop :=
    ~ has_solver m \/ match a with Instantiated | ConfigurationMode | InitializationMode | Terminated => False | _ => True end.
  Definition allowed16 (m : Model F) (o : Op3 F (md m)) (a : ModelState) : Prop :=
    o = O3EnterStepMode -> a <> InitializationMode \/ ~ has_solver m.

  Ltac by_mode a Hw := destruct a; cbn in Hw; try (exfalso; repeat destruct Hw as [Hw|Hw]; discriminate || contradiction).
  Lemma HE16 (m : Model F) (o : Op3 F (md m)) (s : Sys F (md m)) : heap3 m o = false -> In (mode_of s) (when3 o) ->
    eqE16 (next3 o s) -> eqE16 (mode_of s) \/ is_EnterInit m o = true.
  Proof.
    intros Ho Hw. unfold mode_of in *.
    destruct o; try discriminate Ho; cbn [next3 is_EnterInit]; auto;
      by_mode (mode (ctl (sinst s))) Hw; cbn; auto.
  Qed.
  Lemma HS16 (m : Model F) (o : Op3 F (md m)) (s : Sys F (md m)) : heap3 m o = false -> In (mode_of s) (when3 o) ->
    allowed16 m o (mode_of s) -> eqS16 m (next3 o s) -> eqS16 m (mode_of s) \/ configures m o = true.
  Proof.
    intros Ho Hw Al [H|H]; [left; left; exact H|]. revert H. unfold eqS16, mode_of, allowed16 in *.
    destruct o; try discriminate Ho; cbn [next3 configures]; auto;
      by_mode (mode (ctl (sinst s))) Hw; cbn; auto; try contradiction.
    intros _. destruct (Al eq_refl) as [A|A]; [contradiction|]. auto.
  Qed.

  Lemma reset_related (lg : Prop) v f env (i i0 : Inst F (md (M v f))) w :
    fresh v f i0 -> flags v f (mut i) ->
    reset (M v f) env i = Done (OK, w, []) ->
    instR (M v f) (rel lg false False v f) True True w w ->
    instR (M v f) (rel lg false False v f) True True i0 i0 ->
    identity (mkSys i0 []) = identity (mkSys i []) -> (lg -> logging (mkSys i0 []) = logging (mkSys i [])) ->
    earlyReturnAllowed (ctl i0) = earlyReturnAllowed (ctl i) -> eventModeUsed (ctl i0) = eventModeUsed (ctl i) ->
    nothing_left v f i i0 ->
    instR (M v f) (rel lg false False v f) False (~ has_solver (M v f)) i0 w.
  Proof.
    intros Fr J E Rw R0 Hid Hlg He Hv Hn.
    destruct (reset_eq v f env i) as (u & Eu & Er). rewrite Er in E. injection E as <-.
    unfold identity in Hid. unfold logging in Hlg. cbn [sinst] in Hid, Hlg. injection Hid as I1 I2 I3 I4 I5 I6 I7 I8 I9.
    destruct Fr as [f1 f2 f3 f4 f5 f6 f7 (e0 & c0 & b0 & u0 & E0 & M0)].
    constructor; cbn [ctl mut sol].
    - constructor; cbn; try congruence; try contradiction.
      + apply rel_loc.
      + rewrite rel_log. intro H. specialize (Hlg H). congruence.
      + rewrite rel_log. intro H. specialize (Hlg H). congruence.
      + rewrite f5. apply modeR_refl.
    - rewrite M0. eapply start_mutR; [exact J|exact Eu|exact E0| | |].
      + exact (ir_mut Rw).
      + rewrite <- M0. exact (ir_mut R0).
      + rewrite <- M0. destruct f; exact Hn.
    - pose proof (ir_sol R0) as S0. pose proof (ir_sol Rw) as S1. cbn in S1. constructor; try apply S0; try apply S1.
      + intro H. pose proof (sr_sizes S1). unfold sizesR, has_solver in *. lia.
      + intro H. pose proof (sr_sizes S1). unfold sizesR, has_solver in *. lia.
      + intro H. now rewrite f7.
  Qed.

  Lemma leaves_along f fuel : forall l (s : Sys F (md (M FMI3 f))), has_solver (M FMI3 f) -> leaves_initialization (M FMI3 f) szof fuel l s ->
    along3 (M FMI3 f) szof (allowed16 (M FMI3 f)) fuel 0 l s.
  Proof.
    induction l as [|[e o] l IH]; intros s Hs; cbn [leaves_initialization along3]; [auto|].
    intros [A B]. split; [intros ->; left; exact A|]. rewrite rebase3_0.
    destruct (exec3 (M FMI3 f) szof fuel e o s) as [[[[st out] s'] t]| |]; auto.
  Qed.
  Lemma free_along f fuel : ~ has_solver (M FMI3 f) -> forall l (s : Sys F (md (M FMI3 f))),
    along3 (M FMI3 f) szof (allowed16 (M FMI3 f)) fuel 0 l s.
  Proof.
    intros Hs. induction l as [|[e o] l IH]; intro s; cbn [along3]; [auto|]. split; [intros _; right; exact Hs|]. rewrite rebase3_0.
    destruct (exec3 (M FMI3 f) szof fuel e o s) as [[[[st out] s'] t]| |]; auto.
  Qed.

  Lemma solver_dec (m : Model F) : has_solver m \/ ~ has_solver m.
  Proof. unfold has_solver. destruct (Nat.eq_dec (m_maxX m) 0), (Nat.eq_dec (m_maxZ m) 0); lia. Qed.

  Theorem reset3 f s env fuel0 : reach3 (M FMI3 f) szof s ->
    exists s', exec3 (M FMI3 f) szof fuel0 env O3Reset s = Done (OK, ONone, s', []) /\ mode_of s' = Instantiated /\
      heap s' = heap s /\
      forall i0 fuel l, made3 (M FMI3 f) i0 ->
        created_alike i0 s -> nothing_left FMI3 f (sinst s) i0 ->
        (has_solver (M FMI3 f) -> leaves_initialization (M FMI3 f) szof fuel l (mkSys i0 [])) ->
        (forall e o i, In (e, o) l -> image3 o = Some i -> saved3 (M FMI3 f) szof i) ->
        same_run (logging (mkSys i0 []) = logging s) 0 (length (heap s))
          (run3 (M FMI3 f) szof fuel l (mkSys i0 []))
          (run3 (M FMI3 f) szof fuel (rebases3 (length (heap s)) l) s').
  Proof.
    intro R. destruct (rel_diag True False FMI3 f R) as [[Hm _] _].
    destruct (reset_eq FMI3 f env (sinst s)) as (u & Eu & Er).
    set (w := mkInst _ _ _) in Er.
    assert (X : exec3 (M FMI3 f) szof fuel0 env O3Reset s = Done (OK, ONone, mkSys w (heap s), [])).
    { cbn [exec3]. unfold outI, outS, onInst, bind. rewrite (@Reset3_eq _ _ _ _ _ Hm Er). reflexivity. }
    exists (mkSys w (heap s)). split; [exact X|]. split; [reflexivity|]. split; [reflexivity|].
    intros i0 fuel l Mi (Hid & He & Hv) Hn Hl Hi.
    set (lg := logging (mkSys i0 []) = logging s).
    assert (R' : reach3 (M FMI3 f) szof (mkSys w (heap s))).
    { eapply reach3_call; [exact R| |exact X]. discriminate. }
    pose proof (proj2 (proj1 (rel_diag lg False FMI3 f R'))) as Rw. cbn [sinst] in Rw.
    destruct (rel_made lg False FMI3 f Mi) as [_ R0].
    pose proof (@reset_related lg FMI3 f env (sinst s) i0 w (made_fresh FMI3 f Mi) (flags_reach3 FMI3 f R) Er Rw R0 Hid (fun H => H) He Hv Hn) as K.
    pose proof (@run3_sim _ _ (M FMI3 f) (rel lg false False FMI3 f) szof eqE16 (eqS16 (M FMI3 f)) (sim_all lg false False FMI3 f)
      (rel_nocross lg False FMI3 f) (model_laws FMI3 f)
      (allowed16 (M FMI3 f))) as Q.
    rewrite rel_log in Q.
    assert (Z : rebases3 0 l = l) by apply rebases3_0.
    rewrite <- Z at 1. apply Q; clear Q.
    - intros o s0 Ho Hw _. now apply HE16.
    - intros o s0 Ho Hw Al. now apply HS16.
    - intros [].
    - unfold eqS16. intros [H|[]]. auto.
    - exact Logic.I.
    - right. exact Logic.I.
    - split; cbn [sinst heap].
      + split; rewrite (fr_mode (made_fresh FMI3 f Mi)); [cbn; tauto|].
        eapply instR_weaken; [| |exact K].
        * intros [].
        * unfold eqS16. intros [H|[]]. exact H.
      + exists [], (heap s), [], []. split; [reflexivity|]. split; [symmetry; apply app_nil_r|].
        split; [reflexivity|]. split; [reflexivity|]. constructor.
    - destruct (solver_dec (M FMI3 f)) as [Hs|Hs]; [apply leaves_along; auto|now apply free_along].
    - intros e o Hin. split; [apply rel_env|]. intros i Him. destruct (rel_saved lg False FMI3 f (Hi e o i Hin Him)) as [A B].
      split; [exact A|]. eapply instR_weaken; [| |exact B]; auto.
  Qed.

  (** ** FMI 2 *)
  Definition eqS16b (a : ModelState) : Prop :=
    match a with Instantiated | InitializationMode | Terminated => False | _ => True end.
  Lemma HS16b (m : Model F) (o : Op2 F (md m)) (s : Sys F (md m)) : heap2 m o = false -> In (mode_of s) (when2 o) ->
    eqS16b (next2 o s) -> eqS16b (mode_of s) \/ configures2 m o = true.
  Proof.
    intros Ho Hw. unfold mode_of in *.
    destruct o; try discriminate Ho; cbn [next2 configures2]; auto;
      by_mode (mode (ctl (sinst s))) Hw; cbn; auto.
  Qed.
  Lemma Reset2_eq v f env (i : Inst F (md (M v f))) w : In (mode (ctl i)) observable2 ->
    reset (M v f) env i = Done (OK, w, []) -> fmi2Reset (M v f) env i = Done ((OK, tt), w, []).
  Proof.
    intros Hm E. unfold fmi2Reset. rewrite BEGIN2_pass; [|now apply SimSys2.any_pass]. unfold bind at 1. rewrite E. reflexivity.
  Qed.

  Lemma same_run_cons (m : Model F) (lg : Prop) n n' fuel e o o' s s' st out s1 t st' out' s1' t' l l' :
    exec2 m szof fuel e o s = Done (st, out, s1, t) -> exec2 m szof fuel e o' s' = Done (st', out', s1', t') ->
    obs_eq lg n n' (st, out, t) (st', out', t') ->
    same_run lg n n' (run2 m szof fuel l s1) (run2 m szof fuel l' s1') ->
    same_run lg n n' (run2 m szof fuel ((e, o) :: l) s) (run2 m szof fuel ((e, o') :: l') s').
  Proof.
    intros A B C Z. unfold run2 in *. cbn [run]. rewrite A, B. unfold same_run in *.
    destruct (run _ l s1) as [[? ?]| |], (run _ l' s1') as [[? ?]| |]; auto.
  Qed.
  Definition setup_ctl (a b : F) (c : Ctl F) : Ctl F :=
    set_nextCommunicationPoint a (set_time a (set_stopTime b (set_startTime a c))).
  Lemma Setup2_eq (m : Model F) fuel e a (d : bool) b (i : Inst F (md m)) h : mode (ctl i) = Instantiated ->
    exec2 m szof fuel e (O2SetupExperiment a d b) (mkSys i h) =
      Done (OK, ONone, mkSys (mkInst (setup_ctl a (if d then b else ninf) (ctl i)) (mut i) (sol i)) h, []).
  Proof.
    intro H. cbn [exec2]. unfold outI, outS, onInst, fmi2SetupExperiment. unfold bind at 1. cbn [sinst].
    rewrite BEGIN2_pass; [|rewrite H; discriminate].
    rewrite !bind_modC. reflexivity.
  Qed.

  Theorem reset2 f s env fuel0 : reach2 (M FMI2 f) szof s ->
    exists s', exec2 (M FMI2 f) szof fuel0 env O2Reset s = Done (OK, ONone, s', []) /\ mode_of s' = Instantiated /\
      heap s' = heap s /\
      forall i0 fuel e0 start stopDefined stop l, made2 (M FMI2 f) i0 ->
        created_alike i0 s -> nothing_left FMI2 f (sinst s) i0 ->
        (forall e o i, In (e, o) l -> image2 o = Some i -> saved2 (M FMI2 f) szof i) ->
        same_run (logging (mkSys i0 []) = logging s) 0 (length (heap s))
          (run2 (M FMI2 f) szof fuel ((e0, O2SetupExperiment start stopDefined stop) :: l) (mkSys i0 []))
          (run2 (M FMI2 f) szof fuel (rebases2 (length (heap s)) ((e0, O2SetupExperiment start stopDefined stop) :: l)) s').
  Proof.
    intro R. destruct (rel_diag2 True False FMI2 f R) as [[Hm _] _].
    destruct (reset_eq FMI2 f env (sinst s)) as (u & Eu & Er).
    set (w := mkInst _ _ _) in Er.
    assert (X : exec2 (M FMI2 f) szof fuel0 env O2Reset s = Done (OK, ONone, mkSys w (heap s), [])).
    { cbn [exec2]. unfold outI, outS, onInst, bind. rewrite (@Reset2_eq _ _ _ _ _ Hm Er). reflexivity. }
    exists (mkSys w (heap s)). split; [exact X|]. split; [reflexivity|]. split; [reflexivity|].
    intros i0 fuel e0 start sd stop l Mi (Hid & He & Hv) Hn Hi.
    set (lg := logging (mkSys i0 []) = logging s).
    assert (R' : reach2 (M FMI2 f) szof (mkSys w (heap s))).
    { eapply reach2_call; [exact R| |exact X]. discriminate. }
    pose proof (proj2 (proj1 (rel_diag2 lg False FMI2 f R'))) as Rw. cbn [sinst] in Rw.
    destruct (rel_made2 lg False FMI2 f Mi) as [_ R0].
    pose proof (@reset_related lg FMI2 f env (sinst s) i0 w (made_fresh2 FMI2 f Mi) (flags_reach2 FMI2 f R) Er Rw R0 Hid (fun H => H) He Hv Hn) as K.
    set (n := length (heap s)).
    pose proof (@exec2_inst _ _ (M FMI2 f) (rel lg false False FMI2 f) szof (sim_all lg false False FMI2 f)
      (rel_nocross lg False FMI2 f) fuel e0 (O2SetupExperiment start sd stop) (mkSys i0 []) (mkSys w (heap s)) _ _
      (rel_env lg false False FMI2 f e0) eq_refl K) as Q1.
    specialize (Q1 ltac:(discriminate)).
    assert (M0 : mode (ctl i0) = Instantiated) by apply (fr_mode (made_fresh2 FMI2 f Mi)).
    pose proof (@Setup2_eq (M FMI2 f) fuel e0 start sd stop i0 [] M0) as G.
    pose proof (@Setup2_eq (M FMI2 f) fuel e0 start sd stop w (heap s) eq_refl) as G'.
    rewrite G, G' in Q1. unfold orel in Q1. destruct Q1 as [(_ & _ & R1 & _) T].
    specialize (R1 eq_refl). cbn [sinst] in R1.
    assert (M1 : mode (setup_ctl start (if sd then stop else ninf) (ctl i0)) = Instantiated) by exact M0.
    set (i1 := mkInst (setup_ctl start (if sd then stop else ninf) (ctl i0)) _ _) in *.
    set (w1 := mkInst (setup_ctl start (if sd then stop else ninf) (ctl w)) _ _) in *.
    apply (@same_run_cons (M FMI2 f) lg 0 n fuel e0 _ _ _ _ OK ONone _ [] OK ONone _ [] l (rebases2 n l) G G').
    { cbn. auto. }
    assert (M2 : mode (ctl i1) = Instantiated) by exact M1. clearbody i1 w1.
    pose proof (@run2_sim _ _ (M FMI2 f) (rel lg false False FMI2 f) szof yes eqS16b (sim_all lg false False FMI2 f)
      (rel_nocross lg False FMI2 f) (model_laws FMI2 f) (fun _ _ => True) ) as Q.
    rewrite rel_log in Q. rewrite <- (@rebases2_0 _ _ l) at 1.
    apply Q; clear Q; auto.
    - intros o s0 Ho Hw _. now apply HS16b.
    - intros [].
    - exact Logic.I.
    - split; cbn [sinst heap].
      + split; rewrite M2; [cbn; tauto|].
        eapply instR_weaken; [| |exact R1]; [now right|intros []].
      + exists [], (heap s), [], []. split; [reflexivity|]. split; [symmetry; apply app_nil_r|].
        split; [reflexivity|]. split; [reflexivity|]. constructor.
    - apply along2_yes.
    - intros e o Hin. split; [apply rel_env|]. intros i Him. destruct (rel_saved2 lg False FMI2 f (Hi e o i Hin Him)) as [A B].
      split; [exact A|]. eapply instR_weaken; [| |exact B]; auto.
  Qed.
End Reset.
