(** Crossing.v -- the indicator values the solver compares with: set when the solver is configured, at the
    end of every solver step and after the event handling inside DoStep, and not changed by anything else. *)
From Coq Require Import List NArith ZArith Bool Arith Lia.
From Verif Require Import Base Instance ModelIface Core Fmi3 Fmi2 Api Fmus Logic Calls LawsFmus SpecModes SpecCreate SpecState Gate Effect Reach Histories
  FmuBouncingBall FmuDahlquist FmuStair FmuVanDerPol FmuRoberts FmuClocks FmuResource FmuStateSpace FmuFeedthrough
  Sim SimSS SpecVars SpecEqs SpecSteps VarsFmus DataFmus Dyn Solver Fits Steps StepsFmus StepProps SpecOde Ode KeepArrays.
Import ListNotations.
Set Implicit Arguments.

Section Conf.
  Context {F : Type} {NF : Num F} (m : Model F) (WF : md m -> Prop) (Y : Dyn m WF).
  Notation D := (md m).
  (** the state of the solver after it was configured *)
  Definition sized_for (i k : Inst F D) : Prop :=
    (0 < m_maxX m -> nx (sol k) = m_nx m (mut k)) /\
    (0 < m_maxZ m -> (forall d : D, WF d) -> (forall d : D, 0 < length (dy_z Y d) <= length (prez (sol i))) ->
       nz (sol k) = length (dy_z Y (data (mut k))) /\ firstn (nz (sol k)) (prez (sol k)) = dy_z Y (data (mut k))).
  Definition sizer {X} (f : AF F D (Status * X)) : Prop := forall i x k t, f i = Done ((OK, x), k, t) -> sized_for i k.
  Lemma sizer_bind X Z (f : AF F D X) (g : X -> AF F D (Status * Z)) : keep m f -> (forall x, sizer (g x)) -> sizer (bind f g).
  Proof.
    intros A B i x k t E. apply bind_Done in E as (y & j & t1 & t2 & E1 & E2 & ->).
    pose proof (A _ _ _ _ E1) as K. destruct (B _ _ _ _ _ E2) as [B1 B2]. split; [exact B1|]. rewrite <- K. exact B2.
  Qed.
  Lemma sizer_err X (x : X) st : st <> OK -> sizer (ret (st, x)).
  Proof. intros N i y k t E. injection E; intros; subst. congruence. Qed.
  Lemma configurate_sized env i k t : configurate m env i = Done (OK, k, t) -> sized_for i k.
  Proof.
    intro E. unfold configurate, CALLc in E. apply bind_Done in E as (s & j & t1 & t2 & E1 & E2 & ->).
    assert (A : s = OK -> 0 < m_maxZ m -> (forall d : D, WF d) -> (forall d : D, 0 < length (dy_z Y d) <= length (prez (sol i))) ->
       nz (sol j) = length (dy_z Y (data (mut j))) /\ firstn (nz (sol j)) (prez (sol j)) = dy_z Y (data (mut j))).
    { intros -> Hz W L. unfold configurate_z in E1. rewrite (proj2 (Nat.ltb_lt _ _) Hz) in E1.
      rewrite bind_getM, bind_modSol, bind_getSol in E1. cbn [ctl mut sol set_sol nz set_nz prez] in E1.
      rewrite (dy_nz Y (mut i) (W _)) in E1. pose proof (dy_getz Y env (ctl i) (mut i) (prez (sol i)) (W _) (L _)) as G.
      match type of E1 with bind (call m env _) ?g ?ii = _ => pose proof (@bind_call_done _ m env _ _ _ g ii _ _ G) as G' end.
      rewrite G' in E1. cbn [snd fst] in E1. rewrite bind_modSol in E1. injection E1; intros; subst.
      cbn [ctl mut sol set_sol set_mut nz set_nz set_prez prez].
      destruct (dy_tz_ok Y (mut i) (W _)) as (_ & _ & Z & _). rewrite (dy_zlen Y (data (dy_tz Y (mut i))) (data (mut i))).
      split; [reflexivity|]. rewrite firstn_app, firstn_all, Nat.sub_diag. cbn [firstn]. rewrite app_nil_r. symmetry; exact Z. }
    destruct s; try discriminate. unfold configurate_x in E2. destruct (Nat.ltb_spec 0 (m_maxX m)).
    - unfold bind at 1 in E2. rewrite bind_getM in E2. injection E2; intros; subst. split; [reflexivity|].
      intros. cbn [ctl mut sol set_sol nz set_nx prez]. apply A; auto.
    - injection E2; intros; subst. split; [intro; lia|]. intros. apply A; auto.
  Qed.

  Lemma sizer_end env st : sizer (let* s := configurate m env in CALLk m st s tt (fun st => ret (st, tt)))%sw.
  Proof.
    intros i x k t E. apply bind_Done in E as (s & j & t1 & t2 & E1 & E2 & ->).
    destruct st, s; cbn in E2; try discriminate; injection E2; intros; subst; try discriminate. now apply configurate_sized in E1.
  Qed.
  Lemma sizer_refused X (x : X) k : sizer (CALLk m OK Error x k).
  Proof. intros i y l t E. cbn in E. injection E; intros; subst. discriminate. Qed.
  Lemma sizer_refresh env g : (forall st, sizer (g st)) -> sizer (refresh m env OK tt g).
  Proof.
    intro H. unfold refresh. apply sizer_bind; [apply k_getM|]. intro u. destruct (dirty u); [|apply H].
    apply sizer_bind; [apply k_call|]. intro s. unfold CALLk. apply sizer_bind; [apply k_CALL|]. intro st.
    destruct st; cbn [stops]; try (apply sizer_err; discriminate); (apply sizer_bind; [apply k_dirty|intro; apply H]).
  Qed.

  Lemma exec3_sized szof fuel env o s out s' t : o = O3ExitInitializationMode \/ o = O3ExitConfigurationMode /\ 0 < m_maxX m + m_maxZ m ->
    exec3 m szof fuel env o s = Done (OK, out, s', t) -> sized_for (sinst s) (sinst s').
  Proof.
    intros Ho E. assert (exists (f : AF F D (Status * unit)) g, outI m f g s = Done (OK, out, s', t) /\ sizer f) as (f & g & E' & C).
    { destruct Ho as [->|(-> & Hm)]; cbn [exec3] in E; eexists _, _; (split; [exact E|]).
      - unfold fmi3ExitInitializationMode, BEGIN. apply sizer_bind; [apply k_allowed|]. intros []; [|apply sizer_refused].
        apply sizer_refresh. intro. apply sizer_bind; [apply k_modC|]. intros _. apply sizer_end.
      - unfold fmi3ExitConfigurationMode, BEGIN. apply sizer_bind; [apply k_allowed|]. intros []; [|apply sizer_refused].
        apply sizer_bind; [apply k_modC|]. intros _.
        destruct (Nat.ltb_spec 0 (m_maxX m)); cbn [orb]; [apply sizer_end|]. destruct (Nat.ltb_spec 0 (m_maxZ m)); [apply sizer_end|lia]. }
    rewrite outI_eq in E'. destruct (f (sinst s)) as [[[[st0 x] j] t0]| |] eqn:Ef; try discriminate.
    injection E'; intros; subst. cbn. eapply C; eassumption.
  Qed.
  Lemma exec2_sized szof fuel env s out s' t :
    exec2 m szof fuel env O2ExitInitializationMode s = Done (OK, out, s', t) -> sized_for (sinst s) (sinst s').
  Proof.
    intros E. assert (exists (f : AF F D (Status * unit)) g, outI m f g s = Done (OK, out, s', t) /\ sizer f) as (f & g & E' & C).
    { cbn [exec2] in E; eexists _, _; (split; [exact E|]).
      unfold fmi2ExitInitializationMode, BEGIN2. apply sizer_bind; [apply k_allowed2|]. intros []; [|apply sizer_refused].
      apply sizer_refresh. intro. apply sizer_bind; [apply k_modC|]. intros _. apply sizer_end. }
    rewrite outI_eq in E'. destruct (f (sinst s)) as [[[[st0 x] j] t0]| |] eqn:Ef; try discriminate.
    injection E'; intros; subst. cbn. eapply C; eassumption.
  Qed.
End Conf.

Section Stored.
  Context {F : Type} {NF : Num F} (v : Version) (f : FMU).
  Notation m := (model_of (F := F) v f).
  Notation D := (md m).
  Notation Y := (dyn_all (F := F) v f).

  (** ready for a run: all states integrated, all indicators watched, the stored ones up to date *)
  Lemma sized_ready (i k : Inst F D) : sane v f i -> sane v f k -> sized_for Y i k ->
    set_up v f k /\ current v f k.
  Proof.
    intros [Fi _] [Fk _] [Hx Hz]. unfold set_up, current. rewrite and_assoc,  !states_eq, !indicators_eq. split.
    - destruct (Nat.eq_dec (m_maxX m) 0) as [E0|E0].
      + destruct Fk as [_ (_ & _ & _ & _ & _ & S) X _]. rewrite E0 in S. assert (nx (sol k) = 0) as Q by lia. rewrite Q in *. clear Hx Hz. clear -E0. destruct f; try discriminate E0; reflexivity.
      + rewrite Hx by lia. apply (dy_nx Y). apply Fk.
    - unfold stored. destruct (Nat.eq_dec (m_maxZ m) 0) as [E0|E0].
      + destruct Fk as [_ (_ & _ & S & _) _ _]. rewrite E0 in S. assert (nz (sol k) = 0) as Q by lia. rewrite Q in *. cbn [firstn].
        clear -E0. destruct f; try discriminate E0; split; reflexivity.
      + apply Hz; [lia| |].
        * clear -E0. destruct f; try (exfalso; apply E0; reflexivity); intro; exact I.
        * destruct Fi as [_ (_ & -> & _) _ _]. clear -E0. destruct f; try (exfalso; apply E0; reflexivity); intros []; cbn; lia.
  Qed.

  Lemma indicators_len (d d' : D) : length (indicators v f d) = length (indicators v f d').
  Proof. rewrite !indicators_eq. apply (dy_zlen Y). Qed.
  Lemma steps_stored env k : forall i i', nz (sol i) = length (indicators v f (data (mut i))) -> steps_with v f (handled v f env) k i i' ->
    nz (sol i') = nz (sol i) /\ nx (sol i') = nx (sol i) /\
    (k > 0 \/ stored v f i = indicators v f (data (mut i)) -> stored v f i' = indicators v f (data (mut i'))).
  Proof.
    intros i i' Hn W. induction W as [i|k i i1 i' Sv Ne W IH|k i i1 i2 i' Sv Ev Hd W IH].
    - repeat (split; [reflexivity|]). intros [H|H]; [lia|exact H].
    - assert (Hn1 : nz (sol i1) = length (indicators v f (data (mut i1)))) by (rewrite (sv_nz Sv), Hn; apply indicators_len).
      destruct (IH Hn1) as (A & B & C). rewrite A, B, (sv_nz Sv), (sv_nx Sv). repeat (split; [reflexivity|]). intros _. apply C. right.
      destruct (Nat.eq_dec (nz (sol i)) 0) as [Z|Z].
      + unfold stored. rewrite (sv_nz Sv), Z. cbn [firstn]. rewrite (sv_nz Sv), Z in Hn1. symmetry. now apply length_zero_iff_nil.
      + apply (sv_stored Sv). unfold watching. lia.
    - destruct Hd as [(u & t & _ & _ & _ & X2 & Z2) St].
      assert (Hn1 : nz (sol i2) = length (indicators v f (data (mut i2)))) by (rewrite Z2, (sv_nz Sv), Hn; apply indicators_len).
      destruct (IH Hn1) as (A & B & C). rewrite A, B, Z2, X2, (sv_nz Sv), (sv_nx Sv). repeat (split; [reflexivity|]). intros _. apply C. right.
      destruct (Nat.eq_dec (nz (sol i)) 0) as [Z|Z].
      + unfold stored. rewrite Z2, (sv_nz Sv), Z. cbn [firstn]. rewrite Z2, (sv_nz Sv), Z in Hn1. symmetry. now apply length_zero_iff_nil.
      + apply St. rewrite <- Hn1, Z2, (sv_nz Sv). lia.
  Qed.
  Lemma quiet_with h k i i' : quiet_steps v f k i i' -> steps_with v f h k i i'.
  Proof. induction 1; [constructor|eapply with_quiet; eauto]. Qed.
End Stored.

Section Loop.
  Context {F : Type} {NF : Num F} (v : Version) (f : FMU) (env : Env).
  Notation m := (model_of (F := F) v f).
  Notation D := (md m).
  Notation Y := (dyn_all (F := F) v f).
  Notation EV := (events_all v f env).

  Lemma sane_entered ehn (i i0 : Inst F D) t : sane v f i -> entered m env ehn i i0 t -> sane v f i0 /\ sol i0 = sol i /\ ctl i0 = ctl i.
  Proof.
    intros (Ft & Hd) En. unfold entered in En. destruct (m_eventUpdate m) eqn:He; cbn [andb] in En; [destruct ehn|].
    2,3: destruct En as (-> & _); repeat split; auto; apply Ft.
    destruct En as (x & E). destruct (fit_call EV He Ft E) as (F2 & C2 & S2 & _). split; [|auto]. split; [exact F2|].
    apply call_eq in E as (u & E & ->). cbn. rewrite <- Hd. eapply event_dims; eassumption.
  Qed.
  Lemma handled_current (i i' : Inst F D) : nz (sol i) = length (indicators v f (data (mut i))) -> handled v f env i i' ->
    current v f i' /\ nz (sol i') = length (indicators v f (data (mut i'))) /\ nx (sol i') = nx (sol i).
  Proof.
    intros Hn [(u & t & _ & _ & _ & X2 & Z2) St]. assert (Hn1 : nz (sol i') = length (indicators v f (data (mut i')))) by (rewrite Z2, Hn; apply indicators_len).
    split; [|auto]. destruct (Nat.eq_dec (nz (sol i)) 0) as [Z|Z].
    - unfold current, stored. rewrite Z2, Z. cbn [firstn]. rewrite Z2, Z in Hn1. symmetry. now apply length_zero_iff_nil.
    - apply St. rewrite <- Hn1, Z2. lia.
  Qed.
  Lemma step_current (i i' : Inst F D) : nz (sol i) = length (indicators v f (data (mut i))) -> solver_step v f i i' ->
    current v f i' /\ nz (sol i') = length (indicators v f (data (mut i'))) /\ nx (sol i') = nx (sol i).
  Proof.
    intros Hn Sv. assert (Hn1 : nz (sol i') = length (indicators v f (data (mut i')))) by (rewrite (sv_nz Sv), Hn; apply indicators_len).
    split; [|split; [exact Hn1|apply (sv_nx Sv)]]. destruct (Nat.eq_dec (nz (sol i)) 0) as [Z|Z].
    - unfold current, stored. rewrite (sv_nz Sv), Z. cbn [firstn]. rewrite (sv_nz Sv), Z in Hn1. symmetry. now apply length_zero_iff_nil.
    - apply (sv_stored Sv). unfold watching. lia.
  Qed.

  Lemma pass_current ehn (i i' : Inst F D) e go t : sane v f i -> nz (sol i) = length (indicators v f (data (mut i))) ->
    passed3 env Y ehn i OK e go i' t -> sane v f i' /\ current v f i' /\ nz (sol i') = length (indicators v f (data (mut i'))) /\ nx (sol i') = nx (sol i).
  Proof.
    intros Sn Hn Ps.
    assert (K : forall i0 t0 i1, entered m env ehn i i0 t0 -> stepped Y i0 i1 ->
      sane v f i1 /\ current v f i1 /\ nz (sol i1) = length (indicators v f (data (mut i1))) /\ nx (sol i1) = nx (sol i)).
    { intros i0 t0 i1 En St. destruct (@sane_entered ehn i i0 t0 Sn En) as (Sn0 & S0 & _). destruct (step_spec Sn0 St) as (Sv & Sn1). split; [exact Sn1|].
      assert (Hn0 : nz (sol i0) = length (indicators v f (data (mut i0)))) by (rewrite S0, Hn; apply indicators_len).
      destruct (step_current Hn0 Sv) as (A & B & C). rewrite C, S0. auto. }
    inversion Ps as [i0 t0 i1' En Ft0 St Ev|i0 t0 i1' En Ft0 St Ev Em|i0 t0 i1' i2 t2 i3 En Ft0 St Ev Em Ec Rf|]; subst.
    - eapply K; eassumption.
    - eapply K; eassumption.
    - destruct (K _ _ _ En St) as (Sn1 & A & B & C).
      assert (He : m_eventUpdate m = true) by (unfold event_at in Ev; destruct (m_eventUpdate m); [reflexivity|discriminate Ev]).
      destruct (@call_updated F NF v f env _ _ _ Sn1 He Ec) as (_ & Sn2). destruct (@refreshed_fit F m _ Y _ _ (proj1 Sn2) Rf) as (F3 & _).
      destruct (@call_handled F NF v f env _ _ _ _ Sn1 He Ec Rf F3) as (Hd & Sn3). split; [exact Sn3|].
      destruct (handled_current B Hd) as (P & Q & R). rewrite R, C. auto.
  Qed.

  Lemma loop3_current fuel : forall ncp ehn (i : Inst F D) e r i' t, sane v f i -> nz (sol i) = length (indicators v f (data (mut i))) ->
    doStep_loop m env fuel ncp ehn OK i = Done ((OK, e, r), i', t) ->
    nz (sol i') = length (indicators v f (data (mut i'))) /\ nx (sol i') = nx (sol i) /\
    (current v f i \/ ctl i' <> ctl i -> current v f i').
  Proof.
    induction fuel as [|fuel IH]; intros ncp ehn i e r i' t Sn Hn E; [discriminate|].
    rewrite loop3_eq in E. destruct (_ || _).
    { injection E; intros; subst. repeat (split; [reflexivity || assumption|]). intros [H|H]; [exact H|congruence]. }
    unfold bind in E. pose proof (pass3_spec EV ehn (proj1 Sn)) as Ps.
    destruct (pass3 m env ehn OK i) as [[[[[st1 e1] go] i1] t1]| |] eqn:Ep; try discriminate. cbn in Ps.
    destruct (passed3_ok EV (proj1 Sn) Ps) as (_ & [(-> & _)|(-> & -> & _)]); [|discriminate E].
    destruct (pass_current Sn Hn Ps) as (Sn1 & C1 & Hn1 & X1).
    destruct go; [|injection E; intros; subst; auto].
    destruct (doStep_loop m env fuel ncp e1 OK i1) as [[[[[st2 e2] r2] i2] t2]| |] eqn:El; try discriminate. injection E; intros; subst.
    destruct (IH _ _ _ _ _ _ _ Sn1 Hn1 El) as (A & B & C). rewrite B. auto.
  Qed.
End Loop.

Section Api3.
  Context {F : Type} {NF : Num F} (szof : N) (f : FMU).
  Notation m := (model_of (F := F) FMI3 f).
  Notation D := (md m).

  Theorem conf3 fuel env o s out s' t : reach3 m szof s -> o = O3ExitInitializationMode \/ o = O3ExitConfigurationMode ->
    exec3 m szof fuel env o s = Done (OK, out, s', t) -> set_up FMI3 f (sinst s') /\ current FMI3 f (sinst s').
  Proof.
    intros R Ho E.
    assert (R' : reach3 m szof s') by (eapply reach3_call; [exact R| |exact E]; destruct Ho; subst; discriminate).
    assert (M : mode_of s <> Terminated).
    { intro M. assert (N : o <> O3NotImplemented) by (destruct Ho; subst; discriminate).
      assert (W : ~ In (mode_of s) (when3 o)) by (rewrite M; destruct Ho; subst; cbn; intuition discriminate).
      rewrite (@gate3 _ _ m szof fuel env _ s N (@reach3_modes _ _ _ szof (@model_laws F NF FMI3 f) _ R) W) in E. discriminate. }
    assert (M' : mode_of s' <> Terminated).
    { destruct (@exec3_mode _ _ m szof (@model_laws F NF FMI3 f) fuel env o s OK out s' t (@reach3_modes _ _ _ szof (@model_laws F NF FMI3 f) _ R) E) as [(_ & _ & ->)|(X & _)]; [|discriminate].
      destruct Ho; subst; cbn [next3].
      - destruct (itype (ctl (sinst s))), (eventModeUsed (ctl (sinst s))); discriminate.
      - destruct (mode (ctl (sinst s))), (itype (ctl (sinst s))); discriminate. }
    apply (@sized_ready F NF FMI3 f (sinst s) (sinst s')); [apply (@sane_reach F NF szof f s R M)|apply (@sane_reach F NF szof f s' R' M')|].
    destruct Ho as [->| ->]; [apply (@exec3_sized _ _ _ _ _ szof fuel env _ s out s' t (or_introl eq_refl) E)|].
    destruct (Nat.eq_dec (m_maxX m + m_maxZ m) 0) as [Z|Z].
    - split; intros; lia.
    - refine (@exec3_sized _ _ _ _ _ szof fuel env _ s out s' t _ E). right. split; [reflexivity|lia].
  Qed.

  Theorem current3 fuel env ccp h p1 p2 p3 p4 s out s' t : reach3 m szof s -> set_up FMI3 f (sinst s) ->
    exec3 m szof fuel env (O3DoStep ccp h p1 p2 p3 p4) s = Done (OK, out, s', t) ->
    set_up FMI3 f (sinst s') /\
    (current FMI3 f (sinst s) \/ steps_of s' <> steps_of s -> current FMI3 f (sinst s')).
  Proof.
    intros R [Sx Sz] E.
    assert (R' : reach3 m szof s') by (eapply reach3_call; [exact R| |exact E]; discriminate).
    pose proof E as E0. apply dostep3 in E as [(X & _)|(M & A & _ & e & r & i' & k & El & Hk & L & C)]; [discriminate| |exact R].
    destruct C as [(X & _)|(_ & Es & ->)]; [discriminate|].
    assert (Sn : sane FMI3 f (sinst s)) by (apply (@sane_reach F NF szof f s R); rewrite M; discriminate).
    destruct (@loop3_current F NF FMI3 f env fuel _ _ _ _ _ _ _ Sn Sz El) as (P & Q & U).
    assert (Mt : mut (sinst s') = mut i' /\ sol (sinst s') = sol i') by (rewrite Es; split; reflexivity). destruct Mt as (Mt & Ms).
    split.
    - unfold set_up. rewrite Mt, Ms. split; [|exact P].
      assert (M' : mode_of s' <> Terminated).
      { destruct (@exec3_mode _ _ m szof (@model_laws F NF FMI3 f) fuel env _ s OK _ s' t (@reach3_modes _ _ _ szof (@model_laws F NF FMI3 f) _ R) E0) as [(_ & _ & ->)|(X & _)]; [|discriminate].
        unfold mode_of in M. cbn [next3]. rewrite M. discriminate. }
      destruct (@sane_reach F NF szof f s' R' M') as [Ft' Hd']. destruct (@sane_reach F NF szof f s R) as [Ft Hd]; [rewrite M; discriminate|].
      rewrite Q, Sx, <- Mt, !states_eq, <- (dy_nx _ _ (ft_wf Ft)), <- (dy_nx _ _ (ft_wf Ft')).
      clear -Hd Hd'. destruct f; try reflexivity. cbn in *. unfold dims in *. congruence.
    - intro H. unfold current, stored in *. rewrite Mt, Ms. apply U. destruct H as [H|H]; [left; exact H|right].
      intro Q'. apply H. unfold steps_of. rewrite Es. cbn. now rewrite Q'.
  Qed.

  Theorem untouched_stored3 fuel env o s st out s' t : ~ solves3 o -> exec3 m szof fuel env o s = Done (st, out, s', t) ->
    stored FMI3 f (sinst s') = stored FMI3 f (sinst s) /\ nx (sol (sinst s')) = nx (sol (sinst s)) /\ nz (sol (sinst s')) = nz (sol (sinst s)).
  Proof. intros N E. apply (@exec3_sol _ _ m szof fuel env o s st out s' t N) in E. unfold stored. red in E. rewrite E. auto. Qed.
End Api3.
