(** Feed2.v -- Feedthrough: inputs, outputs and ranges (proofs of C35 and C36 for FMI 2.0). *)
From Coq Require Import List NArith ZArith Bool Arith Lia.
From Verif Require Import Base Instance ModelIface Core Fmi3 Fmi2 Api Logic Calls Fmus SpecModes SpecVars SpecEqs SpecCreate LawsFmus Reach Histories
  Vars VarsFmus DataFmus Vars2 Data2 Keeps KeepRules FTKeep Feed Create FmuFeedthrough.
Import ListNotations.
Set Implicit Arguments.

Section Feed2.
  Context {F : Type} {NF : Num F} (szof : N).
  Notation m := (model_of (F := F) FMI2 Feedthrough).
  Notation V := (vars_all (F := F) FMI2 Feedthrough).
  Notation reading := (O2Get (F := F) (D := FTData F) TFloat64 None 0 None).

  Lemma read_iff env s t vr x : reach2 m szof s ->
    read2 m szof env s t vr x <-> N.land (bit2 (mode_of s)) MASK2_GetReal <> 0%N /\ peek V env (sinst s) t vr = Some [x].
  Proof.
    intro R. destruct t; cbn [read2]; try (rewrite (@get_iff _ _ szof Feedthrough eq_refl env s _ _ _ R); unfold canread2, mode_of;
      split; [intros ((A & _) & B); auto|intros (A & B); split; [split; [exact A|]|exact B]; destruct (dirty _); [exists []; reflexivity|intros _; discriminate]]).
    rewrite (@getB_iff _ _ szof Feedthrough eq_refl env s _ _ R). split; [intros ((A & _) & B); auto|intros (A & B)]. split; [split; [exact A|]|exact B]. intros _. discriminate.
  Qed.
  Lemma feed_iff2 env s t u y x : reach2 m szof s -> In (t, u, y) (feedthrough FMI2) ->
    read2 m szof env s t y x <-> read2 m szof env s t u x.
  Proof.
    intros R I. rewrite !read_iff by exact R.
    enough (peek V env (sinst s) t y = peek V env (sinst s) t u) as -> by tauto.
    unfold peek. cbn in I. repeat (destruct I as [I|I]; [injection I as <- <- <-; reflexivity|]). destruct I.
  Qed.
  Lemma touches_calm2 w (o : Op2 F (FTData F)) : touches2 (ft_vr w) o = false -> calm2 False (fun _ vr => vr <> ft_vr w) o.
  Proof.
    assert (K : forall n vrs, existsb (N.eqb (ft_vr w)) (firstn n vrs) = false -> Forall (fun vr => vr <> ft_vr w) (firstn n vrs)).
    { intros n vrs H. rewrite Forall_forall. intros x Hx ->. rewrite <- not_true_iff_false in H. apply H.
      apply existsb_exists. exists (ft_vr w). split; [exact Hx|apply N.eqb_refl]. }
    destruct o; cbn; intro H; try discriminate; auto; destruct vrs; auto.
  Qed.
  Lemma feed_inputs2 t u y : In (t, u, y) (feedthrough FMI2) -> exists w, u = ft_vr w /\ ft_input w = true /\ w <> FTf64_fixed.
  Proof.
    cbn. intro I. repeat (destruct I as [I|I]; [injection I as <- <- <-;
      match goal with |- exists w, ?n = _ /\ _ => let x := eval cbv in (ft_var n) in match x with Some ?w => exists w end end;
      split; [reflexivity|split; [reflexivity|discriminate]]|]). destruct I.
  Qed.
  Lemma peek_input2 env (i0 i : Inst F (FTData F)) t w : ft_input w = true ->
    peek V env i t (ft_vr w) = option_map (fun v => [v]) (ft_value true t (ft_vr w) (@ctl F (FTData F) i0) (data (mut i))).
  Proof. intro H. destruct w; try discriminate; destruct t; reflexivity. Qed.
  Lemma run_same2 fuel w l s obs s' : ft_input w = true -> Forall (fun p => touches2 (ft_vr w) (snd p) = false) l ->
    run2 m szof fuel l s = Done (obs, s') -> ft_same w (data (mut (sinst s))) (data (mut (sinst s'))).
  Proof.
    intros I C E. refine (@run2_keeps F NF m _ _ _ _ (ft_keeps true w I) szof fuel l s obs s' _ E).
    eapply Forall_impl; [|exact C]. intros p H. now apply touches_calm2.
  Qed.
  (** The value the input holds, whether or not it can be read. *)
  Lemma feed_run2 fuel env t u y x l s obs s' : reach2 m szof s -> In (t, u, y) (feedthrough FMI2) ->
    peek V env (sinst s) t u = Some [x] ->
    (forall e o i, In (e, o) l -> image2 o = Some i -> saved2 m szof i) ->
    Forall (fun p => touches2 u (snd p) = false) l ->
    run2 m szof fuel l s = Done (obs, s') -> In (mode_of s') (when2 reading) ->
    forall env', read2 m szof env' s' t u x /\ read2 m szof env' s' t y x.
  Proof.
    intros R I G Im C E Hm env'. assert (R' : reach2 m szof s') by (eapply run2_reach; eauto).
    assert (Q : read2 m szof env' s' t u x); [|split; [exact Q|]; eapply feed_iff2; eauto].
    apply read_iff; [exact R'|]. split; [apply (@readable2 F NF Feedthrough); exact Hm|].
    destruct (feed_inputs2 I) as (w & -> & Iw & _). pose proof (@run_same2 fuel w l s obs s' Iw C E) as S1.
    destruct S1 as (S1 & _).
    rewrite (peek_input2 env (sinst s)) in G by exact Iw. rewrite (peek_input2 env' (sinst s)) by exact Iw. cbn [md model_of Feedthrough_model isFMI2] in *.
    now rewrite S1.
  Qed.
  Lemma feed_kept2 fuel env env' t u y x l s obs s' : reach2 m szof s -> In (t, u, y) (feedthrough FMI2) ->
    read2 m szof env s t u x ->
    (forall e o i, In (e, o) l -> image2 o = Some i -> saved2 m szof i) ->
    Forall (fun p => touches2 u (snd p) = false) l ->
    run2 m szof fuel l s = Done (obs, s') -> In (mode_of s') (when2 reading) ->
    read2 m szof env' s' t u x /\ read2 m szof env' s' t y x.
  Proof.
    intros R I G Im C E Hm. apply read_iff in G as (_ & P); [|exact R]. eapply feed_run2; eauto.
  Qed.
  Lemma input_not28 t u y : In (t, u, y) (feedthrough FMI2) -> u <> 28%N.
  Proof. intros I ->. cbn in I. repeat (destruct I as [I|I]; [discriminate|]). destruct I. Qed.
  Lemma feed_set2 fuel env env' t u y x l s0 out s tr obs s' fuel' : reach2 m szof s0 -> In (t, u, y) (feedthrough FMI2) ->
    exec2 m szof fuel env (O2Set t (Some [u]) 1 (Some [x])) s0 = Done (OK, out, s, tr) ->
    (forall e o i, In (e, o) l -> image2 o = Some i -> saved2 m szof i) ->
    Forall (fun p => touches2 u (snd p) = false) l ->
    run2 m szof fuel' l s = Done (obs, s') -> In (mode_of s') (when2 reading) -> read2 m szof env' s' t y (as_read t x).
  Proof.
    intros R I E Im C E' Hm. assert (R1 : reach2 m szof s) by (eapply reach2_call; [exact R| |exact E]; discriminate).
    destruct (@set_one2 _ _ szof Feedthrough eq_refl _ _ _ _ _ _ _ _ _ R E) as (z & d & Hz & Hs & Ha & Um & Wd & Hc & _). cbn in Hz. injection Hz as <-.
    eapply (@feed_run2 fuel' env t u y); eauto. unfold peek. rewrite Um. cbn [data set_dirty set_data].
    change [as_read t x] with (map (as_read (F := F) t) [x]).
    refine (@assign_read _ _ FMI2 Feedthrough t u [x] (data (mut (sinst s0))) d env _ (wf_reach2 _ _ R) Hs Ha _). cbn. exact (input_not28 I).
  Qed.
  Lemma feed_setB2 fuel env env' z l s0 out s tr obs s' fuel' : reach2 m szof s0 ->
    exec2 m szof fuel env (O2SetBoolean (Some [27%N]) 1 (Some [z])) s0 = Done (OK, out, s, tr) ->
    (forall e o i, In (e, o) l -> image2 o = Some i -> saved2 m szof i) ->
    Forall (fun p => touches2 27%N (snd p) = false) l ->
    run2 m szof fuel' l s = Done (obs, s') -> In (mode_of s') (when2 reading) -> getB2 m szof env' s' 28%N (negb (Z.eqb z 0)).
  Proof.
    intros R E Im C E' Hm. assert (R1 : reach2 m szof s) by (eapply reach2_call; [exact R| |exact E]; discriminate).
    pose proof (wf_reach2 _ _ R) as W. apply (setB_spec V) in E; [|exact W].
    destruct E as [(_ & Hc & _ & vs & d & b & Hv & Hs & Ha & Um & Wd & _)|(X & _)]; [|discriminate].
    cbn in Hs. injection Hs as L1. destruct vs as [|x [|]]; try discriminate. cbn in Hv. injection Hv as ->.
    refine (proj2 (@feed_run2 fuel' env TBoolean 27%N 28%N (negb (Z.eqb z 0)) l s obs s' R1 _ _ Im C E' Hm env')); [cbn; tauto|].
    unfold peek. rewrite Um. cbn [data set_dirty set_data].
    refine (@assign_read _ _ FMI2 Feedthrough TBoolean 27%N [negb (Z.eqb z 0)] (data (mut (sinst s0))) d env _ W eq_refl Ha _). cbn. discriminate.
  Qed.
  Lemma starts_made2 i : made2 m i -> reads_starts2 Feedthrough i.
  Proof.
    intros (e & n & ty & t & r & en & l & b & tr & E).
    destruct (named_dec n t) as [(N1 & T)|N1].
    - destruct l.
      + destruct (@i2_valid F NF Feedthrough e n ty t r en b) as (i' & E' & _ & Q); auto. rewrite E in E'. injection E' as <-. exact Q.
      + exfalso. unfold fmi2Instantiate in E. discriminate.
    - exfalso. destruct (@i2_invalid F NF Feedthrough e n ty t r en l b) as (tr' & E' & _); [tauto|]. rewrite E in E'. discriminate.
  Qed.
  (** The start value, until it is assigned. *)
  Lemma start_peek i env t u y x : made2 m i -> In (t, u, y) (feedthrough FMI2) ->
    In (SV t u [x]) (starts2 Feedthrough) \/ (existT (val F) t x = existT (val F) TBoolean false) ->
    peek V env i t u = Some [x].
  Proof.
    intros M I Sv. pose proof (starts_made2 M) as (Q1 & Q2).
    assert (R : reach2 m szof (mkSys i [])) by now constructor.
    assert (Q : exists s1, run2 m szof 0 [(env, O2EnterInitializationMode)] (mkSys i []) = Done ([(OK, ONone, [])], s1) /\ reach2 m szof s1 /\
      read2 m szof env s1 t u x).
    { destruct Sv as [Sv|Sv].
      - rewrite Forall_forall in Q1. specialize (Q1 _ Sv [x] szof 0 env env eq_refl). destruct Q1 as (s' & E).
        apply run_cons in E as (st & out & s1 & tr & obs' & E1 & E2 & Eo). injection Eo as <- <- <- <-.
        exists s1. split; [unfold run2; cbn [run]; rewrite E1; reflexivity|]. assert (R1 : reach2 m szof s1) by (eapply reach2_call; [exact R| |exact E1]; discriminate). split; [exact R1|].
        apply run_cons in E2 as (st2 & out2 & s2 & tr2 & obs2 & E2 & E3 & Eo). injection Eo; intros; subst.
        assert (G : get2 m szof env s1 t u x) by (exists x, s2, []; exact E2).
        destruct t; try exact G. exfalso. clear -I Sv. cbn in I, Sv.
        repeat (destruct Sv as [Sv|Sv]; [discriminate|]); destruct Sv.
      - assert (Et : t = TBoolean) by (now apply (f_equal (@projT1 _ _)) in Sv). subst t.
        apply Eqdep_dec.inj_pair2_eq_dec in Sv; [|intros [] []; (left; reflexivity) || (right; discriminate)]. subst x.
        assert (u = 27%N) by (cbn in I; repeat (destruct I as [I|I]; [congruence|]); destruct I). subst u.
        inversion Q2 as [|? ? Q3 _]; subst. specialize (Q3 0%Z szof 0 env env). destruct Q3 as (s' & E).
        apply run_cons in E as (st & out & s1 & tr & obs' & E1 & E2 & Eo). injection Eo as <- <- <- <-.
        exists s1. split; [unfold run2; cbn [run]; rewrite E1; reflexivity|]. split; [eapply reach2_call; [exact R| |exact E1]; discriminate|].
        apply run_cons in E2 as (st2 & out2 & s2 & tr2 & obs2 & E2 & E3 & Eo). injection Eo; intros; subst.
        exists 0%Z, s2, []. exact E2. }
    destruct Q as (s1 & E & R1 & G). apply read_iff in G as (_ & P); [|exact R1].
    destruct (feed_inputs2 I) as (w & -> & Iw & _).
    assert (C : Forall (fun p : Env * Op2 F (FTData F) => touches2 (ft_vr w) (snd p) = false) [(env, O2EnterInitializationMode)]) by (repeat constructor).
    pose proof (@run_same2 0 w _ _ _ s1 Iw C E) as (S1 & _). cbn [sinst] in S1.
    rewrite (peek_input2 env i) in P |- * by exact Iw. cbn [md model_of Feedthrough_model isFMI2] in *. now rewrite <- S1.
  Qed.
  Lemma feed_start2 fuel env t u y x l i obs s' : made2 m i -> In (t, u, y) (feedthrough FMI2) ->
    In (SV t u [x]) (starts2 Feedthrough) \/ (existT (val F) t x = existT (val F) TBoolean false) ->
    (forall e o i, In (e, o) l -> image2 o = Some i -> saved2 m szof i) ->
    Forall (fun p => touches2 u (snd p) = false) l ->
    run2 m szof fuel l (mkSys i []) = Done (obs, s') -> In (mode_of s') (when2 reading) -> read2 m szof env s' t y x.
  Proof.
    intros M I Sv Im C E Hm. assert (R : reach2 m szof (mkSys i [])) by now constructor.
    eapply (@feed_run2 fuel env t u y); eauto. eapply start_peek; eauto.
  Qed.

  (** ** Ranges *)
  Lemma BEGIN2_not env mask (k : AF F (FTData F) (Status * unit)) i : N.land (bit2 (mode (ctl i))) mask = 0%N ->
    exists tr, BEGIN2 m env mask tt k i = Done ((Error, tt), set_ctl (set_mode Terminated (ctl i)) i, tr).
  Proof.
    intro H. unfold BEGIN2, allowedState2. unfold bind at 1. rewrite bind_getC, H. cbn [N.eqb]. rewrite bind_logError. cbn. eexists. reflexivity.
  Qed.
  Lemma refused_reads2 env s s' : reach2 m szof s -> reach2 m szof s' -> refused s s' -> reads_same2 m szof env s s'.
  Proof.
    intros R R' H. apply (@alike_reads2 _ _ szof Feedthrough eq_refl env s s' R R').
    - rewrite H. apply alike_mode. exact (wf_reach2 _ _ R).
    - right. now rewrite H.
  Qed.
  Definition assigned2 (ok : bool) (r : res (Status * Out F (FTData F) * Sys F (FTData F) * list (Event F)))
    (mask : N) (s : Sys F (FTData F)) : Prop :=
    if N.eqb (N.land (bit2 (mode_of s)) mask) 0 || negb ok
    then exists tr s', r = Done (Error, ONone, s', tr) /\ refused s s'
    else exists tr s', r = Done (OK, ONone, s', tr).
  Lemma string_set2 fuel env b s :
    assigned2 (negb (Nat.leb STRING_MAX_LEN (strlen b)))
      (exec2 m szof fuel env (O2Set TString (Some [29%N]) 1 (Some [Some b])) s) (MASK2_Set TString) s.
  Proof.
    destruct s as [[c u so] hp]. unfold assigned2. cbn [exec2]. rewrite outI_eq. unfold fmi2SetV. unfold mode_of.
    match goal with |- if N.eqb ?a 0 || _ then _ else _ => destruct (N.eqb_spec a 0) as [Hm|Hm] end.
    - match goal with |- context [BEGIN2 _ _ _ _ ?k ?j] => destruct (@BEGIN2_not env (MASK2_Set TString) k j Hm) as (tr & E) end.
      cbn [md model_of Feedthrough_model sinst] in *. rewrite E. cbn. eexists; eexists; split; reflexivity.
    - rewrite BEGIN2_pass by exact Hm. cbn [ASSERT_NOT_NULL lst]. change (Nat.eqb 1 0) with false. cbv iota. cbn [orb].
      cbn [set_loop m_set model_of Feedthrough_model]. unfold ft_setString, thenDirty, nnSet, call.
      change (ft_var 29) with (Some FTstr_in). unfold mbind, mrd, rd, bind, ret. cbn [nth_error]. cbv beta iota.
      destruct (Nat.leb STRING_MAX_LEN (strlen b)).
      + cbn [negb]. unfold failSet, mbind, mlogError, bind, mret, ret, tell, CALL. cbv beta iota zeta.
        match goal with |- context [?a && ?b] => destruct (a && b) end; cbn; eexists; eexists; split; reflexivity.
      + cbn [negb]. change (nvalues_ok 0 1 1) with true. cbv iota. cbn. eexists; eexists; reflexivity.
  Qed.
  Lemma enum_set2 fuel env v s :
    assigned2 (Z.eqb v 1 || Z.eqb v 2)
      (exec2 m szof fuel env (O2Set TInt32 (Some [33%N]) 1 (Some [v])) s) (MASK2_Set TInt32) s.
  Proof.
    destruct s as [[c u so] hp]. unfold assigned2. cbn [exec2]. rewrite outI_eq. unfold fmi2SetV. unfold mode_of.
    match goal with |- if N.eqb ?a 0 || _ then _ else _ => destruct (N.eqb_spec a 0) as [Hm|Hm] end.
    - match goal with |- context [BEGIN2 _ _ _ _ ?k ?j] => destruct (@BEGIN2_not env (MASK2_Set TInt32) k j Hm) as (tr & E) end.
      cbn [md model_of Feedthrough_model sinst] in *. rewrite E. cbn. eexists; eexists; split; reflexivity.
    - rewrite BEGIN2_pass by exact Hm. cbn [ASSERT_NOT_NULL lst]. change (Nat.eqb 1 0) with false. cbv iota. cbn [orb].
      cbn [set_loop m_set model_of Feedthrough_model]. unfold ft_setInt32, thenDirty, nnSet, call.
      change (ft_var 33) with (Some FTenum_in). unfold mbind, mrd, rd, bind, ret. cbn [nth_error negb isFMI2]. cbv beta iota.
      destruct (Z.eqb v 1 || Z.eqb v 2).
      + cbn [negb]. unfold take1. change (nvalues_ok 0 1 1) with true. cbv iota. cbn. eexists; eexists; reflexivity.
      + cbn [negb]. unfold failSet, mbind, mlogError, bind, mret, ret, tell, CALL. cbv beta iota zeta.
        match goal with |- context [?a && ?b] => destruct (a && b) end; cbn; eexists; eexists; split; reflexivity.
  Qed.
  Lemma when_mask2 t md : In md (when2 (F := F) (D := FTData F) (O2Set t (Some []) 0 (Some []))) -> N.land (bit2 md) (MASK2_Set t) <> 0%N.
  Proof. destruct t; cbn; intro H; repeat (destruct H as [<-|H]; [discriminate|]); destruct H. Qed.
  Lemma assigned2_out ok (o : Op2 F (FTData F)) fuel env mask s : reach2 m szof s -> image2 o = None ->
    assigned2 ok (exec2 m szof fuel env o s) mask s ->
    (ok = false -> exists s' tr, exec2 m szof fuel env o s = Done (Error, ONone, s', tr) /\ forall env', reads_same2 m szof env' s s') /\
    (ok = true -> N.land (bit2 (mode_of s)) mask <> 0%N -> exists s' tr, exec2 m szof fuel env o s = Done (OK, ONone, s', tr)).
  Proof.
    intros R Im A. unfold assigned2 in A. split.
    - intros ->. rewrite orb_true_r in A. destruct A as (tr & s' & E & Rf). exists s', tr. split; [exact E|]. intro env'. apply refused_reads2; auto.
      eapply reach2_call; [exact R|intros i0 H0; assert (K : image2 o = Some i0) by exact H0; rewrite Im in K; discriminate|exact E].
    - intros -> Hm. match type of A with if N.eqb ?a 0 || _ then _ else _ => destruct (N.eqb_spec a 0) as [H|_]; [contradiction (Hm H)|] end.
      cbn [orb negb] in A. destruct A as (tr & s' & E). eauto.
  Qed.
  Lemma string_range2 fuel env b s : reach2 m szof s ->
    let o := O2Set TString (Some [29%N]) 1 (Some [Some b]) in
    (128 <= length (cstr b) -> exists s' tr, exec2 m szof fuel env o s = Done (Error, ONone, s', tr) /\ forall env', reads_same2 m szof env' s s') /\
    (length (cstr b) < 128 -> In (mode_of s) (when2 o) -> exists s' tr, exec2 m szof fuel env o s = Done (OK, ONone, s', tr)).
  Proof.
    intros R o. destruct (@assigned2_out _ o fuel env _ s R eq_refl (string_set2 fuel env b s)) as (A & B). split.
    - intro L. apply A. rewrite (proj2 (Nat.leb_le _ _)); [reflexivity|exact L].
    - intros L Hm. apply B; [now rewrite (proj2 (Nat.leb_gt _ _)) by exact L|]. exact (when_mask2 TString _ Hm).
  Qed.
  Lemma enum_range2 fuel env v s : reach2 m szof s ->
    let o := O2Set TInt32 (Some [33%N]) 1 (Some [v]) in
    (v <> 1%Z /\ v <> 2%Z -> exists s' tr, exec2 m szof fuel env o s = Done (Error, ONone, s', tr) /\ forall env', reads_same2 m szof env' s s') /\
    (v = 1%Z \/ v = 2%Z -> In (mode_of s) (when2 o) -> exists s' tr, exec2 m szof fuel env o s = Done (OK, ONone, s', tr)).
  Proof.
    intros R o. destruct (@assigned2_out _ o fuel env _ s R eq_refl (enum_set2 fuel env v s)) as (A & B). split.
    - intros (L1 & L2). apply A. destruct (Z.eqb_spec v 1); [contradiction|]. destruct (Z.eqb_spec v 2); [contradiction|reflexivity].
    - intros L Hm. apply B; [destruct L as [-> | ->]; reflexivity|]. exact (when_mask2 TInt32 _ Hm).
  Qed.
End Feed2.
