(** Feed.v -- Feedthrough: inputs, outputs and ranges (proofs of C35 and C36 for FMI 3.0). *)
From Coq Require Import List NArith ZArith Bool Arith Lia.
From Verif Require Import Base Instance ModelIface Core Fmi3 Fmi2 Api Logic Calls Fmus SpecModes SpecVars SpecEqs SpecCreate LawsFmus Reach Histories
  Vars VarsFmus DataFmus Data Dep Keeps KeepRules FTKeep Create FmuFeedthrough.
Import ListNotations.
Set Implicit Arguments.

Section Feed.
  Context {F : Type} {NF : Num F} (szof : N).
  Notation m := (model_of (F := F) FMI3 Feedthrough).
  Notation V := (vars_all (F := F) FMI3 Feedthrough).

  Lemma feed_mode s t : reach3 m szof s -> N.land (bit3 (mode_of s)) (MASK_Get t) <> 0%N.
  Proof.
    intro R. pose proof (proj1 (reach3_observable (model_laws FMI3 Feedthrough) R)) as H.
    revert H. generalize (mode_of s). intros md0 H.
    destruct t; cbn in H; repeat (destruct H as [<-|H]; [discriminate|]); destruct H.
  Qed.
  Lemma feed_canread env s t : reach3 m szof s -> canread V env t (sinst s).
  Proof.
    intro R. split; [now apply (feed_mode t)|]. destruct (dirty (mut (sinst s))); [exists []; reflexivity|intros _; discriminate].
  Qed.
  Lemma feed_get env s t vr vs : reach3 m szof s -> get3 m szof env s t vr vs <-> peek V env (sinst s) t vr = Some vs.
  Proof.
    intro R. rewrite (get1_iff V szof env s t vr vs (wf_reach _ _ R)). split; [intros (_ & P); exact P|].
    intro P. split; [now apply feed_canread|exact P].
  Qed.

  Lemma touches_calm w (o : Op3 F (FTData F)) : touches3 (ft_vr w) o = false -> calm3 False (fun _ vr => vr <> ft_vr w) (fun vr => vr <> ft_vr w) o.
  Proof.
    assert (K : forall n vrs, existsb (N.eqb (ft_vr w)) (firstn n vrs) = false -> Forall (fun vr => vr <> ft_vr w) (firstn n vrs)).
    { intros n vrs H. rewrite Forall_forall. intros x Hx ->. rewrite <- not_true_iff_false in H. apply H.
      apply existsb_exists. exists (ft_vr w). split; [exact Hx|apply N.eqb_refl]. }
    destruct o; cbn; intro H; try discriminate; auto; destruct vrs; auto.
  Qed.
  Lemma feed_inputs t u y : In (t, u, y) (feedthrough FMI3) -> exists w, u = ft_vr w /\ ft_input w = true /\ w <> FTf64_fixed.
  Proof.
    cbn. intro I. repeat (destruct I as [I|I]; [injection I as <- <- <-;
      match goal with |- exists w, ?n = _ /\ _ => let x := eval cbv in (ft_var n) in match x with Some ?w => exists w end end;
      split; [reflexivity|split; [reflexivity|discriminate]]|]). destruct I.
  Qed.

  Lemma peek_input env (i0 i : Inst F (FTData F)) t w : ft_input w = true ->
    peek V env i t (ft_vr w) = option_map (fun v => [v]) (ft_value false t (ft_vr w) (@ctl F (FTData F) i0) (data (mut i))).
  Proof. intro H. destruct w; try discriminate; destruct t; reflexivity. Qed.
  (** The input keeps its value. *)
  Lemma run_same fuel w l s obs s' : ft_input w = true -> Forall (fun p => touches3 (ft_vr w) (snd p) = false) l ->
    run3 m szof fuel l s = Done (obs, s') -> ft_same w (data (mut (sinst s))) (data (mut (sinst s'))).
  Proof.
    intros I C E. refine (@run3_keeps F NF m _ _ _ _ (ft_keeps false w I) szof fuel l s obs s' _ E).
    eapply Forall_impl; [|exact C]. intros p H. now apply touches_calm.
  Qed.
  Lemma feed_kept fuel env env' t u y x l s obs s' : reach3 m szof s -> In (t, u, y) (feedthrough FMI3) ->
    get3 m szof env s t u [x] ->
    (forall e o i, In (e, o) l -> image3 o = Some i -> saved3 m szof i) ->
    Forall (fun p => touches3 u (snd p) = false) l ->
    run3 m szof fuel l s = Done (obs, s') -> get3 m szof env' s' t u [x] /\ get3 m szof env' s' t y [x].
  Proof.
    intros R I G Im C E. assert (R' : reach3 m szof s') by (eapply run3_reach; eauto).
    assert (Q : get3 m szof env' s' t u [x]); [|split; [exact Q|]; eapply feedthrough_iff; eauto].
    apply feed_get in G; [|exact R]. apply feed_get; [exact R'|].
    destruct (feed_inputs I) as (w & -> & Iw & _). pose proof (@run_same fuel w l s obs s' Iw C E) as (S1 & _).
    rewrite (peek_input env (sinst s)) in G by exact Iw. rewrite (peek_input env' (sinst s)) by exact Iw. cbn [md model_of Feedthrough_model] in *. now rewrite S1.
  Qed.
  Lemma feed_set fuel env env' t u y x n l s0 out s tr obs s' fuel' : reach3 m szof s0 -> In (t, u, y) (feedthrough FMI3) ->
    exec3 m szof fuel env (O3Set t (Some [u]) 1 (Some [x]) n) s0 = Done (OK, out, s, tr) ->
    (forall e o i, In (e, o) l -> image3 o = Some i -> saved3 m szof i) ->
    Forall (fun p => touches3 u (snd p) = false) l ->
    run3 m szof fuel' l s = Done (obs, s') -> get3 m szof env' s' t y [as_read t x].
  Proof.
    intros R I E Im C E'. assert (R1 : reach3 m szof s) by (eapply reach3_call; [exact R| |exact E]; discriminate).
    pose proof E as E0. apply set_one in E0; [|exact R]. destruct E0 as (d & Sz & _).
    assert (n = 1). { clear -I Sz. cbn in I. repeat (destruct I as [I|I]; [injection I as <- <- <-; cbn in Sz; congruence|]). destruct I. }
    subst n. apply set_get_all in E as (_ & G); [|exact R|].
    - eapply feed_kept; eauto.
    - cbn [stored]. intros ->. clear -I. cbn in I. repeat (destruct I as [I|I]; [discriminate|]). destruct I.
  Qed.
  Lemma named_dec n t : (is_name n /\ is_token Feedthrough t) \/ ~ (is_name n /\ is_token Feedthrough t).
  Proof.
    assert (A : is_name n \/ ~ is_name n).
    { destruct n as [n|]; [|right; intros (x & X & _); discriminate]. destruct (cstr n) as [|b k] eqn:En.
      - right. intros (x & X & Y). injection X as <-. contradiction.
      - left. exists n. split; [reflexivity|rewrite En; discriminate]. }
    assert (B : is_token Feedthrough t \/ ~ is_token Feedthrough t).
    { destruct t as [t|]; [|right; intros (x & X & _); discriminate].
      destruct (list_eq_dec Byte.byte_eq_dec (cstr t) (guid Feedthrough)) as [E|E]; [left; exists t; auto|].
      right. intros (x & X & Y). injection X as <-. contradiction. }
    tauto.
  Qed.
  Lemma starts_made i : made3 m i -> reads_starts3 Feedthrough i.
  Proof.
    intros [(e & n & t & r & b & ev & l & tr & E)|[(e & n & t & r & b & ev & er & en & l & iu & tr & E)|(e & n & t & r & b & en & l & cu & lo & ul & tr & E)]].
    - destruct (named_dec n t) as [(N1 & T)|N1].
      + destruct (@me3_valid F NF Feedthrough e n t r b ev l) as (i' & E' & _ & Q); auto; [discriminate|]. rewrite E in E'. injection E' as <-. exact Q.
      + destruct (@me3_invalid F NF Feedthrough e n t r b ev l) as (tr' & E' & _); [tauto|]. rewrite E in E'. discriminate.
    - destruct (named_dec n t) as [(N1 & T)|N1].
      + destruct (@cs3_valid F NF Feedthrough e n t r b ev er en l iu) as (i' & E' & _ & Q); auto. rewrite E in E'. injection E' as <-. exact Q.
      + destruct (@cs3_invalid F NF Feedthrough e n t r b ev er en l iu) as (tr' & E' & _); [tauto|]. rewrite E in E'. discriminate.
    - unfold fmi3InstantiateScheduledExecution in E. cbn in E. destruct l; discriminate.
  Qed.
  (** The start value, until it is assigned. *)
  Lemma feed_start fuel env t u y xs l i obs s' : made3 m i -> In (t, u, y) (feedthrough FMI3) -> In (SV t u xs) (starts3 Feedthrough) ->
    (forall e o i, In (e, o) l -> image3 o = Some i -> saved3 m szof i) ->
    Forall (fun p => touches3 u (snd p) = false) l ->
    run3 m szof fuel l (mkSys i []) = Done (obs, s') -> get3 m szof env s' t y xs.
  Proof.
    intros M I Sv Im C E.
    assert (Q : reads_starts3 Feedthrough i) by now apply starts_made.
    destruct Q as (Q & _). rewrite Forall_forall in Q. specialize (Q _ Sv). cbn [reads3] in Q.
    assert (X : exists x, xs = [x]).
    { clear -Sv. cbn in Sv. assert (K : forall t' vr' x', SV t' vr' [x'] = SV (F := F) t u xs -> exists x, xs = [x]).
      { intros t' vr' x' H. injection H as -> -> H. apply Eqdep_dec.inj_pair2_eq_dec in H; [|intros [] []; (left; reflexivity) || (right; discriminate)].
        subst. eauto. }
      repeat (destruct Sv as [Sv|Sv]; [eapply K; exact Sv|]). destruct Sv. }
    destruct X as (x & ->). assert (R : reach3 m szof (mkSys i [])) by now constructor.
    destruct (Q [x] szof 0 env eq_refl) as (s1 & E1).
    eapply feed_kept; eauto. exists [x], s1, []. split; [reflexivity|exact E1].
  Qed.

  (** ** Binary variables. *)
  Lemma calc_call env (i : Inst F (FTData F)) : vl_wf V (data (mut i)) ->
    call m env (ft_calculateValues (F := F)) i = Done (OK, set_mut (set_dirty false (set_data (ft_calc (data (mut i))) (mut i))) i, []).
  Proof.
    intros (W1 & W2). unfold call, ft_calculateValues, mbind, mdata, bind. cbn [md model_of Feedthrough_model] in *. cbv beta iota zeta.
    rewrite W1, W2. reflexivity.
  Qed.
  Lemma bin_call env (i : Inst F (FTData F)) vr n b0 : vl_wf V (data (mut i)) -> vr = 31%N \/ vr = 32%N ->
    exists u, call m env (m_getBinary m vr (Some [n]) (Some [b0]) 1 0) i =
      Done ((OK, Some [length (ft_bin_in (data (mut i)))], Some [ft_bin_in (data (mut i))], 1), u, []).
  Proof.
    intros (W1 & W2) [-> | ->]; eexists; unfold call; cbn [m_getBinary m model_of Feedthrough_model]; unfold ft_getBinary, ft_calculateValues, mbind, mdata, bind;
      cbn [md model_of Feedthrough_model] in *; cbv beta iota zeta; rewrite W1, W2; reflexivity.
  Qed.
  Lemma bin_read env s vr : reach3 m szof s -> vr = 31%N \/ vr = 32%N -> getBin3 m szof env s vr (ft_bin_in (data (mut (sinst s)))).
  Proof.
    intros R Hv n b0. pose proof (wf_reach _ _ R) as W. pose proof (feed_mode TFloat32 R) as Hm.
    cbn [exec3]. rewrite outI_eq. unfold fmi3GetBinary.
    assert (K : forall i : Inst F (FTData F), vl_wf V (data (mut i)) -> ft_bin_in (data (mut i)) = ft_bin_in (data (mut (sinst s))) ->
      exists i' tr, getBinary_loop m env [vr] 1 (Some [n]) (Some [b0]) 1 0 OK i =
      Done ((OK, (Some [length (ft_bin_in (data (mut (sinst s))))], Some [ft_bin_in (data (mut (sinst s)))])), i', tr)).
    { intros i Wi Eq. cbn [getBinary_loop]. destruct (@bin_call env i vr n b0 Wi Hv) as (u & E). unfold bind. cbn [md model_of Feedthrough_model] in *.
      rewrite E, <- Eq. cbv beta iota zeta. rewrite CALLk_ok. eexists; eexists; reflexivity. }
    rewrite BEGIN_pass by exact Hm. cbn [ASSERT_NOT_NULL]. change (Nat.eqb 1 0) with false. change (Nat.ltb 0 1) with true. cbv iota. unfold refresh. rewrite bind_getM.
    destruct (dirty (mut (sinst s))).
    - change (m_calculateValues m) with (ft_calculateValues (F := F)). unfold bind at 1. cbn [md model_of Feedthrough_model] in *. rewrite calc_call by exact W. cbv beta iota zeta.
      rewrite CALLk_ok. cbv beta. unfold bind at 1, modM at 1, modS at 1. cbv beta iota.
      match goal with |- context [getBinary_loop _ _ _ _ _ _ _ _ _ ?j] => destruct (K j) as (i' & tr & E); [exact W|reflexivity|] end.
      cbn [md model_of Feedthrough_model] in *. rewrite E. eexists; eexists; reflexivity.
    - destruct (K (sinst s) W eq_refl) as (i' & tr & E). cbn [md model_of Feedthrough_model] in *. rewrite E. eexists; eexists; reflexivity.
  Qed.
  Lemma bin_fun env s vr b : reach3 m szof s -> vr = 31%N \/ vr = 32%N -> getBin3 m szof env s vr b -> b = ft_bin_in (data (mut (sinst s))).
  Proof.
    intros R Hv G. destruct (G 0 []) as (s1 & t1 & E1). destruct (bin_read env R Hv 0 []) as (s2 & t2 & E2).
    rewrite E1 in E2. congruence.
  Qed.
  (** The effect of an assignment to a single input: refused (then only the mode changes), or done. *)
  Definition refused (s s' : Sys F (FTData F)) : Prop :=
    s' = mkSys (set_ctl (set_mode Terminated (ctl (sinst s))) (sinst s)) (heap s).
  Lemma refused_reads env s s' : reach3 m szof s -> refused s s' -> reads_same m szof env s s'.
  Proof.
    intros R ->. pose proof (wf_reach _ _ R) as W. eapply alike_reads; [exact W|apply (alike_mode V); exact W|right; reflexivity].
  Qed.
  Lemma BEGIN_not env mask (k : AF F (FTData F) (Status * unit)) i : N.land (bit3 (mode (ctl i))) mask = 0%N ->
    exists tr, BEGIN m env mask tt k i = Done ((Error, tt), set_ctl (set_mode Terminated (ctl i)) i, tr).
  Proof.
    intro H. unfold BEGIN, allowedState. unfold bind at 1. rewrite bind_getC, H. cbn [N.eqb]. rewrite bind_logError. cbn. eexists. reflexivity.
  Qed.
  (** Assigning a string, an enumeration value, a binary value. *)
  Definition assigned (vr : N) (ok : bool) (f : FTData F -> FTData F) (r : res (Status * Out F (FTData F) * Sys F (FTData F) * list (Event F)))
    (mask : N) (s : Sys F (FTData F)) : Prop :=
    if N.eqb (N.land (bit3 (mode_of s)) mask) 0 || negb ok
    then exists tr s', r = Done (Error, ONone, s', tr) /\ refused s s'
    else exists tr s', r = Done (OK, ONone, s', tr) /\ mode_of s' = mode_of s /\ data (mut (sinst s')) = f (data (mut (sinst s))).
  Lemma binary_set fuel env n b s : n <= length b ->
    assigned 31%N (Nat.leb n BINARY_MAX_LEN) (set_ft_bin_in (firstn n b))
      (exec3 m szof fuel env (O3SetBinary (Some [31%N]) 1 (Some [n]) (Some [Some b]) 1) s) MASK_SetInt8 s.
  Proof.
    intro L. destruct s as [[c u so] hp]. unfold assigned. cbn [exec3]. rewrite outI_eq. unfold fmi3SetBinary. unfold mode_of.
    match goal with |- if N.eqb ?a 0 || _ then _ else _ => destruct (N.eqb_spec a 0) as [Hm|Hm] end.
    - match goal with |- context [BEGIN _ _ _ _ ?k ?j] => destruct (@BEGIN_not env MASK_SetInt8 k j Hm) as (tr & E) end.
      cbn [md model_of Feedthrough_model sinst] in *. rewrite E. cbn. eexists; eexists; split; reflexivity.
    - rewrite BEGIN_pass by exact Hm. cbn [ASSERT_NOT_NULL]. change (Nat.eqb 1 0) with false. cbv iota. cbn [orb].
      cbn [setBinary_loop m_setBinary model_of Feedthrough_model]. unfold ft_setBinary, thenDirty, nnSet, call.
      change (ft_var 31) with (Some FTbin_in). unfold mbind, mrd, rd, bind, ret. cbn [nth_error]. cbv beta iota.
      rewrite Nat.ltb_antisym. destruct (Nat.leb n BINARY_MAX_LEN).
      + cbn [negb]. change (nvalues_ok 0 1 1) with true. cbv iota. cbn [nth_error].
        rewrite (proj2 (Nat.leb_le n (length b)) L). cbn. eexists; eexists; split; [reflexivity|]. split; reflexivity.
      + cbn [negb]. unfold failSet, mbind, mlogError, bind, mret, ret, tell, CALL. cbv beta iota zeta.
        match goal with |- context [?a && ?b] => destruct (a && b) end; cbn; eexists; eexists; split; reflexivity.
  Qed.
  Lemma string_set fuel env b s :
    assigned 29%N (negb (Nat.leb STRING_MAX_LEN (strlen b))) (set_ft_str_in (cstr b))
      (exec3 m szof fuel env (O3Set TString (Some [29%N]) 1 (Some [Some b]) 1) s) (MASK_Set TString) s.
  Proof.
    destruct s as [[c u so] hp]. unfold assigned. cbn [exec3]. rewrite outI_eq. unfold fmi3Set. unfold mode_of.
    match goal with |- if N.eqb ?a 0 || _ then _ else _ => destruct (N.eqb_spec a 0) as [Hm|Hm] end.
    - match goal with |- context [BEGIN _ _ _ _ ?k ?j] => destruct (@BEGIN_not env (MASK_Set TString) k j Hm) as (tr & E) end.
      cbn [md model_of Feedthrough_model sinst] in *. rewrite E. cbn. eexists; eexists; split; reflexivity.
    - rewrite BEGIN_pass by exact Hm. cbn [ASSERT_NOT_NULL]. change (Nat.eqb 1 0) with false. cbv iota. cbn [orb].
      cbn [set_loop m_set model_of Feedthrough_model]. unfold ft_setString, thenDirty, nnSet, call.
      change (ft_var 29) with (Some FTstr_in). unfold mbind, mrd, rd, bind, ret. cbn [nth_error]. cbv beta iota.
      destruct (Nat.leb STRING_MAX_LEN (strlen b)).
      + cbn [negb]. unfold failSet, mbind, mlogError, bind, mret, ret, tell, CALL. cbv beta iota zeta.
        match goal with |- context [?a && ?b] => destruct (a && b) end; cbn; eexists; eexists; split; reflexivity.
      + cbn [negb]. change (nvalues_ok 0 1 1) with true. cbv iota. cbn. eexists; eexists; split; [reflexivity|]. split; reflexivity.
  Qed.
  Lemma enum_set fuel env v s :
    assigned 33%N (Z.eqb v 1 || Z.eqb v 2) (set_ft_enum_in v)
      (exec3 m szof fuel env (O3Set TInt64 (Some [33%N]) 1 (Some [v]) 1) s) (MASK_Set TInt64) s.
  Proof.
    destruct s as [[c u so] hp]. unfold assigned. cbn [exec3]. rewrite outI_eq. unfold fmi3Set. unfold mode_of.
    match goal with |- if N.eqb ?a 0 || _ then _ else _ => destruct (N.eqb_spec a 0) as [Hm|Hm] end.
    - match goal with |- context [BEGIN _ _ _ _ ?k ?j] => destruct (@BEGIN_not env (MASK_Set TInt64) k j Hm) as (tr & E) end.
      cbn [md model_of Feedthrough_model sinst] in *. rewrite E. cbn. eexists; eexists; split; reflexivity.
    - rewrite BEGIN_pass by exact Hm. cbn [ASSERT_NOT_NULL]. change (Nat.eqb 1 0) with false. cbv iota. cbn [orb].
      cbn [set_loop m_set model_of Feedthrough_model]. unfold ft_setInt64, thenDirty, nnSet, call.
      change (ft_var 33) with (Some FTenum_in). unfold mbind, mrd, rd, bind, ret. cbn [nth_error negb isFMI2]. cbv beta iota.
      destruct (Z.eqb v 1 || Z.eqb v 2).
      + cbn [negb]. unfold take1. change (nvalues_ok 0 1 1) with true. cbv iota. cbn. eexists; eexists; split; [reflexivity|]. split; reflexivity.
      + cbn [negb]. unfold failSet, mbind, mlogError, bind, mret, ret, tell, CALL. cbv beta iota zeta.
        match goal with |- context [?a && ?b] => destruct (a && b) end; cbn; eexists; eexists; split; reflexivity.
  Qed.

  (** What a refused and a done assignment look like from outside. *)
  Lemma refused_bin env s s' : reach3 m szof s -> reach3 m szof s' -> refused s s' ->
    forall vr b, vr = 31%N \/ vr = 32%N -> getBin3 m szof env s vr b -> getBin3 m szof env s' vr b.
  Proof.
    intros R R' Rf vr b Hv G. apply (bin_fun R Hv) in G. subst b.
    replace (data (mut (sinst s))) with (data (mut (sinst s'))) by now rewrite Rf. now apply bin_read.
  Qed.
  Lemma assigned_not vr ok f (o : Op3 F (FTData F)) fuel env mask s : reach3 m szof s -> image3 o = None ->
    assigned vr ok f (exec3 m szof fuel env o s) mask s -> ok = false ->
    exists s' tr, exec3 m szof fuel env o s = Done (Error, ONone, s', tr) /\ forall env', reads_same m szof env' s s' /\
      (forall vr b, vr = 31%N \/ vr = 32%N -> getBin3 m szof env' s vr b -> getBin3 m szof env' s' vr b).
  Proof.
    intros R Im A ->. unfold assigned in A. rewrite orb_true_r in A. destruct A as (tr & s' & E & Rf). exists s', tr.
    split; [exact E|]. assert (R' : reach3 m szof s') by (eapply reach3_call; [exact R|intros i0 H0; assert (K : image3 o = Some i0) by exact H0; rewrite Im in K; discriminate|exact E]).
    intro env'. split; [now apply refused_reads|]. now apply refused_bin.
  Qed.
  Lemma assigned_ok vr f (o : Op3 F (FTData F)) fuel env mask s : reach3 m szof s -> image3 o = None ->
    assigned vr true f (exec3 m szof fuel env o s) mask s -> N.land (bit3 (mode_of s)) mask <> 0%N ->
    exists s' tr, exec3 m szof fuel env o s = Done (OK, ONone, s', tr) /\ reach3 m szof s' /\
      data (mut (sinst s')) = f (data (mut (sinst s))).
  Proof.
    intros R Im A Hm. unfold assigned in A.
    match type of A with if N.eqb ?a 0 || _ then _ else _ => destruct (N.eqb_spec a 0) as [H|_]; [contradiction (Hm H)|] end.
    cbn [orb negb] in A. destruct A as (tr & s' & E & _ & Dt). exists s', tr. split; [exact E|].
    split; [eapply reach3_call; [exact R|intros i0 H0; assert (K : image3 o = Some i0) by exact H0; rewrite Im in K; discriminate|exact E]|exact Dt].
  Qed.
  Lemma when_mask t md : In md (when3 (F := F) (D := FTData F) (O3Set t (Some []) 0 (Some []) 0)) -> N.land (bit3 md) (MASK_Set t) <> 0%N.
  Proof. destruct t; cbn; intro H; repeat (destruct H as [<-|H]; [discriminate|]); destruct H. Qed.

  Lemma string_range fuel env b s : reach3 m szof s ->
    let o := O3Set TString (Some [29%N]) 1 (Some [Some b]) 1 in
    (128 <= length (cstr b) -> exists s' tr, exec3 m szof fuel env o s = Done (Error, ONone, s', tr) /\ forall env', reads_same m szof env' s s' /\
      (forall vr b, vr = 31%N \/ vr = 32%N -> getBin3 m szof env' s vr b -> getBin3 m szof env' s' vr b)) /\
    (length (cstr b) < 128 -> In (mode_of s) (when3 o) -> exists s' tr, exec3 m szof fuel env o s = Done (OK, ONone, s', tr) /\
      forall env', get3 m szof env' s' TString 29%N [Some (cstr b)] /\ get3 m szof env' s' TString 30%N [Some (cstr b)]).
  Proof.
    intros R o. pose proof (string_set fuel env b s) as A. split.
    - intro L. refine (@assigned_not _ _ _ o fuel env _ s R eq_refl A _). rewrite (proj2 (Nat.leb_le _ _)); [reflexivity|exact L].
    - intros L Hm. rewrite (proj2 (Nat.leb_gt _ _)) in A by exact L.
      destruct (@assigned_ok _ _ o fuel env _ s R eq_refl A (when_mask TString _ Hm)) as (s' & tr & E & R' & Dt).
      exists s', tr. split; [exact E|]. intro env'. rewrite !(feed_get env' _ _ _ R'). unfold peek. cbn [md model_of Feedthrough_model] in *. rewrite Dt. split; reflexivity.
  Qed.
  Lemma enum_range fuel env v s : reach3 m szof s ->
    let o := O3Set TInt64 (Some [33%N]) 1 (Some [v]) 1 in
    (v <> 1%Z /\ v <> 2%Z -> exists s' tr, exec3 m szof fuel env o s = Done (Error, ONone, s', tr) /\ forall env', reads_same m szof env' s s' /\
      (forall vr b, vr = 31%N \/ vr = 32%N -> getBin3 m szof env' s vr b -> getBin3 m szof env' s' vr b)) /\
    (v = 1%Z \/ v = 2%Z -> In (mode_of s) (when3 o) -> exists s' tr, exec3 m szof fuel env o s = Done (OK, ONone, s', tr) /\
      forall env', get3 m szof env' s' TInt64 33%N [v] /\ get3 m szof env' s' TInt64 34%N [v]).
  Proof.
    intros R o. pose proof (enum_set fuel env v s) as A. split.
    - intros (L1 & L2). refine (@assigned_not _ _ _ o fuel env _ s R eq_refl A _). destruct (Z.eqb_spec v 1); [contradiction|]. destruct (Z.eqb_spec v 2); [contradiction|reflexivity].
    - intros L Hm. assert (X : (Z.eqb v 1 || Z.eqb v 2) = true) by (destruct L as [-> | ->]; reflexivity). rewrite X in A.
      destruct (@assigned_ok _ _ o fuel env _ s R eq_refl A (when_mask TInt64 _ Hm)) as (s' & tr & E & R' & Dt).
      exists s', tr. split; [exact E|]. intro env'. rewrite !(feed_get env' _ _ _ R'). unfold peek. cbn [md model_of Feedthrough_model] in *. rewrite Dt. split; reflexivity.
  Qed.
  Lemma binary_range fuel env n b s : reach3 m szof s -> n <= length b ->
    let o := O3SetBinary (Some [31%N]) 1 (Some [n]) (Some [Some b]) 1 in
    (128 < n -> exists s' tr, exec3 m szof fuel env o s = Done (Error, ONone, s', tr) /\ forall env', reads_same m szof env' s s' /\
      (forall vr b, vr = 31%N \/ vr = 32%N -> getBin3 m szof env' s vr b -> getBin3 m szof env' s' vr b)) /\
    (n <= 128 -> In (mode_of s) (when3 o) -> exists s' tr, exec3 m szof fuel env o s = Done (OK, ONone, s', tr) /\
      forall env', getBin3 m szof env' s' 31%N (firstn n b) /\ getBin3 m szof env' s' 32%N (firstn n b)).
  Proof.
    intros R Ln o. pose proof (@binary_set fuel env n b s Ln) as A. split.
    - intro L. refine (@assigned_not _ _ _ o fuel env _ s R eq_refl A _). apply Nat.leb_gt. exact L.
    - intros L Hm. rewrite (proj2 (Nat.leb_le _ _)) in A by exact L.
      destruct (@assigned_ok _ _ o fuel env _ s R eq_refl A (when_mask TInt8 _ Hm)) as (s' & tr & E & R' & Dt).
      exists s', tr. split; [exact E|]. intro env'. pose proof (@bin_read env' s' 31%N R' (or_introl eq_refl)) as P.
      pose proof (@bin_read env' s' 32%N R' (or_intror eq_refl)) as P2. cbn [md model_of Feedthrough_model] in *. rewrite Dt in P, P2. split; assumption.
  Qed.
  (** The binary output is the binary input, which keeps its value. *)
  Lemma bin_iff env s b : reach3 m szof s -> getBin3 m szof env s 32%N b <-> getBin3 m szof env s 31%N b.
  Proof.
    intro R. split; intro G; apply bin_fun in G; auto; subst; apply bin_read; auto.
  Qed.
  Lemma bin_kept fuel env env' b l s obs s' : reach3 m szof s -> getBin3 m szof env s 31%N b ->
    (forall e o i, In (e, o) l -> image3 o = Some i -> saved3 m szof i) ->
    Forall (fun p => touches3 31%N (snd p) = false) l ->
    run3 m szof fuel l s = Done (obs, s') -> getBin3 m szof env' s' 31%N b /\ getBin3 m szof env' s' 32%N b.
  Proof.
    intros R G Im C E. assert (R' : reach3 m szof s') by (eapply run3_reach; eauto).
    apply bin_fun in G; auto. subst. destruct (@run_same fuel FTbin_in l s obs s' eq_refl C E) as (_ & S). specialize (S eq_refl).
    cbn [md model_of Feedthrough_model] in *. rewrite <- S. split; apply bin_read; auto.
  Qed.
End Feed.
