(** FeedBin.v -- the binary variables: what is assigned is read back and nothing else changes (C08, C09). *)
From Coq Require Import List NArith ZArith Bool Arith Lia.
From Verif Require Import Base Instance ModelIface Core Fmi3 Fmi2 Api Logic Calls Fmus SpecModes SpecVars SpecEqs SpecCreate LawsFmus Reach Histories
  Vars VarsFmus DataFmus Data Dep FTKeep Feed FmuFeedthrough.
Import ListNotations.
Set Implicit Arguments.

Section FeedBin.
  Context {F : Type} {NF : Num F} (szof : N).
  Notation m := (model_of (F := F) FMI3 Feedthrough).
  Notation V := (vars_all (F := F) FMI3 Feedthrough).

  (** An assignment that returns OK has stored the bytes. *)
  Lemma bin_stored fuel env vr n ns b bs nv s out s' tr :
    exec3 m szof fuel env (O3SetBinary (Some [vr]) 1 (Some (n :: ns)) (Some (Some b :: bs)) nv) s = Done (OK, out, s', tr) ->
    vr = 31%N /\ n <= length b /\ ctl (sinst s') = ctl (sinst s) /\ data (mut (sinst s')) = set_ft_bin_in (firstn n b) (data (mut (sinst s))).
  Proof.
    destruct s as [[c u so] hp]. cbn [exec3]. rewrite outI_eq. unfold fmi3SetBinary. cbn [sinst].
    match goal with |- context [BEGIN _ _ _ _ ?k ?j] => destruct (N.eqb_spec (N.land (bit3 (mode (ctl j))) MASK_SetInt8) 0) as [Hm|Hm];
      [destruct (@BEGIN_not F NF env MASK_SetInt8 k j Hm) as (tr0 & E)|] end.
    - cbn [md model_of Feedthrough_model] in *. rewrite E. discriminate.
    - rewrite BEGIN_pass by exact Hm. cbn [ASSERT_NOT_NULL]. change (Nat.eqb 1 0) with false. cbv iota.
      cbn [setBinary_loop m_setBinary model_of Feedthrough_model]. unfold ft_setBinary, thenDirty, nnSet, call.
      destruct (ft_var vr) as [w|] eqn:Ew.
      2:{ unfold failSet, mbind, mlogError, bind, mret, ret, tell, CALL. cbv beta iota zeta.
          match goal with |- context [?a && ?b] => destruct (a && b) end; cbn; discriminate. }
      destruct w; try (unfold failSet, mbind, mlogError, bind, mret, ret, tell, CALL; cbv beta iota zeta;
          match goal with |- context [?a && ?b] => destruct (a && b) end; cbn; discriminate).
      apply ft_var_vr in Ew. cbn in Ew.
      unfold mbind, mrd, rd, bind, ret. cbn [nth_error]. cbv beta iota.
      destruct (Nat.ltb BINARY_MAX_LEN n).
      { unfold failSet, mbind, mlogError, bind, mret, ret, tell, CALL. cbv beta iota zeta.
        match goal with |- context [?a && ?b] => destruct (a && b) end; cbn; discriminate. }
      destruct (nvalues_ok 0 1 nv).
      2:{ unfold failSet, mbind, mlogError, bind, mret, ret, tell, CALL. cbv beta iota zeta.
        match goal with |- context [?a && ?b] => destruct (a && b) end; cbn; discriminate. }
      cbn [nth_error]. cbv beta iota. destruct (Nat.leb_spec n (length b)) as [L|L]; [|discriminate].
      cbv -[nth_error firstn Nat.eqb set_ft_bin_in].
      intro E. split; [exact Ew|]. split; [exact L|]. revert E.
      match goal with |- context [Nat.eqb 1 nv] => destruct (Nat.eqb 1 nv) end; cbn.
      + intro E. injection E as <- <- <-. split; reflexivity.
      + match goal with |- context [if ?a then _ else _] => destruct a end; cbn; discriminate.
  Qed.

  (** Nothing else is computed from the binary input. *)
  Lemma bin_peek env c x d t vr : vl_value V t vr c (vl_recalc V env c (set_ft_bin_in x d)) = vl_value V t vr c (vl_recalc V env c d).
  Proof. destruct t; cbn; unfold ft_value; destruct (ft_var vr) as [[]|]; reflexivity. Qed.

  Theorem bin_set_get fuel env vr n ns b bs nv s out s' tr : reach3 m szof s ->
    exec3 m szof fuel env (O3SetBinary (Some [vr]) 1 (Some (n :: ns)) (Some (Some b :: bs)) nv) s = Done (OK, out, s', tr) ->
    n <= length b /\ (forall env', getBin3 m szof env' s' vr (firstn n b)) /\ (forall env' t vr2 ws, get3 m szof env' s t vr2 ws -> get3 m szof env' s' t vr2 ws).
  Proof.
    intros R E. assert (R' : reach3 m szof s') by (eapply reach3_call; [exact R| |exact E]; intros i0 H0; discriminate H0).
    destruct (@bin_stored _ _ _ _ _ _ _ _ _ _ _ _ E) as (-> & L & C & Dt). split; [exact L|]. split.
    - intro env'. pose proof (@bin_read F NF szof env' s' 31%N R' (or_introl eq_refl)) as P. cbn [md model_of Feedthrough_model] in *.
      rewrite Dt in P. exact P.
    - intros env' t vr2 ws G. apply (feed_get env' t vr2 ws R) in G. apply (feed_get env' t vr2 ws R').
      unfold peek in *. cbn [md model_of Feedthrough_model] in *. rewrite C, Dt, bin_peek. exact G.
  Qed.
  Theorem bin_other fuel env t vr l n s out s' tr vr2 b env' : reach3 m szof s ->
    exec3 m szof fuel env (O3Set t (Some [vr]) 1 (Some l) n) s = Done (OK, out, s', tr) ->
    vr2 = 31%N \/ vr2 = 32%N -> vr <> vr2 -> ~ In vr (depends Feedthrough vr2) -> getBin3 m szof env s vr2 b -> getBin3 m szof env' s' vr2 b.
  Proof.
    intros R E Hv N1 N2 G. assert (N31 : vr <> 31%N).
    { destruct Hv as [-> | ->]; [exact N1|]. intros ->. apply N2. left. reflexivity. }
    assert (G31 : getBin3 m szof env s 31%N b) by (destruct Hv as [-> | ->]; [exact G|exact (proj1 (bin_iff env b R) G)]).
    assert (K : getBin3 m szof env' s' 31%N b /\ getBin3 m szof env' s' 32%N b).
    { eapply (@bin_kept F NF szof fuel env env' b [(env, O3Set t (Some [vr]) 1 (Some l) n)] s); eauto.
      - intros e o i [H|[]] Hi. injection H as <- <-. discriminate Hi.
      - constructor; [|constructor]. cbn [snd touches3 firstn existsb]. destruct (N.eqb_spec 31 vr); [congruence|reflexivity].
      - unfold run3. cbn [run]. cbn [md model_of Feedthrough_model] in *. rewrite E. reflexivity. }
    destruct K as [K1 K2], Hv as [-> | ->]; [exact K1|exact K2].
  Qed.
  (** No other FMU has binary variables. *)
  Lemma bin_default (mo : Model F) fuel env vr sizes values nv s out s' tr : m_setBinary mo = setBinary_default ->
    exec3 mo szof fuel env (O3SetBinary (Some [vr]) 1 sizes values nv) s <> Done (OK, out, s', tr).
  Proof.
    intro D. cbn [exec3]. rewrite outI_eq. unfold fmi3SetBinary, BEGIN, allowedState. unfold bind at 1. rewrite bind_getC.
    match goal with |- context [N.eqb ?a 0] => destruct (N.eqb a 0) end.
    - rewrite bind_logError. cbn. discriminate.
    - cbn [ASSERT_NOT_NULL setBinary_loop]. change (Nat.eqb 1 0) with false. cbv iota. rewrite D.
      unfold setBinary_default, failSet, call, mbind, mlogError, bind, mret, ret, tell, CALL. cbv beta iota zeta.
      match goal with |- context [?a && ?b] => destruct (a && b) end; cbn; discriminate.
  Qed.
  Theorem bin_none f fuel env vr sizes values nv s out s' tr : f <> Feedthrough ->
    exec3 (model_of (F := F) FMI3 f) szof fuel env (O3SetBinary (Some [vr]) 1 sizes values nv) s <> Done (OK, out, s', tr).
  Proof. intro Nf. apply bin_default. destruct f; reflexivity || contradiction. Qed.
End FeedBin.
