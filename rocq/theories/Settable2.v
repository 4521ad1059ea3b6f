(** Settable2.v -- which variables can be read and assigned in FMI 2.0 (proofs of C69 and C70). *)
From Coq Require Import List NArith ZArith Bool Arith Lia.
From Verif Require Import Base Instance ModelIface Core Fmi3 Fmi2 Api Logic Calls Fmus SpecModes Gate
  SpecVars SpecEqs SpecCreate Vars Vars2 VarsFmus DataFmus Data Data2 Sim2 SpecSettable Settable.
From Verif Require Import FmuBouncingBall FmuDahlquist FmuStair FmuVanDerPol FmuRoberts
  FmuClocks FmuResource FmuStateSpace FmuFeedthrough.
Import ListNotations.
Set Implicit Arguments.

Section Readable.
  Context {F : Type} {NF : Num F}.

  Lemma out_ok2 f env (s : Sys F (md (model_of (F := F) FMI2 f))) : (f = Resource -> file_there2 env s) ->
    exists tr, vl_out (vars_all FMI2 f) env (ctl (sinst s)) = Some (OK, tr).
  Proof.
    intros H. destruct f; try (exists []; reflexivity). destruct (H eq_refl) as (loc & path & y & A & B & C).
    exists []. change (re_out true env (ctl (sinst s)) = Some (OK, [])). unfold re_out, re_file, re_path. now rewrite A, B; cbn; rewrite C.
  Qed.
  Lemma peek2 f szof env s t vr : built2 f = true -> reach2 (model_of (F := F) FMI2 f) szof s -> (f = Resource -> file_there2 env s) ->
    declared FMI2 f t vr -> exists x, peek (vars_all FMI2 f) env (sinst s) t vr = Some [x].
  Proof.
    intros B R Hf D. pose proof (@wf_reach2 _ _ _ _ _ _ R) as W. destruct (@out_ok2 f env s Hf) as (tr & Ho).
    destruct (@value_declared F NF FMI2 f t vr (ctl (sinst s)) _ (@recalc_wf F NF FMI2 f env (sinst s) tr W Ho) D) as (vs & E).
    assert (L : length vs = 1).
    { apply vl_vsize in E. apply size1 in E; auto. }
    destruct vs as [|x [|]]; try discriminate. exists x. exact E.
  Qed.
  Lemma readable2 f szof env s t vr : built2 f = true -> reach2 (model_of (F := F) FMI2 f) szof s -> (f = Resource -> file_there2 env s) ->
    In (mode_of s) (when2 (F := F) (D := md (model_of FMI2 f)) (O2Get t (Some [vr]) 1 (Some []))) -> declared FMI2 f t vr ->
    exists x, get2 (model_of FMI2 f) szof env s t vr x.
  Proof.
    intros B R Hf Hm D. destruct (peek2 B R Hf D) as (x & E). destruct (@out_ok2 f env s Hf) as (tr & Ho). exists x.
    apply get_iff; [exact B|exact R|]. split; [|exact E]. split.
    - revert Hm. unfold mode_of. cbn. intro H. repeat (destruct H as [<-|H]; [discriminate|]); destruct H.
    - destruct (dirty _); [eauto|]. intros _. congruence.
  Qed.
  Lemma readableB2 f szof env s vr : built2 f = true -> reach2 (model_of (F := F) FMI2 f) szof s -> (f = Resource -> file_there2 env s) ->
    In (mode_of s) (when2 (F := F) (D := md (model_of FMI2 f)) (O2GetBoolean (Some [vr]) 1 (Some []))) -> declared FMI2 f TBoolean vr ->
    exists b, getB2 (model_of FMI2 f) szof env s vr b.
  Proof.
    intros B R Hf Hm D. destruct (peek2 B R Hf D) as (x & E). destruct (@out_ok2 f env s Hf) as (tr & Ho). exists x.
    apply getB_iff; [exact B|exact R|]. split; [|exact E]. split.
    - revert Hm. unfold mode_of. cbn. intro H. repeat (destruct H as [<-|H]; [discriminate|]); destruct H.
    - intros _. congruence.
  Qed.

  (** ** Assigning one variable. *)
  Definition mask2 (t : VType) : N := match t with TFloat64 => MASK2_SetReal | _ => MASK2_SetInteger end.
  Lemma set_ok2 (m : Model F) szof fuel env s t vr x u' tr : N.land (bit2 (mode_of s)) (mask2 t) <> 0%N ->
    m_set m t vr (Some [x]) 1 0 env (ctl (sinst s)) (mut (sinst s)) = Done ((OK, 1), u', tr) ->
    exists s' tr', exec2 m szof fuel env (set_op2 t vr x) s = Done (OK, ONone, s', tr').
  Proof.
    intros Hm E.
    assert (Q : exists s' tr', exec2 m szof fuel env (O2Set t (Some [vr]) 1 (Some [x])) s = Done (OK, ONone, s', tr')).
    { cbn [exec2]. rewrite outI_eq. unfold fmi2SetV. rewrite BEGIN2_pass by exact Hm. change (1 =? 0) with false. cbv iota.
      cbn [ASSERT_NOT_NULL lst].
      assert (L : set_loop m env t [vr] 1 (Some [x]) 1 0 OK (sinst s) = Done ((OK, 1), set_mut u' (sinst s), tr ++ [])).
      { cbn [set_loop]. unfold bind at 1. unfold call. rewrite E, CALL_ok. reflexivity. }
      unfold bind at 1. rewrite L. cbn. eauto. }
    destruct t; try exact Q. clear Q. cbn [set_op2 exec2]. rewrite outI_eq. unfold fmi2SetBoolean. rewrite BEGIN2_pass by exact Hm.
    cbn [setBoolean_loop]. assert (Ex : negb ((if x then 1 else 0) =? 0)%Z = x) by (destruct x; reflexivity).
    unfold bind, rd. cbn [nth_error]. unfold ret. cbv beta iota. rewrite Ex. unfold call.
    match type of E with _ = ?r => match goal with |- context [m_set m TBoolean vr ?b 1 0 env ?c ?u] => replace (m_set m TBoolean vr b 1 0 env c u) with r by (symmetry; exact E) end end. cbn [fst]. rewrite CALLk_ok. do 2 eexists. reflexivity.
  Qed.
  Lemma set_no2 (m : Model F) szof fuel env s t vr x k tr :
    N.land (bit2 (mode_of s)) (mask2 t) = 0%N \/
    m_set m t vr (Some [x]) 1 0 env (ctl (sinst s)) (mut (sinst s)) = Done ((Error, k), mut (sinst s), tr) ->
    exists tr', exec2 m szof fuel env (set_op2 t vr x) s =
      Done (Error, ONone, mkSys (set_ctl (set_mode Terminated (ctl (sinst s))) (sinst s)) (heap s), tr').
  Proof.
    intros E.
    assert (Q : exists tr', exec2 m szof fuel env (O2Set t (Some [vr]) 1 (Some [x])) s =
      Done (Error, ONone, mkSys (set_ctl (set_mode Terminated (ctl (sinst s))) (sinst s)) (heap s), tr')).
    { cbn [exec2]. rewrite outI_eq. unfold fmi2SetV.
      destruct (N.eqb_spec (N.land (bit2 (mode (ctl (sinst s)))) (MASK2_Set t)) 0) as [Hm|Hm].
      - rewrite BEGIN2_refused by exact Hm. eauto.
      - destruct E as [E|E]; [contradiction (Hm E)|]. rewrite BEGIN2_pass by exact Hm. change (1 =? 0) with false. cbv iota. cbn [ASSERT_NOT_NULL lst].
        assert (L : exists tr', set_loop m env t [vr] 1 (Some [x]) 1 0 OK (sinst s) =
          Done ((Error, k), set_ctl (set_mode Terminated (ctl (sinst s))) (sinst s), tr')).
        { cbn [set_loop]. unfold bind at 1. unfold call. rewrite E, CALL_err. destruct (sinst s). cbn. eauto. }
        destruct L as (tr' & L). unfold bind at 1. rewrite L. cbn. eauto. }
    destruct t; try exact Q. clear Q. cbn [set_op2 exec2]. rewrite outI_eq. unfold fmi2SetBoolean.
    destruct (N.eqb_spec (N.land (bit2 (mode (ctl (sinst s)))) MASK2_SetInteger) 0) as [Hm|Hm].
    - rewrite BEGIN2_refused by exact Hm. eauto.
    - destruct E as [E|E]; [contradiction (Hm E)|]. rewrite BEGIN2_pass by exact Hm.
      cbn [setBoolean_loop]. assert (Ex : negb ((if x then 1 else 0) =? 0)%Z = x) by (destruct x; reflexivity).
      unfold bind, rd. cbn [nth_error]. unfold ret. cbv beta iota. rewrite Ex. unfold call.
    match type of E with _ = ?r => match goal with |- context [m_set m TBoolean vr ?b 1 0 env ?c ?u] => replace (m_set m TBoolean vr b 1 0 env c u) with r by (symmetry; exact E) end end. cbn [fst]. rewrite CALLk_err. destruct (sinst s). do 2 eexists.
  Qed.
  Definition accepted2 (f : FMU) (t : VType) (vr : N) (x : val F t) (c : Ctl F) : Prop :=
    N.land (bit2 (mode c)) (mask2 t) <> 0%N /\
    forall env (u : Mut F (md (model_of (F := F) FMI2 f))),
      exists u' tr, m_set (model_of FMI2 f) t vr (Some [x]) 1 0 env c u = Done ((OK, 1), u', tr).
  Lemma accepts2_string (x : option bytes) env c (u : Mut F (FTData F)) : (exists b, x = Some b /\ length (cstr b) < 128) ->
    exists u' tr, m_set (model_of (F := F) FMI2 Feedthrough) TString 29 (Some [x]) 1 0 env c u = Done ((OK, 1), u', tr).
  Proof. exact (@accepts_string F NF x env c u). Qed.
  Ltac modes md ty Hm := destruct md; try discriminate Hm; destruct ty; try discriminate Hm.
  Lemma accepts2 f t vr a (x : val F t) c : built2 f = true -> In (vr, t, a) (attributes FMI2 f) ->
    may_set2 (itype c) (mode c) a = true -> in_range f t vr [x] -> works f t [x] -> accepted2 f t vr x c.
  Proof.
    intros Bf Hi Hm Hr Hw. destruct c as [c1 c2 c3 c4 ty c6 c7 c8 c9 c10 c11 c12 c13 c14 c15 md c17 c18 ev c20]. cbn [itype mode] in Hm.
    destruct f; try discriminate Bf; cbn [attributes timeA each map app In] in Hi.
    1, 2, 4, 6: repeat (destruct Hi as [Hi|Hi]; [injection Hi as <- <- <-; modes md ty Hm;
       (split; [discriminate|]; intros env u; destruct u; do 2 eexists; reflexivity)|]); destruct Hi.
    - (* Feedthrough *)
      repeat (destruct Hi as [Hi|Hi]; [injection Hi as <- <- <-;
        lazymatch goal with
        | |- accepted2 _ TString _ _ _ => modes md ty Hm; (split; [discriminate|]; intros env u; apply accepts2_string; exact (Forall_inv Hr))
        | |- accepted2 _ TInt32 33%N _ _ => modes md ty Hm;
            (split; [discriminate|]; intros env u; destruct Hr as [Hr _]; destruct (Hr eq_refl eq_refl) as [Hr' | Hr']; injection Hr' as ->; destruct u; do 2 eexists; reflexivity)
        | _ => modes md ty Hm; (split; [discriminate|]; intros env u; destruct u; do 2 eexists; reflexivity)
        end|]); destruct Hi.
    - (* Stair *)
      repeat (destruct Hi as [Hi|Hi]; [injection Hi as <- <- <-; modes md ty Hm;
       (split; [discriminate|]; intros env u; destruct Hr as [_ Hr]; specialize (Hr eq_refl); apply Forall_inv in Hr; specialize (Hw eq_refl);
        apply Forall_inv in Hw; apply (@accepts_stair F NF); [cbn [val] in x; lia|reflexivity])|]); destruct Hi.
  Qed.
  Theorem settable2 f szof fuel env s t vr a x : built2 f = true -> reach2 (model_of (F := F) FMI2 f) szof s -> In (vr, t, a) (attributes FMI2 f) ->
    may_set2 (itype (ctl (sinst s))) (mode_of s) a = true -> in_range f t vr [x] -> works f t [x] ->
    exists s' tr, exec2 (model_of FMI2 f) szof fuel env (set_op2 t vr x) s = Done (OK, ONone, s', tr).
  Proof.
    intros Bf _ Hi Hm Hr Hw. destruct (@accepts2 f t vr a x (ctl (sinst s)) Bf Hi Hm Hr Hw) as (Hk & K).
    destruct (K env (mut (sinst s))) as (u' & tr & E). exact (@set_ok2 _ szof fuel env s t vr x u' tr Hk E).
  Qed.
  Lemma refused2 f szof fuel env s t vr x tr : built2 f = true -> reach2 (model_of (F := F) FMI2 f) szof s ->
    exec2 (model_of FMI2 f) szof fuel env (set_op2 t vr x) s =
      Done (Error, ONone, mkSys (set_ctl (set_mode Terminated (ctl (sinst s))) (sinst s)) (heap s), tr) ->
    exists s' tr, exec2 (model_of FMI2 f) szof fuel env (set_op2 t vr x) s = Done (Error, ONone, s', tr) /\
      forall env', reads_same2 (model_of FMI2 f) szof env' s s'.
  Proof.
    intros Bf R X. do 2 eexists. split; [exact X|]. intro env'.
    assert (R' : reach2 (model_of (F := F) FMI2 f) szof (mkSys (set_ctl (set_mode Terminated (ctl (sinst s))) (sinst s)) (heap s))).
    { eapply reach2_call; [exact R| |exact X]. intros i Hi. destruct t; discriminate Hi. }
    apply alike_reads2; auto. apply alike_mode. exact (@wf_reach2 _ _ _ _ _ _ R).
  Qed.
  Lemma rejects2 f szof fuel env s t vr a x : built2 f = true -> reach2 (model_of (F := F) FMI2 f) szof s -> In (vr, t, a) (attributes FMI2 f) -> never_set a = true ->
    ~ (f = Feedthrough /\ vr = 28%N) ->
    exists s' tr, exec2 (model_of FMI2 f) szof fuel env (set_op2 t vr x) s = Done (Error, ONone, s', tr) /\
      forall env', reads_same2 (model_of FMI2 f) szof env' s s'.
  Proof.
    intros Bf R Hi Ha N1.
    assert (E : exists k tr, m_set (model_of FMI2 f) t vr (Some [x]) 1 0 env (ctl (sinst s)) (mut (sinst s)) = Done ((Error, k), mut (sinst s), tr)).
    { generalize (ctl (sinst s)) (mut (sinst s)). clear R. intros c u.
      destruct c as [c1 c2 c3 c4 ty c6 c7 c8 c9 c10 c11 c12 c13 c14 c15 md c17 c18 ev c20]. destruct c8, c14, u; destruct f; try discriminate Bf; cbn [attributes timeA each map app In] in Hi.
      all: repeat (destruct Hi as [Hi|Hi]; [injection Hi as <- <- <-; try discriminate Ha; try (contradiction N1; split; reflexivity); do 2 eexists; reflexivity|]); destruct Hi. }
    destruct E as (k & tr & E). destruct (@set_no2 _ szof fuel env s t vr x k tr (or_intror E)) as (tr' & X). eapply refused2; eauto.
  Qed.
  Lemma rejects_me2 f szof fuel env s t vr a x : built2 f = true -> reach2 (model_of (F := F) FMI2 f) szof s -> f <> VanDerPol ->
    In (vr, t, a) (attributes FMI2 f) -> fst (fst a) = Param \/ fst (fst a) = Input -> itype (ctl (sinst s)) = ModelExchange ->
    In (mode_of s) [Instantiated; InitializationMode; EventMode; ContinuousTimeMode] ->
    may_set2 (itype (ctl (sinst s))) (mode_of s) a = false ->
    exists s' tr, exec2 (model_of FMI2 f) szof fuel env (set_op2 t vr x) s = Done (Error, ONone, s', tr) /\
      forall env', reads_same2 (model_of FMI2 f) szof env' s s'.
  Proof.
    intros Bf R N1 Hi Ha Ht Hd Hm.
    assert (Q : exists k tr, N.land (bit2 (mode_of s)) (mask2 t) = 0%N \/
        m_set (model_of FMI2 f) t vr (Some [x]) 1 0 env (ctl (sinst s)) (mut (sinst s)) = Done ((Error, k), mut (sinst s), tr)).
    { unfold mode_of in *. revert Ht Hd Hm. generalize (ctl (sinst s)) (mut (sinst s)). clear R. intros c u Ht Hd Hm.
      destruct c as [c1 c2 c3 c4 ty c6 c7 c8 c9 c10 c11 c12 c13 c14 c15 md c17 c18 ev c20]. cbn [itype mode] in *. subst ty.
      destruct c8, c14, u; destruct f; try discriminate Bf; cbn [attributes timeA each map app In] in Hi; try contradiction (N1 eq_refl).
      all: repeat (destruct Hi as [Hi|Hi]; [injection Hi as <- <- <-; try (destruct Ha; discriminate);
        (repeat (destruct Hd as [<-|Hd]; [first [discriminate Hm|exists 0, []; left; reflexivity|do 2 eexists; right; reflexivity]|]); destruct Hd)|]); destruct Hi. }
    destruct Q as (k & tr & Q). destruct (@set_no2 _ szof fuel env s t vr x k tr Q) as (tr' & X). eapply refused2; eauto.
  Qed.
End Readable.
