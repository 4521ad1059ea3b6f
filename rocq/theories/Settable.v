(** Settable.v -- which variables can be read and assigned (proofs of C69 and C70). *)
From Coq Require Import List NArith ZArith Bool Arith Lia.
From Verif Require Import Base Instance ModelIface Core Fmi3 Fmi2 Api Logic Calls Fmus SpecModes Gate
  SpecVars Vars VarsFmus DataFmus Data Sim3 SimSS SafeFmus SpecSettable.
From Verif Require Import FmuBouncingBall FmuDahlquist FmuStair FmuVanDerPol FmuRoberts
  FmuClocks FmuResource FmuStateSpace FmuFeedthrough.
Import ListNotations.
Set Implicit Arguments.

Section Readable.
  Context {F : Type} {NF : Num F}.

  Lemma when_get D t vrs n l k md : In md (when3 (F := F) (D := D) (O3Get t vrs n l k)) -> N.land (bit3 md) (MASK_Get t) <> 0%N.
  Proof. destruct t; cbn; intro H; repeat (destruct H as [<-|H]; [discriminate|]); destruct H. Qed.

  Lemma recalc_wf v f env (i : Inst F (md (model_of v f))) tr : vl_wf (vars_all v f) (data (mut i)) ->
    vl_out (vars_all v f) env (ctl i) = Some (OK, tr) ->
    vl_wf (vars_all v f) (vl_recalc (vars_all v f) env (ctl i) (data (mut i))).
  Proof.
    intros W E. pose proof (vl_calc (vars_all v f) env (ctl i) (mut i) W) as Q. rewrite E in Q.
    destruct Q as (_ & u' & _ & <- & H & _). exact H.
  Qed.
  Lemma value_declared v f t vr c d : vl_wf (vars_all v f) d -> declared v f t vr -> exists vs, vl_value (vars_all v f) t vr c d = Some vs.
  Proof.
    intros W (dims & H). destruct f; cbn [vars_all] in *.
    8: { cbn in H. repeat (destruct H as [H|H]; [injection H as <- <- <-;
           lazymatch goal with
           | |- exists vs, vl_value _ TUInt64 _ _ _ = _ => eexists; reflexivity
           | |- exists vs, vl_value _ _ ?n _ _ = _ =>
               pose proof (ss_value_known n c W) as K;
               change (vl_value ss_laws TFloat64 n c d) with (ss_value TFloat64 n c d);
               destruct (ss_value TFloat64 n c d); [eauto|exfalso; destruct K as [K _]; specialize (K eq_refl); clear -K; discriminate K]
           end|]); destruct H. }
    4: destruct v.
    all: cbn in H; repeat (destruct H as [H|H]; [injection H as <- <- <-; eexists; cbv; reflexivity|]); destruct H.
  Qed.
  Lemma out_ok f szof env s : reach3 (model_of (F := F) FMI3 f) szof s -> (f = Resource -> file_there env s) ->
    exists tr, vl_out (vars_all FMI3 f) env (ctl (sinst s)) = Some (OK, tr).
  Proof.
    intros _ H. destruct f; try (exists []; reflexivity). destruct (H eq_refl) as (loc & path & y & A & B & C).
    exists []. change (re_out false env (ctl (sinst s)) = Some (OK, [])). unfold re_out, re_file, re_path. now rewrite A, B; cbn; rewrite C.
  Qed.
  Lemma readable f szof env s t vr : reach3 (model_of (F := F) FMI3 f) szof s -> (f = Resource -> file_there env s) ->
    In (mode_of s) (when3 (F := F) (D := md (model_of FMI3 f)) (O3Get t (Some [vr]) 1 (Some []) 0)) -> declared FMI3 f t vr ->
    exists vs, get3 (model_of FMI3 f) szof env s t vr vs.
  Proof.
    intros R Hf Hm D. pose proof (@wf_reach _ _ _ _ _ _ R) as W. destruct (out_ok R Hf) as (tr & Ho).
    destruct (@value_declared FMI3 f t vr (ctl (sinst s)) _ (@recalc_wf FMI3 f env (sinst s) tr W Ho) D) as (vs & E). exists vs.
    apply (get1_iff (vars_all FMI3 f) szof env s t vr vs W). split; [|exact E]. split; [exact (@when_get _ _ _ _ _ _ _ Hm)|].
    destruct (dirty _); [eauto|]. intros _. congruence.
  Qed.
  (** ** Assigning one variable. *)
  Lemma set_ok (m : Model F) szof fuel env s t vr l u' tr : N.land (bit3 (mode_of s)) (MASK_Set t) <> 0%N ->
    m_set m t vr (Some l) (length l) 0 env (ctl (sinst s)) (mut (sinst s)) = Done ((OK, length l), u', tr) ->
    exists s' tr', exec3 m szof fuel env (O3Set t (Some [vr]) 1 (Some l) (length l)) s = Done (OK, ONone, s', tr').
  Proof.
    intros Hm E. cbn [exec3]. rewrite outI_eq. unfold fmi3Set. rewrite BEGIN_pass by exact Hm. change (1 =? 0) with false. cbv iota.
    cbn [ASSERT_NOT_NULL].
    assert (L : set_loop m env t [vr] 1 (Some l) (length l) 0 OK (sinst s) = Done ((OK, length l), set_mut u' (sinst s), tr ++ [])).
    { cbn [set_loop]. unfold bind at 1. unfold call. rewrite E, CALL_ok. reflexivity. }
    unfold bind at 1. rewrite L. cbn [stops]. unfold bind. cbn [modM modS]. rewrite Nat.eqb_refl. cbn. eauto.
  Qed.
  Lemma set_no (m : Model F) szof fuel env s t vr l n k tr :
    m_set m t vr l n 0 env (ctl (sinst s)) (mut (sinst s)) = Done ((Error, k), mut (sinst s), tr) ->
    exists tr', exec3 m szof fuel env (O3Set t (Some [vr]) 1 l n) s =
      Done (Error, ONone, mkSys (set_ctl (set_mode Terminated (ctl (sinst s))) (sinst s)) (heap s), tr').
  Proof.
    intros E. cbn [exec3]. rewrite outI_eq. unfold fmi3Set.
    destruct (N.eqb_spec (N.land (bit3 (mode (ctl (sinst s)))) (MASK_Set t)) 0) as [Hm|Hm].
    - rewrite BEGIN_refused by exact Hm. eauto.
    - rewrite BEGIN_pass by exact Hm. change (1 =? 0) with false. cbv iota. cbn [ASSERT_NOT_NULL].
      assert (L : exists tr', set_loop m env t [vr] 1 l n 0 OK (sinst s) =
        Done ((Error, k), set_ctl (set_mode Terminated (ctl (sinst s))) (sinst s), tr')).
      { cbn [set_loop]. unfold bind at 1. unfold call. rewrite E, CALL_err. destruct (sinst s). cbn. eauto. }
      destruct L as (tr' & L). unfold bind at 1. rewrite L. cbn. eauto.
  Qed.

  (** The variables that can be assigned. *)
  Definition accepted (f : FMU) (t : VType) (vr : N) (l : list (val F t)) (c : Ctl F) : Prop :=
    N.land (bit3 (mode c)) (MASK_Set t) <> 0%N /\
    forall env (u : Mut F (md (model_of (F := F) FMI3 f))), vl_wf (vars_all FMI3 f) (data u) ->
      vl_size (vars_all FMI3 f) t vr (data u) = Some (length l) ->
      exists u' tr, m_set (model_of FMI3 f) t vr (Some l) (length l) 0 env c u = Done ((OK, length l), u', tr).
  Lemma length1 T (l : list T) k : k = Some (length l) -> k = Some 1 -> exists x, l = [x].
  Proof. intros -> E. destruct l as [|x [|]]; try discriminate. eauto. Qed.
  Lemma accepts_mats (rows cols : nat) (l : list F) (get : SSData F -> list (list F)) (set : list (list F) -> SSData F -> SSData F) env c u :
    mat (get (data u)) -> rows <= SS_MAX -> cols <= SS_MAX -> length l = rows * cols ->
    exists u' tr, thenDirty (takearr (Some l) (length l) 0 (rows * cols) (fun l d => option_map (fun a => set a d) (paste2 rows cols l (get d)))) env c u =
      Done ((OK, length l), u', tr).
  Proof.
    intros [M1 M2] Hr Hc Hl. rewrite <- Hl. destruct (@paste2_some F rows cols l (get (data u)) ltac:(unfold row in *; lia) M2 Hc) as (b & Eb).
    pose proof (takel_eq env c u [] l []) as T. cbn [app length] in T. rewrite app_nil_r in T.
    unfold thenDirty, takearr, nvalues_ok. rewrite Nat.add_0_l, Nat.leb_refl. unfold mbind, bind. rewrite T. unfold mdata. cbv beta iota. rewrite Eb. do 2 eexists. reflexivity.
  Qed.
  Lemma accepts_vecs (n : nat) (l : list F) (get : SSData F -> list F) (set : list F -> SSData F -> SSData F) env c u :
    row (get (data u)) -> n <= SS_MAX -> length l = n ->
    exists u' tr, thenDirty (takearr (Some l) (length l) 0 n (fun l d => option_map (fun a => set a d) (paste1 l (get d)))) env c u =
      Done ((OK, length l), u', tr).
  Proof.
    intros M Hn Hl. rewrite <- Hl. destruct (@paste1_some F l (get (data u)) ltac:(unfold row in *; lia)) as (Eb & _).
    pose proof (takel_eq env c u [] l []) as T. cbn [app length] in T. rewrite app_nil_r in T.
    unfold thenDirty, takearr, nvalues_ok. rewrite Nat.add_0_l, Nat.leb_refl. unfold mbind, bind. rewrite T. unfold mdata. cbv beta iota. rewrite Eb. do 2 eexists. reflexivity.
  Qed.
  Lemma ss_pre X (r : SetRes) env c (u : Mut F (SSData F)) : (exists u' tr, X c (data u) env c u = Done (r, u', tr)) ->
    exists u' tr, mbind mctl (fun c => mbind mdata (fun d => X c d)) env c u = Done (r, u', tr).
  Proof. intros (u' & tr & E). unfold mbind, bind, mctl, mdata, ret. rewrite E. do 2 eexists. reflexivity. Qed.
  Ltac modes md ty ev Hm := destruct md; try discriminate Hm; destruct ty; try discriminate Hm; destruct ev; try discriminate Hm.
  Ltac one Hs := let x := fresh "x" in destruct (length1 _ (eq_sym (eq_sym Hs)) eq_refl) as (x & ->).
  Lemma accepts_string (x : option bytes) env c (u : Mut F (FTData F)) : (exists b, x = Some b /\ length (cstr b) < 128) ->
    exists u' tr, m_set (model_of (F := F) FMI3 Feedthrough) TString 29 (Some [x]) 1 0 env c u = Done ((OK, 1), u', tr).
  Proof.
    intros (b & -> & Hb). apply Nat.leb_gt in Hb. cbn [model_of m_set Feedthrough_model]. unfold ft_setString, thenDirty, nnSet.
    change (ft_var 29) with (Some FTstr_in). unfold mbind, bind. change (mrd (Some [Some b]) 0 env c u) with (Done (Some b, u, @nil (Event F))). cbv iota.
 change (128 <=? length (cstr b)) with (STRING_MAX_LEN <=? strlen b) in Hb. rewrite Hb.
    destruct u. do 2 eexists. reflexivity.
  Qed.
  Lemma accepts_stair (x : Z) env c (u : Mut F STData) : (x < 10)%Z -> inModes [Instantiated; InitializationMode] (mode c) = true ->
    exists u' tr, m_set (model_of (F := F) FMI3 Stair) TInt32 1 (Some [x]) 1 0 env c u = Done ((OK, 1), u', tr).
  Proof.
    intros X M. apply Z.leb_gt in X. cbn [model_of m_set Stair_model]. unfold st_setInt32, thenDirty, nnSet. change (st_var 1) with (Some STcounter).
    unfold mbind, bind, mctl, ret. cbv beta iota.
 rewrite M. cbn [negb]. change (mrd (Some [x]) 0 env c u) with (Done (x, u, @nil (Event F))).
    cbv iota. rewrite X. do 2 eexists. reflexivity.
  Qed.
  Lemma accepts f t vr a (l : list (val F t)) c : In (vr, t, a) (attributes FMI3 f) ->
    may_set3 (itype c) (eventModeUsed c) (mode c) a = true -> in_range f t vr l -> works f t l -> accepted f t vr l c.
  Proof.
    intros Hi Hm Hr Hw. destruct c as [c1 c2 c3 c4 ty c6 c7 c8 c9 c10 c11 c12 c13 c14 c15 md c17 c18 ev c20]. cbn [itype eventModeUsed mode] in Hm.
    destruct f; cbn [attributes] in Hi.
    all: cbn [timeA each map app In] in Hi.
    1, 2, 3, 5, 6, 9: repeat (destruct Hi as [Hi|Hi]; [injection Hi as <- <- <-; modes md ty ev Hm;
       (split; [discriminate|]; intros env u W Hs; one Hs; destruct u; do 2 eexists; reflexivity)|]); destruct Hi.
    - (* Feedthrough *)
      repeat (destruct Hi as [Hi|Hi]; [injection Hi as <- <- <-;
        lazymatch goal with
        | |- accepted _ TString _ _ _ => modes md ty ev Hm;
            (split; [discriminate|]; intros env u W Hs; one Hs; apply accepts_string; exact (Forall_inv Hr))
        | |- accepted _ TInt64 33%N _ _ => modes md ty ev Hm;
            (split; [discriminate|]; intros env u W Hs; destruct (Hr eq_refl eq_refl) as [-> | ->]; destruct u; do 2 eexists; reflexivity)
        | _ => modes md ty ev Hm; (split; [discriminate|]; intros env u W Hs; one Hs; destruct u; do 2 eexists; reflexivity)
        end|]); destruct Hi.
    - (* Stair *)
      repeat (destruct Hi as [Hi|Hi]; [injection Hi as <- <- <-; modes md ty ev Hm;
       (split; [discriminate|]; intros env u W Hs; one Hs; destruct Hr as [_ Hr]; specialize (Hr eq_refl); apply Forall_inv in Hr; specialize (Hw eq_refl);
        apply Forall_inv in Hw; apply accepts_stair; [cbn [val] in x; lia|reflexivity])|]); destruct Hi.
    - (* StateSpace *)
      repeat (destruct Hi as [Hi|Hi]; [injection Hi as <- <- <-;
        lazymatch goal with
        | |- accepted _ TUInt64 _ _ _ => contradiction (Hw eq_refl)
        | _ => modes md ty ev Hm;
          (split; [discriminate|]; intros env u W Hs;
            change (SimSS.shape (data u)) in W; destruct W; cbn in Hs; injection Hs as Hs;
            cbn [model_of m_set StateSpace_model]; unfold ss_setFloat64, nnSet; apply ss_pre;
            match goal with |- context [ss_var ?n] => let v := eval cbv in (ss_var n) in change (ss_var n) with v end; cbv beta iota zeta;
            first [eapply accepts_mats|eapply accepts_vecs]; eauto)
        end|]); destruct Hi.
  Qed.

  (** The number of values of a variable. *)
  Lemma scalar_dims v f vr t dims : f <> StateSpace -> In (vr, t, dims) (variables v f) -> dims = [].
  Proof.
    intros Hf H. destruct f; try contradiction (Hf eq_refl).
    4: destruct v.
    all: cbn in H; repeat (destruct H as [H|H]; [injection H as <- <- <-; reflexivity|]); destruct H.
  Qed.
  Lemma dims_unique vr t d1 d2 : In (vr, t, d1) (variables FMI3 StateSpace) -> In (vr, t, d2) (variables FMI3 StateSpace) -> d1 = d2.
  Proof.
    intros H1 H2. cbn in H1, H2.
    repeat (destruct H1 as [H1|H1]; [injection H1 as <- <- <-; repeat (destruct H2 as [H2|H2]; [first [discriminate H2|injection H2 as <-; reflexivity]|]); destruct H2|]); destruct H1.
  Qed.
  Lemma sized_size f szof env s t vr k : reach3 (model_of (F := F) FMI3 f) szof s -> N.land (bit3 (mode_of s)) (MASK_Get t) <> 0%N ->
    sized (model_of FMI3 f) szof env FMI3 f s t vr k -> vl_size (vars_all FMI3 f) t vr (data (mut (sinst s))) = Some k.
  Proof.
    intros R Hm (dims & ns & Hi & Hn & Hk). pose proof (@wf_reach _ _ _ _ _ _ R) as W.
    destruct (vl_size (vars_all FMI3 f) t vr (data (mut (sinst s)))) as [k'|] eqn:E.
    2: { apply size_declared in E. contradiction E. exists dims. exact Hi. }
    f_equal. destruct (@size_sized _ _ _ _ env s t vr k' R Hm E) as (dims' & ns' & Hi' & Hn' & Hk').
    assert (D : dims = dims').
    { assert (Q : f = StateSpace \/ f <> StateSpace) by (clear; destruct f; auto; right; discriminate). destruct Q as [->|Hf]; [exact (@dims_unique _ _ _ _ Hi Hi')|]. now rewrite (@scalar_dims _ _ _ _ _ Hf Hi), (@scalar_dims _ _ _ _ _ Hf Hi'). }
    subst. f_equal. clear -Hn Hn' W. revert ns Hn. induction Hn' as [|d n dims ns' G' G IH]; intros ns0 Hn; inversion Hn; subst; [reflexivity|].
    f_equal; [|now apply IH]. apply (get1_iff (vars_all FMI3 f) szof env s _ _ _ W) in G', H1. destruct G' as [_ G'], H1 as [_ H1]. congruence.
  Qed.
  Theorem settable f szof fuel env s t vr a l : reach3 (model_of (F := F) FMI3 f) szof s -> In (vr, t, a) (attributes FMI3 f) ->
    may_set3 (itype (ctl (sinst s))) (eventModeUsed (ctl (sinst s))) (mode_of s) a = true ->
    in_range f t vr l -> works f t l -> sized (model_of FMI3 f) szof env FMI3 f s t vr (length l) ->
    exists s' tr, exec3 (model_of FMI3 f) szof fuel env (O3Set t (Some [vr]) 1 (Some l) (length l)) s = Done (OK, ONone, s', tr).
  Proof.
    intros R Hi Hm Hr Hw Hs. destruct (@accepts f t vr a l (ctl (sinst s)) Hi Hm Hr Hw) as (Hk & K).
    apply sized_size in Hs; [|exact R|exact (@mask_set_get _ t Hk)]. destruct (K env _ (@wf_reach _ _ _ _ _ _ R) Hs) as (u' & tr & E).
    exact (@set_ok _ szof fuel env s t vr l u' tr Hk E).
  Qed.

  (** Parameters and inputs of model exchange when they must not be assigned. *)
  Lemma set_masked (m : Model F) szof fuel env s t vr l n : N.land (bit3 (mode_of s)) (MASK_Set t) = 0%N ->
    exists tr', exec3 m szof fuel env (O3Set t (Some [vr]) 1 l n) s =
      Done (Error, ONone, mkSys (set_ctl (set_mode Terminated (ctl (sinst s))) (sinst s)) (heap s), tr').
  Proof. intros Hm. cbn [exec3]. rewrite outI_eq. unfold fmi3Set. rewrite BEGIN_refused by exact Hm. eauto. Qed.
  Lemma rejects_me f szof fuel env s t vr a l n : reach3 (model_of (F := F) FMI3 f) szof s -> f <> VanDerPol -> f <> StateSpace ->
    In (vr, t, a) (attributes FMI3 f) -> fst (fst a) = Param \/ fst (fst a) = Input -> itype (ctl (sinst s)) = ModelExchange ->
    In (mode_of s) [Instantiated; InitializationMode; EventMode; ContinuousTimeMode] ->
    may_set3 (itype (ctl (sinst s))) (eventModeUsed (ctl (sinst s))) (mode_of s) a = false ->
    exists s' tr, exec3 (model_of FMI3 f) szof fuel env (O3Set t (Some [vr]) 1 (Some l) n) s = Done (Error, ONone, s', tr) /\
      forall env', reads_same (model_of FMI3 f) szof env' s s'.
  Proof.
    intros R N1 N2 Hi Ha Ht Hd Hm.
    assert (E : exists tr', exec3 (model_of FMI3 f) szof fuel env (O3Set t (Some [vr]) 1 (Some l) n) s =
      Done (Error, ONone, mkSys (set_ctl (set_mode Terminated (ctl (sinst s))) (sinst s)) (heap s), tr')).
    { assert (Q : N.land (bit3 (mode_of s)) (MASK_Set t) = 0%N \/
        exists k tr, m_set (model_of FMI3 f) t vr (Some l) n 0 env (ctl (sinst s)) (mut (sinst s)) = Done ((Error, k), mut (sinst s), tr)).
      2: { destruct Q as [Q|(k & tr & Q)]; [now apply set_masked|exact (@set_no _ szof fuel env s t vr _ n k tr Q)]. }
      unfold mode_of in *. revert Ht Hd Hm. generalize (ctl (sinst s)) (mut (sinst s)). clear R. intros c u Ht Hd Hm.
      destruct c as [c1 c2 c3 c4 ty c6 c7 c8 c9 c10 c11 c12 c13 c14 c15 md c17 c18 ev c20]. cbn [itype eventModeUsed mode] in *. subst ty.
      destruct c8, c14, u, ev; destruct f; cbn [attributes timeA each map app In] in Hi; try contradiction (N1 eq_refl); try contradiction (N2 eq_refl).
      all: repeat (destruct Hi as [Hi|Hi]; [injection Hi as <- <- <-; try (destruct Ha; discriminate);
        (repeat (destruct Hd as [<-|Hd]; [first [discriminate Hm|left; reflexivity|right; do 2 eexists; reflexivity]|]); destruct Hd)|]); destruct Hi. }
    destruct E as (tr' & X). do 2 eexists. split; [exact X|].
    intro env'. pose proof (@wf_reach _ _ _ _ _ _ R) as W. eapply alike_reads; [exact W|apply (alike_mode (vars_all FMI3 f)); exact W|right; reflexivity].
  Qed.

  (** The variables that are never assigned. *)
  Lemma rejects f szof fuel env s t vr a l n : reach3 (model_of (F := F) FMI3 f) szof s -> In (vr, t, a) (attributes FMI3 f) -> never_set a = true ->
    ~ (f = Feedthrough /\ vr = 28%N) -> ~ (f = StateSpace /\ vr = 11%N) ->
    exists s' tr, exec3 (model_of FMI3 f) szof fuel env (O3Set t (Some [vr]) 1 (Some l) n) s = Done (Error, ONone, s', tr) /\
      forall env', reads_same (model_of FMI3 f) szof env' s s'.
  Proof.
    intros R Hi Ha N1 N2.
    assert (E : exists k tr, m_set (model_of FMI3 f) t vr (Some l) n 0 env (ctl (sinst s)) (mut (sinst s)) = Done ((Error, k), mut (sinst s), tr)).
    { generalize (ctl (sinst s)) (mut (sinst s)). clear R. intros c u. destruct c as [c1 c2 c3 c4 ty c6 c7 c8 c9 c10 c11 c12 c13 c14 c15 md c17 c18 ev c20]. destruct c8, c14, u; destruct f; cbn [attributes timeA each map app In] in Hi.
      all: repeat (destruct Hi as [Hi|Hi]; [injection Hi as <- <- <-; try discriminate Ha; try (contradiction N1; split; reflexivity); try (contradiction N2; split; reflexivity);
        first [do 2 eexists; reflexivity
              |cbn [model_of m_set Clocks_model]; unfold cl_setInt32; destruct (nvalues_ok _ _ _); do 2 eexists; reflexivity]|]); destruct Hi.
 }
    destruct E as (k & tr & E). destruct (@set_no _ szof fuel env s t vr _ n k tr E) as (tr' & X). do 2 eexists. split; [exact X|].
    intro env'. pose proof (@wf_reach _ _ _ _ _ _ R) as W. eapply alike_reads; [exact W|apply (alike_mode (vars_all FMI3 f)); exact W|right; reflexivity].
  Qed.
End Readable.
