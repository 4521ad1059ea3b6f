(** Data2.v -- lemmas on reading and assigning variables in FMI 2.0 (proofs of C08, C09, C10, C11, C29). *)
From Coq Require Import List NArith ZArith Bool Arith Lia.
From Verif Require Import Base Instance ModelIface Core Fmi3 Fmi2 Api Logic Calls Fmus SpecModes Gate
  SpecVars SpecEqs SpecCreate Vars VarsFmus DataFmus Vars2 Data Multi.
From Verif Require Import FmuBouncingBall FmuDahlquist FmuStair FmuVanDerPol FmuRoberts
  FmuClocks FmuResource FmuStateSpace FmuFeedthrough.
Import ListNotations.
Set Implicit Arguments.

Section Data2.
  Context {F : Type} {NF : Num F} (szof : N) (f : FMU) (Hb : built2 f = true).
  Notation m := (model_of (F := F) FMI2 f).
  Notation V := (vars_all FMI2 f).
  Notation reach s := (reach2 m szof s).

  Lemma built_scalar : f <> StateSpace.
  Proof. intros ->. discriminate. Qed.
  Lemma size1 t vr d k : vl_size V t vr d = Some k -> k = 1.
  Proof. apply scalar_size. exact built_scalar. Qed.
  Lemma mask2_terminated : N.land (bit2 Terminated) MASK2_GetReal <> 0%N.
  Proof. cbv. discriminate. Qed.
  Lemma get_iff env s t vr x : reach s ->
    get2 m szof env s t vr x <-> canread2 V env t (sinst s) /\ peek V env (sinst s) t vr = Some [x].
  Proof. intro R. apply get2_iff; [now apply (wf_reach2 _ _ R)|]. intro k. apply size1. Qed.

  Lemma alike_canread2 env t i i' : alike V env i i' -> mode (ctl i') = mode (ctl i) \/ mode (ctl i') = Terminated ->
    canread2 V env t i -> canread2 V env t i'.
  Proof.
    intros ((md & C) & W & P & Dt) M (Hm & R). split.
    - destruct M as [->| ->]; [exact Hm|exact mask2_terminated].
    - assert (O : vl_out V env (ctl i') = vl_out V env (ctl i)) by (rewrite C; apply vl_mode).
      destruct (dirty (mut i')) eqn:E.
      + rewrite (Dt eq_refl) in R. now rewrite O.
      + unfold calculable in *. rewrite O. destruct (dirty (mut i)); [|exact R]. destruct R as (tr & ->). discriminate.
  Qed.
  Lemma getB_iff env s vr b : reach s ->
    getB2 m szof env s vr b <-> (N.land (bit2 (mode_of s)) MASK2_GetReal <> 0%N /\ calculable V env TBoolean (ctl (sinst s))) /\
      peek V env (sinst s) TBoolean vr = Some [b].
  Proof.
    intro R. pose proof (wf_reach2 _ _ R) as W. split.
    - intros (z & s' & tr & E). pose proof E as E0. apply (getB_spec V) in E; [|exact W|intro k; apply size1].
      destruct E as (_ & _ & [(_ & Hm & b' & P & Ob & _)|(X & _)]); [|discriminate]. split.
      + split; [exact Hm|]. cbn [exec2] in E0. rewrite outI_eq in E0. unfold fmi2GetBoolean in E0. rewrite BEGIN2_pass in E0 by exact Hm.
        cbn [getBoolean_loop] in E0. intros Ec Hx. unfold bind at 1, rd at 1 in E0. cbn [nth_error] in E0. unfold ret at 1 in E0. cbv beta iota in E0.
        unfold bind at 1 in E0. rewrite call_eq, (vl_get V) in E0 by (auto; cbn; lia). rewrite Ec in E0.
        pose proof (vl_calc V env (ctl (sinst s)) (mut (sinst s)) W) as K. rewrite Hx in K. unfold bind at 1 in E0. rewrite K in E0. discriminate.
      + rewrite P. destruct b, b'; try discriminate; reflexivity.
    - intros ((Hm & C) & P). destruct (@getB_do _ _ _ V szof env vr b 0%Z 0 s W Hm C P) as (s' & tr & E). exists 0%Z, s', tr. exact E.
  Qed.
  Lemma alike_reads2 env s s' : reach s -> reach s' -> alike V env (sinst s) (sinst s') ->
    mode_of s' = mode_of s \/ mode_of s' = Terminated -> reads_same2 m szof env s s'.
  Proof.
    intros R R' A M. pose proof (wf_reach2 _ _ R) as W. split.
    - intros t vr x G. apply get_iff in G as (C & P); [|exact R]. apply get_iff; [exact R'|]. split.
      + eapply alike_canread2; eauto.
      + rewrite <- P. now apply alike_peek.
    - intros vr b G. apply getB_iff in G as ((Hm & C) & P); [|exact R]. apply getB_iff; [exact R'|]. split; [split|].
      + destruct M as [->| ->]; [exact Hm|exact mask2_terminated].
      + destruct A as ((md & A) & _). unfold calculable in *. now rewrite A, vl_mode.
      + rewrite <- P. now apply alike_peek.
  Qed.
  Lemma type2_typed t : type2 t = true -> typed FMI2 t.
  Proof. destruct t; intros H _; try discriminate; cbn; tauto. Qed.
  Lemma reach_step fuel env o s st out s' tr : reach s -> exec2 m szof fuel env o s = Done (st, out, s', tr) -> image2 o = None -> reach s'.
  Proof. intros R E I. eapply reach2_call; [exact R| |exact E]. rewrite I. discriminate. Qed.

  Lemma get_unknown2 env fuel s t vrs nvr buf st out s' tr : reach s -> type2 t = true -> nvr <= length buf -> nvr <> 0 ->
    Exists (fun vr => ~ declared FMI2 f t vr) (firstn nvr vrs) ->
    exec2 m szof fuel env (O2Get t (Some vrs) nvr (Some buf)) s = Done (st, out, s', tr) ->
    st = Error /\ reads_same2 m szof env s s'.
  Proof.
    intros R T L Hn X E. pose proof (wf_reach2 _ _ R) as W. pose proof (reach_step _ _ _ R E eq_refl) as R'. apply (get2_spec V) in E; [|exact W|exact L|exact Hn].
    destruct E as (A & _ & l' & _ & _ & _ & [(-> & _ & _ & _ & vss & Fq & _)|(-> & Mt)]).
    - exfalso. clear -Fq X T. revert vss Fq. induction X as [vr l U|vr l X IH]; intros vss Fq; inversion Fq; subst; [|eauto].
      apply U. apply (vl_vsize V) in H1. destruct (@size_some _ _ FMI2 f _ _ _ _ (type2_typed _ T) H1) as (dims & K & _). exists dims. exact K.
    - split; [reflexivity|]. apply alike_reads2; auto.
  Qed.
  Lemma assigns_known t vrs vs d d' : assigns V t vrs vs d d' -> Forall (fun vr => exists k, vl_size V t vr d = Some k) vrs.
  Proof.
    induction 1 as [d|vr vs vrs ws d d1 d2 Hs Ha A IH]; constructor; eauto.
    eapply Forall_impl; [|exact IH]. intros x (k & H). exists k. now rewrite (vl_asize V _ _ _ _ x Ha) in H.
  Qed.
  Lemma set_unknown2 env fuel s t vrs nvr l st out s' tr : reach s -> type2 t = true -> nvr <> 0 ->
    Exists (fun vr => ~ declared FMI2 f t vr) (firstn nvr vrs) ->
    exec2 m szof fuel env (O2Set t (Some vrs) nvr (Some l)) s = Done (st, out, s', tr) -> st = Error.
  Proof.
    intros R T Hn X E. pose proof (wf_reach2 _ _ R) as W. apply (set2_spec V) in E; [|exact W|exact Hn].
    destruct E as (_ & _ & _ & n' & vs & d & b & A & _ & _ & _ & _ & _ & _ & [(_ & _ & Hm & _ & _ & ->)|(-> & _)]); [|reflexivity].
    exfalso. apply assigns_known in A. rewrite Forall_forall in A. apply Exists_exists in X as (vr & I & U). apply U.
    destruct (A _ I) as (k & Hk). destruct (@size_some _ _ FMI2 f _ _ _ _ (type2_typed _ T) Hk) as (dims & K & _). exists dims. exact K.
  Qed.
  Lemma set_unknown1_2 env fuel s t vr l st out s' tr : reach s -> type2 t = true -> ~ declared FMI2 f t vr ->
    exec2 m szof fuel env (O2Set t (Some [vr]) 1 (Some l)) s = Done (st, out, s', tr) ->
    st = Error /\ reads_same2 m szof env s s'.
  Proof.
    intros R T U E. split.
    { apply set_unknown2 in E; auto. constructor. exact U. }
    pose proof (wf_reach2 _ _ R) as W. pose proof (reach_step _ _ _ R E eq_refl) as R'. apply (set2_spec V) in E; [|exact W|auto].
    destruct E as (_ & _ & Hc & n' & vs & d & b & A & Um & Wd & _ & _ & _ & Bz & Q).
    assert (Hn : n' = 0).
    { destruct n' as [|n']; [reflexivity|]. exfalso. apply assigns_known in A. destruct n'; cbn [firstn] in A; inversion A as [|? ? (k & Hk) _]; subst;
        apply U; destruct (@size_some _ _ FMI2 f _ _ _ _ (type2_typed _ T) Hk) as (dims & K & _); exists dims; exact K. }
    subst n'. cbn [firstn] in A. inversion A; subst. rewrite (Bz eq_refl) in Um. rewrite mut_same in Um.
    apply alike_reads2; [exact R|exact R'| |].
    - split; [exact Hc|]. rewrite Um. auto.
    - destruct Q as [(_ & _ & _ & _ & _ & X)|(_ & M & _)]; [discriminate|auto].
  Qed.
  Lemma bool_unknown2 env fuel s vr z out s' tr : reach s -> ~ declared FMI2 f TBoolean vr ->
    (exec2 m szof fuel env (O2GetBoolean (Some [vr]) 1 (Some [z])) s = Done out ->
     fst (fst (fst out)) = Error /\ reads_same2 m szof env s (snd (fst out))) /\
    (exec2 m szof fuel env (O2SetBoolean (Some [vr]) 1 (Some [z])) s = Done (s', tr) -> 
     fst (fst s') = Error /\ reads_same2 m szof env s (snd s')).
  Proof.
    intros R U. pose proof (wf_reach2 _ _ R) as W. split; intro E.
    - destruct out as [[[st out] s1] t1]. cbn. pose proof (reach_step _ _ _ R E eq_refl) as R'.
      apply (getB_spec V) in E; [|exact W|intro k; apply size1].
      destruct E as (A & _ & [(-> & _ & b & P & _)|(-> & M & _)]).
      + exfalso. apply U. apply (vl_vsize V) in P. destruct (@size_some _ _ FMI2 f TBoolean _ _ _ ltac:(intros _; cbn; tauto) P) as (dims & K & _). exists dims. exact K.
      + split; [reflexivity|]. apply alike_reads2; auto.
    - destruct s' as [[st o1] s1]. cbn. pose proof (reach_step _ _ _ R E eq_refl) as R'.
      apply (setB_spec V) in E; [|exact W].
      destruct E as [(-> & _ & _ & vs & d & b & _ & P & _)|(-> & ->)].
      + exfalso. apply U. destruct (@size_some _ _ FMI2 f TBoolean _ _ _ ltac:(intros _; cbn; tauto) P) as (dims & K & _). exists dims. exact K.
      + split; [reflexivity|]. apply alike_reads2; auto. now apply alike_mode.
  Qed.

  (** A successful Set of one variable. *)
  Lemma set_one2 env fuel s t vr l out s' tr : reach s ->
    exec2 m szof fuel env (O2Set t (Some [vr]) 1 (Some l)) s = Done (OK, out, s', tr) ->
    exists x d, nth_error l 0 = Some x /\ vl_size V t vr (data (mut (sinst s))) = Some 1 /\ vl_assign V t vr [x] (data (mut (sinst s))) = Some d /\
      mut (sinst s') = set_dirty true (set_data d (mut (sinst s))) /\ vl_wf V d /\ ctl (sinst s') = ctl (sinst s) /\
      (exists tr, vl_out V env (ctl (sinst s)) = Some (OK, tr)).
  Proof.
    intros R E. pose proof (wf_reach2 _ _ R) as W. apply (set2_spec V) in E; [|exact W|auto].
    destruct E as (_ & _ & _ & n' & vs & d & b & A & Um & Wd & Hf & _ & Ho & _ & [(_ & Hc & Hm & _ & -> & ->)|(X & _)]); [|discriminate].
    cbn [firstn] in A. inversion A as [|? vs0 ? ? ? d1 ? Hs Ha A' ]; subst. inversion A'; subst. rewrite app_nil_r in *.
    pose proof (@size1 _ _ _ _ Hs) as L1. destruct vs0 as [|x [|]]; try discriminate. specialize (Hf ltac:(discriminate)).
    destruct l as [|y l]; [discriminate|]. cbn in Hf. injection Hf as <-.
    exists x, d. repeat split; auto.
  Qed.
  Lemma readable2 w : In w (when2 (O2Get (F := F) (D := md m) TFloat64 None 0 None)) -> N.land (bit2 w) MASK2_GetReal <> 0%N.
  Proof. cbn. intro H. repeat (destruct H as [<-|H]; [cbv; discriminate|]). destruct H. Qed.
  Lemma stored2 env s t vr x d s' : reach s' ->
    data (mut (sinst s')) = d -> (forall e c, vl_value V t vr c (vl_recalc V e c d) = Some [x]) ->
    (exists tr, vl_out V env (ctl (sinst s')) = Some (OK, tr)) ->
    (In (mode_of s') (when2 (O2Get (F := F) (D := md m) t None 0 None)) -> get2 m szof env s' t vr x) /\
    (forall fuel out s1 tr, exec2 m szof fuel s O2EnterInitializationMode s' = Done (OK, out, s1, tr) -> get2 m szof env s1 t vr x).
  Proof.
    intros R <- Hv (tr0 & Ho). split.
    - intro Hm. apply get_iff; [exact R|]. split; [|apply Hv]. split; [now apply readable2|].
      destruct (dirty _); [eauto|]. unfold calculable. rewrite Ho. discriminate.
    - intros fuel out s1 tr E. pose proof (reach_step _ _ _ R E eq_refl) as R1.
      cbn [exec2] in E. rewrite outI_eq in E. destruct (fmi2EnterInitializationMode _ _ _) as [[[[st u] i'] t0]| |] eqn:G; try discriminate.
      injection E; intros; subst. unfold fmi2EnterInitializationMode in G. apply BEGIN2_any in G as [[Hm G]|(X & _)]; [|discriminate].
      cbn in G. injection G as _ <- _. apply get_iff; [exact R1|]. cbn. split; [|apply Hv]. split; [cbv; discriminate|]. cbn.
      unfold calculable. rewrite !vl_mode, Ho. destruct (dirty _); [eauto|discriminate].
  Qed.
  Lemma set_get2 env fuel s t vr x l out s' tr e : reach s -> (f = Feedthrough -> vr <> 28%N) ->
    exec2 m szof fuel env (O2Set t (Some [vr]) 1 (Some (x :: l))) s = Done (OK, out, s', tr) ->
    (In (mode_of s') (when2 (O2Get (F := F) (D := md m) t None 0 None)) -> get2 m szof env s' t vr (as_read t x)) /\
    (forall fuel out s1 tr, exec2 m szof fuel e O2EnterInitializationMode s' = Done (OK, out, s1, tr) -> get2 m szof env s1 t vr (as_read t x)).
  Proof.
    intros R X E. pose proof (wf_reach2 _ _ R) as W. pose proof (reach_step _ _ _ R E eq_refl) as R'.
    destruct (set_one2 _ _ _ _ _ R E) as (y & d & Hy & Hs & Ha & Um & Wd & Hc & Ho). cbn in Hy. injection Hy as <-.
    eapply stored2; [exact R'| | |rewrite Hc; exact Ho].
    - rewrite Um. reflexivity.
    - intros e0 c. change [as_read t x] with (map (as_read (F := F) t) [x]). eapply assign_read; [exact W|exact Hs|exact Ha|].
      clear -X Hb. destruct f; try discriminate; cbn; auto.
  Qed.
  Lemma set_other2 env fuel s t vr l out s' tr : reach s ->
    exec2 m szof fuel env (O2Set t (Some [vr]) 1 (Some l)) s = Done (OK, out, s', tr) ->
    (forall t2 vr2 x, vr2 <> vr -> ~ In vr (depends f vr2) -> get2 m szof env s t2 vr2 x -> get2 m szof env s' t2 vr2 x) /\
    (forall vr2 b, vr2 <> vr -> ~ In vr (depends f vr2) -> getB2 m szof env s vr2 b -> getB2 m szof env s' vr2 b).
  Proof.
    intros R E. pose proof (wf_reach2 _ _ R) as W. pose proof (reach_step _ _ _ R E eq_refl) as R'.
    destruct (set_one2 _ _ _ _ _ R E) as (y & d & Hy & Hs & Ha & Um & Wd & Hc & (tr0 & Ho)).
    assert (K : forall t2 vr2, vr2 <> vr -> ~ In vr (depends f vr2) -> peek V env (sinst s') t2 vr2 = peek V env (sinst s) t2 vr2).
    { intros t2 vr2 H1 H2. unfold peek. rewrite Um, Hc. cbn [data set_dirty set_data]. eapply assign_other; eauto. right. exact built_scalar. }
    split.
    - intros t2 vr2 x H1 H2 G. apply get_iff in G as ((Hm & _) & P); [|exact R]. apply get_iff; [exact R'|]. rewrite K by assumption. split; [|exact P].
      split; [now rewrite Hc|]. rewrite Um, Hc. cbn. eauto.
    - intros vr2 b H1 H2 G. apply getB_iff in G as ((Hm & C) & P); [|exact R]. apply getB_iff; [exact R'|]. rewrite K by assumption. 
      unfold mode_of. rewrite Hc. auto.
  Qed.
  Lemma bool_set2 env fuel s vr z out s' tr e : reach s ->
    exec2 m szof fuel env (O2SetBoolean (Some [vr]) 1 (Some [z])) s = Done (OK, out, s', tr) ->
    ((f = Feedthrough -> vr <> 28%N) ->
     (In (mode_of s') (when2 (O2Get (F := F) (D := md m) TBoolean None 0 None)) -> getB2 m szof env s' vr (negb (Z.eqb z 0))) /\
     (forall fuel out s1 tr, exec2 m szof fuel e O2EnterInitializationMode s' = Done (OK, out, s1, tr) -> getB2 m szof env s1 vr (negb (Z.eqb z 0)))) /\
    (forall t2 vr2 x, vr2 <> vr -> ~ In vr (depends f vr2) -> get2 m szof env s t2 vr2 x -> get2 m szof env s' t2 vr2 x) /\
    (forall vr2 b, vr2 <> vr -> ~ In vr (depends f vr2) -> getB2 m szof env s vr2 b -> getB2 m szof env s' vr2 b).
  Proof.
    intros R E. pose proof (wf_reach2 _ _ R) as W. pose proof (reach_step _ _ _ R E eq_refl) as R'.
    apply (setB_spec V) in E; [|exact W]. destruct E as [(_ & Hc & _ & vs & d & b & Hv & Hs & Ha & Um & Wd & (tr0 & Ho))|(X & _)]; [|discriminate].
    pose proof (@size1 _ _ _ _ Hs) as L1. destruct vs as [|x [|]]; try discriminate. cbn in Hv. injection Hv as ->.
    assert (K : forall t2 vr2, vr2 <> vr -> ~ In vr (depends f vr2) -> peek V env (sinst s') t2 vr2 = peek V env (sinst s) t2 vr2).
    { intros t2 vr2 H1 H2. unfold peek. rewrite Um, Hc. cbn [data set_dirty set_data]. eapply assign_other; eauto. right. exact built_scalar. }
    split; [|split].
    - intro X. assert (A : forall e0 c, vl_value V TBoolean vr c (vl_recalc V e0 c d) = Some [negb (Z.eqb z 0)]).
      { intros e0 c. change [negb (Z.eqb z 0)] with (map (as_read (F := F) TBoolean) [negb (Z.eqb z 0)]). eapply assign_read; [exact W|exact Hs|exact Ha|].
        clear -X Hb. destruct f; try discriminate; cbn; auto. }
      split.
      + intro Hm. apply getB_iff; [exact R'|]. split; [split; [now apply readable2|]|].
        * unfold calculable. rewrite Hc, Ho. discriminate.
        * unfold peek. rewrite Um. apply A.
      + intros fuel0 out0 s1 tr1 E. pose proof (reach_step _ _ _ R' E eq_refl) as R1.
        cbn [exec2] in E. rewrite outI_eq in E. destruct (fmi2EnterInitializationMode _ _ _) as [[[[st u] i'] t0]| |] eqn:G; try discriminate.
        injection E; intros; subst. unfold fmi2EnterInitializationMode in G. apply BEGIN2_any in G as [[Hm G]|(Y & _)]; [|discriminate].
        cbn in G. injection G as _ <- _. apply getB_iff; [exact R1|]. split; [split; [cbv; discriminate|]|].
        * cbn. unfold calculable. rewrite vl_mode, Hc, Ho. discriminate.
        * unfold peek. cbn. rewrite Um. apply A.
    - intros t2 vr2 x H1 H2 G. apply get_iff in G as ((Hm & C) & P); [|exact R]. apply get_iff; [exact R'|]. rewrite K by assumption. split; [|exact P].
      split; [now rewrite Hc|]. unfold calculable. rewrite Hc, Ho. destruct (dirty (mut (sinst s'))); [eauto|intros _ X; discriminate X].
    - intros vr2 b2 H1 H2 G. apply getB_iff in G as ((Hm & C) & P); [|exact R]. apply getB_iff; [exact R'|]. rewrite K by assumption.
      unfold mode_of. rewrite Hc. auto.
  Qed.

  (** The equations. *)
  Lemma equation_holds2 env s y args g xs : reach s -> In (y, args, g) (equations f false) ->
    Forall2 (fun a x => get2 m szof env s TFloat64 a x) args xs -> get2 m szof env s TFloat64 y (g xs).
  Proof.
    intros R I A.
    assert (C : canread2 V env TFloat64 (sinst s)).
    { destruct A as [|a x args xs G _]; [|now apply get_iff in G as (C & _)].
      clear -I Hb; destruct f; cbn in I; try discriminate; intuition congruence. }
    assert (A' : Forall2 (fun a x => peek V env (sinst s) TFloat64 a = Some [x]) args xs).
    { clear -A R Hb. induction A; constructor; auto. now apply get_iff in H as (_ & P). }
    apply get_iff; [exact R|]. split; [exact C|]. clear A C R. unfold peek in *.
    destruct f; try discriminate; cbn [equations] in I; try contradiction; cbn in I;
      repeat (destruct I as [I|I]; [injection I as <- <- <-; inversion A' as [|? ? ? ? P1 P2]; subst; inversion P2 as [|? ? ? ? P3 P4]; subst; 
        try (inversion P4 as [|? ? ? ? P5 P6]; subst; try (inversion P6; subst)); cbn in *; 
        repeat match goal with H : Some [_] = Some [_] |- _ => injection H as <- end; reflexivity|]); destruct I.
  Qed.
End Data2.
