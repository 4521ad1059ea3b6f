(** Vars2.v -- reading and assigning variables through the FMI 2.0 functions. *)
From Coq Require Import List NArith ZArith Bool Arith Lia.
From Verif Require Import Base Instance ModelIface Core Fmi3 Fmi2 Api Logic Calls Fmus SpecModes Gate SpecVars Vars.
Import ListNotations.
Set Implicit Arguments.

Section Vars2.
  Context {F : Type} {NF : Num F} (m : Model F) (V : VarLaws m) (szof : N) (env : Env).
  Notation D := (md m).
  Notation wf i := (vl_wf V (data (mut i))).
  Notation alike := (alike V env).
  Notation peek := (peek V env).

  Lemma BEGIN2_any X mask (x : X) k i st y i' tr : BEGIN2 m env mask x k i = Done ((st, y), i', tr) ->
    (N.land (bit2 (mode (ctl i))) mask <> 0%N /\ k i = Done ((st, y), i', tr)) \/
    (st = Error /\ y = x /\ i' = set_ctl (set_mode Terminated (ctl i)) i).
  Proof.
    intro E. destruct (N.eqb_spec (N.land (bit2 (mode (ctl i))) mask) 0) as [H|H].
    - right. unfold BEGIN2, allowedState2 in E. unfold bind at 1 in E. rewrite bind_getC, H in E. cbn [N.eqb] in E.
      rewrite bind_logError in E. cbn in E. inversion E; subst. auto.
    - left. split; [exact H|]. now rewrite BEGIN2_pass in E.
  Qed.

  Lemma get2_spec t vrs nvr l fuel s st out s' tr : wf (sinst s) -> nvr <= length l -> nvr <> 0 ->
    exec2 m szof fuel env (O2Get t (Some vrs) nvr (Some l)) s = Done (st, out, s', tr) ->
    alike (sinst s) (sinst s') /\ heap s' = heap s /\
    exists l', out = OVals t (Some l') /\ length l' = length l /\ skipn nvr l' = skipn nvr l /\
    ((st = OK /\ ctl (sinst s') = ctl (sinst s) /\ N.land (bit2 (mode_of s)) MASK2_GetReal <> 0%N /\ nvr <= length vrs /\
      exists vss, Forall2 (fun vr vs => peek (sinst s) t vr = Some vs) (firstn nvr vrs) vss /\
        length (concat vss) <= nvr /\ l' = splice 0 (concat vss) l) \/ (st = Error /\ mode_of s' = Terminated)).
  Proof.
    intros W L Hn E. cbn [exec2] in E. rewrite outI_eq in E.
    destruct (fmi2GetV _ _ _ _ _ _ _) as [[[[st0 b] i'] t0]| |] eqn:G; try discriminate.
    injection E as <- <- <- <-. cbn [sinst heap]. unfold mode_of. cbn [sinst].
    unfold fmi2GetV in G. apply BEGIN2_any in G as [[Hm G]|(-> & -> & ->)].
    2: { split; [now apply alike_mode|]. split; [reflexivity|]. exists l. split; [reflexivity|]. split; [reflexivity|]. split; [reflexivity|]. right. auto. }
    destruct (Nat.eqb_spec nvr 0) as [|_]; [contradiction|]. cbn [ASSERT_NOT_NULL] in G.
    apply (refresh_spec V) in G; [|exact W].
    destruct G as [(i1 & t1 & A1 & C1 & S1 & D1 & G)|(-> & -> & A & S1 & Mt)].
    2: { split; [exact A|]. split; [reflexivity|]. exists l. split; [reflexivity|]. split; [reflexivity|]. split; [reflexivity|]. right. auto. }
    apply bind_Done in G as ([[s2 b2] k2] & i2 & t2 & t3 & E1 & E2 & ->).
    assert (W1 : wf i1) by apply A1.
    destruct (@get_loop_spec _ _ V env t nvr nvr vrs l 0 i1 _ _ _ _ _ W1 L ltac:(lia) E1) as (A2 & S2 & l' & -> & L2 & K2 & Hk & Q).
    assert (A12 : alike (sinst s) i2) by (now apply alike_trans with i1).
    inversion E2; subst st0 b i2 t3. split; [exact A12|]. split; [reflexivity|]. exists l'. split; [reflexivity|]. split; [exact L2|]. split; [exact K2|].
    destruct Q as [(-> & C2 & Ln & vss & Fq & Kq & Lq)|(-> & M2)]; [left|right; auto].
    split; [reflexivity|]. split; [congruence|]. split; [exact Hm|]. split; [exact Ln|]. exists vss. split.
    { clear -Fq A1 W. induction Fq; constructor; auto. rewrite <- H. symmetry. now apply alike_peek. }
    cbn in Kq. subst. auto.
  Qed.

  Definition canread2 (t : VType) (i : Inst F D) : Prop :=
    N.land (bit2 (mode (ctl i))) MASK2_GetReal <> 0%N /\
    if dirty (mut i) then exists tr, vl_out V env (ctl i) = Some (OK, tr) else calculable V env t (ctl i).
  Lemma get2_do t vr x y fuel s : wf (sinst s) -> canread2 t (sinst s) -> peek (sinst s) t vr = Some [x] ->
    exists s' tr, exec2 m szof fuel env (O2Get t (Some [vr]) 1 (Some [y])) s = Done (OK, OVals t (Some [x]), s', tr).
  Proof.
    intros W (Hm & R) P.
    assert (K : forall i1, alike (sinst s) i1 -> ctl i1 = ctl (sinst s) -> calculable V env t (ctl i1) ->
      exists i' tr, bind (get_loop m env t [vr] 1 (Some [y]) 1 0 OK)
        (fun r => let '(st, values', _) := r in ret (st, values')) i1 = Done ((OK, Some [x]), i', tr)).
    { intros i1 A1 C1 R1. destruct (@get_loop_do _ _ V env t 1 1 [vr] [y] 0 i1 [[x]]) as (i2 & tr & E); auto.
      - apply A1.
      - constructor; [|constructor]. rewrite <- P. now apply alike_peek.
      - exists i2, (tr ++ []). unfold bind. rewrite E. reflexivity. }
    assert (G : exists i' tr, fmi2GetV m env t (Some [vr]) 1 (Some [y]) (sinst s) = Done ((OK, Some [x]), i', tr)).
    { unfold fmi2GetV. rewrite BEGIN2_pass by exact Hm. change (Nat.eqb 1 0) with false. cbv iota. cbn [ASSERT_NOT_NULL lst].
      unfold refresh. setoid_rewrite bind_getM. destruct (dirty (mut (sinst s))) eqn:Dt.
      - destruct R as (tr0 & R). pose proof (vl_calc V env (ctl (sinst s)) (mut (sinst s)) W) as Q. rewrite R in Q.
        destruct Q as (_ & u & Eu & Du & Wu & Fl).
        destruct (K (set_mut (set_dirty false u) (sinst s))) as (i' & tr & E).
        + split; [exists (mode (ctl (sinst s))); cbn; now rewrite set_mode_same|]. cbn. auto.
        + reflexivity.
        + intros _. cbn. rewrite R. discriminate.
        + exists i', (tr0 ++ [] ++ tr). unfold bind at 1. rewrite call_eq, Eu, CALLk_ok. unfold bind at 1. cbn [modM modS].
          unfold set_mut. cbn. unfold set_mut in E. cbn in E. rewrite E. reflexivity.
      - exact (K (sinst s) (alike_refl _ _ _ W) eq_refl R). }
    destruct G as (i' & tr & G). exists (mkSys i' (heap s)), tr. cbn [exec2]. rewrite outI_eq, G. reflexivity.
  Qed.
  Lemma get2_canread t vrs nvr l fuel s out s' tr : wf (sinst s) -> nvr <= length l -> nvr <> 0 ->
    exec2 m szof fuel env (O2Get t (Some vrs) nvr (Some l)) s = Done (OK, out, s', tr) -> canread2 t (sinst s).
  Proof.
    intros W L Hn E0. pose proof E0 as E. apply get2_spec in E; [|exact W|exact L|exact Hn].
    destruct E as (_ & _ & l' & E1 & _ & _ & [(_ & _ & Hm & _)|(X & _)]); [|discriminate]. split; [exact Hm|].
    cbn [exec2] in E0. rewrite outI_eq in E0. unfold fmi2GetV in E0. rewrite BEGIN2_pass in E0 by exact Hm.
    destruct (Nat.eqb_spec nvr 0); [contradiction|]. cbn [ASSERT_NOT_NULL lst] in E0.
    match type of E0 with match ?X with _ => _ end = _ => destruct X as [[[[st0 b] i'] t0]| |] eqn:G end; try discriminate.
    injection E0; intros; subst. clear E0.
    unfold refresh in G. rewrite bind_getM in G.
    destruct (dirty (mut (sinst s))) eqn:Dt.
    - apply bind_Done in G as (st1 & i1 & t1 & t2 & G1 & G2 & _). rewrite call_eq in G1.
      pose proof (vl_calc V env (ctl (sinst s)) (mut (sinst s)) W) as K. destruct (vl_out V env (ctl (sinst s))) as [[st2 tr2]|];
        [|rewrite K in G1; discriminate]. destruct K as ([->| ->] & u & K & _); [eauto|].
      rewrite K in G1. injection G1 as <- <- <-. rewrite CALLk_err in G2. discriminate.
    - apply bind_Done in G as (r1 & i1 & t1 & t2 & G1 & G2 & _). destruct nvr as [|nvr]; [contradiction|]. cbn [get_loop] in G1.
      destruct vrs as [|vr vrs]; [discriminate|].
      apply bind_Done in G1 as (r3 & i3 & t3 & t4 & G1 & _). rewrite call_eq, (vl_get V) in G1 by auto.
      intros Ec Hx. rewrite Ec in G1. pose proof (vl_calc V env (ctl (sinst s)) (mut (sinst s)) W) as K. rewrite Hx in K.
      unfold bind in G1. rewrite K in G1. discriminate.
  Qed.
  Lemma get2_iff s t vr x : wf (sinst s) -> (forall k, vl_size V t vr (data (mut (sinst s))) = Some k -> k = 1) ->
    get2 m szof env s t vr x <-> canread2 t (sinst s) /\ peek (sinst s) t vr = Some [x].
  Proof.
    intros W Hs. split.
    - intros (y & s' & tr & E). pose proof E as E0. apply get2_spec in E; [|exact W|cbn; lia|lia].
      destruct E as (_ & _ & l' & E1 & _ & _ & [(_ & _ & Hm & _ & vss & Fq & L & E2)|(X & _)]); [|discriminate].
      cbn [firstn] in Fq. inversion Fq as [|? vs0 ? ? P Q]; subst. inversion Q; subst.
      assert (vs0 = [x]).
      { pose proof (vl_vsize V _ _ _ _ P) as Z. rewrite (vl_rsize V) in Z by exact W. apply Hs in Z. destruct vs0 as [|v0 [|]]; try discriminate.
        apply (f_equal (fun o : Out F D => match o with OVals t0 b => existT _ t0 b | _ => existT _ t None end)) in E1.
        apply Eqdep_dec.inj_pair2_eq_dec in E1; [|intros [] []; (left; reflexivity) || (right; discriminate)].
        injection E1 as E1. now subst. }
      subst. split; [|exact P]. apply get2_canread in E0; auto.
    - intros (C & P). destruct (@get2_do t vr x x 0 s) as (s' & tr & E); auto. exists x, s', tr. exact E.
  Qed.

  Lemma set2_spec t vrs nvr l fuel s st out s' tr : wf (sinst s) -> nvr <> 0 ->
    exec2 m szof fuel env (O2Set t (Some vrs) nvr (Some l)) s = Done (st, out, s', tr) ->
    heap s' = heap s /\ sol (sinst s') = sol (sinst s) /\ (exists md, ctl (sinst s') = set_mode md (ctl (sinst s))) /\
    exists n' vs d b, assigns V t (firstn n' vrs) vs (data (mut (sinst s))) d /\
      mut (sinst s') = set_dirty b (set_data d (mut (sinst s))) /\ vl_wf V d /\
      (vs <> [] -> vs = firstn (length vs) l) /\ length vs <= nvr /\
      (0 < n' -> exists tr, vl_out V env (ctl (sinst s)) = Some (OK, tr)) /\ (n' = 0 -> b = dirty (mut (sinst s))) /\
    ((st = OK /\ ctl (sinst s') = ctl (sinst s) /\ N.land (bit2 (mode_of s)) (MASK2_Set t) <> 0%N /\ nvr <= length vrs /\
      b = true /\ n' = nvr) \/
     (st = Error /\ mode_of s' = Terminated /\ n' <= nvr)).
  Proof.
    intros W Hn E. cbn [exec2] in E. rewrite outI_eq in E.
    destruct (fmi2SetV _ _ _ _ _ _ _) as [[[[st0 x] i'] t0]| |] eqn:G; try discriminate.
    injection E as <- <- <- <-. cbn [sinst heap]. unfold mode_of. cbn [sinst]. split; [reflexivity|].
    unfold fmi2SetV in G. apply BEGIN2_any in G as [[Hm G]|(-> & -> & ->)].
    2: { split; [reflexivity|]. split; [exists Terminated; reflexivity|]. exists 0, [], (data (mut (sinst s))), (dirty (mut (sinst s))).
         split; [constructor|]. split; [cbn; now rewrite mut_same|]. split; [exact W|]. split; [congruence|]. cbn. split; [lia|]. split; [lia|]. split; [reflexivity|].
         right. repeat split. lia. }
    destruct (Nat.eqb_spec nvr 0) as [|_]; [contradiction|]. cbn [ASSERT_NOT_NULL lst] in G.
    apply bind_Done in G as ([s2 k2] & i2 & t2 & t3 & E1 & E2 & ->).
    destruct (@set_loop_spec _ _ V env t nvr nvr vrs l 0 _ _ _ _ _ W ltac:(lia) E1) as (S2 & M2 & n' & vs & d & b & A & U & Wd & Kn & Lw & Ro & Rz & Q).
    cbn [skipn Nat.add] in *.
    destruct Q as [(-> & Cq & Ln & -> & ->)|(-> & M & L)]; cbn [stops] in E2.
    - rewrite bind_modM in E2.
      assert (U' : forall b0, set_dirty b0 (mut i2) = set_dirty b0 (set_data d (mut (sinst s)))) by (intro; rewrite U; now destruct (mut (sinst s))).
      inversion E2; subst st0 x i' t3. cbn. split; [exact S2|]. split; [exact M2|].
      exists nvr, vs, d, true. rewrite U'. do 6 (split; [assumption || reflexivity|]). split; [congruence|]. left. auto 10.
    - inversion E2; subst st0 x i' t3. split; [exact S2|]. split; [exact M2|]. exists n', vs, d, b.
      do 7 (split; [assumption || reflexivity|]). right. split; [reflexivity|]. split; [exact M|lia].
  Qed.

  (** Booleans, one at a time. *)
  Lemma getB_spec vr z fuel s st out s' tr : wf (sinst s) -> (forall k, vl_size V TBoolean vr (data (mut (sinst s))) = Some k -> k = 1) ->
    exec2 m szof fuel env (O2GetBoolean (Some [vr]) 1 (Some [z])) s = Done (st, out, s', tr) ->
    alike (sinst s) (sinst s') /\ heap s' = heap s /\
    ((st = OK /\ N.land (bit2 (mode_of s)) MASK2_GetReal <> 0%N /\ exists b, peek (sinst s) TBoolean vr = Some [b] /\
      out = OBools2 (Some [if b then 1 else 0]%Z) /\ mode_of s' = mode_of s) \/ (st = Error /\ mode_of s' = Terminated /\ out = OBools2 (Some [z]))).
  Proof.
    intros W Hs E. cbn [exec2] in E. rewrite outI_eq in E.
    destruct (fmi2GetBoolean _ _ _ _ _ _) as [[[[st0 x] i'] t0]| |] eqn:G; try discriminate.
    injection E as <- <- <- <-. cbn [sinst heap]. unfold mode_of. cbn [sinst].
    unfold fmi2GetBoolean in G. apply BEGIN2_any in G as [[Hm G]|(-> & -> & ->)].
    2: { split; [now apply alike_mode|]. split; [reflexivity|]. right. auto. }
    cbn [getBoolean_loop] in G. apply bind_Done in G as (vr0 & i1 & t1 & t2 & E1 & E2 & ->).
    cbn in E1. injection E1 as <- <- <-.
    apply bind_Done in E2 as (r & i2 & t3 & t4 & E3 & E4 & ->).
    destruct (@get_call _ _ V env TBoolean vr [false] 1 0 (sinst s) _ _ _ W ltac:(cbn; lia) E3) as (C1 & S1 & A1 & R1).
    destruct r as [[sg bg] kg]. destruct sg; try contradiction.
    - destruct R1 as (vs & Pv & -> & Hk & ->). rewrite CALLk_ok in E4.
      assert (X : exists b, vs = [b]).
      { cbn in Hk. destruct vs as [|b [|]]; [|eauto|cbn in Hk; lia]. exfalso. cbn in E4. 
        pose proof (vl_vsize V _ _ _ _ Pv) as Z. rewrite (vl_rsize V) in Z by exact W. apply Hs in Z. discriminate. }
      destruct X as (b & ->). cbn in E4. inversion E4; subst. split; [exact A1|]. split; [reflexivity|]. left.
      split; [reflexivity|]. split; [exact Hm|]. exists b. split; [exact Pv|]. split; [reflexivity|]. now rewrite C1.
    - destruct R1 as (-> & -> & _). rewrite CALLk_err in E4. inversion E4; subst.
      split; [apply alike_trans with i2; auto; apply alike_mode; apply A1|]. split; [reflexivity|]. right. auto.
  Qed.
  Lemma getB_do vr b z fuel s : wf (sinst s) -> N.land (bit2 (mode_of s)) MASK2_GetReal <> 0%N -> calculable V env TBoolean (ctl (sinst s)) ->
    peek (sinst s) TBoolean vr = Some [b] ->
    exists s' tr, exec2 m szof fuel env (O2GetBoolean (Some [vr]) 1 (Some [z])) s = Done (OK, OBools2 (Some [if b then 1 else 0]%Z), s', tr).
  Proof.
    intros W Hm R P. destruct (@get_loop_do _ _ V env TBoolean 1 1 [vr] [false] 0 (sinst s) [[b]]) as (i2 & tr & E); auto.
    cbn [get_loop] in E. apply bind_Done in E as ([[s1 b1] k1] & i1 & t1 & t2 & E1 & E2 & ->).
    destruct (@get_call _ _ V env TBoolean vr [false] 1 0 (sinst s) _ _ _ W ltac:(cbn; lia) E1) as (_ & _ & _ & R1).
    destruct s1; try contradiction; [|rewrite CALL_err in E2; discriminate].
    destruct R1 as (vs & Pv & -> & _ & ->). rewrite P in Pv. injection Pv as <-. cbn in E1.
    cbn [exec2]. rewrite outI_eq. unfold fmi2GetBoolean. rewrite BEGIN2_pass by exact Hm. cbn [getBoolean_loop].
    unfold bind at 1, rd at 1. cbn [nth_error]. unfold ret at 1. cbv beta iota. unfold bind at 1. cbn [val] in *. rewrite E1. cbv beta iota. rewrite CALLk_ok. cbn. eexists; eexists; reflexivity.
  Qed.

  Lemma setB_spec vr z fuel s st out s' tr : wf (sinst s) ->
    exec2 m szof fuel env (O2SetBoolean (Some [vr]) 1 (Some [z])) s = Done (st, out, s', tr) ->
    (st = OK /\ ctl (sinst s') = ctl (sinst s) /\ N.land (bit2 (mode_of s)) MASK2_SetInteger <> 0%N /\
     exists vs d b, vs = firstn (length vs) [negb (Z.eqb z 0)] /\ vl_size V TBoolean vr (data (mut (sinst s))) = Some (length vs) /\
       vl_assign V TBoolean vr vs (data (mut (sinst s))) = Some d /\ mut (sinst s') = set_dirty b (set_data d (mut (sinst s))) /\ vl_wf V d /\
       exists tr, vl_out V env (ctl (sinst s)) = Some (OK, tr)) \/
    (st = Error /\ s' = mkSys (set_ctl (set_mode Terminated (ctl (sinst s))) (sinst s)) (heap s)).
  Proof.
    intros W E. cbn [exec2] in E. rewrite outI_eq in E.
    destruct (fmi2SetBoolean _ _ _ _ _ _) as [[[[st0 x] i'] t0]| |] eqn:G; try discriminate.
    injection E as <- <- <- <-. cbn [sinst heap]. unfold mode_of. cbn [sinst].
    unfold fmi2SetBoolean in G. apply BEGIN2_any in G as [[Hm G]|(-> & -> & ->)]; [|right; auto].
    cbn [setBoolean_loop] in G. do 2 (unfold bind at 1, rd at 1 in G; cbn [nth_error] in G; unfold ret at 1 in G; cbv beta iota in G).
    destruct (bind _ _ _) as [[[[s1 []] i1] t1]| |] eqn:G1 in G; try discriminate. 
    injection G; intros; subst. apply bind_Done in G1 as ([sg kg] & i2 & t2 & t3 & E1 & E2 & _). cbn [fst] in E2.
    destruct (@set_call _ _ V env TBoolean vr [negb (Z.eqb z 0)] 1 0 (sinst s) _ _ _ _ W E1) as (C1 & S1 & R1).
    destruct sg; try contradiction.
    - destruct R1 as (vs & d & b & Hv & _ & Sv & Av & U & Wd & _ & _ & Ro). rewrite CALLk_ok in E2. inversion E2; subst. left.
      split; [reflexivity|]. split; [exact C1|]. split; [exact Hm|]. exists vs, d, b. auto 10.
    - subst i2. rewrite CALLk_err in E2. inversion E2; subst. right. auto.
  Qed.
End Vars2.
