(** Multi2.v -- an FMI 2.0 Set with many variables is a sequence of single Sets (proof of C10). *)
From Coq Require Import List NArith ZArith Bool Arith Lia.
From Verif Require Import Base Instance ModelIface Core Fmi3 Fmi2 Api Logic Calls Fmus SpecModes Gate
  SpecVars SpecEqs SpecCreate Vars VarsFmus DataFmus Multi Vars2 Data2.
Import ListNotations.
Set Implicit Arguments.

Section Multi2.
  Context {F : Type} {NF : Num F} (szof : N) (f : FMU) (Hb : built2 f = true) (env : Env) (t : VType).
  Notation m := (model_of (F := F) FMI2 f).
  Notation V := (vars_all FMI2 f).
  Notation D := (md m).
  Notation wf i := (vl_wf V (data (mut i))).
  Notation term i := (set_ctl (set_mode Terminated (ctl i)) i).

  Definition rest2 (r : Status * nat) : AF F D (Status * unit) :=
    let '(st, _) := r in
    if stops st then ret (st, tt) else
    bind (modM m (set_dirty true)) (fun _ => ret (st, tt)).
  Lemma set1_eq2 vr x s : N.land (bit2 (mode_of s)) (MASK2_Set t) <> 0%N ->
    exec2 m szof 0 env (O2Set t (Some [vr]) 1 (Some [x])) s =
    match call m env (m_set m t vr (Some [x]) 1 0) (sinst s) with
    | Done ((st, k), i', tr) =>
        match bind (CALL m OK st) (fun st' => if stops st' then rest2 (st', k) else rest2 (st', k)) i' with
        | Done ((st', _), i'', tr') => Done (st', ONone, mkSys i'' (heap s), tr ++ tr')
        | UB => UB | NoFuel => NoFuel end
    | UB => UB | NoFuel => NoFuel
    end.
  Proof.
    intro Hm. cbn [exec2]. rewrite outI_eq. unfold fmi2SetV. rewrite BEGIN2_pass by exact Hm. cbn [ASSERT_NOT_NULL set_loop lst]. change (Nat.eqb 1 0) with false. cbv iota.
    match goal with |- context [bind ?a ?k (sinst s)] => replace (bind a k (sinst s)) with (bind a rest2 (sinst s)) by reflexivity end.
    rewrite bind_assoc. unfold bind at 1. destruct (call m env _ (sinst s)) as [[[[st k] i'] tr]| |]; auto.
    rewrite bind_assoc.
    replace (bind (CALL m OK st) (fun x0 => bind (if stops x0 then ret (x0, k) else ret (x0, k)) rest2) i')
      with (bind (CALL m OK st) (fun st' => if stops st' then rest2 (st', k) else rest2 (st', k)) i').
    2: { apply bind_ext. intros a w. destruct (stops a); now rewrite bind_ret_l. }
    destruct (bind _ _ _) as [[[[? []] ?] ?]| |]; reflexivity.
  Qed.
  Lemma built_notclocks : f <> Clocks.
  Proof. clear -Hb. intros ->. discriminate. Qed.

  Lemma loop_singles2 : forall vrs l1 xs s, length vrs = length xs -> wf (sinst s) ->
    N.land (bit2 (mode_of s)) (MASK2_Set t) <> 0%N -> (l1 <> [] -> dirty (mut (sinst s)) = true) -> (l1 <> [] \/ vrs <> []) ->
    match bind (set_loop m env t vrs (length vrs) (Some (l1 ++ xs)) (length (l1 ++ xs)) (length l1) OK) rest2 (sinst s),
          singles2 m szof env t vrs xs s with
    | Done ((st, _), i', tr), Done (st', s', tr') => st' = st /\ tr' = tr /\ s' = mkSys i' (heap s)
    | UB, UB | NoFuel, NoFuel => True
    | _, _ => False
    end.
  Proof.
    induction vrs as [|vr vrs IH]; intros l1 xs s L W Hm Hd Hn.
    - destruct xs; [|discriminate]. cbn [set_loop singles2 length]. rewrite bind_ret_l. unfold rest2. cbn [stops].
      rewrite bind_modM. cbn. repeat split; auto. destruct Hn as [Hn|Hn]; [|congruence]. specialize (Hd Hn).
      destruct s as [[c u so] h]. cbn in *. unfold set_mut. cbn. destruct u. cbn in *. subst. reflexivity.
    - destruct xs as [|x xs]; [discriminate|]. cbn [set_loop singles2 length].
      rewrite set1_eq2 by exact Hm.
      assert (P : call m env (m_set m t vr (Some (l1 ++ x :: xs)) (length (l1 ++ x :: xs)) (length l1)) (sinst s) =
                  match call m env (m_set m t vr (Some [x]) 1 0) (sinst s) with
                  | Done ((st, k), i', tr) => Done ((st, length l1 + k), i', tr) | UB => UB | NoFuel => NoFuel end).
      { rewrite !call_eq. pose proof (@vl_pos _ _ V t vr [x] l1 xs env (ctl (sinst s)) (mut (sinst s)) (scalar_alone _ _ (built_scalar Hb)) W) as P. cbn [app length] in P.
        rewrite P. { destruct (m_set m t vr (Some [x]) 1 0 env (ctl (sinst s)) (mut (sinst s))) as [[[[? ?] ?] ?]| |]; reflexivity. }
        destruct (vl_size V t vr (data (mut (sinst s)))) as [k|] eqn:E; [left; now apply (@size1 _ _ f Hb) in E; subst|right; auto]. }
      rewrite bind_assoc. unfold bind at 1. rewrite P.
      destruct (call m env (m_set m t vr (Some [x]) 1 0) (sinst s)) as [[[[st k] i'] tr]| |] eqn:Ei; auto.
      destruct (@set_call _ _ V env t vr [x] 1 0 (sinst s) st k i' tr W Ei) as (C1 & S1 & R1).
      destruct st; try contradiction.
      + rewrite bind_assoc, !CALL_ok. cbn [stops].
        assert (Dt : dirty (mut i') = true).
        { rewrite call_eq in Ei. destruct (m_set m t vr (Some [x]) 1 0 env (ctl (sinst s)) (mut (sinst s))) as [[[r0 u0] tr0]| |] eqn:Eu; try discriminate. destruct r0 as [st0 k0].
          injection Ei as -> -> <- ->. cbn. exact (@set_flag _ _ FMI2 f t vr [x] 1 0 built_notclocks _ _ _ _ _ _ Eu). }
        destruct R1 as (vs & d & b & Hv & _ & Sv & _ & U & Wd & Hk & Hk1 & _). apply (@size1 _ _ f Hb) in Sv. cbn [Nat.add] in Hk. rewrite Sv in Hk. subst k.
        assert (Er : rest2 (OK, 1) i' = Done ((OK, tt), i', [])).
        { unfold rest2. cbn [stops]. rewrite bind_modM. cbn. repeat f_equal. clear -Dt. destruct i' as [c u so]. unfold set_mut. cbn in *. destruct u. cbn in *. now subst. }
        rewrite Er. set (s1 := mkSys i' (heap s)).
        specialize (IH (l1 ++ [x]) xs s1 ltac:(now injection L)).
        rewrite <- app_assoc in IH. cbn [app] in IH. replace (length (l1 ++ [x])) with (length l1 + 1) in IH by (now rewrite app_length).
        assert (Wi' : wf i') by (rewrite U; exact Wd).
        assert (Mj : mode_of s1 = mode_of s) by (unfold mode_of, s1; cbn; now rewrite C1).
        rewrite Mj in IH. specialize (IH Wi' Hm (fun _ => Dt) ltac:(left; destruct l1; discriminate)).
        rewrite app_length in IH. cbn [length] in IH. rewrite app_length. cbn [length].
        cbn [s1 sinst] in IH.
        destruct (bind (set_loop m env t vrs (length vrs) (Some (l1 ++ x :: xs)) _ (length l1 + 1) OK) _ i') as [[[[st2 []] i2] tr2]| |] eqn:E2;
          destruct (singles2 m szof env t vrs xs s1) as [[[st3 s3] tr3]| |] eqn:E3; try contradiction; auto.
        destruct IH as (-> & -> & ->). rewrite app_nil_r. auto.
      + rewrite bind_assoc, !CALL_err. cbn [stops]. rewrite bind_ret_l. unfold rest2. cbn. rewrite !app_nil_r. auto.
  Qed.

  Lemma multi2 vrs xs s : length vrs = length xs -> vrs <> [] -> reach2 m szof s ->
    match exec2 m szof 0 env (O2Set t (Some vrs) (length vrs) (Some xs)) s, singles2 m szof env t vrs xs s with
    | Done (st, _, s1, tr), Done (st', s2, tr') => st' = st /\ tr' = tr /\ s2 = s1
    | UB, UB | NoFuel, NoFuel => True
    | _, _ => False
    end.
  Proof.
    intros L Hn R. pose proof (wf_reach2 _ _ R) as W. destruct (N.eqb_spec (N.land (bit2 (mode_of s)) (MASK2_Set t)) 0) as [H|H].
    - assert (B : forall Y (x : Y) k, BEGIN2 m env (MASK2_Set t) x k (sinst s) = Done ((Error, x), term (sinst s), message m (sinst s))).
      { intros Y x k. unfold BEGIN2, allowedState2. unfold bind at 1. rewrite bind_getC. unfold mode_of in H. rewrite H. cbn [N.eqb].
        rewrite bind_logError. cbn. rewrite CALLk_err. now rewrite !app_nil_r. }
      cbn [exec2]. rewrite outI_eq. unfold fmi2SetV at 1. rewrite B.
      destruct vrs as [|vr vrs]; [congruence|]. destruct xs as [|x xs]; [discriminate|]. cbn [singles2 exec2].
      rewrite outI_eq. unfold fmi2SetV at 1. rewrite B. cbn. auto.
    - cbn [exec2]. rewrite outI_eq. unfold fmi2SetV. rewrite BEGIN2_pass by exact H.
      destruct (Nat.eqb_spec (length vrs) 0) as [H0|_]; [destruct vrs; [congruence|discriminate]|]. cbn [ASSERT_NOT_NULL lst].
      pose proof (@loop_singles2 vrs [] xs s L W H ltac:(congruence) (or_intror Hn)) as K. cbn [app length] in K. rewrite <- L in K.
      match goal with |- match match ?x with _ => _ end with _ => _ end => change x with (bind (set_loop m env t vrs (length vrs) (Some xs) (length vrs) 0 OK) rest2 (sinst s)) end.
      destruct (bind (set_loop _ _ _ _ _ _ _ _ _) _ _) as [[[[st []] i1] tr]| |]; destruct (singles2 m szof env t vrs xs s) as [[[st' s2] tr']| |]; try contradiction; auto.
  Qed.
End Multi2.
