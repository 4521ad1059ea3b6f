(** Multi.v -- a Set with many variables is a sequence of single Sets (proof of C10). *)
From Coq Require Import List NArith ZArith Bool Arith Lia.
From Verif Require Import Base Instance ModelIface Core Fmi3 Fmi2 Api Logic Calls Fmus SpecModes Gate
  SpecVars Vars VarsFmus DataFmus Data.
From Verif Require Import FmuBouncingBall FmuDahlquist FmuStair FmuVanDerPol FmuRoberts
  FmuClocks FmuResource FmuStateSpace FmuFeedthrough.
Import ListNotations.
Set Implicit Arguments.

Section Loop.
  Context {F : Type} {NF : Num F} (m : Model F) (V : VarLaws m) (szof : N) (env : Env) (t : VType).
  Notation D := (md m).
  Notation wf i := (vl_wf V (data (mut i))).
  Notation term i := (set_ctl (set_mode Terminated (ctl i)) i).
  Definition dirtied (i : Inst F D) : Inst F D := set_mut (set_dirty true (mut i)) i.
  Context (Q : Inst F D -> Inst F D -> Prop)
    (Hq : forall i j, Q i j -> ctl j = ctl i /\ data (mut j) = data (mut i) /\ Q (term i) (term j))
    (Hstep : forall vr x i j, wf i -> Q i j ->
       match call m env (m_set m t vr (Some [x]) 1 0) i, call m env (m_set m t vr (Some [x]) 1 0) j with
       | Done ((st, k), i', tr), Done ((st', k'), j', tr') => st' = st /\ k' = k /\ tr' = tr /\
           match st with OK => Q i' (dirtied j') /\ Q (dirtied i') (dirtied j') | _ => Q i' j' end
       | UB, UB | NoFuel, NoFuel => True
       | _, _ => False
       end)
    (Halone : vl_alone V t = true) (Hscalar : forall vr d k, vl_size V t vr d = Some k -> k = 1).

  Definition rest (nV : nat) (r : Status * nat) : AF F D (Status * unit) :=
    let '(st, index) := r in
    if stops st then ret (st, tt) else
    bind (modM m (set_dirty true)) (fun _ =>
    if negb (Nat.eqb index nV) then
      bind (logError m env) (fun _ => CALLk m st Error tt (fun st => ret (st, tt)))
    else ret (st, tt)).

  Lemma set1_eq vr x s : N.land (bit3 (mode_of s)) (MASK_Set t) <> 0%N ->
    exec3 m szof 0 env (O3Set t (Some [vr]) 1 (Some [x]) 1) s =
    match call m env (m_set m t vr (Some [x]) 1 0) (sinst s) with
    | Done ((st, k), i', tr) =>
        match bind (CALL m OK st) (fun st' => if stops st' then rest 1 (st', k) else rest 1 (st', k)) i' with
        | Done ((st', _), i'', tr') => Done (st', ONone, mkSys i'' (heap s), tr ++ tr')
        | UB => UB | NoFuel => NoFuel end
    | UB => UB | NoFuel => NoFuel
    end.
  Proof.
    intro Hm. cbn [exec3]. rewrite outI_eq. unfold fmi3Set. rewrite BEGIN_pass by exact Hm. cbn [ASSERT_NOT_NULL set_loop]. change (Nat.eqb 1 0) with false. cbv iota.
    match goal with |- context [bind ?a ?k (sinst s)] => replace (bind a k (sinst s)) with (bind a (rest 1) (sinst s)) by reflexivity end.
    rewrite bind_assoc. unfold bind at 1. destruct (call m env _ (sinst s)) as [[[[st k] i'] tr]| |]; auto.
    rewrite bind_assoc.
    replace (bind (CALL m OK st) (fun x0 => bind (if stops x0 then ret (x0, k) else ret (x0, k)) (rest 1)) i')
      with (bind (CALL m OK st) (fun st' => if stops st' then rest 1 (st', k) else rest 1 (st', k)) i').
    2: { apply bind_ext. intros a w. destruct (stops a); now rewrite bind_ret_l. }
    destruct (bind _ _ _) as [[[[? []] ?] ?]| |]; reflexivity.
  Qed.

  Lemma loop_singles : forall vrs l1 xs i s, length vrs = length xs -> wf i -> Q i (sinst s) ->
    N.land (bit3 (mode_of s)) (MASK_Set t) <> 0%N -> (l1 <> [] \/ vrs <> []) ->
    match bind (set_loop m env t vrs (length vrs) (Some (l1 ++ xs)) (length (l1 ++ xs)) (length l1) OK) (rest (length (l1 ++ xs))) i,
          singles m szof env t vrs xs s with
    | Done ((st, _), i', tr), Done (st', s', tr') => st' = st /\ tr' = tr /\ heap s' = heap s /\
        (vrs = [] -> sinst s' = sinst s) /\ (vrs <> [] -> Q i' (sinst s'))
    | UB, UB | NoFuel, NoFuel => True
    | _, _ => False
    end.
  Proof.
    induction vrs as [|vr vrs IH]; intros l1 xs i s L W Hi Hm Hn.
    - destruct xs; [|discriminate]. cbn [set_loop singles length]. rewrite bind_ret_l. rewrite app_nil_r. unfold rest. cbn [stops].
      rewrite bind_modM, Nat.eqb_refl. cbn. repeat split; auto; congruence.
    - destruct xs as [|x xs]; [discriminate|]. cbn [set_loop singles length].
      rewrite set1_eq by exact Hm.
      specialize (Hstep vr x W Hi).
      assert (P : call m env (m_set m t vr (Some (l1 ++ x :: xs)) (length (l1 ++ x :: xs)) (length l1)) i =
                  match call m env (m_set m t vr (Some [x]) 1 0) i with
                  | Done ((st, k), i', tr) => Done ((st, length l1 + k), i', tr) | UB => UB | NoFuel => NoFuel end).
      { rewrite !call_eq. pose proof (@vl_pos _ _ V t vr [x] l1 xs env (ctl i) (mut i) Halone W) as P. cbn [app length] in P.
        rewrite P. { destruct (m_set m t vr (Some [x]) 1 0 env (ctl i) (mut i)) as [[[[? ?] ?] ?]| |]; reflexivity. }
        destruct (vl_size V t vr (data (mut i))) as [k|] eqn:E; [left; now apply Hscalar in E; subst|right; auto]. }
      rewrite bind_assoc. unfold bind at 1. rewrite P.
      destruct (call m env (m_set m t vr (Some [x]) 1 0) i) as [[[[st k] i'] tr]| |] eqn:Ei;
        destruct (call m env (m_set m t vr (Some [x]) 1 0) (sinst s)) as [[[[st' k'] j'] tr']| |] eqn:Ej; try contradiction; auto.
      destruct Hstep as (-> & -> & -> & Hq').
      destruct (@set_call _ _ V env t vr [x] 1 0 i st k i' tr W Ei) as (C1 & S1 & R1).
      destruct (Hq Hi) as (Cj & Dj & _). assert (Wj : wf (sinst s)) by now rewrite Dj.
      destruct (@set_call _ _ V env t vr [x] 1 0 (sinst s) st k j' tr Wj Ej) as (C2 & S2 & R2).
      destruct st; try contradiction.
      + rewrite bind_assoc, !CALL_ok. cbn [stops].
        destruct R1 as (vs & d & b & Hv & _ & Sv & _ & U & Wd & Hk & Hk1 & _). apply Hscalar in Sv. cbn [Nat.add] in Hk. rewrite Sv in Hk. subst k.
        assert (Er : rest 1 (OK, 1) j' = Done ((OK, tt), set_mut (set_dirty true (mut j')) j', [])) by reflexivity. rewrite Er.
        set (s1 := mkSys (set_mut (set_dirty true (mut j')) j') (heap s)).
        specialize (IH (l1 ++ [x]) xs i' s1 ltac:(now injection L)).
        rewrite <- app_assoc in IH. cbn [app] in IH. replace (length (l1 ++ [x])) with (length l1 + 1) in IH by (now rewrite app_length).
        assert (Wi' : wf i') by (rewrite U; exact Wd).
        assert (Mj : mode_of s1 = mode_of s) by (unfold mode_of, s1; cbn; now rewrite C2).
        rewrite Mj in IH. specialize (IH Wi' (proj1 Hq') Hm ltac:(left; destruct l1; discriminate)).
        rewrite app_length in IH. cbn [length] in IH. rewrite app_length. cbn [length].
        destruct (bind (set_loop m env t vrs (length vrs) (Some (l1 ++ x :: xs)) _ (length l1 + 1) OK) _ i') as [[[[st2 []] i2] tr2]| |] eqn:E2;
          destruct (singles m szof env t vrs xs s1) as [[[st3 s3] tr3]| |] eqn:E3; try contradiction; auto.
        destruct IH as (-> & -> & Hh & H0 & H1). rewrite app_nil_r. split; [reflexivity|]. split; [reflexivity|]. split; [exact Hh|]. split; [discriminate|].
        intros _. destruct vrs as [|v2 vrs]; [|apply H1; discriminate].
        rewrite (H0 eq_refl). cbn [s1 sinst].
        cbn [set_loop length] in E2. rewrite bind_ret_l in E2. unfold rest in E2. cbn [stops] in E2. rewrite bind_modM in E2.
        destruct xs; [|discriminate]. cbn [length] in E2. rewrite Nat.eqb_refl in E2. cbn in E2. injection E2 as _ <- _. exact (proj2 Hq').
      + rewrite bind_assoc, !CALL_err. cbn [stops]. rewrite bind_ret_l. unfold rest. cbn. rewrite !app_nil_r.
        split; [reflexivity|]. split; [reflexivity|]. split; [reflexivity|]. split; [discriminate|]. intros _.
        now apply Hq.
  Qed.

  Lemma multi_singles vrs xs s : length vrs = length xs -> vrs <> [] -> wf (sinst s) -> Q (sinst s) (sinst s) ->
    match exec3 m szof 0 env (O3Set t (Some vrs) (length vrs) (Some xs) (length xs)) s, singles m szof env t vrs xs s with
    | Done (st, _, s1, tr), Done (st', s2, tr') => st' = st /\ tr' = tr /\ heap s1 = heap s2 /\ Q (sinst s1) (sinst s2)
    | UB, UB | NoFuel, NoFuel => True
    | _, _ => False
    end.
  Proof.
    intros L Hn W Hs. destruct (N.eqb_spec (N.land (bit3 (mode_of s)) (MASK_Set t)) 0) as [H|H].
    - assert (B : forall Y (x : Y) k, BEGIN m env (MASK_Set t) x k (sinst s) = Done ((Error, x), term (sinst s), message m (sinst s))).
      { intros Y x k. unfold BEGIN, allowedState. unfold bind at 1. rewrite bind_getC. unfold mode_of in H. rewrite H. cbn [N.eqb].
        rewrite bind_logError. cbn. rewrite CALLk_err. now rewrite !app_nil_r. }
      cbn [exec3]. rewrite outI_eq. unfold fmi3Set at 1. rewrite B.
      destruct vrs as [|vr vrs]; [congruence|]. destruct xs as [|x xs]; [discriminate|]. cbn [singles exec3].
      rewrite outI_eq. unfold fmi3Set at 1. rewrite B. cbn. repeat split; auto. now apply Hq.
    - cbn [exec3]. rewrite outI_eq. unfold fmi3Set. rewrite BEGIN_pass by exact H.
      destruct (Nat.eqb_spec (length vrs) 0) as [H0|_]; [destruct vrs; [congruence|discriminate]|]. cbn [ASSERT_NOT_NULL].
      pose proof (@loop_singles vrs [] xs (sinst s) s L W Hs H (or_intror Hn)) as K. cbn [app length] in K.
      match goal with |- match match ?x with _ => _ end with _ => _ end => change x with (bind (set_loop m env t vrs (length vrs) (Some xs) (length xs) 0 OK) (rest (length xs)) (sinst s)) end.
      destruct (bind (set_loop _ _ _ _ _ _ _ _ _) _ _) as [[[[st []] i1] tr]| |]; destruct (singles m szof env t vrs xs s) as [[[st' s2] tr']| |]; try contradiction; auto.
      destruct K as (A & B & C & _ & E). cbn. auto.
  Qed.
End Loop.

Section Fmus.
  Context {F : Type} {NF : Num F}.

  Definition flagM D (a : MF F D SetRes) : Prop :=
    forall e c u k u' tr, a e c u = Done ((OK, k), u', tr) -> dirty u' = true.
  Lemma flag_then D (a : MF F D SetRes) : flagM (thenDirty a).
  Proof.
    intros e c u k u' tr E. unfold thenDirty, mbind in E. apply bind_Done in E as ([st k0] & u1 & t1 & t2 & _ & E2 & _).
    cbn [fst] in E2. destruct st; cbn in E2; inversion E2; subst; reflexivity.
  Qed.
  Lemma flag_fail D i : flagM (failSet (F := F) (D := D) i).
  Proof. intros e c u k u' tr. unfold failSet, mbind, mlogError, mret, bind. destruct (logErrors c && hasLogger c); discriminate. Qed.
  Lemma flag_ub D : flagM (mub (F := F) (D := D)).
  Proof. discriminate. Qed.
  Lemma flag_bind D X (a : MF F D X) (k : X -> MF F D SetRes) : (forall x, flagM (k x)) -> flagM (mbind a k).
  Proof. intros H e c u n u' tr E. unfold mbind in E. apply bind_Done in E as (x & u1 & t1 & t2 & _ & E2 & _). exact (H _ _ _ _ _ _ _ E2). Qed.
  Ltac flag := repeat first [apply flag_then | apply flag_fail | apply flag_ub | apply flag_bind; intro
    | match goal with |- flagM (match ?x with _ => _ end) => destruct x end
    | match goal with |- flagM (if ?x then _ else _) => destruct x end ].
  Lemma set_flag v f t vr l nV i : f <> Clocks -> flagM (m_set (model_of (F := F) v f) t vr (Some l) nV i).
  Proof.
    intros Hf. destruct f; try congruence; destruct t; cbn; unfold set_not_allowed, bb_setFloat64, da_setFloat64, vp_setFloat64, st_setInt32,
       ro_setFloat64, ro_setBoolean, ss_setFloat64, ss_setUInt64, nnSet; flag.
  Qed.

  Lemma scalar_size v f t vr d k : f <> StateSpace -> vl_size (vars_all (F := F) v f) t vr d = Some k -> k = 1.
  Proof.
    intros Hf E. destruct f; try congruence; cbn in E; unfold sc_size in E;
      match type of E with option_map _ ?x = _ => destruct x; [injection E as <-; reflexivity|discriminate] end.
  Qed.
  Lemma scalar_alone v f t : f <> StateSpace -> vl_alone (vars_all (F := F) v f) t = true.
  Proof. intro Hf. destruct f; try congruence; reflexivity. Qed.

  Lemma clocks_step v env t vr x (i j : Inst F (md (model_of (F := F) v Clocks))) : j = i \/ j = dirtied _ i ->
    match call (model_of v Clocks) env (m_set (model_of v Clocks) t vr (Some [x]) 1 0) i, call (model_of v Clocks) env (m_set (model_of v Clocks) t vr (Some [x]) 1 0) j with
    | Done ((st, k), i', tr), Done ((st', k'), j', tr') => st' = st /\ k' = k /\ tr' = tr /\ (j' = i' \/ j' = dirtied _ i')
    | UB, UB | NoFuel, NoFuel => True
    | _, _ => False
    end.
  Proof.
    intros [->| ->].
    - destruct (call _ _ _ i) as [[[[st k] i'] tr]| |]; auto.
    - rewrite !call_eq.
      assert (Fl : match failSet (F := F) (D := CLData F) 0 env (ctl i) (mut i), failSet (F := F) (D := CLData F) 0 env (ctl i) (set_dirty true (mut i)) with
        | Done ((st, k), u, tr), Done ((st', k'), u', tr') => st' = st /\ k' = k /\ tr' = tr /\ set_mut u' (dirtied _ i) = dirtied (model_of v Clocks) (set_mut u i)
        | _, _ => False end).
      { unfold failSet, mbind, mlogError, mret, bind. destruct (logErrors (ctl i) && hasLogger (ctl i)); cbn; auto. }
      assert (Fl' : match match failSet (F := F) (D := CLData F) 0 env (ctl i) (mut i) with Done (x, u, t0) => Done (x, set_mut u i, t0) | UB => UB | NoFuel => NoFuel end,
          match failSet (F := F) (D := CLData F) 0 env (ctl i) (set_dirty true (mut i)) with Done (x, u, t0) => Done (x, set_mut u (dirtied (model_of v Clocks) i), t0) | UB => UB | NoFuel => NoFuel end with
        | Done ((st, k), i', tr), Done ((st', k'), j', tr') => st' = st /\ k' = k /\ tr' = tr /\ (j' = i' \/ j' = dirtied (model_of v Clocks) i')
        | UB, UB | NoFuel, NoFuel => True | _, _ => False end).
      { destruct (failSet (F := F) (D := CLData F) 0 env (ctl i) (mut i)) as [[[[st k] u] tr]| |]; try contradiction.
        destruct (failSet (F := F) (D := CLData F) 0 env (ctl i) (set_dirty true (mut i))) as [[[[st' k'] u'] tr']| |]; try contradiction.
        destruct Fl as (-> & -> & -> & E). rewrite E. auto. }
      destruct t; try exact Fl'.
      cbn [m_set model_of Clocks_model dirtied ctl mut set_mut]. unfold cl_setInt32. change (nvalues_ok 0 1 1) with true. cbn [negb].
      destruct (cl_var vr) as [[]|]; try exact Fl'.
      unfold take1. change (nvalues_ok 0 1 1) with true. unfold mbind, mrd, mmodd, mmod, mret, rd, modS, ret. unfold bind. cbn. auto.
  Qed.

  Lemma multi_all f szof env t vrs xs s : f <> StateSpace -> reach3 (model_of (F := F) FMI3 f) szof s ->
    length vrs = length xs -> vrs <> [] ->
    match exec3 (model_of FMI3 f) szof 0 env (O3Set t (Some vrs) (length vrs) (Some xs) (length xs)) s,
          singles (model_of FMI3 f) szof env t vrs xs s with
    | Done (st, _, s1, tr), Done (st', s2, tr') => st' = st /\ tr' = tr /\
        (s2 = s1 \/ (f = Clocks /\ s2 = mkSys (dirtied _ (sinst s1)) (heap s1)))
    | UB, UB | NoFuel, NoFuel => True
    | _, _ => False
    end.
  Proof.
    intros Hf R L Hn. pose proof (wf_reach _ _ R) as W.
    assert (Q : f = Clocks \/ f <> Clocks) by (destruct f; auto; right; discriminate). destruct Q as [->|Hc].
    - pose proof (@multi_singles F NF (model_of FMI3 Clocks) cl_laws szof env t (fun i j => j = i \/ j = dirtied _ i)) as K.
      specialize (K ltac:(intros i j [->| ->]; repeat split; auto)).
      specialize (K ltac:(intros vr x i j _ Q; pose proof (@clocks_step FMI3 env t vr x i j Q) as C;
        destruct (call _ _ _ i) as [[[[st k] i'] tr]| |]; destruct (call _ _ _ j) as [[[[st' k'] j'] tr']| |]; auto;
        destruct C as (-> & -> & -> & C); repeat split; auto; destruct st; auto; destruct C as [->| ->]; repeat split; auto)).
      specialize (K eq_refl ltac:(intros vr d k; apply (@scalar_size FMI3 Clocks); discriminate) vrs xs s L Hn W (or_introl eq_refl)).
      destruct (exec3 _ _ _ _ _ _) as [[[[st o] s1] tr]| |]; destruct (singles _ _ _ _ _ _ _) as [[[st' s2] tr']| |]; auto.
      destruct K as (A & B & C & E). split; [exact A|]. split; [exact B|]. destruct s1, s2. cbn in *. subst. destruct E as [->| ->]; auto.
    - pose proof (@multi_singles F NF (model_of FMI3 f) (vars_all FMI3 f) szof env t (fun i j => j = i)) as K.
      specialize (K ltac:(intros i j ->; repeat split; auto)).
      assert (St : forall vr x i j, vl_wf (vars_all FMI3 f) (data (mut i)) -> j = i ->
       match call (model_of FMI3 f) env (m_set (model_of FMI3 f) t vr (Some [x]) 1 0) i, call (model_of FMI3 f) env (m_set (model_of FMI3 f) t vr (Some [x]) 1 0) j with
       | Done ((st, k), i', tr), Done ((st', k'), j', tr') => st' = st /\ k' = k /\ tr' = tr /\
           match st with OK => dirtied _ j' = i' /\ dirtied _ j' = dirtied (model_of FMI3 f) i' | _ => j' = i' end
       | UB, UB | NoFuel, NoFuel => True
       | _, _ => False
       end).
      { intros vr x i j _ ->. rewrite call_eq. pose proof (@set_flag FMI3 f t vr [x] 1 0 Hc env (ctl i) (mut i)) as Fl.
        destruct (m_set _ _ _ _ _ _ _ _ _) as [[[[st k] u] tr]| |]; auto. repeat split; auto. destruct st; auto.
        specialize (Fl _ _ _ eq_refl). split; [|reflexivity]. unfold dirtied. cbn. assert (Eu : set_dirty true u = u) by (destruct u; cbn in *; now subst). now rewrite Eu. }
      specialize (K St (scalar_alone _ _ Hf) ltac:(intros vr d k; now apply scalar_size) vrs xs s L Hn W eq_refl).
      destruct (exec3 _ _ _ _ _ _) as [[[[st o] s1] tr]| |]; destruct (singles _ _ _ _ _ _ _) as [[[st' s2] tr']| |]; auto.
      destruct K as (A & B & C & E). split; [exact A|]. split; [exact B|]. left. destruct s1, s2. cbn in *. congruence.
  Qed.
End Fmus.
