(** Getters.v -- the functions that only read (C07): they keep the relation of Sim.v between the
    instance before and after the call. *)
From Coq Require Import List NArith ZArith Bool Arith Lia.
From Verif Require Import Base Instance ModelIface Core Fmi3 Fmi2 Api Fmus Logic Calls Sim Sim3 SpecState SimRules SimFmus SimFT SimSS.
From Verif Require Import FmuBouncingBall FmuDahlquist FmuStair FmuVanDerPol FmuRoberts
  FmuClocks FmuResource FmuStateSpace FmuFeedthrough.
Import ListNotations.
Set Implicit Arguments.

Section Pure.
  Context {F : Type} {NF : Num F} {D : Type} (P : Rel D).
  (** An invariant of the instance under which [f] is a pure function. *)
  Definition pureM {X} (f : MF F D X) : Prop :=
    forall e c w u x v t, r_env P e -> r_loc P (resourceLocation c) -> mutR P w u -> f e c u = Done (x, v, t) -> mutR P w v.
  Lemma pm_bind X Y (f : MF F D X) (k : X -> MF F D Y) : pureM f -> (forall x, pureM (k x)) -> pureM (mbind f k).
  Proof.
    intros A B e c w u x v t He Hl H E. unfold mbind in E.
    apply bind_Done in E as (y & s1 & t1 & t2 & E1 & E2 & ->). eapply B; [exact He|exact Hl|eapply A; eassumption|exact E2].
  Qed.
  Lemma pm_ret X (x : X) : pureM (mret x).
  Proof. intros e c w u y v t He Hl H E. inversion E; subst. exact H. Qed.
  Lemma pm_ctl : pureM mctl.
  Proof. intros e c w u y v t He Hl H E. inversion E; subst. exact H. Qed.
  Lemma pm_env : pureM menv.
  Proof. intros e c w u y v t He Hl H E. inversion E; subst. exact H. Qed.
  Lemma pm_get : pureM mget.
  Proof. intros e c w u y v t He Hl H E. inversion E; subst. exact H. Qed.
  Lemma pm_data : pureM mdata.
  Proof. intros e c w u y v t He Hl H E. inversion E; subst. exact H. Qed.
  Lemma pm_ub X : pureM (mub : MF F D X).
  Proof. intros e c w u y v t He Hl H E. discriminate. Qed.
  Lemma pm_rd T (b : Buf T) i : pureM (mrd b i).
  Proof.
    intros e c w u y v t He Hl H E. unfold mrd, rd in E. destruct b as [l|]; [destruct (nth_error l i)|]; inversion E; subst; exact H.
  Qed.
  Lemma pm_wr T (b : Buf T) i x : pureM (mwr b i x).
  Proof.
    intros e c w u y v t He Hl H E. unfold mwr, wr in E. destruct b as [l|]; [destruct (Nat.ltb i (length l))|]; inversion E; subst; exact H.
  Qed.
  Lemma pm_log : pureM mlogError.
  Proof.
    intros e c w u y v t He Hl H E. unfold mlogError in E. destruct (logErrors c && hasLogger c); inversion E; subst; exact H.
  Qed.
  Lemma pm_failGet T (b : Buf T) i : pureM (failGet b i).
  Proof. apply pm_bind; [apply pm_log|]. intro. apply pm_ret. Qed.
  Lemma pm_failSet i : pureM (failSet i).
  Proof. apply pm_bind; [apply pm_log|]. intro. apply pm_ret. Qed.
  Lemma pm_put1 T (b : Buf T) n i x : pureM (put1 b n i x).
  Proof.
    unfold put1. destruct (nvalues_ok i 1 n); [|apply pm_failGet].
    apply pm_bind; [apply pm_wr|]. intro. apply pm_ret.
  Qed.
  Lemma pm_putl T : forall l (b : Buf T) i, pureM (putl b i l).
  Proof.
    induction l as [|a l IH]; intros b i; cbn; [apply pm_ret|]. apply pm_bind; [apply pm_wr|]. intro. apply IH.
  Qed.
  Lemma pm_writel T : forall l (b : Buf T) i, pureM (writel b i l).
  Proof.
    induction l as [|a l IH]; intros b i; cbn; [apply pm_ret|]. apply pm_bind; [apply pm_wr|]. intro. apply IH.
  Qed.
End Pure.

(** The reading functions of an FMU. *)
Record GetLaws {F : Type} {NF : Num F} (m : Model F) (P : Rel (md m)) : Prop := {
  gl_dirty : ~ r_dirty P;
  gl_calc : pureM (F := F) P (m_calculateValues m);
  gl_get : forall t vr b n i, pureM P (m_get m t vr b n i);
  gl_bin : forall vr z b n i, pureM P (m_getBinary m vr z b n i);
  gl_states : forall x n, pureM P (m_getContinuousStates m x n);
  gl_nominals : forall x n, pureM P (m_getNominals m x n);
  gl_derivatives : forall x n, pureM P (m_getDerivatives m x n);
  gl_indicators : forall x n, pureM P (m_getEventIndicators m x n);
  gl_output : forall b vr o, pureM P (m_getOutputDerivative m b vr o);
  gl_partial : forall a b, pureM P (m_getPartialDerivative m a b) }.
Record ClockLaws {F : Type} {NF : Num F} (m : Model F) (P : Rel (md m)) : Prop := {
  kl_clock : forall vr, pureM (F := F) P (m_getClock m vr);
  kl_interval : forall vr, pureM P (m_getInterval m vr) }.

Section Quiet.
  Context {F : Type} {NF : Num F} (m : Model F) (P : Rel (md m)) (env : Env).
  Notation D := (md m).
  Hypothesis He : r_env P env.
  Hypothesis ND : ~ r_dirty P.

  Definition near (i j : Inst F D) : Prop :=
    r_loc P (resourceLocation (ctl j)) /\ mutR P (mut i) (mut j) /\ sol j = sol i.
  Definition quiet {X} (f : AF F D X) : Prop :=
    forall i j x k t, near i j -> f j = Done (x, k, t) -> near i k.

  Lemma q_ret X (x : X) : quiet (ret x).
  Proof. intros i j y k t H E. inversion E; subst. exact H. Qed.
  Lemma q_bind X Y (f : AF F D X) (k : X -> AF F D Y) : quiet f -> (forall x, quiet (k x)) -> quiet (bind f k).
  Proof.
    intros A B i j y l t H E. apply bind_Done in E as (z & s1 & t1 & t2 & E1 & E2 & ->).
    eapply B; [|exact E2]. eapply A; eassumption.
  Qed.
  Lemma q_ub X : quiet (ubM : AF F D X).
  Proof. intros i j y k t H E. discriminate. Qed.
  Lemma q_rd T (b : Buf T) n : quiet (rd b n).
  Proof. intros i j y k t H E. unfold rd in E. destruct b as [l|]; [destruct (nth_error l n)|]; inversion E; subst; exact H. Qed.
  Lemma q_wr T (b : Buf T) n x : quiet (wr b n x).
  Proof. intros i j y k t H E. unfold wr in E. destruct b as [l|]; [destruct (Nat.ltb n (length l))|]; inversion E; subst; exact H. Qed.
  Lemma q_getC : quiet (getC m).
  Proof. intros i j y k t H E. inversion E; subst. exact H. Qed.
  Lemma q_getM : quiet (getM m).
  Proof. intros i j y k t H E. inversion E; subst. exact H. Qed.
  Lemma q_call X (f : MF F D X) : pureM P f -> quiet (call m env f).
  Proof.
    intros A i j y k t (H1 & H2 & H3) E. unfold call in E.
    destruct (f env (ctl j) (mut j)) as [[[x u] t']| |] eqn:Ef; inversion E; subst.
    split; [exact H1|]. split; [|exact H3]. eapply A; [exact He|exact H1|exact H2|exact Ef].
  Qed.
  Lemma q_log : quiet (logError m env).
  Proof. apply q_call. apply pm_log. Qed.
  Lemma q_setMode s : quiet (setMode m s).
  Proof. intros i j y k t (H1 & H2 & H3) E. inversion E; subst. split; [exact H1|]. split; assumption. Qed.
  Lemma q_dirty b : quiet (modM m (set_dirty b)).
  Proof.
    intros i j y k t (H1 & H2 & H3) E. inversion E; subst. split; [exact H1|]. split; [|exact H3].
    destruct H2. constructor; cbn; auto. intro Z. contradiction.
  Qed.
  Lemma q_CALL st s : quiet (CALL m st s).
  Proof.
    unfold CALL. destruct (smax st s); try apply q_ret; (apply q_bind; [apply q_setMode|intro; apply q_ret]).
  Qed.
  Lemma q_CALLk X st s (x : X) k : (forall st', quiet (k st')) -> quiet (CALLk m st s x k).
  Proof.
    intro H. unfold CALLk. apply q_bind; [apply q_CALL|]. intro st'. destruct (stops st'); [apply q_ret|apply H].
  Qed.
  Lemma q_BEGIN X mask (x : X) k : quiet k -> quiet (BEGIN m env mask x k).
  Proof.
    intro H. unfold BEGIN, allowedState. apply q_bind.
    - apply q_bind; [apply q_getC|]. intro c. destruct (N.eqb _ _); [|apply q_ret].
      apply q_bind; [apply q_log|intro; apply q_ret].
    - intros []; [exact H|]. apply q_CALLk. auto.
  Qed.
  Lemma q_BEGIN2 X mask (x : X) k : quiet k -> quiet (BEGIN2 m env mask x k).
  Proof.
    intro H. unfold BEGIN2, allowedState2. apply q_bind.
    - apply q_bind; [apply q_getC|]. intro c. destruct (N.eqb _ _); [|apply q_ret].
      apply q_bind; [apply q_log|intro; apply q_ret].
    - intros []; [exact H|]. apply q_CALLk. auto.
  Qed.
  Lemma q_notnull T X (p : option T) (x : X) k : quiet k -> quiet (ASSERT_NOT_NULL m env p x k).
  Proof.
    intro H. unfold ASSERT_NOT_NULL. destruct p; [exact H|].
    apply q_bind; [apply q_log|intro]. apply q_bind; [apply q_setMode|intro]. apply q_ret.
  Qed.
  Lemma q_refresh X st (x : X) k : pureM P (m_calculateValues m) -> (forall st', quiet (k st')) -> quiet (refresh m env st x k).
  Proof.
    intros G H. unfold refresh. apply q_bind; [apply q_getM|]. intro u. destruct (dirty u); [|apply H].
    apply q_bind; [now apply q_call|]. intro s. apply q_CALLk. intro. apply q_bind; [apply q_dirty|]. intro. apply H.
  Qed.
  Lemma q_get_loop t : (forall vr b n i, pureM P (m_get m t vr b n i)) ->
    forall n vrs b nv i st, quiet (get_loop m env t vrs n b nv i st).
  Proof.
    intro G. induction n as [|n IH]; intros vrs b nv i st; cbn [get_loop]; [apply q_ret|].
    destruct vrs as [|vr vrs]; [apply q_ub|]. apply q_bind; [apply q_call, G|].
    intros [[s b'] i']. apply q_bind; [apply q_CALL|]. intro st'. destruct (stops st'); [apply q_ret|apply IH].
  Qed.
  Lemma q_bin_loop : (forall vr z b n i, pureM P (m_getBinary m vr z b n i)) ->
    forall n vrs z b nv i st, quiet (getBinary_loop m env vrs n z b nv i st).
  Proof.
    intro G. induction n as [|n IH]; intros vrs z b nv i st; cbn [getBinary_loop]; [apply q_ret|].
    destruct vrs as [|vr vrs]; [apply q_ub|]. apply q_bind; [apply q_call, G|].
    intros [[[s z'] b'] i']. apply q_CALLk. intro. apply IH.
  Qed.
  Lemma q_clock_loop : (forall vr, pureM P (m_getClock m vr)) ->
    forall n vrs i b st, quiet (getClock_loop m env vrs n i b st).
  Proof.
    intro G. induction n as [|n IH]; intros vrs i b st; cbn [getClock_loop]; [apply q_ret|].
    apply q_bind; [apply q_rd|intro]. apply q_bind; [apply q_call, G|]. intros [s o]. cbn.
    apply q_bind; [destruct o; [apply q_wr|apply q_ret]|]. intro. apply q_CALLk. intro. apply IH.
  Qed.
  Lemma q_interval_loop : (forall vr, pureM P (m_getInterval m vr)) ->
    forall n vrs i b q st, quiet (interval_loop m env vrs n i b q st).
  Proof.
    intro G. induction n as [|n IH]; intros vrs i b q st; cbn [interval_loop]; [apply q_ret|].
    apply q_bind; [apply q_rd|intro]. apply q_bind; [apply q_call, G|]. intros [[s o] o'].
    apply q_bind; [destruct o; [apply q_wr|apply q_ret]|]. intro.
    apply q_bind; [destruct o'; [apply q_wr|apply q_ret]|]. intro. apply q_CALLk. intro. apply IH.
  Qed.
  Lemma q_row pd : (forall o, pureM P (pd o)) -> forall n others j seed acc st,
    quiet (deriv_row m env pd others n j seed acc st).
  Proof.
    intro G. induction n as [|n IH]; intros others j seed acc st; cbn [deriv_row]; [apply q_ret|].
    apply q_bind; [apply q_rd|intro]. apply q_bind; [apply q_call, G|intro]. apply q_bind; [apply q_CALL|].
    intro st'. destruct (stops st'); [apply q_ret|]. apply q_bind; [apply q_rd|intro]. apply IH.
  Qed.
  Lemma q_rows pd : (forall r o, pureM P (pd r o)) -> forall n rows i others k seed sens st,
    quiet (deriv_rows m env pd rows n i others k seed sens st).
  Proof.
    intro G. induction n as [|n IH]; intros rows i others k seed sens st; cbn [deriv_rows]; [apply q_ret|].
    apply q_bind; [apply q_wr|intro]. destruct (Nat.eqb k 0); [apply IH|].
    apply q_bind; [apply q_rd|intro]. apply q_bind; [apply q_row; intro; apply G|]. intros [st' acc].
    apply q_bind; [apply q_wr|intro]. destruct (stops st'); [apply q_ret|apply IH].
  Qed.
  Lemma q_array mask (f : Buf F -> nat -> MF F D (Status * Buf F)) x n : (forall x n, pureM P (f x n)) ->
    quiet (BEGIN m env mask x (bind (call m env (f x n)) (fun r => CALLk m OK (fst r) (snd r) (fun st => ret (st, snd r))))).
  Proof.
    intro G. apply q_BEGIN. apply q_bind; [apply q_call, G|]. intro. apply q_CALLk. intro. apply q_ret.
  Qed.
  Lemma q_array2 mask (f : Buf F -> nat -> MF F D (Status * Buf F)) x n : (forall x n, pureM P (f x n)) ->
    quiet (fmi2GetArray m env mask f x n).
  Proof.
    intro G. apply q_BEGIN2. apply q_bind; [apply q_call, G|]. intro. apply q_CALLk. intro. apply q_ret.
  Qed.
End Quiet.

Section Reads.
  Context {F : Type} {NF : Num F} (m : Model F) (P : Rel (md m)) (szof : N).
  Notation D := (md m).
  Hypothesis G : GetLaws m P.

  Lemma q_output_loop env : r_env P env -> forall n vrs i orders values st,
    quiet m P (outputDerivative_loop m env vrs n i orders values st).
  Proof.
    intro He. induction n as [|n IH]; intros vrs i orders values st; cbn [outputDerivative_loop]; [apply q_ret|].
    apply q_bind; [apply q_rd|intro]. apply q_bind; [apply q_rd|intro].
    destruct (isNull values && _); [apply q_ub|].
    apply q_bind; [apply q_call; [exact He|apply (gl_output G)]|]. intros [s o]. cbn.
    apply q_bind; [destruct o; [apply q_wr|apply q_ret]|]. intro. apply q_CALLk. intro. apply IH.
  Qed.
  Lemma q_getBoolean_loop env : r_env P env -> forall n vrs i nvr values st,
    quiet m P (getBoolean_loop m env vrs n i nvr values st).
  Proof.
    intro He. induction n as [|n IH]; intros vrs i nvr values st; cbn [getBoolean_loop]; [apply q_ret|].
    apply q_bind; [apply q_rd|intro].
    apply q_bind; [apply q_call; [exact He|apply (gl_get G)]|]. intros [[s v] ?].
    apply q_CALLk. intro. apply q_bind; [apply q_rd|intro]. apply q_bind; [apply q_wr|intro]. apply IH.
  Qed.

  Lemma near_outI X (f : AF F D (Status * X)) o s st out s' t : quiet m P f ->
    near m P (sinst s) (sinst s) ->
    outI m f o s = Done (st, out, s', t) -> near m P (sinst s) (sinst s') /\ heap s' = heap s.
  Proof.
    intros Q N E. rewrite outI_eq in E. destruct (f (sinst s)) as [[[[st0 x] j] t0]| |] eqn:Ef; try discriminate.
    injection E; intros; subst. cbn. split; [|reflexivity]. eapply Q; eassumption.
  Qed.

  Ltac q1 := match goal with
    | |- quiet _ _ (BEGIN _ _ _ _ _) => apply q_BEGIN
    | |- quiet _ _ (BEGIN2 _ _ _ _ _) => apply q_BEGIN2
    | |- quiet _ _ (ASSERT_NOT_NULL _ _ _ _ _) => apply q_notnull
    | |- quiet _ _ (if ?b then _ else _) => destruct b
    | |- quiet _ _ (refresh _ _ _ _ _) => apply q_refresh; [assumption|apply (gl_dirty G)|apply (gl_calc G)|intro]
    | |- quiet _ _ (ret _) => apply q_ret
    | |- quiet _ _ ubM => apply q_ub
    | |- quiet _ _ (CALLk _ _ _ _ _) => apply q_CALLk; intro
    | |- quiet _ _ (logError _ _) => apply q_log; assumption
    | |- quiet _ _ (getC _) => apply q_getC
    | |- quiet _ _ (getM _) => apply q_getM
    | |- quiet _ _ (call _ _ _) => apply q_call; [assumption|]
    | |- quiet _ _ (get_loop _ _ _ _ _ _ _ _ _) => apply q_get_loop; [assumption|apply (gl_get G)]
    | |- quiet _ _ (getBinary_loop _ _ _ _ _ _ _ _ _) => apply q_bin_loop; [assumption|apply (gl_bin G)]
    | |- quiet _ _ (deriv_rows _ _ _ _ _ _ _ _ _ _ _) => apply q_rows; [assumption|intros; apply (gl_partial G)]
    | |- quiet _ _ (outputDerivative_loop _ _ _ _ _ _ _ _) => apply q_output_loop; assumption
    | |- quiet _ _ (getBoolean_loop _ _ _ _ _ _ _ _) => apply q_getBoolean_loop; assumption
    | |- quiet _ _ (bind _ _) => apply q_bind; [|intro]
    | |- quiet _ _ (let '(_, _) := ?x in _) => destruct x
    end.
  Ltac qs := repeat (q1; try assumption).

  Lemma reads3_near ck fuel env o s st out s' t : r_env P env -> (ck = true -> ClockLaws m P) -> reads3 ck o = true ->
    near m P (sinst s) (sinst s) -> exec3 m szof fuel env o s = Done (st, out, s', t) ->
    near m P (sinst s) (sinst s') /\ heap s' = heap s.
  Proof.
    intros He K R N E. destruct o; cbn [reads3] in R; try discriminate; cbn [exec3] in E;
      try (eapply near_outI; [|exact N|exact E]; clear E).
    - unfold fmi3Get. qs.
    - unfold fmi3GetBinary. qs.
    - unfold fmi3GetClock. qs. apply q_clock_loop; [exact He|apply (kl_clock (K R))].
    - (* SerializedFMUStateSize *) rewrite (outS_eq (m := m)) in E. unfold fmi3SerializedFMUStateSize in E.
      unfold BEGIN3S in E.
      unfold bind in E at 1. unfold onInst in E at 1. destruct (allowedState m env MASK_AnyState (sinst s)) as [[[b i1] t1]| |] eqn:Ea;
        try discriminate.
      assert (N1 : near m P (sinst s) i1).
      { revert Ea. apply (@q_bind F m P _ _ (getC m)); [apply q_getC| |exact N].
        intro c. destruct (N.eqb _ _); qs. }
      destruct b.
      + destruct p; cbn in E; inversion E; subst. split; [exact N1|reflexivity].
      + assert (Q : quiet m P (CALLk m OK Error (@None BinNums.N) (fun _ => ret (OK, None)))) by qs.
        unfold onInst in E. cbn [sinst heap] in E.
        destruct (CALLk m OK Error None (fun _ => ret (OK, None)) i1) as [[[[st0 x] i2] t2]| |] eqn:Ec; try discriminate.
        inversion E; subst. cbn. split; [eapply Q; eassumption|reflexivity].
    - unfold fmi3GetDirectionalDerivative. qs.
    - unfold fmi3GetAdjointDerivative. qs.
    - unfold fmi3GetIntervalDecimal. qs. apply q_interval_loop; [exact He|apply (kl_interval (K R))].
    - apply q_array; [exact He|apply (gl_derivatives G)].
    - apply q_array; [exact He|apply (gl_indicators G)].
    - apply q_array; [exact He|apply (gl_states G)].
    - apply q_array; [exact He|apply (gl_nominals G)].
    - unfold fmi3GetNumberOfEventIndicators, fmi3GetNumber. qs.
    - unfold fmi3GetNumberOfContinuousStates, fmi3GetNumber. qs.
    - unfold fmi3GetOutputDerivatives, NOT_IMPLEMENTED. qs.
  Qed.
  Lemma reads2_near fuel env o s st out s' t : r_env P env -> reads2 o = true ->
    near m P (sinst s) (sinst s) -> exec2 m szof fuel env o s = Done (st, out, s', t) ->
    near m P (sinst s) (sinst s') /\ heap s' = heap s.
  Proof.
    intros He R N E. destruct o; cbn [reads2] in R; try discriminate; cbn [exec2] in E;
      try (eapply near_outI; [|exact N|exact E]; clear E).
    - unfold fmi2GetV. qs.
    - unfold fmi2GetBoolean. qs.
    - (* SerializedFMUstateSize *) rewrite (outS_eq (m := m)) in E. unfold fmi2SerializedFMUstateSize in E.
      unfold BEGIN2S in E.
      unfold bind in E at 1. unfold onInst in E at 1. destruct (allowedState2 m env MASK2_FMUstate (sinst s)) as [[[b i1] t1]| |] eqn:Ea;
        try discriminate.
      assert (N1 : near m P (sinst s) i1).
      { revert Ea. apply (@q_bind F m P _ _ (getC m)); [apply q_getC| |exact N].
        intro c. destruct (N.eqb _ _); qs. }
      destruct b.
      + destruct p; cbn in E; inversion E; subst. split; [exact N1|reflexivity].
      + assert (Q : quiet m P (CALLk m OK Error (@None BinNums.N) (fun _ => ret (OK, None)))) by qs.
        unfold onInst in E. cbn [sinst heap] in E.
        destruct (CALLk m OK Error None (fun _ => ret (OK, None)) i1) as [[[[st0 x] i2] t2]| |] eqn:Ec; try discriminate.
        inversion E; subst. cbn. split; [eapply Q; eassumption|reflexivity].
    - unfold fmi2GetDirectionalDerivative. qs.
    - unfold fmi2GetRealOutputDerivatives. qs.
    - unfold fmi2GetStatus, getStatus. qs.
    - unfold fmi2GetRealStatus, getStatus. qs. destruct k; qs.
    - unfold fmi2GetBooleanStatus, getStatus. qs. destruct k; qs.
    - apply q_array2; [exact He|apply (gl_derivatives G)].
    - apply q_array2; [exact He|apply (gl_indicators G)].
    - apply q_array2; [exact He|apply (gl_states G)].
    - apply q_array2; [exact He|apply (gl_nominals G)].
  Qed.
End Reads.
