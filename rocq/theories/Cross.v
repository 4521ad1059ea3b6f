(** Cross.v -- the FMI 2 and the FMI 3 functions on the same FMU, side by side (C23). *)
From Coq Require Import List NArith ZArith Bool Arith Lia.
From Verif Require Import Base Instance ModelIface Core Fmi3 Fmi2 Api Logic SpecModes Gate Frame Frame3 Effect Calls Sim Sim3 Dyn Solver Steps SpecCross.
Import ListNotations.
Set Implicit Arguments.

Lemma when3_modes {F D} (o : Op3 F D) x : In x (when3 o) -> In x modes3.
Proof.
  assert (K : forall l, incl l modes3 -> In x l -> In x modes3) by auto.
  destruct o; try destruct t; cbn [when3]; try (apply K; apply incl_refl); apply K; intros y H;
    repeat (destruct H as [<-|H]; [cbn; tauto|]); destruct H.
Qed.
Lemma mode3_id x : x <> StepComplete -> mode3 x = x.
Proof. now destruct x. Qed.

Section Cross.
  Context {F : Type} {NF : Num F} (m : Model F) (P : Rel (md m)).
  Notation D := (md m).
  Hypothesis L : SimLaws m P.
  Hypothesis W : Laws m.
  Hypothesis He : forall env, r_env P env.
  Hypothesis XC : r_cross P = true.
  Hypothesis LG : r_log P.

  (** The types of [basic], and Boolean. *)
  Definition shared (t : VType) : bool := match t with TBoolean => true | t => basic t end.
  Lemma basic_shared t : basic t = true -> shared t = true.
  Proof. destruct t; auto. Qed.
  (** Getters and setters move on by one value. *)
  Definition advG : Prop := forall env t vr values nv index c u s v ix u' tr, shared t = true ->
    m_get m t vr values nv index env c u = Done ((s, v, ix), u', tr) -> s = OK -> ix = S index.
  Definition advS : Prop := forall env t vr values nv index c u s ix u' tr, shared t = true ->
    m_set m t vr values nv index env c u = Done ((s, ix), u', tr) -> s = OK -> ix = S index.
  Hypothesis AG : advG.
  Hypothesis AS : advS.
  Hypothesis ND : ~ r_dirty P.
  (** A Boolean is read and written alike at every place of the array. *)
  Hypothesis BG : forall vr l nv index e c u, index < nv ->
    m_get m TBoolean vr (Some l) nv index e c u =
    match m_get m TBoolean vr (Some [false]) nv 0 e c u with
    | Done ((OK, v, _), u', t) => match v with Some (b :: _) => if Nat.ltb index (length l) then Done ((OK, Some (upd l index b), S index), u', t) else UB | _ => UB end
    | Done ((st, _, _), u', t) => Done ((st, Some l, index), u', t)
    | UB => UB
    | NoFuel => NoFuel
    end.
  Hypothesis BS : forall vr l nv index b e c u, index < nv -> nth_error l index = Some b ->
    m_set m TBoolean vr (Some l) nv index e c u =
    match m_set m TBoolean vr (Some [b]) nv 0 e c u with
    | Done ((OK, _), u', t) => Done ((OK, S index), u', t)
    | Done ((st, _), u', t) => Done ((st, index), u', t)
    | UB => UB
    | NoFuel => NoFuel
    end.

  (** What get and set calls leave alone while the FMU is stepped. *)
  Context (Keep : Mut F D -> Mut F D -> Prop).
  Hypothesis Krefl : forall u, Keep u u.
  Hypothesis Kdirty : forall u b, Keep u (set_dirty b u).
  Hypothesis Ktrans : forall a b c, Keep a b -> Keep b c -> Keep a c.
  Definition calm (c : Ctl F) : Prop := mode c = StepComplete \/ mode c = Terminated \/ mode c = StartAndEnd.
  Definition keeps {X} (f : MF F D X) : Prop := forall e c u x u' t, calm c -> f e c u = Done (x, u', t) -> Keep u u'.
  Hypothesis Kget : forall t vr values nv index, keeps (m_get m t vr values nv index).
  Hypothesis Kset : forall t vr values nv index, keeps (m_set m t vr values nv index).
  Hypothesis Kcalc : keeps (m_calculateValues m).
  Hypothesis Kpart : forall a b, keeps (m_getPartialDerivative m a b).
  (** How the solver data correspond while the FMU is stepped. *)
  Context (solX : Mut F D -> Sol F -> Sol F -> Prop).
  Hypothesis solX_keep : forall d d' o o', Keep d d' -> solX d o o' -> solX d' o o'.
  (** The solver has just been set up: it knows the numbers of states and event indicators. *)
  Definition readied (o : Sol F) : Prop :=
    (0 < m_maxZ m -> exists u, nz o = m_nz m u) /\ (0 < m_maxX m -> exists u, nx o = m_nx m u).
  Hypothesis solX_start : forall u o o', solR m True o o' -> readied o -> solX u o o'.
  (** Restored solver data correspond like the saved ones. *)
  Hypothesis solX_restore : forall u o o' a a' r r', solX u o o' -> sizesR m r -> sizesR m r' ->
    restoreSol o a = Some r -> restoreSol o' a' = Some r' -> solX u r r'.

  Definition live (x : ModelState) : Prop := x = InitializationMode \/ x = StepComplete.
  Record K (b : bool) (i j : Inst F D) : Prop := mkK {
    k_inst : instR m P (b = false /\ live (mode (ctl i))) False i j;
    k_mode : mode (ctl j) = mode3 (mode (ctl i));
    k_sol : mode (ctl i) = StepComplete -> solX (mut i) (sol i) (sol j);
    k_type : itype (ctl i) <> ScheduledExecution;
    k_event : eventModeUsed (ctl i) = false;
    k_early : earlyReturnAllowed (ctl i) = false }.

  Lemma bind_ext_Done X Y (f : AF F D X) (k l : X -> AF F D Y) i :
    (forall x i' t, f i = Done (x, i', t) -> k x i' = l x i') -> bind f k i = bind f l i.
  Proof. intro H. unfold bind. destruct (f i) as [[[x i'] t]| |] eqn:E; auto. now rewrite (H x i' t eq_refl). Qed.

  (** ** Functions that leave the solver data and the kept data alone; [kp]: also in the modes
      in which the FMU is stepped. *)
  Definition ctlS (c c' : Ctl F) : Prop := c' = c \/ exists x, (x = Terminated \/ x = StartAndEnd) /\ c' = set_mode x c.
  Lemma ctlS_refl c : ctlS c c.
  Proof. now left. Qed.
  Lemma ctlS_trans c c1 c2 : ctlS c c1 -> ctlS c1 c2 -> ctlS c c2.
  Proof.
    intros [->|(x & H & ->)]; [auto|]. intros [->|(y & H' & ->)]; [right; eauto|].
    right. exists y. split; [exact H'|]. now destruct c.
  Qed.
  Lemma ctlS_calm c c' : ctlS c c' -> calm c -> calm c'.
  Proof. intros [->|(x & H & ->)]; [auto|]. intros _. now right. Qed.
  Definition still (kp : bool) {X} (f : AF F D X) : Prop := forall i x i' t, f i = Done (x, i', t) ->
    sol i' = sol i /\ ctlS (ctl i) (ctl i') /\ (kp = true -> calm (ctl i) -> Keep (mut i) (mut i')).
  Section Still.
  Context (kp : bool).
  Notation still := (still kp).
  Lemma st_ret X (x : X) : still (ret x).
  Proof. intros i y i' t E. inversion E; subst. split; [reflexivity|]. split; [apply ctlS_refl|auto]. Qed.
  Lemma st_ub X : still (ubM : AF F D X).
  Proof. intros i y i' t E. discriminate. Qed.
  Lemma st_bind X Y (f : AF F D X) (k : X -> AF F D Y) : still f -> (forall x, still (k x)) -> still (bind f k).
  Proof.
    intros A B i y i' t E. apply bind_Done in E as (z & s1 & t1 & t2 & E1 & E2 & ->).
    destruct (A _ _ _ _ E1) as (S1 & C1 & K1), (B _ _ _ _ _ E2) as (S2 & C2 & K2). split; [congruence|].
    split; [eapply ctlS_trans; eauto|]. intros Hk C. eauto using ctlS_calm.
  Qed.
  Lemma st_rd T (b : Buf T) n : still (rd b n).
  Proof. intros i y k t E. unfold rd in E. destruct b as [l|]; [destruct (nth_error l n)|]; inversion E; subst. split; [reflexivity|]. split; [apply ctlS_refl|auto]. Qed.
  Lemma st_wr T (b : Buf T) n x : still (wr b n x).
  Proof. intros i y k t E. unfold wr in E. destruct b as [l|]; [destruct (Nat.ltb n (length l))|]; inversion E; subst. split; [reflexivity|]. split; [apply ctlS_refl|auto]. Qed.
  Lemma st_getC : still (getC m).
  Proof. intros i y i' t E. inversion E; subst. split; [reflexivity|]. split; [apply ctlS_refl|auto]. Qed.
  Lemma st_getM : still (getM m).
  Proof. intros i y i' t E. inversion E; subst. split; [reflexivity|]. split; [apply ctlS_refl|auto]. Qed.
  Lemma st_dirty b : still (modM m (set_dirty b)).
  Proof. intros i y i' t E. inversion E; subst. split; [reflexivity|]. split; [apply ctlS_refl|]. intros _ _. apply Kdirty. Qed.
  Lemma st_mode x : x = Terminated \/ x = StartAndEnd -> still (setMode m x).
  Proof. intros H i y i' t E. inversion E; subst. split; [reflexivity|]. split; [right; eauto|]. intros _ _. apply Krefl. Qed.
  Lemma st_term : still (setMode m Terminated).
  Proof. apply st_mode. now left. Qed.
  Lemma st_call env X (f : MF F D X) : (kp = true -> keeps f) -> still (call m env f).
  Proof.
    intros H i y i' t E. unfold call in E. destruct (f env (ctl i) (mut i)) as [[[z u] t']| |] eqn:Ef; inversion E; subst.
    split; [reflexivity|]. split; [apply ctlS_refl|]. intros Hk C. eapply H; eauto.
  Qed.
  Lemma st_log env : still (logError m env).
  Proof. intros i y i' t E. rewrite logError_eq in E. inversion E; subst. split; [reflexivity|]. split; [apply ctlS_refl|auto]. Qed.
  Lemma st_CALL st s : still (CALL m st s).
  Proof. unfold CALL. destruct (smax st s); try apply st_ret; (apply st_bind; [apply st_mode; tauto|intro; apply st_ret]). Qed.
  Lemma st_CALLk X st s (x : X) k : (forall st', still (k st')) -> still (CALLk m st s x k).
  Proof. intro H. unfold CALLk. apply st_bind; [apply st_CALL|]. intro st'. destruct (stops st'); [apply st_ret|apply H]. Qed.
  Lemma st_refresh env X st (x : X) k : (forall st', still (k st')) -> still (refresh m env st x k).
  Proof.
    intro H. unfold refresh. apply st_bind; [apply st_getM|]. intro u. destruct (dirty u); [|apply H].
    apply st_bind; [now apply st_call|]. intro s. apply st_CALLk. intro st'. apply st_bind; [apply st_dirty|]. intros _. apply H.
  Qed.
  Lemma st_get_loop env t n : forall vrs values nv index st, still (get_loop m env t vrs n values nv index st).
  Proof.
    induction n as [|n IH]; intros; cbn [get_loop]; [apply st_ret|]. destruct vrs as [|vr vrs]; [apply st_ub|].
    apply st_bind; [apply st_call; auto|]. intros [[s v] ix]. apply st_bind; [apply st_CALL|]. intro st'. destruct (stops st'); [apply st_ret|apply IH].
  Qed.
  Lemma st_set_loop env t n : forall vrs values nv index st, still (set_loop m env t vrs n values nv index st).
  Proof.
    induction n as [|n IH]; intros; cbn [set_loop]; [apply st_ret|]. destruct vrs as [|vr vrs]; [apply st_ub|].
    apply st_bind; [apply st_call; auto|]. intros [s ix]. apply st_bind; [apply st_CALL|]. intro st'. destruct (stops st'); [apply st_ret|apply IH].
  Qed.
  Lemma st_row env pd others n : (forall a, keeps (pd a)) -> forall k seed acc st, still (deriv_row m env pd others n k seed acc st).
  Proof.
    intro H. induction n as [|n IH]; intros; cbn [deriv_row]; [apply st_ret|].
    apply st_bind; [apply st_rd|]. intro o. apply st_bind; [apply st_call; auto|]. intros [s v].
    apply st_bind; [apply st_CALL|]. intro st'. destruct (stops st'); [apply st_ret|].
    apply st_bind; [apply st_rd|]. intro w. apply IH.
  Qed.
  Lemma st_rows env pd rows n others no : (forall a b, keeps (pd a b)) ->
    forall k seed sens st, still (deriv_rows m env pd rows n k others no seed sens st).
  Proof.
    intro H. induction n as [|n IH]; intros; cbn [deriv_rows]; [apply st_ret|].
    apply st_bind; [apply st_wr|]. intro sens'. destruct (Nat.eqb no 0); [apply IH|].
    apply st_bind; [apply st_rd|]. intro r. apply st_bind; [now apply st_row|]. intros [st' acc].
    apply st_bind; [apply st_wr|]. intro sens2. destruct (stops st'); [apply st_ret|apply IH].
  Qed.
  End Still.

  (** ** Bodies shared by both versions *)
  Section Body.
    Context (env : Env).
    Notation He' := (He env).
    Notation same := (Sim3.same m P).

    Definition get_body t (vrs : list N) (values : list (val F t)) : AF F D (Status * Buf (val F t)) :=
      (if Nat.eqb (length vrs) 0 then ret (OK, Some values) else
       refresh m env OK (Some values) (fun st =>
       let* r := get_loop m env t vrs (length vrs) (Some values) (length vrs) 0 st in
       let '(st, values', _) := r in ret (st, values')))%sw.
    Definition set_body t (vrs : list N) (values : list (val F t)) : AF F D (Status * unit) :=
      (if Nat.eqb (length vrs) 0 then ret (OK, tt) else
       let* r := set_loop m env t vrs (length vrs) (Some values) (length vrs) 0 OK in
       let '(st, _) := r in
       if stops st then ret (st, tt) else modM m (set_dirty true) ;;; ret (st, tt))%sw.
    Lemma get_index t : shared t = true -> forall n vrs values nv index i st' v ix i' tr,
      get_loop m env t vrs n values nv index OK i = Done ((st', v, ix), i', tr) -> stops st' = false -> ix = index + n.
    Proof.
      intro B. induction n as [|n IH]; intros vrs values nv index i st' v ix i' tr; cbn [get_loop].
      - intros E. inversion E; subst. intros. now rewrite Nat.add_0_r.
      - destruct vrs as [|vr vrs]; [discriminate|]. intros E S.
        apply bind_Done in E as ([[s v1] ix1] & i1 & t1 & t2 & E1 & E2 & ->).
        assert (s = OK \/ s = Error) as [->| ->].
        { unfold call in E1. pose proof (l_get W t vr values nv index env (ctl i) (mut i)) as G. unfold Logic.gd in G.
          destruct (m_get m t vr values nv index env (ctl i) (mut i)) as [[[r u] t']| |]; inversion E1; subst. apply G. }
        2: { rewrite CALL_err in E2. inversion E2; subst. discriminate. }
        rewrite CALL_ok in E2. cbn [stops] in E2. apply IH in E2; [|exact S]. subst ix.
        unfold call in E1. destruct (m_get m t vr values nv index env (ctl i) (mut i)) as [[[r u] t']| |] eqn:Eg; inversion E1; subst.
        rewrite (@AG env t _ _ _ _ _ _ _ _ _ _ _ B Eg eq_refl). lia.
    Qed.
    Lemma set_index t : shared t = true -> forall n vrs values nv index i st' ix i' tr,
      set_loop m env t vrs n values nv index OK i = Done ((st', ix), i', tr) -> stops st' = false -> ix = index + n.
    Proof.
      intro B. induction n as [|n IH]; intros vrs values nv index i st' ix i' tr; cbn [set_loop].
      - intros E. inversion E; subst. intros. now rewrite Nat.add_0_r.
      - destruct vrs as [|vr vrs]; [discriminate|]. intros E S.
        apply bind_Done in E as ([s ix1] & i1 & t1 & t2 & E1 & E2 & ->).
        assert (s = OK \/ s = Error) as [->| ->].
        { unfold call in E1. pose proof (l_set W t vr values nv index env (ctl i) (mut i)) as G. unfold Logic.gd in G.
          destruct (m_set m t vr values nv index env (ctl i) (mut i)) as [[[r u] t']| |]; inversion E1; subst. apply G. }
        2: { rewrite CALL_err in E2. inversion E2; subst. discriminate. }
        rewrite CALL_ok in E2. cbn [stops] in E2. apply IH in E2; [|exact S]. subst ix.
        unfold call in E1. destruct (m_set m t vr values nv index env (ctl i) (mut i)) as [[[r u] t']| |] eqn:Eg; inversion E1; subst.
        rewrite (@AS env t _ _ _ _ _ _ _ _ _ _ B Eg eq_refl). lia.
    Qed.
    Lemma refresh_ext X (x : X) k l i : (forall i, k OK i = l OK i) -> refresh m env OK x k i = refresh m env OK x l i.
    Proof.
      intro H. unfold refresh. rewrite !bind_getM. destruct (dirty (mut i)); [|apply H].
      apply bind_ext_Done. intros s i1 t E. unfold CALLk.
      assert (s = OK \/ s = Error) as [->| ->].
      { unfold call in E. pose proof (l_calc W env (ctl i) (mut i)) as G. unfold Logic.gd in G.
        destruct (m_calculateValues m env (ctl i) (mut i)) as [[[r u] t']| |]; inversion E; subst. apply G. }
      - rewrite !CALL_ok. cbn [stops]. apply bind_ext. intros _ i2. apply H.
      - rewrite !CALL_err. reflexivity.
    Qed.
    Lemma refresh_ctl X (x : X) k l i : (forall i', ctl i' = ctl i -> k OK i' = l OK i') -> refresh m env OK x k i = refresh m env OK x l i.
    Proof.
      intro H. unfold refresh. rewrite !bind_getM. destruct (dirty (mut i)); [|now apply H].
      apply bind_ext_Done. intros s i1 t E. unfold CALLk.
      assert (ctl i1 = ctl i /\ (s = OK \/ s = Error)) as [C [->| ->]].
      { unfold call in E. pose proof (l_calc W env (ctl i) (mut i)) as G. unfold Logic.gd in G.
        destruct (m_calculateValues m env (ctl i) (mut i)) as [[[r u] t']| |]; inversion E; subst. split; [reflexivity|apply G]. }
      - rewrite !CALL_ok. cbn [stops]. rewrite !bind_modM. now apply H.
      - rewrite !CALL_err. reflexivity.
    Qed.
    Lemma get2_eq t vrs values i : N.land (bit2 (mode (ctl i))) MASK2_GetReal <> 0%N ->
      fmi2GetV m env t (Some vrs) (length vrs) (Some values) i = get_body t vrs values i.
    Proof.
      intro H. unfold fmi2GetV, get_body. rewrite BEGIN2_pass by exact H. destruct (Nat.eqb (length vrs) 0); reflexivity.
    Qed.
    Lemma get3_eq t vrs values i : shared t = true -> N.land (bit3 (mode (ctl i))) (MASK_Get t) <> 0%N ->
      fmi3Get m env t (Some vrs) (length vrs) (Some values) (length vrs) i = get_body t vrs values i.
    Proof.
      intros B H. unfold fmi3Get, get_body. rewrite BEGIN_pass by exact H. destruct (Nat.eqb_spec (length vrs) 0) as [|N]; [reflexivity|].
      unfold ASSERT_NOT_NULL. destruct (Nat.ltb_spec 0 (length vrs)); [|lia].
      apply refresh_ext. clear i H. intros i. apply bind_ext_Done. intros [[st' v] ix] i' tr E. cbn beta iota.
      destruct (stops st') eqn:S; [reflexivity|]. rewrite (@get_index t B _ _ _ _ _ _ _ _ _ _ _ E S). cbn [plus]. now rewrite Nat.eqb_refl.
    Qed.
    Lemma set2_eq t vrs values i : N.land (bit2 (mode (ctl i))) (MASK2_Set t) <> 0%N ->
      fmi2SetV m env t (Some vrs) (length vrs) (Some values) i = set_body t vrs values i.
    Proof.
      intro H. unfold fmi2SetV, set_body. rewrite BEGIN2_pass by exact H. destruct (Nat.eqb (length vrs) 0); reflexivity.
    Qed.
    Lemma set3_eq t vrs values i : shared t = true -> N.land (bit3 (mode (ctl i))) (MASK_Set t) <> 0%N ->
      fmi3Set m env t (Some vrs) (length vrs) (Some values) (length vrs) i = set_body t vrs values i.
    Proof.
      intros B H. unfold fmi3Set, set_body. rewrite BEGIN_pass by exact H. destruct (Nat.eqb_spec (length vrs) 0) as [|N]; [reflexivity|].
      unfold ASSERT_NOT_NULL. apply bind_ext_Done. intros [st' ix] i' tr E. cbn beta iota.
      destruct (stops st') eqn:S; [reflexivity|]. rewrite (@set_index t B _ _ _ _ _ _ _ _ _ _ E S). cbn [plus]. rewrite Nat.eqb_refl. reflexivity.
    Qed.
    Lemma same_get E S t vrs values : same E S (get_body t vrs values).
    Proof.
      unfold get_body. destruct (Nat.eqb (length vrs) 0); [apply same_ret|]. apply (same_refresh env L (He env)). intro st.
      apply same_bind; [now apply same_get_loop|]. intros [[s v] ix]. apply same_ret.
    Qed.
    Lemma same_set E S t vrs values : same E S (set_body t vrs values).
    Proof.
      unfold set_body. destruct (Nat.eqb (length vrs) 0); [apply same_ret|].
      apply same_bind; [now apply same_set_loop|]. intros [s ix]. destruct (stops s); [apply same_ret|].
      apply same_bind; [apply same_dirty|]. intros _. apply same_ret.
    Qed.
    Lemma st_get t vrs values : still true (get_body t vrs values).
    Proof.
      unfold get_body. destruct (Nat.eqb (length vrs) 0); [apply st_ret|]. apply st_refresh. intro st.
      apply st_bind; [apply st_get_loop|]. intros [[s v] ix]. apply st_ret.
    Qed.
    Lemma st_set t vrs values : still true (set_body t vrs values).
    Proof.
      unfold set_body. destruct (Nat.eqb (length vrs) 0); [apply st_ret|].
      apply st_bind; [apply st_set_loop|]. intros [s ix]. destruct (stops s); [apply st_ret|].
      apply st_bind; [apply st_dirty|]. intros _. apply st_ret.
    Qed.

    (** The Boolean functions of FMI 2 are those of FMI 3 up to the type of the values. *)
    Definition ints (r : Status * Buf (val F TBoolean) * nat) : Status * Buf Z := let '(st, v, _) := r in (st, option_map (map int_of_bool) v).
    Lemma map_upd T U (f : T -> U) (l : list T) : forall k x, map f (upd l k x) = upd (map f l) k (f x).
    Proof. induction l as [|a l IH]; intros [|k] x; cbn; auto. now rewrite IH. Qed.
    Lemma bind_callm X Y (f : MF F D X) (k : X -> AF F D Y) i : bind (call m env f) k i =
      match f env (ctl i) (mut i) with
      | Done (x, u, t) => match k x (set_mut u i) with Done (y, i', t') => Done (y, i', t ++ t') | UB => UB | NoFuel => NoFuel end
      | UB => UB
      | NoFuel => NoFuel
      end.
    Proof. unfold bind, call. destruct (f env (ctl i) (mut i)) as [[[x u] t]| |]; reflexivity. Qed.
    Lemma boolean_get nvr : forall n pre vrs (values : list (val F TBoolean)) i, length vrs = n -> length pre + n <= nvr ->
      getBoolean_loop m env (Some (pre ++ vrs)) n (length pre) nvr (Some (map int_of_bool values)) OK i =
      (let* r := get_loop m env TBoolean vrs n (Some values) nvr (length pre) OK in ret (ints r))%sw i.
    Proof.
      induction n as [|n IH]; intros pre vrs values i Hn Hl; [cbn [getBoolean_loop get_loop]; now rewrite bind_ret_l|].
      destruct vrs as [|vr vrs]; [discriminate|]. injection Hn as Hn. cbn [getBoolean_loop get_loop].
      assert (Hr : rd (E := Event F) (S := Inst F D) (Some (pre ++ vr :: vrs)) (length pre) = ret vr).
      { unfold rd. rewrite nth_error_app2, Nat.sub_diag by lia. reflexivity. }
      rewrite Hr, bind_ret_l, bind_assoc. clear Hr.
      rewrite !bind_callm. rewrite (@BG vr values) by lia.
      pose proof (l_get W TBoolean vr (Some [false : val F TBoolean]) nvr 0 env (ctl i) (mut i)) as G. unfold Logic.gd in G.
      change (Some [false]) with (Some [false : val F TBoolean]) in *.
      destruct (m_get m TBoolean vr (Some [false : val F TBoolean]) nvr 0 env (ctl i) (mut i)) as [[[[[st v] ix] u] t]| |]; [|reflexivity|reflexivity].
      destruct G as [G _]. change (okerr st) in G. destruct G as [->| ->].
      - rewrite CALLk_ok. destruct v as [[|b w]|]; [reflexivity| |reflexivity]. cbn [rd nth_error]. rewrite bind_ret_l.
        unfold wr. rewrite map_length. change (@length (val F TBoolean)) with (@length bool). destruct (Nat.ltb (length pre) (@length bool values)) eqn:Lt; [|reflexivity].
        rewrite bind_ret_l, bind_assoc, CALL_ok. cbn [stops].
        change (if b then 1%Z else 0%Z) with (int_of_bool b). rewrite <- map_upd.
        specialize (IH (pre ++ [vr]) vrs (upd values (length pre) b) (set_mut u i) Hn).
        rewrite app_length in IH. cbn [length] in IH. rewrite <- app_assoc in IH. cbn [app] in IH.
        replace (length pre + 1) with (S (length pre)) in IH by lia.
        refine (f_equal (fun z => match z with Done (y, i', t') => Done (y, i', t ++ t') | UB => UB | NoFuel => NoFuel end) _). exact (IH ltac:(lia)).
      - rewrite CALLk_err, bind_assoc, CALL_err. reflexivity.
    Qed.
    Lemma boolean_set nvr : forall n pre vrs prev (values : list bool) i, length vrs = n -> length values = n -> length prev = length pre -> length pre + n <= nvr ->
      setBoolean_loop m env (Some (pre ++ vrs)) n (length pre) nvr (Some (map int_of_bool (prev ++ values))) OK i =
      (let* r := set_loop m env TBoolean vrs n (Some (prev ++ values : list (val F TBoolean))) nvr (length pre) OK in ret (fst r, tt))%sw i.
    Proof.
      induction n as [|n IH]; intros pre vrs prev values i Hn Hv Hp Hl; [cbn [setBoolean_loop set_loop]; now rewrite bind_ret_l|].
      destruct vrs as [|vr vrs]; [discriminate|]. injection Hn as Hn. destruct values as [|b values]; [discriminate|]. injection Hv as Hv.
      cbn [setBoolean_loop set_loop].
      assert (Hr : rd (E := Event F) (S := Inst F D) (Some (pre ++ vr :: vrs)) (length pre) = ret vr).
      { unfold rd. rewrite nth_error_app2, Nat.sub_diag by lia. reflexivity. }
      assert (Hb : nth_error (prev ++ b :: values) (length pre) = Some b).
      { rewrite <- Hp, nth_error_app2, Nat.sub_diag by lia. reflexivity. }
      assert (Hq : rd (E := Event F) (S := Inst F D) (Some (map int_of_bool (prev ++ b :: values))) (length pre) = ret (int_of_bool b)).
      { unfold rd. rewrite (map_nth_error _ _ _ Hb). reflexivity. }
      rewrite Hq, bind_ret_l, Hr, bind_ret_l, bind_assoc. clear Hr Hq.
      rewrite !bind_callm. rewrite (@BS vr (prev ++ b :: values) _ _ b) by (auto; lia).
      replace (negb (int_of_bool b =? 0)%Z) with b by (destruct b; reflexivity).
      pose proof (l_set W TBoolean vr (Some [b : val F TBoolean]) nvr 0 env (ctl i) (mut i)) as G. unfold Logic.gd in G.
      change (Some [b]) with (Some [b : val F TBoolean]) in *.
      destruct (m_set m TBoolean vr (Some [b : val F TBoolean]) nvr 0 env (ctl i) (mut i)) as [[[[st ix] u] t]| |]; [|reflexivity|reflexivity].
      destruct G as [G _]. change (okerr st) in G. destruct G as [->| ->].
      - rewrite CALLk_ok, bind_assoc, CALL_ok. cbn [stops].
        specialize (IH (pre ++ [vr]) vrs (prev ++ [b]) values (set_mut u i) Hn Hv).
        rewrite !app_length in IH. cbn [length] in IH. rewrite <- !app_assoc in IH. cbn [app] in IH.
        replace (length pre + 1) with (S (length pre)) in IH by lia.
        refine (f_equal (fun z => match z with Done (y, i', t') => Done (y, i', t ++ t') | UB => UB | NoFuel => NoFuel end) _). exact (IH ltac:(lia) ltac:(lia)).
      - rewrite CALLk_err, bind_assoc, CALL_err. reflexivity.
    Qed.
  End Body.

  (** ** The solver loops *)
  Definition loopQ (r : Status * bool) (r' : Status * bool * bool) (i j : Inst F D) : Prop :=
    let '(st, fin) := r in let '(st', ehn, reached) := r' in
    ehn = false /\ instR m P True False i j /\ earlyReturnAllowed (ctl i) = false /\
    match st with
    | OK => fin = true /\ st' = OK /\ reached = true /\ solX (mut i) (sol i) (sol j)
    | Discard => fin = false /\ st' = OK /\ reached = false /\ terminateSimulation (mut j) = true /\ solX (mut i) (sol i) (sol j)
    | Error => fin = false /\ st' = Error
    | _ => False
    end.
  Definition passQ (r : Status * bool) (r' : Status * bool * bool) (i j : Inst F D) : Prop :=
    let '(st, go) := r in let '(st', ehn, go') := r' in
    ehn = false /\ instR m P True False i j /\ earlyReturnAllowed (ctl i) = false /\ eventModeUsed (ctl i) = false /\
    match st with
    | OK => go = true /\ st' = OK /\ go' = true /\ solX (mut i) (sol i) (sol j)
    | Discard => go = false /\ st' = OK /\ go' = false /\ terminateSimulation (mut j) = true /\ solX (mut i) (sol i) (sol j)
    | Error => go = false /\ st' = Error /\ go' = false
    | _ => False
    end.
  Hypothesis HP : forall env i j, instR m P True False i j -> solX (mut i) (sol i) (sol j) ->
    eventModeUsed (ctl i) = false -> earlyReturnAllowed (ctl i) = false ->
    orel P passQ (pass2 m env OK i) (pass3 m env false OK j).
  Lemma HL env fuel : forall ncp i j, instR m P True False i j -> solX (mut i) (sol i) (sol j) ->
    eventModeUsed (ctl i) = false -> earlyReturnAllowed (ctl i) = false ->
    orel P loopQ (doStep2_loop m env fuel ncp OK i) (doStep_loop m env fuel ncp false OK j).
  Proof.
    induction fuel as [|fuel IH]; intros ncp i j R S Ev Er; [exact I|]. rewrite loop2_eq, loop3_eq.
    assert (Hp : pointReached m ncp (ctl j) = pointReached m ncp (ctl i)).
    { unfold pointReached. now rewrite (cr_time (ir_ctl R)). }
    rewrite Hp. rewrite andb_false_l, orb_false_r. destruct (pointReached m ncp (ctl i)).
    - apply orel_ret. cbn. tauto.
    - eapply orel_bind; [now apply HP|]. intros [st go] [[st' ehn] go'] i' j' (-> & R' & Er' & Ev' & Q). destruct st; try contradiction.
      + destruct Q as (-> & -> & -> & Q). now apply IH.
      + destruct Q as (-> & -> & -> & Q). apply orel_ret. cbn. tauto.
      + destruct Q as (-> & -> & ->). apply orel_ret. cbn. tauto.
  Qed.

  Context (szof szof' : N) (fuel : nat).
  Section CrossSv.
  Context (sv : list bool).
  Definition good_call (c : Call F) (b : bool) (a : res (Answer m)) (a' : res (Answer m)) : Prop :=
    match a, a' with
    | Done a, Done a' => agree c a a' /\ K (stopped' c (fst (fst (fst a))) sv b) (sinst (snd (fst a))) (sinst (snd (fst a')))
    | UB, UB => True
    | NoFuel, NoFuel => True
    | _, _ => False
    end.

  (** A copy of an FMU state *)
  Definition is_copy (c : Call F) : option nat := match c with CCopy k => Some k | _ => None end.
  Lemma copy2_eq sz fu e k (s : Sys F D) : N.land (bit2 (mode (ctl (sinst s)))) MASK2_FMUstate <> 0%N ->
    copy2 m sz fu e k s = match nth_error (heap s) k with
      | Some (Some x) => Done (OK, OHandle (Some (length (heap s))), mkSys (sinst s) (heap s ++ [Some x]), [])
      | _ => UB
      end.
  Proof.
    intro M. unfold copy2, next_call. cbn [exec2]. rewrite outS_eq. unfold fmi2SerializedFMUstateSize. rewrite BEGIN2S_pass by exact M. cbn [ret].
    rewrite outS_eq. unfold fmi2SerializeFMUstate. rewrite BEGIN2S_pass by exact M.
    unfold serializeFMUState, nullPointer, invalidNumber, onInst, bind, deref, ret. rewrite N.eqb_refl. cbn [negb sinst heap]. 
    destruct (nth_error (heap s) k) as [[x|]|]; try reflexivity. cbn [bsize]. rewrite N.ltb_irrefl.
    rewrite outS_eq. unfold fmi2DeSerializeFMUstate. rewrite BEGIN2S_pass by exact M.
    unfold deserializeFMUState, invalidNumber, onInst, bind, alloc, ret. rewrite N.eqb_refl. cbn [negb sinst heap bimage bsize]. rewrite N.ltb_irrefl. reflexivity.
  Qed.
  Lemma copy3_eq sz fu e k (s : Sys F D) : N.land (bit3 (mode (ctl (sinst s)))) MASK_AnyState <> 0%N ->
    copy3 m sz fu e k s = match nth_error (heap s) k with
      | Some (Some x) => Done (OK, OHandle (Some (length (heap s))), mkSys (sinst s) (heap s ++ [Some x]), [])
      | _ => UB
      end.
  Proof.
    intro M. unfold copy3, next_call. cbn [exec3]. rewrite outS_eq. unfold fmi3SerializedFMUStateSize. rewrite BEGIN3S_pass by exact M. cbn [ret].
    rewrite outS_eq. unfold fmi3SerializeFMUState. rewrite BEGIN3S_pass by exact M.
    unfold serializeFMUState, nullPointer, invalidNumber, onInst, bind, deref, ret. rewrite N.eqb_refl. cbn [negb sinst heap]. 
    destruct (nth_error (heap s) k) as [[x|]|]; try reflexivity. cbn [bsize]. rewrite N.ltb_irrefl.
    rewrite outS_eq. unfold fmi3DeserializeFMUState. rewrite BEGIN3S_pass by exact M.
    unfold deserializeFMUState, invalidNumber, onInst, bind, alloc, ret. rewrite N.eqb_refl. cbn [negb sinst heap bimage bsize]. rewrite N.ltb_irrefl. reflexivity.
  Qed.

  (** The FMU states correspond one by one. *)
  Definition KH (h h' : list (option (Inst F D))) : Prop :=
    length h = length sv /\ length h' = length sv /\
    forall k, match nth_error h k, nth_error h' k with
              | Some (Some x), Some (Some x') => K (nth k sv false) x x'
              | Some None, Some None => True
              | None, None => True
              | _, _ => False
              end.

  Definition special (c : Call F) : bool := match c with CInit _ _ _ | CRestore _ => true | _ => false end.
  Lemma stopped_same (c : Call F) st b : is_step c = false -> special c = false -> stopped' c st sv b = b.
  Proof. destruct c; cbn; congruence. Qed.
  Lemma good_outI (c : Call F) b X Y (f : AF F D (Status * X)) (g : AF F D (Status * Y)) out out' s s' :
    is_step c = false ->
    orel P (fun r r' i j => fst r' = fst r /\ shown (out (snd r)) (out' (snd r')) /\ K (stopped' c (fst r) sv b) i j)
      (f (sinst s)) (g (sinst s')) ->
    good_call c b (outI m f out s) (outI m g out' s').
  Proof.
    intros Hc H. rewrite !outI_eq. unfold good_call. unfold orel in H.
    destruct (f (sinst s)) as [[[[st x] i] t]| |], (g (sinst s')) as [[[[st' x'] j] t']| |]; auto.
    cbn [fst snd] in H |- *. destruct H as [(-> & Sh & Kk) T]. split; [|exact Kk].
    unfold agree. rewrite Hc. cbn [sinst]. split; [exact (proj2 T LG)|]. split; [apply (k_mode Kk)|].
    split; [apply (cr_time (ir_ctl (k_inst Kk)))|]. split; [reflexivity|exact Sh].
  Qed.

  (** A body that both versions share. *)
  Lemma K_still kp b i j X (f : AF F D X) : K b i j -> (mode (ctl i) = StepComplete -> kp = true) ->
    (forall E S, same m P E S f) -> still kp f ->
    orel P (fun x y i' j' => x = y /\ K b i' j') (f i) (f j).
  Proof.
    intros Kk Hk Sf St. pose proof (Sf _ _ _ _ (k_inst Kk)) as R. unfold orel in R |- *.
    destruct (f i) as [[[x i'] t]| |] eqn:Ei, (f j) as [[[y j'] t']| |] eqn:Ej; auto.
    destruct R as [[-> R] T]. split; [|exact T]. split; [reflexivity|].
    destruct (St _ _ _ _ Ei) as (Si & Ci & Ki), (St _ _ _ _ Ej) as (Sj & Cj & _).
    destruct Kk as [R0 M0 S0 T0 V0 E0].
    assert (Mi : mode (ctl i') = mode (ctl i) /\ ctl i' = ctl i \/ (mode (ctl i') = Terminated \/ mode (ctl i') = StartAndEnd)).
    { destruct Ci as [->|(z & Hz & ->)]; [left; auto|right; exact Hz]. }
    assert (Mj : mode (ctl j') = mode (ctl j) \/ (mode (ctl j') = Terminated \/ mode (ctl j') = StartAndEnd)).
    { destruct Cj as [->|(z & Hz & ->)]; [left; auto|right; exact Hz]. }
    constructor.
    - eapply instR_weaken; [| |exact R]; [|auto]. intros [Hb Hl]. split; [exact Hb|].
      destruct Mi as [[<- _]|[Q|Q]]; [exact Hl| |]; rewrite Q in Hl; destruct Hl; discriminate.
    - pose proof (cr_mode (ir_ctl R)) as MR. destruct MR as [MR|(_ & A & B)]; [|now rewrite A, B].
      rewrite <- MR. destruct Mi as [[Mi _]|[Q|Q]]; [|now rewrite Q|now rewrite Q].
      destruct Mj as [Mj|[Q|Q]]; [|rewrite MR, Q; reflexivity|rewrite MR, Q; reflexivity].
      rewrite <- Mi in M0. congruence.
    - intro Q. destruct Mi as [[Mi Ce]|[Q'|Q']]; [|congruence|congruence].
      rewrite Si, Sj. assert (Q0 : mode (ctl i) = StepComplete) by congruence.
      eapply solX_keep; [apply Ki; [now apply Hk|now left]|now apply S0].
    - destruct Ci as [->|(z & _ & ->)]; exact T0.
    - destruct Ci as [->|(z & _ & ->)]; exact V0.
    - destruct Ci as [->|(z & _ & ->)]; exact E0.
  Qed.

  (** A change of the framework fields that leaves the instance outside Step Mode. *)
  Lemma K_ctl b b' i j c c' : K b i j ->
    ctlR P (b' = false /\ live (mode c)) c c' -> mode c' = mode3 (mode c) -> mode c <> StepComplete ->
    itype c = itype (ctl i) -> eventModeUsed c = eventModeUsed (ctl i) -> earlyReturnAllowed c = earlyReturnAllowed (ctl i) ->
    K b' (set_ctl c i) (set_ctl c' j).
  Proof.
    intros [R M S T V E] H Hm Hn H1 H2 H3. constructor; cbn [ctl set_ctl mut sol]; try congruence.
    constructor; cbn [ctl set_ctl mut sol]; [exact H|apply R|apply R].
  Qed.
  Lemma cr_mode_to E c c' x : ctlR (F := F) P E c c' -> ctlR P E (set_mode x c) (set_mode x c').
  Proof. intro H. apply cr_set_mode; [exact H|apply modeR_refl]. Qed.
  Lemma K_mode b i j x : K b i j -> x <> StepComplete -> x <> InitializationMode ->
    K b (set_ctl (set_mode x (ctl i)) i) (set_ctl (set_mode x (ctl j)) j).
  Proof.
    intros Kk N1 N2. eapply K_ctl; [exact Kk| |cbn; now rewrite mode3_id|exact N1|reflexivity..].
    cbn [set_mode mode]. eapply ctlR_weaken; [|apply cr_mode_to, (ir_ctl (k_inst Kk))].
    intros [_ [H|H]]; contradiction.
  Qed.

  (** The FMI 3 side alone marks its values as out of date or brings them up to date. *)
  Lemma K_mut b i j u : K b i j -> mutR P (mut i) u -> K b i (set_mut u j).
  Proof.
    intros [R M S T V E] H. constructor; cbn [ctl sol mut set_mut]; auto. constructor; [apply R|exact H|apply R].
  Qed.
  Lemma mutR_dirty (u u' : Mut F D) x : mutR P u u' -> mutR P u (set_dirty x u').
  Proof. intros []. constructor; cbn; auto. intro H. destruct (ND H). Qed.
  Lemma K_calc env b i j : K b i j -> dirty (mut j) = true ->
    exists v, m_calculateValues m env (ctl j) (mut j) = Done (OK, v, []) /\ K b i (set_mut (set_dirty false v) j).
  Proof.
    intros Kk Dj. pose proof (ir_mut (k_inst Kk)) as M.
    assert (M0 : mutR P (set_dirty false (mut i)) (mut j)).
    { destruct M. constructor; cbn; auto. intro H. destruct (ND H). }
    assert (C0 : ctlR P False (ctl i) (ctl j)) by (eapply ctlR_weaken; [|apply (ir_ctl (k_inst Kk))]; tauto).
    destruct (sl_refreshR L env (He env) C0 M0 eq_refl Dj) as (v & Ev & Mv).
    exists v. split; [exact Ev|]. apply K_mut; [exact Kk|]. destruct Mv. constructor; cbn in *; auto. intro H. destruct (ND H).
  Qed.

  Ltac inlist H := repeat (destruct H as [<-|H]; [vm_compute; discriminate|]); destruct H.

  Section Calls.
    Context (e : Env) (s s' : Sys F D).
    Notation i := (sinst s).
    Notation j := (sinst s').
    Notation goal c b := (good_call c b (do2 m szof fuel e c s) (do3 m szof' fuel e c s')).

    Lemma via_body kp (c : Call F) b X (f : AF F D (Status * X)) (out out' : X -> Out F D) (f2 f3 : AF F D (Status * X)) :
      K b i j -> (mode (ctl i) = StepComplete -> kp = true) -> is_step c = false -> special c = false ->
      (forall x, shown (out x) (out' x)) ->
      f2 i = f i -> f3 j = f j -> (forall E S, same m P E S f) -> still kp f ->
      good_call c b (outI m f2 out s) (outI m f3 out' s').
    Proof.
      intros Kk Hk H1 H2 Sh E2 E3 Sf St. apply good_outI; [exact H1|]. rewrite E2, E3.
      eapply orel_conseq; [apply (K_still (kp := kp) Kk Hk Sf St)|].
      intros x y i' j' [<- Kk']. split; [reflexivity|]. split; [apply Sh|].
      now rewrite stopped_same.
    Qed.

    Lemma case_Get b t vrs values : K b i j -> basic t = true -> allowed (F := F) (D := D) (CGet t vrs values) (mode (ctl i)) ->
      goal (CGet t vrs values) b.
    Proof.
      intros Kk Bt [A2 A3].
      apply (@via_body true (CGet t vrs values) b _ (get_body e t vrs values)); auto.
      - intro x. reflexivity.
      - apply get2_eq. cbn [op2 when2] in A2. inlist A2.
      - apply get3_eq; [now apply basic_shared|]. rewrite (k_mode Kk). cbn [op3 when3] in A3. revert A3. generalize (mode3 (mode (ctl i))) as x.
        intros x A3. destruct t; try discriminate Bt; inlist A3.
      - intros; apply same_get.
      - apply st_get.
    Qed.
    Lemma case_Set b t vrs values : K b i j -> basic t = true -> allowed (F := F) (D := D) (CSet t vrs values) (mode (ctl i)) ->
      goal (CSet t vrs values) b.
    Proof.
      intros Kk Bt [A2 A3].
      apply (@via_body true (CSet t vrs values) b _ (set_body e t vrs values)); auto.
      - intro x. reflexivity.
      - apply set2_eq. cbn [op2 when2] in A2. destruct t; try discriminate Bt; cbn [when2] in A2; inlist A2.
      - apply set3_eq; [now apply basic_shared|]. rewrite (k_mode Kk). cbn [op3 when3] in A3. revert A3. generalize (mode3 (mode (ctl i))) as x.
        intros x A3. destruct t; try discriminate Bt; cbn [when3] in A3; inlist A3.
      - intros; apply same_set.
      - apply st_set.
    Qed.

    Lemma case_GetBoolean b vrs values : K b i j -> allowed (F := F) (D := D) (CGetBoolean vrs values) (mode (ctl i)) ->
      goal (CGetBoolean vrs values) b.
    Proof.
      intros Kk [A2 A3]. apply good_outI; [reflexivity|].
      unfold fmi2GetBoolean. rewrite BEGIN2_pass by (cbn [op2 when2] in A2; inlist A2).
      rewrite get3_eq; [|reflexivity|rewrite (k_mode Kk); cbn [op3 when3] in A3; revert A3; generalize (mode3 (mode (ctl i))) as x; intros x A3; inlist A3].
      set (loop := get_loop m e TBoolean vrs (length vrs) (Some (values : list (val F TBoolean))) (length vrs) 0 OK).
      assert (E2 : getBoolean_loop m e (Some vrs) (length vrs) 0 (length vrs) (Some (map int_of_bool values)) OK i = (let* r := loop in ret (ints r))%sw i)
        by exact (@boolean_get e (length vrs) (length vrs) [] vrs values i eq_refl (le_n _)).
      assert (E3 : exists j1, get_body e TBoolean vrs values j = (let* r := loop in ret (fst r))%sw j1 /\ K b i j1).
      { assert (Lp : forall x : Inst F D, (let* r := loop in let '(st, v, _) := r in ret (st, v))%sw x = (let* r := loop in ret (fst r))%sw x)
          by (intro x; apply bind_ext; intros [[? ?] ?] ?; reflexivity).
        unfold get_body. destruct (Nat.eqb_spec (length vrs) 0) as [Z|Z].
        - exists j. split; [|exact Kk]. unfold loop. rewrite Z. reflexivity.
        - unfold refresh. rewrite bind_getM. destruct (dirty (mut j)) eqn:Dj.
          + destruct (@K_calc e b i j Kk Dj) as (v & Ev & Kv). exists (set_mut (set_dirty false v) j). split; [|exact Kv].
            rewrite bind_callm, Ev. rewrite CALLk_ok, bind_modM. fold loop. rewrite Lp. cbn [set_mut mut ctl sol].
            match goal with |- match ?x with _ => _ end = ?y => change x with y; destruct y as [[[? ?] ?]| |]; reflexivity end.
          + exists j. split; [apply Lp|exact Kk]. }
      destruct E3 as (j1 & E3 & K1). change (Buf bool) with (Buf (val F TBoolean)) in *. rewrite E2, E3.
      assert (R : orel P (fun x y i' j' => x = y /\ K b i' j') (loop i) (loop j1)).
      { apply (@K_still true); [exact K1|reflexivity|intros; now apply same_get_loop|apply st_get_loop]. }
      eapply orel_bind; [exact R|]. intros r r' i' j' [<- Kk']. apply orel_ret. rewrite stopped_same by reflexivity.
      destruct r as [[st v] ix]. split; [reflexivity|]. split; [reflexivity|exact Kk'].
    Qed.
    Lemma case_SetBoolean b vrs values : length values = length vrs -> K b i j -> allowed (F := F) (D := D) (CSetBoolean vrs values) (mode (ctl i)) ->
      goal (CSetBoolean vrs values) b.
    Proof.
      intros Len Kk [A2 A3]. apply good_outI; [reflexivity|].
      unfold fmi2SetBoolean. rewrite BEGIN2_pass by (cbn [op2 when2] in A2; inlist A2).
      rewrite set3_eq; [|reflexivity|rewrite (k_mode Kk); cbn [op3 when3] in A3; revert A3; generalize (mode3 (mode (ctl i))) as x; intros x A3; inlist A3].
      set (loop := set_loop m e TBoolean vrs (length vrs) (Some (values : list (val F TBoolean))) (length vrs) 0 OK).
      assert (E2 : setBoolean_loop m e (Some vrs) (length vrs) 0 (length vrs) (Some (map int_of_bool values)) OK i = (let* r := loop in ret (fst r, tt))%sw i)
        by exact (@boolean_set e (length vrs) (length vrs) [] vrs [] values i eq_refl Len eq_refl (le_n _)).
      rewrite E2. clear E2.
      assert (R : orel P (fun x y i' j' => x = y /\ K b i' j') (loop i) (loop j)).
      { apply (@K_still true); [exact Kk|reflexivity|intros; now apply same_set_loop|apply st_set_loop]. }
      unfold set_body. destruct (Nat.eqb_spec (length vrs) 0) as [Z|Z].
      - unfold loop. rewrite Z. cbn [set_loop]. rewrite bind_ret_l. apply orel_ret. rewrite stopped_same by reflexivity. split; [reflexivity|]. split; [reflexivity|exact Kk].
      - fold loop. eapply orel_bind; [exact R|]. intros r r' i' j' [<- Kk']. destruct r as [st ix]. destruct (stops st).
        + apply orel_ret. rewrite stopped_same by reflexivity. split; [reflexivity|]. split; [reflexivity|exact Kk'].
        + rewrite bind_modM. apply orel_ret. rewrite stopped_same by reflexivity. split; [reflexivity|]. split; [reflexivity|].
          apply K_mut; [exact Kk'|]. apply mutR_dirty, (ir_mut (k_inst Kk')).
    Qed.

    Lemma via_mode (c : Call F) b x m2 m3 : K b i j -> is_step c = false -> special c = false ->
      x <> StepComplete -> x <> InitializationMode ->
      N.land (bit2 (mode (ctl i))) m2 <> 0%N -> N.land (bit3 (mode (ctl j))) m3 <> 0%N ->
      good_call c b (outI m (BEGIN2 m e m2 tt (setMode m x ;;; ret (OK, tt))%sw) (none_out m) s)
                    (outI m (BEGIN m e m3 tt (setMode m x ;;; ret (OK, tt))%sw) (none_out m) s').
    Proof.
      intros Kk H1 H2 N1 N2 A2 A3. apply good_outI; [exact H1|]. rewrite BEGIN2_pass, BEGIN_pass by assumption.
      unfold setMode. rewrite !bind_modC. cbn. split; [|apply traceR_refl]. split; [reflexivity|]. split; [exact I|].
      rewrite stopped_same by assumption. now apply K_mode.
    Qed.
    Ltac in3 Kk A3 := rewrite (k_mode Kk); revert A3; cbn [op3 when3]; generalize (mode3 (mode (ctl i)));
      let x := fresh "x" in intros x A3; inlist A3.
    Lemma case_Terminate b : K b i j -> allowed (F := F) (D := D) CTerminate (mode (ctl i)) -> goal CTerminate b.
    Proof.
      intros Kk [A2 A3]. apply (@via_mode CTerminate b Terminated MASK2_Terminate MASK_Terminate); auto; try discriminate.
      - cbn [op2 when2] in A2. inlist A2.
      - in3 Kk A3.
    Qed.
    Lemma case_EnterEvent b : K b i j -> allowed (F := F) (D := D) CEnterEvent (mode (ctl i)) -> goal CEnterEvent b.
    Proof.
      intros Kk [A2 A3]. apply (@via_mode CEnterEvent b EventMode MASK2_EnterEventMode MASK_EnterEventMode); auto; try discriminate.
      - cbn [op2 when2] in A2. inlist A2.
      - in3 Kk A3.
    Qed.
    Lemma case_EnterContinuous b : K b i j -> allowed (F := F) (D := D) CEnterContinuous (mode (ctl i)) -> goal CEnterContinuous b.
    Proof.
      intros Kk [A2 A3]. apply (@via_mode CEnterContinuous b ContinuousTimeMode MASK2_EnterContinuousTimeMode MASK_EnterContinuousTimeMode); auto; try discriminate.
      - cbn [op2 when2] in A2. inlist A2.
      - in3 Kk A3.
    Qed.
    Lemma case_SetTime b t : K b i j -> allowed (F := F) (D := D) (CSetTime t) (mode (ctl i)) -> goal (CSetTime t) b.
    Proof.
      intros Kk [A2 A3]. apply good_outI; [reflexivity|]. unfold fmi2SetTime, fmi3SetTime. rewrite BEGIN2_pass, BEGIN_pass.
      - rewrite !bind_modC. cbn. split; [|apply traceR_refl]. split; [reflexivity|]. split; [exact I|].
        cbn [stopped']. eapply K_ctl; [exact Kk|apply cr_set_time, (ir_ctl (k_inst Kk))|apply Kk| |reflexivity..].
        cbn [op2 when2] in A2. destruct A2 as [A2|[A2|[]]]; cbn; rewrite <- A2; discriminate.
      - in3 Kk A3.
      - cbn [op2 when2] in A2. inlist A2.
    Qed.
    Lemma case_Completed b : K b i j -> allowed (F := F) (D := D) CCompleted (mode (ctl i)) -> goal CCompleted b.
    Proof.
      intros Kk [A2 A3]. apply (@via_body true CCompleted b _ (ret (OK, Some (false, false)))); auto.
      - intro x. reflexivity.
      - unfold fmi2CompletedIntegratorStep. rewrite BEGIN2_pass; [reflexivity|]. cbn [op2 when2] in A2. inlist A2.
      - unfold fmi3CompletedIntegratorStep. rewrite BEGIN_pass; [reflexivity|]. in3 Kk A3.
      - intros. apply same_ret.
      - apply st_ret.
    Qed.
    Lemma noStep (l : list ModelState) x : In x l -> existsb (ModelState_eqb StepComplete) l = false -> x = StepComplete -> false = true.
    Proof.
      intros H N ->. exfalso. assert (existsb (ModelState_eqb StepComplete) l = true); [|congruence].
      apply existsb_exists. exists StepComplete. split; [exact H|reflexivity].
    Qed.
    Lemma case_SetStates b x n : K b i j -> allowed (F := F) (D := D) (CSetStates x n) (mode (ctl i)) -> goal (CSetStates x n) b.
    Proof.
      intros Kk [A2 A3].
      apply (@via_body false (CSetStates x n) b _ (let* s := call m e (m_setContinuousStates m (Some x) n) in CALLk m OK s tt (fun st => ret (st, tt)))%sw); auto.
      - intro Q. eapply noStep; [exact A2|reflexivity|exact Q].
      - intro y. reflexivity.
      - unfold fmi2SetContinuousStates. rewrite BEGIN2_pass; [reflexivity|]. cbn [op2 when2] in A2. inlist A2.
      - unfold fmi3SetContinuousStates. rewrite BEGIN_pass; [reflexivity|]. in3 Kk A3.
      - intros. apply same_bind; [apply same_call; auto; apply (sl_setStates L)|]. intro. apply same_CALLk. intros; apply same_ret.
      - apply st_bind; [apply st_call; discriminate|]. intro. apply st_CALLk. intro. apply st_ret.
    Qed.
    Lemma via_array (c : Call F) b f x n m2 : K b i j -> is_step c = false -> special c = false -> mode (ctl i) <> StepComplete ->
      msim P eq (f (Some x) n) (f (Some x) n) ->
      N.land (bit2 (mode (ctl i))) m2 <> 0%N -> N.land (bit3 (mode (ctl j))) MASK_GetContinuousStateDerivatives <> 0%N ->
      good_call c b (outI m (fmi2GetArray m e m2 f (Some x) n) (@OFloats _ _) s)
                    (outI m (fmi3GetArray m e f (Some x) n) (@OFloats _ _) s').
    Proof.
      intros Kk H1 H2 Ns Hf A2 A3.
      apply (@via_body false c b _ (let* r := call m e (f (Some x) n) in CALLk m OK (fst r) (snd r) (fun st => ret (st, snd r)))%sw); auto.
      - intro y. reflexivity.
      - unfold fmi2GetArray. now rewrite BEGIN2_pass.
      - unfold fmi3GetArray. now rewrite BEGIN_pass.
      - intros. apply same_bind; [now apply same_call|]. intro. apply same_CALLk. intros; apply same_ret.
      - apply st_bind; [apply st_call; discriminate|]. intro. apply st_CALLk. intro. apply st_ret.
    Qed.
    Ltac array f m2 Kk A2 A3 := apply (@via_array _ _ f _ _ m2); auto;
      [let Q := fresh in intro Q; pose proof (noStep _ A2 eq_refl Q); discriminate
      |idtac|cbn [op2 when2] in A2; inlist A2|in3 Kk A3].
    Lemma case_States b x n : K b i j -> allowed (F := F) (D := D) (CStates x n) (mode (ctl i)) -> goal (CStates x n) b.
    Proof. intros Kk [A2 A3]. array (m_getContinuousStates m) MASK2_GetContinuousStates Kk A2 A3. apply (sl_states L). Qed.
    Lemma case_Derivatives b x n : K b i j -> allowed (F := F) (D := D) (CDerivatives x n) (mode (ctl i)) -> goal (CDerivatives x n) b.
    Proof. intros Kk [A2 A3]. array (m_getDerivatives m) MASK2_GetDerivatives Kk A2 A3. apply (sl_derivs L). Qed.
    Lemma case_Indicators b x n : K b i j -> allowed (F := F) (D := D) (CIndicators x n) (mode (ctl i)) -> goal (CIndicators x n) b.
    Proof. intros Kk [A2 A3]. array (m_getEventIndicators m) MASK2_GetEventIndicators Kk A2 A3. apply (sl_indicators L). Qed.
    Lemma case_Nominals b x n : K b i j -> allowed (F := F) (D := D) (CNominals x n) (mode (ctl i)) -> goal (CNominals x n) b.
    Proof. intros Kk [A2 A3]. array (m_getNominals m) MASK2_GetNominals Kk A2 A3. apply (sl_nominals L). Qed.
    Lemma case_Directional b us ks seed sens : K b i j -> allowed (F := F) (D := D) (CDirectional us ks seed sens) (mode (ctl i)) ->
      goal (CDirectional us ks seed sens) b.
    Proof.
      intros Kk [A2 A3].
      apply (@via_body true (CDirectional us ks seed sens) b _
        (deriv_rows m e (fun u k => m_getPartialDerivative m u k) (Some us) (length us) 0 (Some ks) (length ks) (Some seed) (Some sens) OK)); auto.
      - intro y. reflexivity.
      - unfold fmi2GetDirectionalDerivative. rewrite BEGIN2_pass; [reflexivity|]. cbn [op2 when2] in A2. inlist A2.
      - unfold fmi3GetDirectionalDerivative. rewrite BEGIN_pass; [reflexivity|]. in3 Kk A3.
      - intros. apply same_deriv_rows; auto. intros; apply (sl_partial L).
      - apply st_rows. auto.
    Qed.

    (** Facts about each side alone. *)
    Lemma orel_facts X Y A B (Q : X -> Y -> A -> B -> Prop) (U : X -> A -> Prop) (V : Y -> B -> Prop) (a : res (X * A * list (Event F))) (b : res (Y * B * list (Event F))) :
      orel P Q a b -> (forall x i t, a = Done (x, i, t) -> U x i) -> (forall y j t, b = Done (y, j, t) -> V y j) ->
      orel P (fun x y i j => Q x y i j /\ U x i /\ V y j) a b.
    Proof.
      unfold orel. destruct a as [[[x k] t]| |], b as [[[y l] t']| |]; auto. intros [H T] HU HV. split; [|exact T]. eauto.
    Qed.
    Lemma eff2 (o : Op2 F D) X (f : AF F D (Status * X)) out : exec2 m szof fuel e o = outI m f out ->
      forall r i' t, f i = Done (r, i', t) -> effect2 o s (fst r) (ctl i').
    Proof.
      intros E [st x] i' t H. assert (G : exec2 m szof fuel e o s = Done (st, out x, mkSys i' (heap s), t)).
      { rewrite E, outI_eq, H. reflexivity. }
      exact (proj1 (@exec2_effect _ _ m szof e W fuel o s _ _ _ _ G)).
    Qed.
    Lemma eff3 (o : Op3 F D) X (f : AF F D (Status * X)) out : exec3 m szof' fuel e o = outI m f out -> In (mode (ctl j)) modes3 ->
      forall r j' t, f j = Done (r, j', t) -> effect3 (m_outputDerivative m) o s' (fst r) (ctl j').
    Proof.
      intros E Hm [st x] j' t H. assert (G : exec3 m szof' fuel e o s' = Done (st, out x, mkSys j' (heap s'), t)).
      { rewrite E, outI_eq, H. reflexivity. }
      exact (proj1 (@exec3_effect _ _ m szof' e W fuel o s' _ _ _ _ Hm G)).
    Qed.
    Lemma K_after b b' c c' i' j' : K b i j -> (b' = false -> b = false) -> instR m P (b = false /\ live (mode (ctl i))) False i' j' ->
      ctl i' = c -> ctl j' = c' -> mode c' = mode3 (mode c) -> (mode c = InitializationMode -> live (mode (ctl i))) -> mode c <> StepComplete ->
      itype c = itype (ctl i) -> eventModeUsed c = eventModeUsed (ctl i) -> earlyReturnAllowed c = earlyReturnAllowed (ctl i) ->
      K b' i' j'.
    Proof.
      intros [R M S T V E] Hb H Ci Cj Hm Hl Hn H1 H2 H3. rewrite <- Ci in *. rewrite <- Cj in *. constructor; try congruence.
      eapply instR_weaken; [| |exact H]; [|auto]. intros [B Lv]. split; [auto|]. destruct Lv; [auto|contradiction].
    Qed.

    Lemma case_Reset b : K b i j -> allowed (F := F) (D := D) CReset (mode (ctl i)) -> goal CReset b.
    Proof.
      intros Kk [A2 A3]. pose proof (when3_modes _ _ A3) as M3. rewrite <- (k_mode Kk) in M3.
      apply good_outI; [reflexivity|].
      eapply orel_conseq; [apply orel_facts;
        [|apply (@eff2 O2Reset _ (fmi2Reset m e) (none_out m) eq_refl)|apply (@eff3 O3Reset _ (fmi3Reset m e) (none_out m) eq_refl M3)]|].
      - unfold fmi2Reset, fmi3Reset. rewrite BEGIN2_pass, BEGIN_pass.
        + assert (Sm : same m P (b = false /\ live (mode (ctl i))) False (let* s := reset m e in CALLk m OK s tt (fun st => ret (st, tt)))%sw).
          { apply same_bind; [now apply same_reset|]. intro. apply same_CALLk. intros. apply same_ret. }
          apply (Sm _ _ (k_inst Kk)).
        + in3 Kk A3.
        + cbn [op2 when2] in A2. inlist A2.
      - intros [st x] [st' x'] i' j' ([Eq R] & E2 & E3). inversion Eq; subst st' x'. cbn [fst snd] in *.
        split; [reflexivity|]. split; [exact I|]. cbn [effect2 effect3] in E2, E3. cbn [stopped'].
        destruct E2 as [[-> E2]|[-> E2]], E3 as [[Q E3]|[Q E3]]; try discriminate Q;
          (eapply K_after; [exact Kk|auto|exact R|exact E2|exact E3|reflexivity|discriminate|discriminate|reflexivity..]).
    Qed.
    Lemma case_Init b a d z : K b i j -> allowed (F := F) (D := D) (CInit a d z) (mode (ctl i)) -> goal (CInit a d z) b.
    Proof.
      intros Kk [A2 A3]. cbn [op2 when2] in A2. destruct A2 as [A2|[]].
      assert (Mj : mode (ctl j) = Instantiated) by (rewrite (k_mode Kk), <- A2; reflexivity).
      unfold do2, do3, next_call. cbn [op2 op3 exec2 exec3]. rewrite outI_eq. unfold fmi2SetupExperiment.
      rewrite BEGIN2_pass by (rewrite <- A2; discriminate). rewrite !bind_modC. cbn [ret set_ctl ctl sinst].
      rewrite outI_eq. unfold fmi2EnterInitializationMode. rewrite BEGIN2_pass by (cbn; rewrite <- A2; discriminate).
      unfold setMode. rewrite !bind_modC. cbn [ret set_ctl ctl sinst].
      rewrite outI_eq. unfold fmi3EnterInitializationMode. rewrite BEGIN_pass by (rewrite Mj; discriminate).
      unfold setMode. rewrite !bind_modC. cbn [ret set_ctl ctl sinst mut sol].
      match goal with |- good_call _ _ (Done (_, _, {| sinst := ?x |}, _)) (Done (_, _, {| sinst := ?y |}, _)) => assert (Kk' : K false x y) end.
      { destruct Kk as [R M S T V Er]. constructor; cbn [ctl mode mut sol itype eventModeUsed earlyReturnAllowed set_mode set_nextCommunicationPoint
          set_time set_stopTime set_startTime]; auto; try discriminate.
        constructor; cbn [ctl mut sol]; [|apply R|apply R]. destruct (ir_ctl R). constructor; cbn; auto; try (intros _; assumption).
        apply modeR_refl. }
      split; [|exact Kk']. cbn. auto.
    Qed.
    Lemma conf_ready x x' x'' t : configurate m e x = Done (x', x'', t) -> x' = OK -> readied (sol x'').
    Proof.
      intros E ->. unfold configurate, CALLc in E. apply bind_Done in E as (s1 & i1 & t1 & t2 & E1 & E2 & ->).
      destruct s1; try (inversion E2; fail).
      assert (Z : 0 < m_maxZ m -> exists u, nz (sol i1) = m_nz m u).
      { intro Hz. unfold configurate_z in E1. rewrite (proj2 (Nat.ltb_lt _ _) Hz) in E1.
        rewrite bind_getM, bind_modSol, bind_getSol in E1. apply bind_Done in E1 as ([s2 o2] & i2 & t3 & t4 & E3 & E4 & ->).
        unfold call in E3. destruct (m_getEventIndicators m _ _ _ _ _) as [[[r u] t5]| |]; inversion E3; subst.
        cbn [snd fst] in E4. destruct o2; [|discriminate]. rewrite bind_modSol in E4. inversion E4; subst. cbn. eauto. }
      unfold configurate_x in E2. destruct (Nat.ltb_spec 0 (m_maxX m)) as [Hx|Hx].
      - rewrite bind_assoc, bind_getM, bind_modSol in E2. inversion E2; subst. split; [exact Z|]. cbn. eauto.
      - rewrite bind_ret_l in E2. inversion E2; subst. split; [exact Z|lia].
    Qed.
    Lemma exit_ready st x i' t : fmi2ExitInitializationMode m e i = Done ((st, x), i', t) -> st = OK -> readied (sol i').
    Proof.
      intros E ->.
      assert (Hk : forall st i0 t0 i1, (modC m (fun c => set_mode (modeAfterInit2 c) c) ;;;
                let* s := configurate m e in CALLk m st s tt (fun st => ret (st, tt)))%sw i0 = Done ((OK, x), i1, t0) -> readied (sol i1)).
      { intros st i0 t0 i1 E0. rewrite bind_modC in E0. apply bind_Done in E0 as (s1 & i2 & t1 & t2 & E1 & E2 & ->).
        unfold CALLk, CALL in E2. destruct (smax st s1) eqn:Sm; try (rewrite bind_ret_l in E2); try (rewrite bind_assoc, bind_modC, bind_ret_l in E2); cbn [stops] in E2; inversion E2; subst.
        eapply conf_ready; [exact E1|]. destruct st, s1; try discriminate Sm; reflexivity. }
      unfold fmi2ExitInitializationMode, BEGIN2 in E. apply bind_Done in E as (ok & i1 & t1 & t2 & E1 & E2 & ->).
      assert (Hr : forall i0 t0 i2, refresh m e OK tt (fun st => modC m (fun c => set_mode (modeAfterInit2 c) c) ;;;
                let* s := configurate m e in CALLk m st s tt (fun st => ret (st, tt)))%sw i0 = Done ((OK, x), i2, t0) -> readied (sol i2)).
      { intros i0 t0 i2 E0. unfold refresh in E0. rewrite bind_getM in E0. destruct (dirty (mut i0)); [|eapply Hk; exact E0].
        apply bind_Done in E0 as (s1 & i3 & t3 & t4 & E3 & E4 & ->). unfold CALLk in E4. apply bind_Done in E4 as (s2 & i4 & t5 & t6 & E5 & E6 & ->).
        destruct (stops s2) eqn:St; [inversion E6; subst; discriminate|]. rewrite bind_modM in E6. eapply Hk; exact E6. }
      destruct ok; [eapply Hr; exact E2|]. unfold CALLk in E2. rewrite CALL_err in E2. cbn [stops] in E2. inversion E2.
    Qed.
    Lemma case_ExitInit b : K b i j -> allowed (F := F) (D := D) CExitInit (mode (ctl i)) -> goal CExitInit b.
    Proof.
      intros Kk [A2 A3].
      assert (M2 : modeAfterInit (ctl j) = mode3 (modeAfterInit2 (ctl i))).
      { unfold modeAfterInit, modeAfterInit2. rewrite (cr_itype (ir_ctl (k_inst Kk))), (cr_event (ir_ctl (k_inst Kk))), (k_event Kk).
        pose proof (k_type Kk). destruct (itype (ctl i)); try reflexivity. congruence. }
      assert (Mx : modeR (r_cross P) (modeAfterInit2 (ctl i)) (modeAfterInit (ctl j))).
      { rewrite M2, XC. unfold modeAfterInit2. destruct (itype (ctl i)); cbn; [left|right|right]; auto. } pose proof (when3_modes _ _ A3) as M3. rewrite <- (k_mode Kk) in M3.
      apply good_outI; [reflexivity|].
      eapply orel_conseq; [apply orel_facts with (U := fun r i' => effect2 (O2ExitInitializationMode : Op2 F D) s (fst r) (ctl i') /\ (fst r = OK -> readied (sol i')));
        [|intros r i' t Ex; destruct r as [st x]; exact (conj (@eff2 O2ExitInitializationMode _ (fmi2ExitInitializationMode m e) (none_out m) eq_refl _ i' t Ex) (fun Eo : st = OK => exit_ready Ex Eo))
         |apply (@eff3 O3ExitInitializationMode _ (fmi3ExitInitializationMode m e) (none_out m) eq_refl M3)]|].
      - unfold fmi2ExitInitializationMode, fmi3ExitInitializationMode. rewrite BEGIN2_pass, BEGIN_pass.
        + rewrite (@refresh_ctl e _ tt (fun st => modC m (fun c => set_mode (modeAfterInit2 c) c) ;;; let* s := configurate m e in CALLk m st s tt (fun st => ret (st, tt)))%sw
             (fun st => modC m (set_mode (modeAfterInit2 (ctl i))) ;;; let* s := configurate m e in CALLk m st s tt (fun st => ret (st, tt)))%sw i)
             by (intros i' Ci; now rewrite !bind_modC, Ci).
          rewrite (@refresh_ctl e _ tt (fun st => modC m (fun c => set_mode (modeAfterInit c) c) ;;; let* s := configurate m e in CALLk m st s tt (fun st => ret (st, tt)))%sw
             (fun st => modC m (set_mode (modeAfterInit (ctl j))) ;;; let* s := configurate m e in CALLk m st s tt (fun st => ret (st, tt)))%sw j)
             by (intros i' Ci; now rewrite !bind_modC, Ci).
          eapply (@or_refreshQ _ m P e L (He e) _ _ _ _ (upg m P (b = false /\ live (mode (ctl i))) False)); [apply (k_inst Kk)| |].
          * intros st i1 j1 R1. apply or_modC.
            apply (or_configured e L (He e)). eapply instR_ctl; [exact R1|]. apply cr_set_mode; [apply R1|]. exact Mx.
          * intros st i1 j1 R1 St. split; [reflexivity|]. split; [exact R1|]. cbn. intros ->. discriminate.
        + in3 Kk A3.
        + cbn [op2 when2] in A2. inlist A2.
      - intros [st x] [st' x'] i' j' ((Eq & R & U) & [E2 RD] & E3). inversion Eq; subst st' x'. cbn [fst snd] in *.
        split; [reflexivity|]. split; [exact I|]. cbn [effect2 effect3] in E2, E3. cbn [stopped'].
        destruct E2 as [[-> E2]|[-> E2]], E3 as [[Q E3]|[Q E3]]; try discriminate Q.
        + cbn [settings2 settings3] in E2, E3. change (next2 _ s) with (modeAfterInit2 (ctl i)) in E2.
          assert (N3 : next3 (O3ExitInitializationMode : Op3 F D) s' = modeAfterInit (ctl j)).
          { cbn [next3]. unfold modeAfterInit. destruct (itype (ctl j)), (eventModeUsed (ctl j)); reflexivity. }
          rewrite N3 in E3. assert (Cr := cr_mode (ir_ctl R)). rewrite E2, E3 in Cr. cbn [mode set_mode] in Cr. clear Cr N3.
          constructor; rewrite ?E2, ?E3; cbn [mode set_mode itype eventModeUsed earlyReturnAllowed]; try apply Kk.
          * eapply instR_weaken; [| |exact R]; [|auto]. intros [B _]. split; [exact B|]. left.
            cbn [op2 when2] in A2. destruct A2 as [A2|[]]. auto.
          * exact M2.
          * intros _. apply solX_start; [apply (ir_sol (U eq_refl))|]. exact (RD eq_refl).
        + eapply K_after; [exact Kk|auto|exact R|exact E2|exact E3|reflexivity|discriminate|discriminate|reflexivity..].
    Qed.

    Definition update_body : AF F D (Status * option (EventInfo F)) :=
      (let k st :=
         let* u := getM m in
         ret (st, Some (mkEventInfo (newDiscreteStatesNeeded u) (terminateSimulation u) (nominalsChanged u)
                                    (valuesChanged u) (nextEventTimeDefined u) (nextEventTime u))) in
       if m_eventUpdate m then let* s := call m e (m_eventUpdateF m) in CALLk m OK s None k else k OK)%sw.
    Lemma same_update E S : same m P E S update_body.
    Proof.
      unfold update_body. cbv zeta.
      assert (Kb : forall i j (st : Status), instR m P E S i j -> valuesChanged (mut j) = valuesChanged (mut i) ->
        orel P (apost m P E S eq)
          ((let* u := getM m in ret (st, Some (mkEventInfo (newDiscreteStatesNeeded u) (terminateSimulation u)
              (nominalsChanged u) (valuesChanged u) (nextEventTimeDefined u) (nextEventTime u))))%sw i)
          ((let* u := getM m in ret (st, Some (mkEventInfo (newDiscreteStatesNeeded u) (terminateSimulation u)
              (nominalsChanged u) (valuesChanged u) (nextEventTimeDefined u) (nextEventTime u))))%sw j)).
      { intros i j st R V. apply or_getM. pose proof (ir_mut R) as M.
        rewrite (mr_new M), (mr_term M), (mr_nom M), V, (mr_ned M), (mr_net M). apply (same_ret _ R). }
      destruct (m_eventUpdate m) eqn:EU.
      - intros i j R.
        apply (@orel_bind _ _ P _ _ _ _ _ _ (fun x y i j => x = y /\ instR m P E S i j /\ valuesChanged (mut j) = valuesChanged (mut i))).
        + unfold call. assert (C' : ctlR P False (ctl i) (ctl j)) by (eapply ctlR_weaken; [|apply R]; tauto).
          pose proof (sl_event L EU e (He e) C' (ir_mut R)) as H. unfold orel in H |- *.
          destruct (m_eventUpdateF m e (ctl i) (mut i)) as [[[x u] t]| |],
                   (m_eventUpdateF m e (ctl j) (mut j)) as [[[y u'] t']| |]; auto.
          destruct H as [(A & B & V) T]. split; [|exact T]. split; [exact A|]. cbn. split; [|exact V].
          constructor; cbn; auto; apply R.
        + clear i j R. intros x ? i j (<- & R & V).
          apply (@orel_bind _ _ P _ _ _ _ _ _ (fun st st' i j => st = st' /\ instR m P E S i j /\
               (stops st = false -> valuesChanged (mut j) = valuesChanged (mut i)))).
          * unfold CALL. destruct (smax OK x) eqn:Sx; try (match goal with |- orel _ _ (ret _ _) _ => apply orel_ret; auto end);
            (eapply or_setMode; [exact R|]; intros i' j' R'; apply orel_ret; split; [reflexivity|split; [exact R'|discriminate]]).
          * clear i j R V. intros st ? i j (<- & R & V). destruct (stops st) eqn:St; [apply (same_ret _ R)|].
            apply Kb; auto.
      - intros i j R. apply Kb; [exact R|]. apply (mr_vals (ir_mut R)). apply (sl_noevent L EU).
    Qed.
    Lemma case_Update b : K b i j -> allowed (F := F) (D := D) CUpdate (mode (ctl i)) -> goal CUpdate b.
    Proof.
      intros Kk [A2 A3]. apply (@via_body false CUpdate b _ update_body); auto.
      - intro Q. eapply noStep; [exact A2|reflexivity|exact Q].
      - intro y. reflexivity.
      - unfold fmi2NewDiscreteStates. rewrite BEGIN2_pass; [reflexivity|]. cbn [op2 when2] in A2. inlist A2.
      - unfold fmi3UpdateDiscreteStates. rewrite BEGIN_pass; [reflexivity|]. in3 Kk A3.
      - intros. apply same_update.
      - unfold update_body. cbv zeta. destruct (m_eventUpdate m).
        + apply st_bind; [apply st_call; discriminate|]. intro. apply st_CALLk. intro. apply st_bind; [apply st_getM|]. intro. apply st_ret.
        + apply st_bind; [apply st_getM|]. intro. apply st_ret.
    Qed.

    Definition stepQ (b : bool) (r : Status * unit) (r' : Status * DoStepOut F) (i' j' : Inst F D) : Prop :=
      instR m P (fst r = OK) False i' j' /\
      match fst r with
      | OK => fst r' = OK /\ snd r' = mkDoStepOut (Some false) (Some (terminateSimulation (mut i'))) (Some false) (Some (time (ctl i'))) /\ solX (mut i') (sol i') (sol j')
      | Discard => fst r' = OK /\ snd r' = mkDoStepOut (Some false) (Some true) (Some false) (Some (time (ctl i'))) /\ solX (mut i') (sol i') (sol j')
      | x => x = Error /\ fst r' = Error
      end.
    Lemma case_Step ccp h : K false i j -> allowed (F := F) (D := D) (CStep ccp h) (mode (ctl i)) -> goal (CStep ccp h) false.
    Proof.
      intros Kk [A2 A3]. pose proof (when3_modes _ _ A3) as M3. rewrite <- (k_mode Kk) in M3.
      cbn [op2 when2] in A2. destruct A2 as [A2|[]]. symmetry in A2.
      assert (Mj : mode (ctl j) = StepMode) by (rewrite (k_mode Kk), A2; reflexivity).
      assert (R0 : instR m P True False i j).
      { eapply instR_weaken; [| |apply (k_inst Kk)]; [|auto]. intros _. split; [reflexivity|now right]. }
      assert (H : orel P (stepQ false) (fmi2DoStep m e fuel ccp h i) (fmi3DoStep m e fuel ccp h true true true true j)).
      { unfold fmi2DoStep, fmi3DoStep. cbv zeta. rewrite BEGIN2_pass by (rewrite A2; discriminate).
        rewrite BEGIN_pass by (rewrite Mj; discriminate). apply or_getC.
        rewrite (cr_ncp (ir_ctl R0) I), (cr_stop (ir_ctl R0) I).
        set (none := mkDoStepOut None None None None).
        assert (Q0 : forall i' j', instR m P True False i' j' ->
          orel P (stepQ false) (CALLk m OK Error tt (fun st => ret (st, tt)) i') (CALLk m OK Error none (fun st => ret (st, none)) j')).
        { intros i' j' R'. rewrite !CALLk_err. cbn. split; [|apply traceR_refl]. split; [|cbn; auto]. cbn [fst].
          eapply instR_weaken; [| |eapply instR_ctl; [exact R'|apply cr_mode_to, (ir_ctl R')]]; [discriminate|auto]. }
        destruct (negb (isClose ccp _)).
        { eapply or_logError; [exact R0|]. unfold setMode at 1. rewrite bind_modC.
          rewrite !CALLk_err. cbn. split; [|apply traceR_refl]. split; [|cbn; auto]. cbn [fst].
          eapply instR_weaken; [| |exact (instR_ctl R0 (cr_mode_to Terminated (ir_ctl R0)))]; [discriminate|auto]. }
        destruct (nle h nzero); [eapply or_logError; [exact R0|]; now apply Q0|].
        destruct (nlt _ _ && _); [eapply or_logError; [exact R0|]; now apply Q0|]. cbn [andb negb].
        eapply orel_bind; [apply HL; auto; [now apply Kk|apply Kk|apply Kk]|].
        intros [st fin] [[st' ehn] reached] i' j' (-> & R & Er & Hs). destruct st; try contradiction.
        - destruct Hs as (-> & -> & -> & Sx). cbn [stops]. rewrite bind_getM, bind_getC, !bind_modC. apply orel_ret.
          rewrite (cr_early (ir_ctl R)). cbn [negb fst snd]. rewrite andb_false_r. split; [|split; [reflexivity|split]].
          + eapply instR_weaken; [| |eapply instR_ctl; [exact R|apply cr_set_ncp, (ir_ctl R)]]; auto.
          + cbn. now rewrite (cr_time (ir_ctl R)), (mr_term (ir_mut R)).
          + exact Sx.
        - destruct Hs as (-> & -> & -> & Tm & Sx). cbn [stops]. rewrite bind_getM, bind_getC, !bind_modC. apply orel_ret.
          rewrite Tm. cbn [negb fst snd]. rewrite (cr_early (ir_ctl R)), Er. split; [|split; [reflexivity|split]].
          + constructor; [|apply R|apply R]. cbn. destruct (ir_ctl R). constructor; cbn; auto; discriminate.
          + cbn. now rewrite (cr_time (ir_ctl R)).
          + exact Sx.
        - destruct Hs as (-> & ->). cbn [stops]. apply orel_ret. split; [|cbn; auto]. eapply instR_weaken; [| |exact R]; auto. }

      pose proof (@orel_facts _ _ _ _ _ _ _ _ _ H
        (@eff2 (O2DoStep ccp h) _ (fmi2DoStep m e fuel ccp h) (none_out m) eq_refl)
        (@eff3 (O3DoStep ccp h true true true true) _ (fmi3DoStep m e fuel ccp h true true true true) (@ODoStep _ _) eq_refl M3)) as G.
      unfold do2, do3. cbn [op2 op3 exec2 exec3]. rewrite !outI_eq. unfold good_call. unfold orel in G.
      destruct (fmi2DoStep m e fuel ccp h i) as [[[[st x] i'] t]| |],
               (fmi3DoStep m e fuel ccp h true true true true j) as [[[[st' x'] j'] t']| |]; auto.
      destruct G as [([R Q] & E2 & E3) T]. cbn [fst snd effect2 effect3] in *.
      destruct E2 as (t2 & n2 & p2 & Ci & E2), E3 as (t3 & n3 & p3 & Cj & E3).
      assert (Kp : K (stopped' (CStep ccp h) st sv false) i' j').
      { cbn [stopped'].
        assert (Fi : itype (ctl i') = itype (ctl i) /\ eventModeUsed (ctl i') = eventModeUsed (ctl i) /\ earlyReturnAllowed (ctl i') = earlyReturnAllowed (ctl i))
          by (rewrite Ci; auto). destruct Fi as (F1 & F2 & F3).
        constructor; try congruence; try (rewrite F1; apply Kk); try (rewrite F2; apply Kk); try (rewrite F3; apply Kk).
        - eapply instR_weaken; [| |exact R]; [|auto]. intros [B Lv]. destruct st; try discriminate; auto; try destruct Q; try congruence.
          exfalso. destruct E2 as [[[Z|Z] _]|[_ Z]]; try discriminate. rewrite Z in Lv. destruct Lv; discriminate.
        - destruct E2 as [[[->| ->] Z2]|[-> Z2]], E3 as [[-> Z3]|[-> Z3]]; try (destruct Q; congruence); rewrite Z2, Z3; [apply (k_mode Kk)|apply (k_mode Kk)|reflexivity].
        - intro Z. destruct E2 as [[[->| ->] Z2]|[-> Z2]]; [apply Q|apply Q|congruence]. }
      split; [|exact Kp]. unfold agree. cbn [is_step sinst]. split; [exact (proj2 T LG)|].
      split; [apply (k_mode Kp)|]. split; [apply (cr_time (ir_ctl R))|]. split; [reflexivity|].
      destruct E2 as [[[->| ->] Z2]|[-> Z2]].
      - destruct Q as (-> & -> & _). split; reflexivity.
      - destruct Q as (-> & -> & _). split; reflexivity.
      - exact Q.
    Qed.

    (** What a script may contain. *)
    Lemma case_Save b : K b i j -> KH (heap s) (heap s') -> allowed (F := F) (D := D) CSave (mode (ctl i)) -> goal CSave b.
    Proof.
      intros Kk [L1 [L2 _]] [A2 A3]. unfold do2, do3. cbn [op2 op3 exec2 exec3]. rewrite !outS_eq.
      unfold fmi2GetFMUstate, fmi3GetFMUState.
      rewrite BEGIN2S_pass by (cbn [op2 when2] in A2; inlist A2).
      rewrite BEGIN3S_pass by (rewrite (k_mode Kk); cbn [op3 when3] in A3; revert A3; generalize (mode3 (mode (ctl i))) as x; intros x A3; inlist A3).
      cbn. split; [|exact Kk]. split; [reflexivity|]. split; [apply (k_mode Kk)|].
      split; [apply (cr_time (ir_ctl (k_inst Kk)))|]. split; [reflexivity|]. cbn. congruence.
    Qed.
    Lemma case_Forget b k : K b i j -> KH (heap s) (heap s') -> allowed (F := F) (D := D) (CForget k) (mode (ctl i)) -> goal (CForget k) b.
    Proof.
      intros Kk [L1 [L2 H]] [A2 A3]. unfold do2, do3. cbn [op2 op3 exec2 exec3]. rewrite !outS_eq.
      unfold fmi2FreeFMUstate, fmi3FreeFMUState.
      rewrite BEGIN2S_pass by (cbn [op2 when2] in A2; inlist A2).
      rewrite BEGIN3S_pass by (rewrite (k_mode Kk); cbn [op3 when3] in A3; revert A3; generalize (mode3 (mode (ctl i))) as x; intros x A3; inlist A3).
      unfold freeFMUState. cbn [negb]. unfold bind, store. specialize (H k).
      destruct (nth_error (heap s) k) as [[x|]|], (nth_error (heap s') k) as [[x'|]|]; try contradiction; try exact I.
      cbn. split; [|exact Kk]. split; [reflexivity|]. split; [apply (k_mode Kk)|].
      split; [apply (cr_time (ir_ctl (k_inst Kk)))|]. split; reflexivity.
    Qed.
    Lemma case_Restore b k : K b i j -> KH (heap s) (heap s') -> allowed (F := F) (D := D) (CRestore k) (mode (ctl i)) -> goal (CRestore k) b.
    Proof.
      intros Kk [L1 [L2 H]] [A2 A3]. unfold do2, do3. cbn [op2 op3 exec2 exec3]. rewrite !outS_eq.
      unfold fmi2SetFMUstate, fmi3SetFMUState.
      rewrite BEGIN2S_pass by (cbn [op2 when2] in A2; inlist A2).
      rewrite BEGIN3S_pass by (rewrite (k_mode Kk); cbn [op3 when3] in A3; revert A3; generalize (mode3 (mode (ctl i))) as x; intros x A3; inlist A3).
      unfold setFMUStateS, deref, onInst. specialize (H k). unfold bind.
      assert (Hk : k < length (heap s) \/ nth_error (heap s) k = None) by (destruct (Nat.lt_ge_cases k (length (heap s))); [auto|right; now apply nth_error_None]).
      destruct (nth_error (heap s) k) as [[x|]|], (nth_error (heap s') k) as [[x'|]|]; try contradiction; try exact I.
      destruct Hk as [Hk|]; [|discriminate]. rewrite L1 in Hk.
      pose proof (or_restore e (k_inst H) (k_inst Kk)) as R. unfold orel in R. cbn [sinst heap].
      destruct (setFMUState m e (Some x) i) as [[[st y] t]| |] eqn:E1, (setFMUState m e (Some x') j) as [[[st' y'] t']| |] eqn:E2; try contradiction; try exact I.
      destruct R as [[<- R] T].
      assert (Ki : K (nth k sv b) y y').
      { rewrite (nth_indep sv b false Hk). clear - solX_restore E1 E2 R H Kk.
        unfold setFMUState in E1, E2.
        destruct (restoreSol (sol x) (sol i)) as [o|] eqn:S1; [|discriminate]. destruct (restoreSol (sol x') (sol j)) as [o'|] eqn:S2; [|discriminate].
        inversion E1; subst; clear E1. inversion E2; subst; clear E2. destruct H as [RR M S T V E], Kk as [RR' M' S' T' V' E'].
        constructor; cbn in *; auto.
        - intro Hm. assert (Em : restoreMut m (mut x) (mut i) = mut x) by (destruct (mut x); reflexivity). rewrite Em.
          destruct R as [_ _ So]. cbn in So. eapply solX_restore; [exact (S Hm)|apply So|apply So|exact S1|exact S2]. }
      assert (St : st = OK) by (unfold setFMUState in E1; destruct (restoreSol (sol x) (sol i)); congruence).
      subst st. cbn. split; [|exact Ki]. cbn. split; [rewrite !app_nil_r; exact (proj2 T LG)|]. split; [apply (k_mode Ki)|].
      split; [apply (cr_time (ir_ctl (k_inst Ki)))|]. split; [reflexivity|exact I].
    Qed.

    Lemma case_Copy b k : K b i j -> KH (heap s) (heap s') -> allowed (F := F) (D := D) (CCopy k) (mode (ctl i)) -> goal (CCopy k) b.
    Proof.
      intros Kk [L1 [L2 H]] [A2 A3]. unfold do2, do3. rewrite (copy2_eq szof fuel e k s), (copy3_eq szof' fuel e k s').
      - specialize (H k). destruct (nth_error (heap s) k) as [[x|]|], (nth_error (heap s') k) as [[x'|]|]; try contradiction; try exact I.
        split; [|exact Kk]. cbn. split; [reflexivity|]. split; [apply (k_mode Kk)|].
        split; [apply (cr_time (ir_ctl (k_inst Kk)))|]. split; [reflexivity|]. now rewrite L1, L2.
      - rewrite (k_mode Kk); cbn [op3 when3] in A3; revert A3; generalize (mode3 (mode (ctl i))) as x; intros x A3; inlist A3.
      - cbn [op2 when2] in A2; inlist A2.
    Qed.

    Definition plain (c : Call F) : bool :=
      match c with CSet t _ _ | CGet t _ _ => basic t | CSetBoolean vrs values => Nat.eqb (length values) (length vrs) | _ => true end.
    Lemma case_any b c : plain c = true -> K b i j -> KH (heap s) (heap s') -> allowed (F := F) (D := D) c (mode (ctl i)) -> (is_step c = true -> b = false) -> goal c b.
    Proof.
      intros Pl Kk KK A St. destruct c.
      - now apply case_Set.
      - now apply case_Get.
      - cbn in Pl. apply Nat.eqb_eq in Pl. now apply case_SetBoolean.
      - now apply case_GetBoolean.
      - now apply case_Save.
      - now apply case_Restore.
      - now apply case_Forget.
      - now apply case_Copy.
      - now apply case_Init.
      - now apply case_ExitInit.
      - rewrite (St eq_refl) in Kk |- *. now apply case_Step.
      - now apply case_Terminate.
      - now apply case_Reset.
      - now apply case_EnterEvent.
      - now apply case_Update.
      - now apply case_EnterContinuous.
      - now apply case_Completed.
      - now apply case_SetTime.
      - now apply case_SetStates.
      - now apply case_States.
      - now apply case_Derivatives.
      - now apply case_Indicators.
      - now apply case_Nominals.
      - now apply case_Directional.
    Qed.
  End Calls.

  (** Only these calls allocate and free FMU states. *)
  Definition heaped (c : Call F) : bool := match c with CSave | CForget _ | CCopy _ => true | _ => false end.
  Definition hk {X} (f : SF m X) : Prop := forall s x s1 t, f s = Done (x, s1, t) -> heap s1 = heap s.
  Lemma hk_inst X (f : AF F D X) : hk (onInst m f).
  Proof. intros s x s1 t. unfold onInst. destruct (f (sinst s)) as [[[? ?] ?]| |]; intro H; inversion H; reflexivity. Qed.
  Lemma hk_ret X (x : X) : hk (ret x).
  Proof. intros s y s1 t H. inversion H. reflexivity. Qed.
  Lemma hk_bind X Y (f : SF m X) (g : X -> SF m Y) : hk f -> (forall x, hk (g x)) -> hk (bind f g).
  Proof.
    intros Hf Hg s y s1 t. unfold bind. destruct (f s) as [[[x s0] t0]| |] eqn:E; [|discriminate..].
    destruct (g x s0) as [[[y' s2] t2]| |] eqn:E'; [|discriminate..]. intro H. inversion H; subst. rewrite (Hg _ _ _ _ _ E'). exact (Hf _ _ _ _ E).
  Qed.
  Lemma hk_outI X (f : AF F D (Status * X)) out : hk (outI m f out).
  Proof. unfold outI, outS. apply hk_bind; [apply hk_inst|]. intro. apply hk_ret. Qed.
  Lemma hk_deref k : hk (deref m k).
  Proof. intros s x s1 t. unfold deref. destruct (nth_error (heap s) k) as [[?|]|]; intro H; inversion H; reflexivity. Qed.
  Lemma hk_set e h : hk (setFMUStateS m e h).
  Proof. destruct h; cbn; [apply hk_bind; [apply hk_deref|intro]|]; apply hk_inst. Qed.
  Lemma heap_exec2 e c : heaped c = false -> hk (exec2 m szof fuel e (op2 c)).
  Proof.
    intro Hc. destruct c; try discriminate Hc; cbn [op2 exec2]; try apply hk_outI.
    unfold outS, fmi2SetFMUstate, BEGIN2S. repeat (apply hk_bind; [|intro]); try apply hk_inst; try apply hk_ret.
    match goal with |- hk (if ?b then _ else _) => destruct b end; [|apply hk_inst]. apply hk_bind; [apply hk_set|intro; apply hk_ret].
  Qed.
  Lemma heap_exec3 e c : heaped c = false -> hk (exec3 m szof' fuel e (op3 c)).
  Proof.
    intro Hc. destruct c; try discriminate Hc; cbn [op3 exec3]; try apply hk_outI.
    unfold outS, fmi3SetFMUState, BEGIN3S. repeat (apply hk_bind; [|intro]); try apply hk_inst; try apply hk_ret.
    match goal with |- hk (if ?b then _ else _) => destruct b end; [|apply hk_inst]. apply hk_bind; [apply hk_set|intro; apply hk_inst].
  Qed.
  Lemma heap_do2 e c s st o s1 t : heaped c = false -> do2 m szof fuel e c s = Done (st, o, s1, t) -> heap s1 = heap s.
  Proof.
    intros Hc H. pose proof (@heap_exec2 e c Hc s) as G. unfold do2, next_call in H.
    destruct c; try discriminate Hc; try exact (G _ _ _ H).
    match type of G with forall x _ _, ?r = _ -> _ => destruct r as [[[[x o1] s2] t1]| |]; [|discriminate H..] end.
    specialize (G _ _ _ eq_refl). rewrite <- G. clear G. destruct x; try (inversion H; reflexivity).
    destruct (exec2 m szof fuel e O2EnterInitializationMode s2) as [[[[x' o2] s3] t2]| |] eqn:E; [|discriminate H..].
    inversion H; subst. cbn [exec2] in E. exact (hk_outI _ _ _ E).
  Qed.

  Lemma KH_new b i j h h' : KH h h' -> K b i j -> 
    length (h ++ [Some i]) = length (sv ++ [b]) /\ length (h' ++ [Some j]) = length (sv ++ [b]) /\
    forall k, match nth_error (h ++ [Some i]) k, nth_error (h' ++ [Some j]) k with
              | Some (Some x), Some (Some x') => K (nth k (sv ++ [b]) false) x x'
              | Some None, Some None => True
              | None, None => True
              | _, _ => False
              end.
  Proof.
    intros (L1 & L2 & H) Kk. rewrite !app_length. cbn [length]. split; [lia|]. split; [lia|]. intro k. specialize (H k).
    destruct (Nat.lt_trichotomy k (length sv)) as [C|[->|C]].
    - rewrite !nth_error_app1 by lia. now rewrite app_nth1.
    - rewrite !nth_error_app2 by lia. rewrite L1, L2, app_nth2, Nat.sub_diag by lia. exact Kk.
    - rewrite !(proj2 (nth_error_None _ _)) by (rewrite app_length; cbn; lia). exact I.
  Qed.
  Lemma nth_error_upd T (l : list T) k n (x : T) : nth_error (upd l k x) n = if Nat.eqb n k then (match nth_error l n with Some _ => Some x | None => None end) else nth_error l n.
  Proof. revert k n. induction l as [|a l IH]; intros [|k] [|n]; cbn; try reflexivity; [now destruct (S n =? S k)|change (S n =? S k) with (n =? k); apply IH]. Qed.
  Lemma upd_len T (l : list T) k (x : T) : length (upd l k x) = length l.
  Proof. revert k. induction l as [|a l IH]; intros [|k]; cbn; auto. Qed.
  Lemma KH_free h h' k : KH h h' -> KH (upd h k None) (upd h' k None).
  Proof.
    intros (L1 & L2 & H). split; [now rewrite upd_len|]. split; [now rewrite upd_len|]. intro n. specialize (H n).
    rewrite !nth_error_upd. destruct (Nat.eqb n k); [|exact H]. destruct (nth_error h n) as [[?|]|], (nth_error h' n) as [[?|]|]; auto.
  Qed.
  End CrossSv.
  Ltac inlist H := repeat (destruct H as [<-|H]; [vm_compute; discriminate|]); destruct H.

  Lemma alike_K l : forallb (fun p => plain (snd p)) l = true -> forall sv b s s', K b (sinst s) (sinst s') -> KH sv (heap s) (heap s') ->
    alike m m szof szof' fuel sv b l s s'.
  Proof.
    induction l as [|[e c] l IH]; intros Pl sv b s s' Kk KK; [exact I|]. cbn [forallb snd] in Pl. apply andb_prop in Pl as [Pc Pl].
    cbn [alike]. intros [A St]. pose proof (@case_any sv e s s' b c Pc Kk KK A St) as G. unfold good_call in G.
    assert (H : forall st o s1 t st' o' s1' t', do2 m szof fuel e c s = Done (st, o, s1, t) -> do3 m szof' fuel e c s' = Done (st', o', s1', t') ->
              KH (saved' c b sv) (heap s1) (heap s1')).
    { intros * E2 E3. destruct (heaped c) eqn:Hc.
      - destruct A as [A2 A3]. destruct (is_copy c) as [k|] eqn:Ic.
        { destruct c; inversion Ic; subst. clear G. destruct KK as (L1 & L2 & H). unfold do2, do3 in E2, E3. rewrite copy2_eq in E2 by (cbn [op2 when2] in A2; inlist A2).
          rewrite copy3_eq in E3 by (rewrite (k_mode Kk); cbn [op3 when3] in A3; revert A3; generalize (mode3 (mode (ctl (sinst s)))) as x; intros x A3; inlist A3).
          pose proof (H k) as Hk. assert (Lk : k < length sv \/ nth_error (heap s) k = None) by (destruct (Nat.lt_ge_cases k (length (heap s))); [left; lia|right; now apply nth_error_None]).
          destruct (nth_error (heap s) k) as [[x|]|]; try discriminate E2. destruct (nth_error (heap s') k) as [[x'|]|]; try discriminate E3.
          destruct Lk as [Lk|]; [|discriminate].
          inversion E2; inversion E3; subst. cbn [heap saved']. rewrite (nth_indep sv b false Lk). exact (KH_new (conj L1 (conj L2 H)) Hk). } destruct c; try discriminate Hc; try discriminate Ic; unfold do2, do3 in E2, E3; cbn [op2 op3 exec2 exec3] in E2, E3; rewrite outS_eq in E2, E3;
          unfold fmi2GetFMUstate, fmi3GetFMUState, fmi2FreeFMUstate, fmi3FreeFMUState in E2, E3;
          rewrite BEGIN2S_pass in E2 by (cbn [op2 when2] in A2; inlist A2);
          rewrite BEGIN3S_pass in E3 by (rewrite (k_mode Kk); cbn [op3 when3] in A3; revert A3; generalize (mode3 (mode (ctl (sinst s)))) as x; intros x A3; inlist A3).
        + cbn in E2, E3. inversion E2. inversion E3. cbn [heap saved']. exact (KH_new KK Kk).
        + unfold freeFMUState in E2, E3. cbn [negb] in E2, E3. unfold bind, store in E2, E3.
          destruct (nth_error (heap s) k) as [[?|]|]; try discriminate E2. destruct (nth_error (heap s') k) as [[?|]|]; try discriminate E3.
          cbn in E2, E3. inversion E2. inversion E3. cbn [heap saved']. now apply KH_free.
      - rewrite (heap_do2 _ _ _ Hc E2). assert (E3' : exec3 m szof' fuel e (op3 c) s' = Done (st', o', s1', t')) by (destruct c; try discriminate Hc; exact E3).
        rewrite (heap_exec3 _ _ Hc _ E3'). destruct c; try discriminate Hc; exact KK. }
    destruct (do2 m szof fuel e c s) as [[[[st o] s1] t]| |], (do3 m szof' fuel e c s') as [[[[st' o'] s1'] t']| |]; auto.
    destruct G as [Ag Kk']. split; [exact Ag|]. apply IH; [exact Pl|exact Kk'|]. exact (H _ _ _ _ _ _ _ _ eq_refl eq_refl).
  Qed.
End Cross.
