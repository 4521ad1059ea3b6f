(** CrossRes.v -- the two builds of Resource, side by side (C23).  Both read the same file if they are given the same
    directory; so both behave like one model that reads this file wherever it is. *)
From Coq Require Import List NArith ZArith Bool Arith Lia.
From Verif Require Import Base Instance ModelIface Core Fmi3 Fmi2 Api Fmus Logic LawsFmus SpecModes SpecCreate SpecHist Calls Sim SimRules Sim3 SimFmus SimMade
  FmuResource SpecCross Cross CrossLoops CrossFmus Histories ImpResource SpecImporter Importer RunsMore RunsRes.
Import ListNotations.
Set Implicit Arguments.

Section Res.
  Context {F : Type} {NF : Num F}.
  Notation MF := (MF F REData).
  Open Scope mf_scope.
  (** Resource_model with another calculateValues *)
  Section Of.
    Variable calc : MF Status.
    Definition of_getFloat64 (vr : N) (values : Buf F) (nValues index : nat) : MF (GetRes F) :=
      nnGet values index (calc >> do c <- mctl in match re_var vr with Some REtime => put1 values nValues index (time c) | _ => failGet values index end).
    Definition of_getInt32 (vr : N) (values : Buf Z) (nValues index : nat) : MF (GetRes Z) :=
      nnGet values index (calc >> do d <- mdata in match re_var vr with Some REy => put1 values nValues index (re_y d) | _ => failGet values index end).
    Definition Resource_of : Model F := {|
      md := REData; md0 := mkRE 0; m_token := re_token; m_modelExchange := true; m_scheduled := false;
      m_eventUpdate := false; m_outputDerivative := false; m_maxX := 0; m_maxZ := 0; m_step := nlit 1 0;
      m_setStartValues := re_setStartValues; m_calculateValues := calc;
      m_get := fun t => match t return N -> Buf (val F t) -> nat -> nat -> MF (GetRes (val F t)) with
                        | TFloat64 => of_getFloat64 | TInt32 => of_getInt32 | _ => get_not_allowed end;
      m_set := fun t => set_not_allowed; m_getBinary := getBinary_default; m_setBinary := setBinary_default;
      m_activateClock := activateClock_default; m_getClock := getClock_default;
      m_getInterval := getInterval_default; m_activateModelPartition := activate_default;
      m_nz := fun _ => 0; m_nx := fun _ => 0; m_getContinuousStates := states_default; m_getNominals := states_default;
      m_setContinuousStates := setStates_default; m_getDerivatives := states_default; m_getEventIndicators := indicators_default;
      m_getOutputDerivative := outputDerivative_absent; m_getPartialDerivative := partial_default; m_eventUpdateF := eventUpdate_absent |}.
  End Of.
  Lemma is_of b : Resource_model (F := F) b = Resource_of (re_calculateValues b).
  Proof. reflexivity. Qed.

  (** The model that reads the file [p] *)
  Variable p : bytes.
  Definition rx : MF Status :=
    do e <- menv in mmodd (fun _ => mkRE (match env_file e p with Some c => c | None => 0%Z end)) >> mmod (set_dirty false) >> mret OK.
  Definition RX : Model F := Resource_of rx.
  Lemma laws_RX : Laws RX.
  Proof. constructor; cbn; intros; unfold of_getFloat64, of_getInt32, rx; gd_go. Qed.
  Definition relX : Rel REData := mkRel True true (fun _ => True) (fun _ => True) True False (fun _ _ => True).
  Lemma sim_RX : SimLaws RX relX.
  Proof. constructor; unfold RX, Resource_of, of_getFloat64, of_getInt32, rx; sl_all 0. Qed.
  Lemma advG_RX : advG RX.
  Proof.
    intros env t vr values nv index c u s w ix u' tr Bt E. revert E.
    enough (H : advg index (m_get RX t vr values nv index)) by (intro E; exact (H _ _ _ _ _ _ _ _ E)).
    destruct t; try discriminate Bt; cbn [m_get RX Resource_of]; unfold of_getFloat64, of_getInt32, get_not_allowed; adv.
  Qed.
  Lemma advS_RX : advS RX.
  Proof.
    intros env t vr values nv index c u s ix u' tr Bt E. revert E.
    enough (H : advs index (m_set RX t vr values nv index)) by (intro E; exact (H _ _ _ _ _ _ _ E)).
    cbn [m_set RX Resource_of]; unfold set_not_allowed; adv.
  Qed.
  Lemma bool_get_RX : forall vr l nv index e c u, index < nv ->
    m_get RX TBoolean vr (Some l) nv index e c u =
    match m_get RX TBoolean vr (Some [false]) nv 0 e c u with
    | Done ((OK, v, _), u', t) => match v with Some (b :: _) => if Nat.ltb index (length l) then Done ((OK, Some (upd l index b), S index), u', t) else UB | _ => UB end
    | Done ((st, _, _), u', t) => Done ((st, Some l, index), u', t)
    | UB => UB
    | NoFuel => NoFuel
    end.
  Proof.
    intros. cbn [m_get RX Resource_of]. unfold get_not_allowed, failGet, mlogError; cbv [mbind mctl mtell mret bind ret getS tell]; destruct (logErrors c && hasLogger c); reflexivity.
  Qed.
  Lemma bool_set_RX : forall vr l nv index b e c u, index < nv -> nth_error l index = Some b ->
    m_set RX TBoolean vr (Some l) nv index e c u =
    match m_set RX TBoolean vr (Some [b]) nv 0 e c u with
    | Done ((OK, _), u', t) => Done ((OK, S index), u', t)
    | Done ((st, _), u', t) => Done ((st, index), u', t)
    | UB => UB
    | NoFuel => NoFuel
    end.
  Proof.
    intros. cbn [m_set RX Resource_of]. unfold set_not_allowed, failSet, mlogError; cbv [mbind mctl mtell mret bind ret getS tell]; destruct (logErrors c && hasLogger c); reflexivity.
  Qed.
  Definition start_alikeX (i j : Inst F (md RX)) : Prop :=
    instR RX relX True True i j /\ mode (ctl i) = Instantiated /\ mode (ctl j) = Instantiated /\
    itype (ctl i) <> ScheduledExecution /\ eventModeUsed (ctl i) = false /\ earlyReturnAllowed (ctl i) = false.
  Lemma start_KX Sx i j : start_alikeX i j -> K RX relX Sx false i j.
  Proof.
    intros (R & M & M' & T & E1 & E2). constructor; auto.
    - eapply instR_weaken; [| |exact R]; auto.
    - rewrite M, M'. reflexivity.
    - rewrite M. discriminate.
  Qed.
  Lemma alike_RX szof szof' fuel l i j : forallb (fun p => portable Resource (snd p)) l = true -> start_alikeX i j ->
    alike RX RX szof szof' fuel [] false l (mkSys i []) (mkSys j []).
  Proof.
    intros Pl St.
    assert (Pl' : forallb (fun p : Env * Call F => Cross.plain (snd p)) l = true).
    { apply forallb_forall. intros q Hq. rewrite forallb_forall in Pl. specialize (Pl _ Hq). unfold portable, Cross.plain in *.
      destruct (snd q); try reflexivity; try exact Pl; now apply andb_prop in Pl as [Pl _]. }
    refine (@alike_K F NF RX relX sim_RX laws_RX (fun _ => I) eq_refl I advG_RX advS_RX (fun H => H) bool_get_RX bool_set_RX
      (fun _ _ => True) _ _ _ _ _ _ _ (@solF F RX) _ _ _ _ szof szof' fuel l Pl' [] false (mkSys i []) (mkSys j []) (start_KX _ St) _); try (repeat intro; exact I).
    + intros d d' o o' _ H. exact H.
    + intros u o o' H _. exact H.
    + exact (@solF_restore F RX).
    + intros env i0 j0. exact (@flat_pass F NF RX relX sim_RX laws_RX (fun _ => I) eq_refl env i0 j0).
    + cbn [heap]. repeat split. now intros [].
  Qed.

  Lemma outI_ext (m : Model F) X (f g : AF F (md m) (Status * X)) o s : f (sinst s) = g (sinst s) -> outI m f o s = outI m g o s.
  Proof. intro E. rewrite !outI_eq. now rewrite E. Qed.

  (** ** Where the file is found *)
  Section Swap.
    Context (calc : MF Status) (loc : bytes) (e : Env).
    Hypothesis Same : forall c u, resourceLocation c = Some loc -> calc e c u = rx e c u.
    Notation RC := (Resource_of calc).
    Notation D := REData.
    Definition here (i : Inst F D) : Prop := resourceLocation (ctl i) = Some loc.
    Definition stays {X} (f : AF F D X) : Prop := forall i x i' t, f i = Done (x, i', t) -> here i -> here i'.
    Definition equal {X} (f g : AF F D X) : Prop := forall i, here i -> f i = g i.
    Lemma equal_bind X Y (f g : AF F D X) (k k' : X -> AF F D Y) : equal f g -> stays f -> (forall x, equal (k x) (k' x)) -> equal (bind f k) (bind g k').
    Proof.
      intros E S K i H. unfold bind. rewrite <- (E i H). destruct (f i) as [[[x i'] t]| |] eqn:Ef; try reflexivity. rewrite (K x i' (S _ _ _ _ Ef H)). reflexivity.
    Qed.
    Lemma equal_refl X (f : AF F D X) : equal f f.
    Proof. intros i _. reflexivity. Qed.
    Lemma stays_call X (f : MF X) : stays (call RC e f).
    Proof. intros i x i' t E H. unfold call in E. match type of E with match ?q with _ => _ end = _ => destruct q as [[[a u] t1]| |] end; inversion E; subst. exact H. Qed.
    Lemma stays_CALL st s : stays (CALL RC st s).
    Proof. intros i x i' t E H. unfold CALL in E. destruct (smax st s); inversion E; subst; exact H. Qed.
    Lemma equal_CALLk X st s (x : X) k k' : (forall st, equal (k st) (k' st)) -> equal (CALLk RC st s x k) (CALLk RX st s x k').
    Proof. intro H. apply equal_bind; [apply equal_refl|apply stays_CALL|]. intro st'. destruct (stops st'); [apply equal_refl|apply H]. Qed.
    Lemma stays_allowed mask : stays (allowedState RC e mask) /\ stays (allowedState2 RC e mask).
    Proof.
      split; intros i x i' t E H; revert E; unfold allowedState, allowedState2; rewrite bind_getC; destruct (N.eqb _ 0); intro E.
      - apply bind_Done in E as (? & i1 & ? & ? & E & E' & _). assert (Hi : here i1) by (eapply stays_call; [exact E|exact H]). inversion E'; subst; exact Hi.
      - inversion E; subst; exact H.
      - apply bind_Done in E as (? & i1 & ? & ? & E & E' & _). assert (Hi : here i1) by (eapply stays_call; [exact E|exact H]). inversion E'; subst; exact Hi.
      - inversion E; subst; exact H.
    Qed.
    Lemma equal_BEGIN X mask (x : X) k k' : equal k k' -> equal (BEGIN RC e mask x k) (BEGIN RX e mask x k').
    Proof. intro H. apply equal_bind; [apply equal_refl|apply stays_allowed|]. intros []; [exact H|]. apply equal_CALLk. auto. Qed.
    Lemma equal_BEGIN2 X mask (x : X) k k' : equal k k' -> equal (BEGIN2 RC e mask x k) (BEGIN2 RX e mask x k').
    Proof. intro H. apply equal_bind; [apply equal_refl|apply stays_allowed|]. intros []; [exact H|]. apply equal_CALLk. auto. Qed.
    Lemma equal_if X (b : bool) (f g f' g' : AF F D X) : equal f f' -> equal g g' -> equal (if b then f else g) (if b then f' else g').
    Proof. now destruct b. Qed.
    Lemma equal_refresh X st (x : X) k k' : (forall st, equal (k st) (k' st)) -> equal (refresh RC e st x k) (refresh RX e st x k').
    Proof.
      intro H. apply equal_bind; [apply equal_refl| |].
      - intros i y i' t E Hi. inversion E; subst; exact Hi.
      - intro u. apply (@equal_if _ (dirty u)); [|apply H]. apply equal_bind; [|apply stays_call|].
        + intros i Hi. unfold call. cbn [m_calculateValues Resource_of RX]. rewrite (Same _ _ Hi). reflexivity.
        + intro s. apply equal_CALLk. intro st'. apply equal_bind; [apply equal_refl| |].
          * intros i y i' t E Hi. inversion E; subst; exact Hi.
          * intros _. apply H.
    Qed.
    Lemma equal_get t vr values nv index : equal (call RC e (m_get RC t vr values nv index)) (call RX e (m_get RX t vr values nv index)).
    Proof.
      intros i Hi. unfold call. destruct t; try reflexivity; cbn [m_get Resource_of RX]; unfold of_getFloat64, of_getInt32, nnGet, mbind; destruct values; try reflexivity;
        unfold bind at 1 3; rewrite (Same _ _ Hi); reflexivity.
    Qed.
    Lemma equal_loop t n : forall vrs values nv index st, equal (get_loop RC e t vrs n values nv index st) (get_loop RX e t vrs n values nv index st).
    Proof.
      induction n as [|n IH]; intros vrs values nv index st; cbn [get_loop]; [apply equal_refl|]. destruct vrs as [|vr vrs]; [apply equal_refl|].
      apply equal_bind; [apply equal_get|apply stays_call|]. intros [[s v] ix]. apply equal_bind; [apply equal_refl|apply stays_CALL|].
      intro st'. destruct (stops st'); [apply equal_refl|apply IH].
    Qed.
    Lemma stays_loop t n : forall vrs values nv index st, stays (get_loop RC e t vrs n values nv index st).
    Proof.
      induction n as [|n IH]; intros vrs values nv index st; cbn [get_loop].
      - intros i x i' tr E H. inversion E; subst; exact H.
      - destruct vrs as [|vr vrs]; [intros i x i' tr E; discriminate|]. intros i x i' tr E H.
        apply bind_Done in E as ([[s v] ix] & i1 & t1 & t2 & E1 & E & _). assert (H1 : here i1) by (eapply stays_call; [exact E1|exact H]).
        apply bind_Done in E as (st' & i2 & t3 & t4 & E2 & E & _). assert (H2 : here i2) by (eapply stays_CALL; [exact E2|exact H1]).
        destruct (stops st'); [inversion E; subst; exact H2|]. eapply IH; eauto.
    Qed.
    Lemma equal_get3 t vrs n values nv : equal (fmi3Get RC e t vrs n values nv) (fmi3Get RX e t vrs n values nv).
    Proof.
      apply equal_BEGIN. destruct (Nat.eqb n 0); [apply equal_refl|]. destruct vrs as [vrs|]; [|apply equal_refl]. cbn [ASSERT_NOT_NULL].
      assert (B : equal (refresh RC e OK values (fun st =>
        let* r := get_loop RC e t vrs n values nv 0 st in
        let '(st, values', index) := r in
        if stops st then ret (st, values') else
        if negb (Nat.eqb index nv) then logError RC e ;;; CALLk RC st Error values' (fun st => ret (st, values')) else ret (st, values'))%sw)
       (refresh RX e OK values (fun st =>
        let* r := get_loop RX e t vrs n values nv 0 st in
        let '(st, values', index) := r in
        if stops st then ret (st, values') else
        if negb (Nat.eqb index nv) then logError RX e ;;; CALLk RX st Error values' (fun st => ret (st, values')) else ret (st, values'))%sw)).
      { apply equal_refresh. intro st. apply equal_bind; [apply equal_loop|apply stays_loop|]. intros [[st' v] ix]. apply equal_refl. }
      destruct (Nat.ltb 0 nv); [|exact B]. destruct values; [exact B|apply equal_refl].
    Qed.
    Lemma equal_get2 t vrs n values : equal (fmi2GetV RC e t vrs n values) (fmi2GetV RX e t vrs n values).
    Proof.
      apply (@equal_BEGIN2 _ MASK2_GetReal values). destruct (Nat.eqb n 0); [apply equal_refl|]. destruct vrs as [vrs|]; [|apply equal_refl]. destruct values as [v|]; [|apply equal_refl].
      cbn [ASSERT_NOT_NULL]. apply (@equal_refresh _ OK (Some v)). intro st. apply equal_bind; [apply equal_loop|apply stays_loop|]. intros [[st' v'] ix]. apply equal_refl.
    Qed.
    Lemma equal_exit : equal (fmi3ExitInitializationMode RC e) (fmi3ExitInitializationMode RX e) /\ equal (fmi2ExitInitializationMode RC e) (fmi2ExitInitializationMode RX e).
    Proof.
      split; [apply equal_BEGIN|apply equal_BEGIN2]; apply equal_refresh; intro st; apply equal_refl.
    Qed.
    Lemma outI_same X (f g : AF F D (Status * X)) o s : equal f g -> here (sinst s) -> outI RC f o s = outI RX g o s.
    Proof. intros E H. exact (@outI_ext RC X f g o s (E _ H)). Qed.
    Lemma do2_eq szof fuel c (s : Sys F D) : portable Resource c = true -> here (sinst s) -> do2 RC szof fuel e c s = do2 RX szof fuel e c s.
    Proof.
      intros Pc H. unfold do2. destruct c; try reflexivity; cbn [op2 exec2].
      - apply (@outI_same _ (fmi2GetV RC e t (Some vrs) (length vrs) (Some values)) (fmi2GetV RX e t (Some vrs) (length vrs) (Some values))); [apply equal_get2|exact H].
      - apply (@outI_same _ (fmi2ExitInitializationMode RC e) (fmi2ExitInitializationMode RX e)); [apply equal_exit|exact H].
    Qed.
    Lemma do3_eq szof fuel c (s : Sys F D) : portable Resource c = true -> here (sinst s) -> do3 RC szof fuel e c s = do3 RX szof fuel e c s.
    Proof.
      intros Pc H. unfold do3. destruct c; try reflexivity; cbn [op3 exec3].
      - apply (@outI_same _ (fmi3Get RC e t (Some vrs) (length vrs) (Some values) (length vrs)) (fmi3Get RX e t (Some vrs) (length vrs) (Some values) (length vrs))); [apply equal_get3|exact H].
      - apply (@outI_same _ (fmi3Get RC e TBoolean (Some vrs) (length vrs) (Some values) (length vrs)) (fmi3Get RX e TBoolean (Some vrs) (length vrs) (Some values) (length vrs))); [apply equal_get3|exact H].
      - apply (@outI_same _ (fmi3ExitInitializationMode RC e) (fmi3ExitInitializationMode RX e)); [apply equal_exit|exact H].
    Qed.
  End Swap.

  (** ** Scripts *)
  Lemma do2_here szof fuel e c (s : Sys F (md RX)) st o s1 t loc : here loc (sinst s) -> do2 RX szof fuel e c s = Done (st, o, s1, t) -> here loc (sinst s1).
  Proof.
    assert (Id : forall q (a : Sys F (md RX)) st o b t, exec2 RX szof fuel e q a = Done (st, o, b, t) -> here loc (sinst a) -> here loc (sinst b)).
    { intros q a st0 o0 b t0 E H. pose proof (proj1 (@exec2_identity _ _ RX szof laws_RX _ _ _ _ _ _ _ _ E)) as Q. exact (eq_trans (f_equal (fun q => snd (fst (fst q))) Q) H). }
    assert (Nx : forall a k, (forall x o b u, a = Done (x, o, b, u) -> here loc (sinst b)) ->
      (forall o b r, here loc (sinst b) -> k o b = Some r -> forall x o b u, r = Done (x, o, b, u) -> here loc (sinst b)) ->
      forall x o b u, next_call (m := RX) a k = Done (x, o, b, u) -> here loc (sinst b)).
    { intros a k Ha Hk x o0 b u E. unfold next_call in E. destruct a as [[[[y o1] b1] u1]| |]; try discriminate E. specialize (Ha _ _ _ _ eq_refl).
      destruct y; try (inversion E; subst; exact Ha). specialize (Hk o1 b1). destruct (k o1 b1) as [[[[[z o2] b2] u2]| |]|]; try discriminate E.
      - inversion E; subst. exact (Hk _ Ha eq_refl _ _ _ _ eq_refl).
      - inversion E; subst. exact Ha. }
    intros H E. unfold do2 in E. destruct c; try (eapply Id; [exact E|exact H]).
    - unfold copy2 in E. revert E. apply Nx; [intros * E; exact (Id _ _ _ _ _ _ E H)|]. intros o0 b r Hb Er. destruct o0; try discriminate Er. destruct n; inversion Er; subst; clear Er.
      apply Nx; [intros * E; exact (Id (O2SerializeFMUstate (Some k) (Some (mkBlob n None)) n) _ _ _ _ _ E Hb)|]. intros o1 b1 r1 Hb1 Er.
      destruct o1 as [| | | | | | | | | |bl| | | | |]; inversion Er; subst; clear Er. intros * E. exact (Id (O2DeSerializeFMUstate bl n true None) _ _ _ _ _ E Hb1).
    - revert E. apply Nx; [intros * E; exact (Id _ _ _ _ _ _ E H)|]. intros o0 b r Hb Er. inversion Er; subst; clear Er. intros * E. exact (Id O2EnterInitializationMode _ _ _ _ _ E Hb).
  Qed.
  Lemma do3_here szof fuel e c (s : Sys F (md RX)) st o s1 t loc : In (mode (ctl (sinst s))) modes3 -> here loc (sinst s) ->
    do3 RX szof fuel e c s = Done (st, o, s1, t) -> here loc (sinst s1).
  Proof.
    intros M H E. destruct (is_copy c) as [k|] eqn:Ic.
    - destruct c; inversion Ic; subst. unfold do3 in E. rewrite copy3_eq in E.
      + destruct (nth_error (heap s) k) as [[x|]|]; inversion E; subst. exact H.
      + clear - M. destruct (mode (ctl (sinst s))); try (vm_compute; discriminate); cbn in M; intuition discriminate.
    - assert (E' : exec3 RX szof fuel e (op3 c) s = Done (st, o, s1, t)) by (destruct c; try discriminate Ic; exact E).
      pose proof (proj1 (@exec3_identity _ _ RX szof laws_RX _ _ _ _ _ _ _ _ M E')) as Q. exact (eq_trans (f_equal (fun q => snd (fst (fst q))) Q) H).
  Qed.
  Section Both.
    Context (calc calc' : MF Status) (loc loc' : bytes) (szof szof' : N) (fuel : nat).
    Lemma alike_both l : forall saved stopped (s s' : Sys F REData),
      (forall e c, In (e, c) l -> (forall k u, resourceLocation k = Some loc -> calc e k u = rx e k u) /\ (forall k u, resourceLocation k = Some loc' -> calc' e k u = rx e k u)) ->
      forallb (fun q => portable Resource (snd q)) l = true -> here loc (sinst s) -> here loc' (sinst s') -> mode (ctl (sinst s')) = mode3 (mode (ctl (sinst s))) ->
      alike RX RX szof szof' fuel saved stopped l s s' -> alike (Resource_of calc) (Resource_of calc') szof szof' fuel saved stopped l s s'.
    Proof.
      induction l as [|[e c] l IH]; intros saved stopped s s' Same Po H H' M A; [exact I|]. cbn [alike forallb snd] in *. apply andb_prop in Po as [P1 P2].
      intro K. specialize (A K). destruct (Same e c (or_introl eq_refl)) as [S1 S2].
      rewrite (@do2_eq calc loc e S1 szof fuel c s P1 H), (@do3_eq calc' loc' e S2 szof' fuel c s' P1 H').
      assert (M3 : In (mode (ctl (sinst s'))) modes3).
      { rewrite M. destruct K as [[_ K] _]. exact (when3_modes _ _ K). }
      destruct (do2 RX szof fuel e c s) as [[[[st o] s1] t]| |] eqn:E2; destruct (do3 RX szof' fuel e c s') as [[[[st' o'] s1'] t']| |] eqn:E3; try exact A.
      destruct A as [A1 A2]. split; [exact A1|]. apply IH; auto.
      - intros e0 c0 I0. apply (Same e0 c0). now right.
      - exact (@do2_here _ _ _ _ _ _ _ _ _ _ H E2).
      - exact (@do3_here _ _ _ _ _ _ _ _ _ _ M3 H' E3).
      - destruct A1 as (_ & A1 & _). exact A1.
    Qed.
  End Both.

  (** ** Two new instances *)
  Lemma create_RX env e n t r r' lo ty :
    match createModelInstance RX env true false e n t r lo ty, createModelInstance RX env true false e n t r' lo ty with
    | Done (Some i, a), Done (Some j, b) => b = a /\ instR RX relX True True i j /\
        mode (ctl i) = Instantiated /\ mode (ctl j) = Instantiated /\ itype (ctl i) = ty /\
        eventModeUsed (ctl i) = false /\ earlyReturnAllowed (ctl i) = false /\
        resourceLocation (ctl i) = option_map cstr r /\ resourceLocation (ctl j) = option_map cstr r'
    | Done (None, a), Done (None, b) => b = a
    | UB, UB => True
    | NoFuel, NoFuel => True
    | _, _ => False
    end.
  Proof.
    unfold createModelInstance. destruct n as [n|]; [|reflexivity].
    destruct (Nat.eqb (strlen n) 0); [reflexivity|]. destruct t as [t|]; [|reflexivity].
    destruct (Nat.eqb (strlen t) 0); [reflexivity|]. destruct (negb (streq t (m_token _))); [reflexivity|].
    set (b := blank _ _ (option_map cstr r) _ _ _ _ _). set (b' := blank _ _ (option_map cstr r') _ _ _ _ _).
    assert (R : instR RX relX True True b b').
    { constructor; cbn.
      - constructor; cbn; try reflexivity; try tauto; try discriminate. unfold modeR. auto.
      - constructor; cbn; auto.
      - constructor; auto; unfold sizesR; cbn; repeat split; auto. }
    assert (K : orel relX (fun _ _ i j => instR RX relX True True i j /\
        mode (ctl i) = Instantiated /\ mode (ctl j) = Instantiated /\ itype (ctl i) = ty /\
        eventModeUsed (ctl i) = false /\ earlyReturnAllowed (ctl i) = false /\
        resourceLocation (ctl i) = option_map cstr r /\ resourceLocation (ctl j) = option_map cstr r')
      ((call RX env (m_setStartValues RX) ;;; modM RX (set_dirty true))%sw b)
      ((call RX env (m_setStartValues RX) ;;; modM RX (set_dirty true))%sw b')).
    { eapply or_call with (E := True) (S := True); [exact I|apply (sl_start sim_RX)|exact R|].
      intros x y u u' _ R'. cbn. split; [|apply traceR_refl].
      assert (R2 : instR RX relX True True (set_mut (set_dirty true u) b) (set_mut (set_dirty true u') b'))
        by (refine (instR_mut R' _); apply mr_set_dirty; apply (ir_mut R')).
      split; [exact R2|]. repeat split. }
    unfold orel in K.
    destruct ((call RX env (m_setStartValues RX) ;;; modM RX (set_dirty true))%sw b) as [[[x j] tr']| |];
    destruct ((call RX env (m_setStartValues RX) ;;; modM RX (set_dirty true))%sw b') as [[[x' j'] tr2]| |]; try exact K.
    destruct K as [K [_ T]]. split; [apply T; exact I|exact K].
  Qed.
  Lemma born_RX e ty name token resource resource' environment lo szof szof' fuel l :
    ty <> ScheduledExecution -> forallb (fun q => portable Resource (snd q)) l = true ->
    match new2 RX e ty name token resource environment lo, new3 RX e ty name token resource' environment lo with
    | Done (Some i, t), Done (Some j, t') => t' = t /\ alike RX RX szof szof' fuel [] false l (mkSys i []) (mkSys j []) /\
        mode (ctl j) = mode3 (mode (ctl i)) /\ resourceLocation (ctl i) = option_map cstr resource /\ resourceLocation (ctl j) = option_map cstr resource'
    | Done (None, t), Done (None, t') => t' = t
    | UB, UB => True
    | NoFuel, NoFuel => True
    | _, _ => False
    end.
  Proof.
    intros NS Pl. pose proof (@create_RX e environment name token resource resource' lo ty) as C.
    set (c1 := createModelInstance RX e true false environment name token resource lo ty) in C.
    assert (E1 : new2 RX e ty name token resource environment lo = c1) by reflexivity.
    set (c2 := createModelInstance RX e true false environment name token resource' lo ty) in C.
    assert (E2 : new3 RX e ty name token resource' environment lo = c2).
    { assert (H : match c2 with Done (Some j, _) => mode (ctl j) = Instantiated /\ eventModeUsed (ctl j) = false /\ earlyReturnAllowed (ctl j) = false | _ => True end).
      { destruct c2 as [[[j|] b]| |]; auto. destruct c1 as [[[i|] a]| |]; try now destruct C. destruct C as (_ & R & M & M' & _ & V1 & V2 & _).
        rewrite (cr_event (ir_ctl R)), (cr_early (ir_ctl R)). auto. }
      unfold new3. destruct ty; try congruence.
      - reflexivity.
      - unfold fmi3InstantiateCoSimulation. rewrite andb_false_r. fold c2. destruct c2 as [[[j|] a]| |]; auto. destruct H as (H1 & H2 & H3).
        destruct j as [[] ? ?]; cbn in *; subst; reflexivity. }
    rewrite E1, E2. destruct c1 as [[[i|] a]| |]; destruct c2 as [[[j|] b]| |]; try exact C.
    destruct C as (C1 & R & M & M' & T & V1 & V2 & L1 & L2). split; [exact C1|]. split; [|rewrite M, M'; auto].
    apply alike_RX; auto. unfold start_alikeX. rewrite T. auto 10.
  Qed.
End Res.

(** The two builds read the same file. *)
Lemma born_resource (F : Type) (NF : Num F) szof szof' fuel e ty name token uri enc dir environment loggingOn (l : list (Env * Call F)) :
  file_uri enc uri -> decodes enc dir -> SpecImporter.plain uri -> SpecImporter.plain dir -> length enc <= N.to_nat 4095 -> length dir <= N.to_nat 4089 ->
  ty <> ScheduledExecution -> forallb (fun q => portable Resource (snd q)) l = true ->
  (forall env c, In (env, c) l -> env_file env (dir ++ SpecImporter.y_txt) <> None) ->
  born_alike (model_of FMI2 Resource) (model_of FMI3 Resource) szof szof' fuel l
    (new2 (model_of FMI2 Resource) e ty name token (Some uri) environment loggingOn)
    (new3 (model_of FMI3 Resource) e ty name token (Some (dir ++ [Byte.x2f])) environment loggingOn).
Proof.
  intros Hu Hd Pu Pd Le Ld NS Pl Files.
  assert (P2 : path2 (cstr (cstr uri)) = Some (dir ++ SpecImporter.y_txt)).
  { rewrite !(cstr_plain Pu). eapply path2_decodes; eauto. }
  assert (Pp : SpecImporter.plain (dir ++ [Byte.x2f])) by (apply plain_slash; exact Pd).
  assert (P3 : path3 (cstr (cstr (dir ++ [Byte.x2f]))) = Some (dir ++ SpecImporter.y_txt)).
  { rewrite (cstr_plain Pp). rewrite path3_ok by (apply fits_slash; auto). rewrite (cstr_plain Pp), <- app_assoc. reflexivity. }
  set (p := dir ++ SpecImporter.y_txt) in *.
  pose proof (@born_RX F NF p e ty name token (Some uri) (Some (dir ++ [Byte.x2f])) environment loggingOn szof szof' fuel l NS Pl) as B.
  change (new2 (model_of FMI2 Resource) e ty name token (Some uri) environment loggingOn) with (new2 (RX (F := F) p) e ty name token (Some uri) environment loggingOn).
  change (new3 (model_of FMI3 Resource) e ty name token (Some (dir ++ [Byte.x2f])) environment loggingOn)
    with (new3 (RX (F := F) p) e ty name token (Some (dir ++ [Byte.x2f])) environment loggingOn).
  unfold born_alike.
  destruct (new2 (RX p) e ty name token (Some uri) environment loggingOn) as [[[i|] a]| |];
    destruct (new3 (RX p) e ty name token (Some (dir ++ [Byte.x2f])) environment loggingOn) as [[[j|] b]| |]; try exact B.
  destruct B as (B1 & A & M & L1 & L2). split; [exact B1|].
  refine (@alike_both F NF p (re_calculateValues true) (re_calculateValues false) (cstr uri) (cstr (dir ++ [Byte.x2f])) szof szof' fuel l [] false (mkSys i []) (mkSys j []) _ Pl L1 L2 M A).
  intros env c I0. pose proof (Files env c I0) as Ff.
  split; intros k u Hk; unfold re_calculateValues, rx, re_read; cbv [mbind mctl mret bind ret getS menv]; rewrite Hk.
  - rewrite P2. destruct (env_file env p); [reflexivity|congruence].
  - rewrite P3. destruct (env_file env p); [reflexivity|congruence].
Qed.
