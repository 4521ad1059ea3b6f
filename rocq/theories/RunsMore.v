(** RunsMore.v -- simulate_fmi3_cs for StateSpace and Resource (C79). *)
From Coq Require Import List NArith ZArith Bool Arith Lia Reals Lra.
From Verif Require Import Base Instance ModelIface Core Fmi3 Fmi2 Api Fmus NumR NumB64 SpecModes SpecCreate SpecState SpecSteps SpecOde SpecSafe SpecPrograms Programs
  Logic Calls Dyn Solver Fits Steps StepsFmus StepProps StepReal Ode SafeAll Progress SpecVars Data Reach Histories
  FmuResource FmuStateSpace Sim SimSS Vars VarsFmus DataFmus Runs RunsReal SpecSpace Space SpecLinear Linear SpecMore.
Import ListNotations.
Set Implicit Arguments.

Section Loop.
  Context {F : Type} {NF : Num F} (f : FMU) (szof : N) (fuel : nat) (env : Env) (stop : F).
  Notation m := (model_of (F := F) FMI3 f).
  Notation D := (md m).
  Variables (J : nat -> Inst F D -> Prop) (rw : nat -> Row (F := F) f).
  Hypothesis J_ctl : forall k i p, J k i -> J k (set_ctl (set_nextCommunicationPoint p (ctl i)) i).
  Hypothesis J_fits : forall k i, J k i -> location_fits FMI3 f (resourceLocation (ctl i)) /\ set_up FMI3 f i /\ terminateSimulation (mut i) = false.
  Hypothesis J_rec : forall k s, reach3 m szof s -> mode_of s = StepMode -> J k (sinst s) ->
    exists s1, recordVariables f szof fuel env (point f k) s = Done (inl tt, s1, [rw k]) /\ reach3 m szof s1 /\ ctl (sinst s1) = ctl (sinst s) /\ J k (sinst s1).
  Hypothesis J_step : forall k i i', J k i -> steps_with FMI3 f (handled FMI3 f env) 1 i i' -> J (Datatypes.S k) i'.
  Hypothesis Hns : f <> Stair.

  Record linv (k : nat) (s : Sys F D) : Prop := mkLinv {
    l_reach : reach3 m szof s;
    l_mode : mode_of s = StepMode;
    l_ev : eventModeUsed (ctl (sinst s)) = false;
    l_er : earlyReturnAllowed (ctl (sinst s)) = false;
    l_J : J k (sinst s);
    l_steps : steps_of s = N.of_nat k;
    l_start : start_of s = nzero;
    l_stop : stop_of s = stop;
    l_end : end_of s = target f k;
    l_time : time_of s = internal f k }.

  Lemma loop_steps N n : precise (F := F) f N -> before f stop N -> (N.of_nat N < two64)%N -> 2 <= fuel -> forall k s, linv k s -> k <= N -> N - k < n ->
    (reaches f stop N -> exists s', cs_loop f szof fuel env stop n (N.of_nat k) s = Done (inl tt, s', map rw (seq k (Datatypes.S (N - k)))) /\ mode_of s' = StepMode) /\
    (passes f stop N -> exists s', cs_loop f szof fuel env stop n (N.of_nat k) s = Done (inr Error, s', map rw (seq k (Datatypes.S (N - k))))).
  Proof.
    intros (Rh & Rk) Be Hb Hf. induction n as [|n IH]; intros k s I Hk Hn; [lia|].
    destruct (J_rec (l_reach I) (l_mode I) (l_J I)) as (s1 & E1 & R1 & C1 & J1).
    assert (Ep : cs_loop f szof fuel env stop (Datatypes.S n) (N.of_nat k) s =
      match (if nle stop (point f k) then pret f tt else
             pbind (CALL f szof fuel env (O3DoStep (point f k) (m_step m) true true true true))
               (fun out => if wants_end f out then pret f tt else cs_loop f szof fuel env stop n (N.modulo (N.of_nat k + 1) two64))) s1 with
      | Done (b, s', t') => Done (b, s', rw k :: t')
      | UB => UB
      | NoFuel => NoFuel
      end).
    { cbn [cs_loop]. change (nmul (nofN (N.of_nat k)) (m_step m)) with (point (F := F) f k). unfold pbind at 1. unfold bind at 1. rewrite E1. reflexivity. }
    rewrite Ep. clear Ep.
    destruct (Nat.eq_dec k N) as [->|Hne].
    - replace (N - N) with 0 by lia. split.
      + intros Rn. unfold reaches in Rn. rewrite Rn. exists s1. split; [reflexivity|]. unfold mode_of; rewrite C1; exact (l_mode I).
      + intros (Rn & Rb). rewrite Rn. unfold pbind, bind, CALL.
        rewrite (@dostep3_refused F NF szof f); [exists (with_mode Terminated s1); reflexivity|unfold mode_of; rewrite C1; exact (l_mode I)|].
        intros (_ & _ & X). unfold stop_of in X. rewrite C1 in X. fold (stop_of s) in X. rewrite (l_stop I) in X.
        change (beyond (target f (Datatypes.S N)) stop = false) in X. congruence.
    - destruct (Rk k ltac:(lia)) as (K2 & K4 & K5). destruct (Be k ltac:(lia)) as (K1 & K3). rewrite K1.
      assert (M1 : mode_of s1 = StepMode) by (unfold mode_of; rewrite C1; exact (l_mode I)).
      assert (Ev1 : eventModeUsed (ctl (sinst s1)) = false) by (rewrite C1; exact (l_ev I)).
      assert (Er1 : earlyReturnAllowed (ctl (sinst s1)) = false) by (rewrite C1; exact (l_er I)).
      assert (Ac : acceptable s1 (point f k) (m_step m)).
      { unfold acceptable, end_of, stop_of. rewrite C1. fold (end_of s) (stop_of s). rewrite (l_end I), (l_stop I). auto. }
      assert (Bc : time (bump m (ctl (sinst s1))) = internal f (Datatypes.S k)).
      { rewrite C1. unfold bump. cbn [time set_time set_nSteps]. fold (start_of s) (steps_of s). rewrite (l_start I), (l_steps I), next_step by lia. reflexivity. }
      destruct (J_fits J1) as (Jf & Js & _).
      destruct (@one3 F NF f szof fuel env (point f k) s1) as (i' & r & s2 & t & E2 & R2 & Sw & Ci & Hr & Es); auto.
      { unfold time_of. rewrite C1. fold (time_of s). rewrite (l_time I). exact K4. }
      { rewrite Bc. exact K5. }
      pose proof (J_step J1 Sw) as J2. destruct (J_fits J2) as (_ & _ & Tm).
      assert (r = true) as -> by (destruct Hr; congruence).
      unfold pbind, bind, CALL. rewrite E2. cbn [wants_end o_terminateSimulation]. rewrite Tm.
      rewrite next_step by lia.
      destruct (IH (Datatypes.S k) s2) as (Ok & Err); [|lia|lia|].
      + constructor; auto.
        * unfold mode_of. rewrite Es. cbn [ctl set_ctl]. rewrite Ci. exact M1.
        * rewrite Es. cbn. rewrite Ci. exact Ev1.
        * rewrite Es. cbn. rewrite Ci. exact Er1.
        * rewrite Es. now apply J_ctl.
        * unfold steps_of. rewrite Es. cbn. rewrite Ci. unfold bump. cbn. rewrite C1. fold (steps_of s). rewrite (l_steps I). apply next_step. lia.
        * unfold start_of. rewrite Es. cbn. rewrite Ci. cbn. rewrite C1. exact (l_start I).
        * unfold stop_of. rewrite Es. cbn. rewrite Ci. cbn. rewrite C1. exact (l_stop I).
        * unfold end_of. rewrite Es. reflexivity.
        * unfold time_of. rewrite Es. cbn. rewrite Ci. exact Bc.
      + replace (Datatypes.S (N - k)) with (Datatypes.S (Datatypes.S (N - Datatypes.S k))) by lia. split.
        * intro Rn. destruct (Ok Rn) as (s3 & E3 & M3). rewrite E3. exists s3. split; [reflexivity|exact M3].
        * intro Rn. destruct (Err Rn) as (s3 & E3). rewrite E3. exists s3. reflexivity.
  Qed.

  Variables (S : N) (path : bytes).
  Hypothesis J_begin : exists i t o1 s1 o2 s2,
    newCS f env S (Some path) false false false = Done (Some i, t) /\
    CALL f szof fuel env (O3EnterInitializationMode nzero true stop) (mkSys i []) = Done (inl o1, s1, []) /\
    CALL f szof fuel env O3ExitInitializationMode s1 = Done (inl o2, s2, []) /\ (reach3 m szof s2 -> linv 0 s2).
  Lemma loop_program N n : precise (F := F) f N -> before f stop N -> (N.of_nat N < two64)%N -> 2 <= fuel -> N < n ->
    (reaches f stop N -> exists s, simulate_cs f szof fuel env S stop path n = Done (OK, map rw (seq 0 (Datatypes.S N)), Some s)) /\
    (passes f stop N -> exists s, simulate_cs f szof fuel env S stop path n = Done (Error, map rw (seq 0 (Datatypes.S N)), Some s)).
  Proof.
    intros Pr Be Hb Hf Hn. destruct J_begin as (i & t & o1 & s1 & o2 & s2 & E1 & E2 & E3 & K).
    assert (I : linv 0 s2).
    { apply K. eapply CALL_reach; [| |exact E3]; [reflexivity|]. eapply CALL_reach; [| |exact E2]; [reflexivity|]. constructor.
      right; left. unfold newCS in E1. do 11 eexists. exact E1. }
    destruct (@loop_steps N n Pr Be Hb Hf 0 s2 I ltac:(lia) ltac:(lia)) as (Ok & Err).
    unfold simulate_cs, program. rewrite E1. unfold pbind, bind at 1 3. rewrite E2. unfold bind at 1 2. rewrite E3. cbn [N.of_nat] in Ok, Err.
    rewrite Nat.sub_0_r in Ok, Err. split.
    - intro Rn. destruct (Ok Rn) as (s3 & E4 & M). rewrite E4. cbn [app]. rewrite term_eq by auto. eexists. reflexivity.
    - intro Rn. destruct (Err Rn) as (s3 & E4). rewrite E4. eexists. reflexivity.
  Qed.
End Loop.

(** ** Resource *)
Section Resource.
  Context {F : Type} {NF : Num F} (szof : N) (fuel : nat) (env : Env) (stop : F) (path : bytes) (c : Z).
  Notation m := (model_of (F := F) FMI3 Resource).
  Hypothesis Hlen : length (cstr path) + 5 < MAX_PATH_LENGTH.
  Hypothesis Hfile : env_file env (cstr path ++ y_txt) = Some c.
  Lemma cstr_idem p : cstr (cstr p) = cstr p.
  Proof. induction p as [|b p IH]; [reflexivity|]. cbn. destruct b; cbn; try reflexivity; rewrite ?IH; reflexivity. Qed.
  Lemma path3_ok : path3 (cstr path) = Some (cstr path ++ y_txt).
  Proof.
    unfold path3. destruct (Nat.ltb_spec (length (cstr path)) MAX_PATH_LENGTH); [|lia].
    rewrite firstn_all2; [reflexivity|]. change (length s_y) with 5. lia.
  Qed.
  Definition Jr (k : nat) (i : Inst F (md m)) : Prop :=
    resourceLocation (ctl i) = Some (cstr path) /\ set_up FMI3 Resource i /\ terminateSimulation (mut i) = false.
  Lemma Jr_rec k s : reach3 m szof s -> mode_of s = StepMode -> Jr k (sinst s) ->
    exists s1, recordVariables Resource szof fuel env (point Resource k) s = Done (inl tt, s1, [resource_row c k]) /\ reach3 m szof s1 /\
      ctl (sinst s1) = ctl (sinst s) /\ Jr k (sinst s1).
  Proof.
    intros Rs M (L & Su & Tm).
    assert (G : exists s1, recordVariables Resource szof fuel env (point Resource k) s = Done (inl tt, s1, [resource_row c k]) /\
      ctl (sinst s1) = ctl (sinst s) /\ Jr k (sinst s1)).
    { clear Rs. unfold mode_of in M. destruct s as [[ct u o] hp]. cbn [md model_of Resource_model] in *. destruct u as [u1 u2 u3 u4 u5 u6 u7 di d].
      destruct ct as [c1 c2 c3 c4 c5 c6 c7 c8 c9 c10 c11 c12 c13 c14 c15 md c17 c18 c19 c20]. cbn in M, L, Tm. subst. assert (P : path3 (cstr (cstr path)) = Some (cstr path ++ y_txt)) by (rewrite cstr_idem; exact path3_ok).
      eexists. split.
      - unfold recordVariables, record_values, resource_row.
        destruct di; do 2 (lazy -[nle nlt nadd nmul nopp nlit nzero ndblmin nofN ninf ntrunc cstr path3 env_file point y_txt app];
          rewrite ?P; lazy -[nle nlt nadd nmul nopp nlit nzero ndblmin nofN ninf ntrunc cstr path3 env_file point y_txt app]; rewrite ?Hfile); reflexivity.
      - split; [reflexivity|]. repeat split; (reflexivity || apply Su). }
    destruct G as (s1 & E & C & J). exists s1. split; [exact E|]. split; [|auto].
    unfold recordVariables, record_values in E.
    match type of E with match ?e with _ => _ end = _ => destruct e as [[[[st out] s1'] t]| |] eqn:E1; try discriminate end.
    injection E; intros; subst; eapply reach3_call; [exact Rs| |exact E1]; intros ? X; discriminate X.
  Qed.
  Lemma Jr_step k (i i' : Inst F (md m)) : Jr k i -> steps_with FMI3 Resource (handled FMI3 Resource env) 1 i i' -> Jr (Datatypes.S k) i'.
  Proof.
    intros (L & Su & Tm) W. inversion W as [|k0 j i1 j' Sv Ne W1|k0 j i1 i2 j' Sv Ev Hd W1]; subst; inversion W1; subst; clear W W1.
    - split; [rewrite (sv_ctl Sv); exact L|]. split; [|rewrite (sv_mut Sv); exact Tm].
      destruct Su as (A & B). split; [rewrite (sv_nx Sv), A|rewrite (sv_nz Sv), B]; reflexivity.
    - destruct Ev as (He & _). discriminate He.
  Qed.
  Variable S : N.
  Lemma Jr_begin : exists i t o1 s1 o2 s2,
    newCS Resource env S (Some path) false false false = Done (Some i, t) /\
    CALL Resource szof fuel env (O3EnterInitializationMode nzero true stop) (mkSys i []) = Done (inl o1, s1, []) /\
    CALL Resource szof fuel env O3ExitInitializationMode s1 = Done (inl o2, s2, []) /\ (reach3 m szof s2 -> @linv F NF Resource szof stop Jr 0 s2).
  Proof.
    assert (P : path3 (cstr (cstr path)) = Some (cstr path ++ y_txt)) by (rewrite cstr_idem; exact path3_ok).
    do 6 eexists; (split; [lazy -[nle nlt nadd nmul nopp nlit nzero ndblmin nofN ninf ntrunc cstr path3 env_file]; reflexivity|]);
      (split; [lazy -[nle nlt nadd nmul nopp nlit nzero ndblmin nofN ninf ntrunc cstr path3 env_file]; reflexivity|]);
      (split; [lazy -[nle nlt nadd nmul nopp nlit nzero ndblmin nofN ninf ntrunc cstr path3 env_file app y_txt]; rewrite P;
        lazy -[nle nlt nadd nmul nopp nlit nzero ndblmin nofN ninf ntrunc cstr path3 env_file app y_txt]; rewrite Hfile; reflexivity|]).
    intro Rs. constructor; [exact Rs|..]; try reflexivity. repeat split; reflexivity.
  Qed.
  Theorem resource_rows N n : precise (F := F) Resource N -> before Resource stop N -> (N.of_nat N < two64)%N -> 2 <= fuel -> N < n ->
    (reaches Resource stop N -> exists s, simulate_cs Resource szof fuel env S stop path n = Done (OK, map (resource_row c) (seq 0 (Datatypes.S N)), Some s)) /\
    (passes Resource stop N -> exists s, simulate_cs Resource szof fuel env S stop path n = Done (Error, map (resource_row c) (seq 0 (Datatypes.S N)), Some s)).
  Proof.
    apply (@loop_program F NF Resource szof fuel env stop Jr (resource_row c)).
    - intros k i p J. exact J.
    - intros k i (L & Su & Tm). split; [|auto]. intros _ _ loc E. rewrite L in E. injection E as <-. rewrite cstr_idem. lia.
    - exact Jr_rec.
    - exact Jr_step.
    - discriminate.
    - exact Jr_begin.
  Qed.
End Resource.
Lemma resource_missing {F : Type} {NF : Num F} szof fuel env stop path S n :
  length (cstr path) + 5 < MAX_PATH_LENGTH -> env_file env (cstr path ++ y_txt) = None ->
  exists s, simulate_cs (F := F) Resource szof fuel env S stop path n = Done (Error, [], Some s).
Proof.
  intros Hl Hf.
  assert (P : path3 (cstr (cstr path)) = Some (cstr path ++ y_txt)) by (rewrite cstr_idem; exact (path3_ok path Hl)).
  assert (G : exists i t o1 s1 s2,
    newCS (F := F) Resource env S (Some path) false false false = Done (Some i, t) /\
    CALL Resource szof fuel env (O3EnterInitializationMode nzero true stop) (mkSys i []) = Done (inl o1, s1, []) /\
    CALL Resource szof fuel env O3ExitInitializationMode s1 = Done (inr Error, s2, [])).
  { do 5 eexists; (split; [lazy -[nle nlt nadd nmul nopp nlit nzero ndblmin nofN ninf ntrunc cstr path3 env_file]; reflexivity|]);
      (split; [lazy -[nle nlt nadd nmul nopp nlit nzero ndblmin nofN ninf ntrunc cstr path3 env_file]; reflexivity|]).
    lazy -[nle nlt nadd nmul nopp nlit nzero ndblmin nofN ninf ntrunc cstr path3 env_file app y_txt]; rewrite P;
      lazy -[nle nlt nadd nmul nopp nlit nzero ndblmin nofN ninf ntrunc cstr path3 env_file app y_txt]; rewrite Hf; reflexivity. }
  destruct G as (i & t & o1 & s1 & s2 & E1 & E2 & E3).
  unfold simulate_cs, program. rewrite E1. unfold pbind, bind at 1. rewrite E2. unfold bind at 1. rewrite E3. eexists. reflexivity.
Qed.

(** ** StateSpace *)
Section Space.
  Context {F : Type} {NF : Num F} (szof : N) (fuel : nat) (env : Env) (stop : F).
  Notation m := (model_of (F := F) FMI3 StateSpace).
  Definition ss_start : SSData F := mkSS 3 3 3 ss_identity ss_identity ss_identity ss_identity zeros (map (fun i => nofN (N.of_nat (i + 1))) (seq 0 SS_MAX)) zeros zeros zeros.
  Definition Js (k : nat) (i : Inst F (md m)) : Prop :=
    same_frozen (dat i) ss_start /\ firstn 3 (ss_x (dat i)) = x3 k /\ set_up FMI3 StateSpace i /\ nextEventTimeDefined (mut i) = false /\ terminateSimulation (mut i) = false.
  Lemma rhs_start x : rhs ss_start x = affine 3 3 3 unit3 unit3 x u3.
  Proof. reflexivity. Qed.
  Lemma x3_len k : length (x3 (F := F) k) = 3.
  Proof. induction k as [|k IH]; [reflexivity|]. change (x3 (Datatypes.S k)) with (linear_next 3 3 unit3 unit3 u3 (x3 (F := F) k)). unfold linear_next. rewrite map_length, combine_length, IH. reflexivity. Qed.
  Lemma Js_step k (i i' : Inst F (md m)) : Js k i -> steps_with FMI3 StateSpace (handled FMI3 StateSpace env) 1 i i' -> Js (Datatypes.S k) i'.
  Proof.
    intros (Fr & X & Su & Nd & Tm) W. destruct (frozen_fields Fr) as (Fm & Fn & _ & FA & FB & _ & _ & Fu).
    inversion W as [|k0 j i1 j' Sv Ne W1|k0 j i1 i2 j' Sv Ev Hd W1]; subst; inversion W1; subst; clear W W1.
    - assert (N3 : nx (sol i) = 3).
      { rewrite (proj1 Su). change (length (firstn (ss_n (dat i)) (ss_x (dat i))) = 3). rewrite Fn. change (ss_n ss_start) with 3. rewrite X. apply x3_len. }
      assert (So : solving FMI3 StateSpace i) by (red; lia).
      pose proof (sv_euler Sv So) as Eu. pose proof (sv_frozen Sv) as Ff.
      assert (Fr' : same_frozen (dat i') (dat i)) by exact Ff. destruct (frozen_fields Fr') as (_ & Fn1 & _).
      assert (Eu' : firstn (ss_n (dat i')) (ss_x (dat i')) = euler_of (nlit 1 (-3)) (firstn (ss_n (dat i)) (ss_x (dat i)))
        (map (fun j => sumprod (ss_m (dat i)) (nth j (ss_B (dat i)) []) (ss_u (dat i)) (sumprod (ss_n (dat i)) (nth j (ss_A (dat i)) []) (ss_x (dat i)) nzero)) (seq 0 (ss_n (dat i))))) by exact Eu.
      assert (X' : firstn 3 (ss_x (dat i')) = x3 (Datatypes.S k)).
      { rewrite Fn1, Fn, Fm, FA, FB, Fu in Eu'. change (ss_n ss_start) with 3 in Eu'. change (ss_m ss_start) with 3 in Eu'. rewrite Eu', X.
        change (x3 (Datatypes.S k)) with (linear_next 3 3 unit3 unit3 u3 (x3 (F := F) k)). unfold linear_next, euler_of. rewrite <- rhs_start, <- X, rhs_firstn. reflexivity. }
      split; [unfold same_frozen in *; congruence|]. split; [exact X'|]. split; [|split; rewrite (sv_mut Sv); assumption].
      split; [rewrite (sv_nx Sv), N3|rewrite (sv_nz Sv), (proj2 Su); reflexivity].
      change (3 = length (firstn (ss_n (dat i')) (ss_x (dat i')))). rewrite Fn1, Fn. change (ss_n ss_start) with 3. rewrite X'. symmetry. apply x3_len.
    - destruct Ev as (_ & [Cr|(Q & _)]); [|congruence].
      destruct Cr as (j & a & b & A & _). exfalso. revert A. unfold SpecOde.stored. rewrite (proj2 Su). destruct j; discriminate.
  Qed.
  Lemma Js_rec k s : reach3 m szof s -> mode_of s = StepMode -> Js k (sinst s) ->
    exists s1, recordVariables StateSpace szof fuel env (point StateSpace k) s = Done (inl tt, s1, [space_row k]) /\ reach3 m szof s1 /\
      ctl (sinst s1) = ctl (sinst s) /\ Js k (sinst s1).
  Proof.
    intros Rs M (Fr & X & Su & Nd & Tm).
    assert (Sh : shape (dat (sinst s))) by exact (wf_reach FMI3 StateSpace Rs).
    pose proof (x3_len k) as L3. set (xk := x3 (F := F) k) in *.
    assert (G : exists s1 t1 s2 t2,
      exec3 m szof fuel env (O3Get TUInt64 (Some [3%N]) 1 (Some [0%N : val F TUInt64]) 1) s = Done (OK, OVals TUInt64 (Some [3%N : val F TUInt64]), s1, t1) /\
      exec3 m szof fuel env (O3Get TFloat64 (Some [10%N]) 1 (Some (repeat (nzero : val F TFloat64) 5)) 3) s1 =
        Done (OK, OVals TFloat64 (Some (affine 3 3 3 unit3 unit3 xk u3 ++ [nzero; nzero])), s2, t2) /\
      ctl (sinst s2) = ctl (sinst s) /\ same_frozen (dat (sinst s2)) ss_start /\ ss_x (dat (sinst s2)) = ss_x (dat (sinst s)) /\ sol (sinst s2) = sol (sinst s) /\
      nextEventTimeDefined (mut (sinst s2)) = false /\ terminateSimulation (mut (sinst s2)) = false).
    { clear Rs Su. unfold mode_of in M. destruct Sh. unfold row in *. unfold same_frozen, dat in *.
      destruct s as [[ct u o] hp]. cbn [md model_of StateSpace_model] in *. destruct u as [u1 u2 u3' u4 u5 u6 u7 di d].
      destruct ct as [c1 c2 c3 c4 c5 c6 c7 c8 c9 c10 c11 c12 c13 c14 c15 mo c17 c18 c19 c20]. cbn in M, Nd, Tm. subst.
      destruct d as [dm dn dr A B C D x0 v y x dx]. cbn in X, sh_x, sh_y, sh_der. unfold SS_MAX in sh_x, sh_y, sh_der.
      cbn [frozen data mut sinst ss_m ss_n ss_r ss_A ss_B ss_C ss_D ss_x0 ss_u ss_start md model_of StateSpace_model] in Fr. injection Fr as -> -> -> -> -> -> -> -> ->.
      apply five in sh_x, sh_y, sh_der. destruct sh_x as (a & b & c & d & e & ->), sh_y as (? & ? & ? & ? & ? & ->), sh_der as (? & ? & ? & ? & ? & ->).
      cbn in X. rewrite <- X. clear X L3 xk.
      destruct di; do 4 eexists; (split; [lazy -[nle nlt nadd nmul nopp nlit nzero ndblmin nofN ninf ntrunc]; reflexivity|]);
        (split; [lazy -[nle nlt nadd nmul nopp nlit nzero ndblmin nofN ninf ntrunc]; reflexivity|]); repeat split. }
    destruct G as (s1 & t1 & s2 & t2 & E1 & E2 & C & Fr2 & Xx & So & Nd2 & Tm2). exists s2.
    split; [|split; [|split; [exact C|]]].
    - unfold recordVariables, record_space. rewrite E1. cbn [at_most_warning status_num Nat.leb]. change (N.to_nat 3) with 3. rewrite E2. reflexivity.
    - eapply reach3_call; [eapply reach3_call; [exact Rs| |exact E1]| |exact E2]; intros ? Q; discriminate Q.
    - split; [exact Fr2|]. split; [rewrite Xx; exact X|]. split; [|auto].
      destruct (frozen_fields Fr2) as (_ & Fn2 & _). destruct (frozen_fields Fr) as (_ & Fn & _).
      destruct Su as (Sx & Sz). split; [|rewrite So, Sz; reflexivity].
      rewrite So, Sx. change (length (firstn (ss_n (dat (sinst s))) (ss_x (dat (sinst s)))) = length (firstn (ss_n (dat (sinst s2))) (ss_x (dat (sinst s2))))).
      rewrite Xx. congruence.
  Qed.
  Variables (S : N) (path : bytes).
  Lemma Js_begin : exists i t o1 s1 o2 s2,
    newCS StateSpace env S (Some path) false false false = Done (Some i, t) /\
    CALL StateSpace szof fuel env (O3EnterInitializationMode nzero true stop) (mkSys i []) = Done (inl o1, s1, []) /\
    CALL StateSpace szof fuel env O3ExitInitializationMode s1 = Done (inl o2, s2, []) /\ (reach3 m szof s2 -> @linv F NF StateSpace szof stop Js 0 s2).
  Proof.
    do 6 eexists; (split; [lazy -[nle nlt nadd nmul nopp nlit nzero ndblmin nofN ninf ntrunc cstr]; reflexivity|]);
      (split; [lazy -[nle nlt nadd nmul nopp nlit nzero ndblmin nofN ninf ntrunc cstr]; reflexivity|]);
      (split; [lazy -[nle nlt nadd nmul nopp nlit nzero ndblmin nofN ninf ntrunc cstr]; reflexivity|]).
    intro Rs. constructor; [exact Rs|..]; try reflexivity. repeat split; reflexivity.
  Qed.
  Theorem space_rows N n : precise (F := F) StateSpace N -> before StateSpace stop N -> (N.of_nat N < two64)%N -> 2 <= fuel -> N < n ->
    (reaches StateSpace stop N -> exists s, simulate_cs StateSpace szof fuel env S stop path n = Done (OK, map space_row (seq 0 (Datatypes.S N)), Some s)) /\
    (passes StateSpace stop N -> exists s, simulate_cs StateSpace szof fuel env S stop path n = Done (Error, map space_row (seq 0 (Datatypes.S N)), Some s)).
  Proof.
    apply (@loop_program F NF StateSpace szof fuel env stop Js space_row).
    - intros k i p J. exact J.
    - intros k i (_ & _ & Su & _ & Tm). split; [|auto]. discriminate.
    - exact Js_rec.
    - exact Js_step.
    - discriminate.
    - exact Js_begin.
  Qed.
End Space.

(** ** In exact arithmetic *)
Section Exact.
  Variable inf : R.
  Local Hint Extern 0 (Num R) => exact (NR inf) : typeclass_instances.
  Local Open Scope R_scope.
  Lemma lit_R k : nlit (F := R) k 0 = IZR k.
  Proof. cbn. lra. Qed.
  Lemma milli_R : nlit (F := R) 1 (-3) = 1 / 1000.
  Proof. unfold nlit. cbn. change (Pos.to_nat 3) with 3%nat. cbn [pow]. lra. Qed.
  Lemma list3 (a b c a' b' c' : R) : a = a' -> b = b' -> c = c' -> [a; b; c] = [a'; b'; c'].
  Proof. congruence. Qed.
  Lemma x3_R k : x3 (F := R) k = [(1001 / 1000) ^ k - 1; 2 * ((1001 / 1000) ^ k - 1); 3 * ((1001 / 1000) ^ k - 1)].
  Proof.
    induction k as [|k IH].
    - change (x3 (F := R) 0) with [nzero (F := R); nzero; nzero]. rewrite zero_R. cbn [pow]. apply list3; lra.
    - change (x3 (F := R) (Datatypes.S k)) with (linear_next (F := R) 3 3 unit3 unit3 u3 (x3 (F := R) k)). rewrite IH.
      set (a := (1001 / 1000) ^ k). replace ((1001 / 1000) ^ Datatypes.S k) with (1001 / 1000 * a) by reflexivity.
      unfold linear_next, affine, unit3, u3, row_of, sumprod. cbn [seq map combine fst snd firstn skipn Nat.mul Nat.add nth fold_left].
      rewrite milli_R, zero_R, lit_R. cbn [nadd nmul nofN NR NumR]. cbn [Z.of_N]. apply list3; field.
  Qed.
  Theorem y3_R k : y3 (F := R) k = [(1001 / 1000) ^ k; 2 * (1001 / 1000) ^ k; 3 * (1001 / 1000) ^ k].
  Proof.
    unfold y3. rewrite x3_R. set (a := (1001 / 1000) ^ k).
    unfold affine, unit3, u3, row_of, sumprod. cbn [seq map combine fst snd firstn skipn Nat.mul Nat.add nth fold_left].
    rewrite zero_R, lit_R. cbn [nadd nmul nofN NR NumR]. cbn [Z.of_N]. apply list3; ring.
  Qed.
  Lemma step_space : 1 / 1000 <= m_step (model_of (F := R) FMI3 StateSpace).
  Proof. change (1 / 1000 <= nlit (F := R) 1 (-3)). rewrite milli_R. lra. Qed.
  Lemma step_resource : 1 / 1000 <= m_step (model_of (F := R) FMI3 Resource).
  Proof. change (1 / 1000 <= nlit (F := R) 1 0). rewrite lit_R. lra. Qed.
  Notation h f := (m_step (model_of (F := R) FMI3 f)).
  Theorem space_exact szof fuel env S path stop N n : (2 <= fuel)%nat -> (N < n)%nat -> (N.of_nat N + 1 < 100000)%N -> 0 <= stop ->
    (N = 0%nat \/ INR (N - 1) * h StateSpace < stop) -> stop <= INR N * h StateSpace ->
    (INR N * h StateSpace <= stop + tol (INR N * h StateSpace) stop ->
       exists s, simulate_cs StateSpace szof fuel env S stop path n = Done (OK, map space_row (seq 0 (Datatypes.S N)), Some s)) /\
    (stop + tol (INR N * h StateSpace) stop < INR N * h StateSpace ->
       exists s, simulate_cs StateSpace szof fuel env S stop path n = Done (Error, map space_row (seq 0 N), Some s)).
  Proof.
    intros Hf Hn HN H0 Lo Hi. destruct (@conditions_R inf StateSpace stop N step_space HN H0 Lo Hi) as (A & B). split; intro T.
    - destruct (A T) as (P & Q & W & Z). now apply space_rows with (N := N).
    - destruct (B T) as (Nz & P & Q & W & Z). destruct (@space_rows R (NR inf) szof fuel env stop S path (N - 1) n P Q W Hf ltac:(lia)) as (_ & G).
      replace (Datatypes.S (N - 1)) with N in G by lia. exact (G Z).
  Qed.
  Theorem resource_exact szof fuel env S path stop N n c : (length (cstr path) + 5 < MAX_PATH_LENGTH)%nat -> env_file env (cstr path ++ y_txt) = Some c ->
    (2 <= fuel)%nat -> (N < n)%nat -> (N.of_nat N + 1 < 100000)%N -> 0 <= stop ->
    (N = 0%nat \/ INR (N - 1) < stop) -> stop <= INR N ->
    (INR N <= stop + tol (INR N) stop ->
       exists s, simulate_cs Resource szof fuel env S stop path n = Done (OK, map (resource_row c) (seq 0 (Datatypes.S N)), Some s)) /\
    (stop + tol (INR N) stop < INR N ->
       exists s, simulate_cs Resource szof fuel env S stop path n = Done (Error, map (resource_row c) (seq 0 N), Some s)).
  Proof.
    intros Hl Hc Hf Hn HN H0 Lo Hi.
    assert (H1 : h Resource = 1) by (change (nlit (F := R) 1 0 = 1); apply lit_R).
    destruct (@conditions_R inf Resource stop N step_resource HN H0) as (A & B); [rewrite H1, Rmult_1_r; exact Lo|rewrite H1, Rmult_1_r; exact Hi|].
    rewrite H1, Rmult_1_r in A, B. split; intro T.
    - destruct (A T) as (P & Q & W & Z). exact (proj1 (@resource_rows R (NR inf) szof fuel env stop path c Hl Hc S N n P Q W Hf Hn) Z).
    - destruct (B T) as (Nz & P & Q & W & Z). destruct (@resource_rows R (NR inf) szof fuel env stop path c Hl Hc S (N - 1) n P Q W Hf ltac:(lia)) as (_ & G).
      replace (Datatypes.S (N - 1)) with N in G by lia. exact (G Z).
  Qed.
End Exact.
