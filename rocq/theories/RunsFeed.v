(** RunsFeed.v -- the programs for Feedthrough (C65, C66). *)
From Coq Require Import List NArith ZArith Bool Arith Lia Reals.
From Verif Require Import Base Instance ModelIface Core Fmi3 Fmi2 Api Fmus NumR SpecModes SpecCreate SpecState SpecSteps SpecOde SpecSafe SpecPrograms SpecFeed Programs
  ProgramsFeed Logic Calls Dyn Solver Fits Steps StepsFmus StepProps StepReal Ode SafeAll Progress SpecVars Data Reach Histories Runs FmuFeedthrough.
Import ListNotations.
Set Implicit Arguments.

Section Holds.
  Context {F : Type} {NF : Num F}.
  (** The inputs of the FMU; [p'] the phase of those FMI 2 does not set. *)
  Definition holds (p p' : Phase) (u : F) (d : FTData F) : Prop :=
    ft_f64d_in d = pick p' nzero nzero (nlit 1 0) /\ ft_enum_in d = pick p' 1%Z 1%Z 2%Z /\
    ft_f64c_in d = u /\ ft_i32_in d = pick p 0%Z (- 2 ^ 31)%Z (2 ^ 31 - 1)%Z /\ ft_bool_in d = pick p false false true /\
    ft_str_in d = text p /\ ft_bin_in d = pick p' foo foo bar.
  Definition holds3 (p : Phase) (u : F) (q : N) (d : FTData F) : Prop :=
    holds p p u d /\ ft_f32c_in d = q /\ ft_f32d_in d = pick p 0%N 0%N (127 * 2 ^ 23)%N /\
    ft_i8_in d = pick p 0%Z (- 2 ^ 7)%Z (2 ^ 7 - 1)%Z /\ ft_u8_in d = pick p 0%N 0%N (2 ^ 8 - 1)%N /\
    ft_i16_in d = pick p 0%Z (- 2 ^ 15)%Z (2 ^ 15 - 1)%Z /\ ft_u16_in d = pick p 0%N 0%N (2 ^ 16 - 1)%N /\
    ft_u32_in d = pick p 0%N 0%N (2 ^ 32 - 1)%N /\
    ft_i64_in d = pick p 0%Z (- 2 ^ 63)%Z (2 ^ 63 - 1)%Z /\ ft_u64_in d = pick p 0%N 0%N (2 ^ 64 - 1)%N.
  (** Nothing changed but the variables. *)
  Definition beside {D : Type} (i i' : Inst F D) : Prop :=
    ctl i' = ctl i /\ sol i' = sol i /\ exists b d, mut i' = set_dirty b (set_data d (mut i)).
  Lemma beside_trans (D : Type) (i1 i2 i3 : Inst F D) : beside i1 i2 -> beside i2 i3 -> beside i1 i3.
  Proof.
    intros (A & B & b & d & E) (A' & B' & b' & d' & E'). split; [congruence|]. split; [congruence|]. exists b', d'. rewrite E', E. reflexivity.
  Qed.
  Definition idle {D : Type} (i : Inst F D) : Prop :=
    nx (sol i) = 0 /\ nz (sol i) = 0 /\ nextEventTimeDefined (mut i) = false /\ terminateSimulation (mut i) = false.
  Lemma beside_idle (D : Type) (i i' : Inst F D) : beside i i' -> idle i -> idle i'.
  Proof. intros (C & So & b & d & E) (A & B & G & H). unfold idle. rewrite So, E. cbn. auto. Qed.
  Lemma ramp_eq t e : continuous_input (F := F) t e = ramp t e. Proof. reflexivity. Qed.
End Holds.

Section Feed3.
  Context {F : Type} {NF : Num F} (szof : N) (fuel : nat) (env : Env) (narrow : F -> N).
  Notation m := (model_of (F := F) FMI3 Feedthrough).
  Notation D := (md m).
  Notation exec := (exec3 m szof fuel env).
  Notation CALL := (FCALL exec).
  Notation CALLS := (FCALLS exec).
  Notation Sys := (Sys F D).

  Lemma FCALL_reach o s r s' l : image3 o = None -> reach3 m szof s -> CALL o s = Done (r, s', l) -> reach3 m szof s'.
  Proof.
    intros Im Rs E. unfold FCALL in E. destruct (exec o s) as [[[[st out] s1] t]| |] eqn:E1; try discriminate.
    injection E; intros; subst. eapply reach3_call; [exact Rs| |exact E1]. intros i X. congruence.
  Qed.
  Lemma CALLS_reach l : Forall (fun o => image3 o = None) l -> forall s r s' t, reach3 m szof s -> CALLS l s = Done (r, s', t) -> reach3 m szof s'.
  Proof.
    induction 1 as [|o l Ho Hl IH]; intros s r s' t Rs E; cbn [FCALLS] in E.
    - injection E; intros; subst. exact Rs.
    - unfold fbind at 1 in E. unfold bind at 1 in E. destruct (CALL o s) as [[[r1 s1] t1]| |] eqn:E1; try discriminate.
      assert (R1 : reach3 m szof s1) by (eapply FCALL_reach; [exact Ho|exact Rs|exact E1]). destruct r1 as [x|st]; [|injection E; intros; subst; exact R1].
      unfold fbind, bind in E. destruct (CALLS l s1) as [[[r2 s2] t2]| |] eqn:E2; try discriminate.
      assert (R2 : reach3 m szof s2) by (eapply IH; [exact R1|exact E2]). destruct r2; injection E; intros; subst; exact R2.
  Qed.

  Definition recordable (i : Inst F D) : Prop := mode (ctl i) = StepMode \/ mode (ctl i) = ContinuousTimeMode.
  Ltac fields s := let hp := fresh "hp" in let c := fresh "c" in let u := fresh "u" in let o := fresh "o" in
    destruct s as [[c u o] hp]; cbn [md model_of Feedthrough_model] in u, hp |- *;
    destruct u as [u1 u2 u3 u4 u5 u6 u7 [] d];
    destruct c as [c1 c2 c3 c4 c5 c6 c7 c8 c9 c10 c11 c12 c13 c14 c15 md c17 c18 c19 c20].
  Lemma record3 p u q time (s : Sys) : reach3 m szof s -> recordable (sinst s) -> holds3 p u q (data (mut (sinst s))) ->
    exists s', frecord exec outputs3 time s = Done (inl tt, s', [(time, columns3 p u q)]) /\
      reach3 m szof s' /\ beside (sinst s) (sinst s') /\ holds3 p u q (data (mut (sinst s'))).
  Proof.
    intros Rs M H.
    assert (G : exists s', CALLS outputs3 s = Done (inl (columns3 p u q), s', []) /\ beside (sinst s) (sinst s') /\ holds3 p u q (data (mut (sinst s')))).
    { clear Rs. unfold recordable in M. fields s; destruct d; unfold holds3, holds in H; cbn in M, H;
      destruct H as ((-> & -> & -> & -> & -> & -> & ->) & -> & -> & -> & -> & -> & -> & -> & -> & ->);
      destruct M as [-> | ->]; destruct p; (eexists; split;
      [lazy -[nle nlt nadd nsub nmul nopp nlit nzero ndblmin nofN ninf ntrunc]; reflexivity|]).
      all: split; [split; [reflexivity|split; [reflexivity|do 2 eexists; reflexivity]]|].
      all: unfold holds3, holds; cbn; repeat split. }
    destruct G as (s' & E & B & H'). exists s'. split; [unfold frecord, fbind, bind; rewrite E; reflexivity|].
    split; [|auto]. eapply CALLS_reach; [|exact Rs|exact E]. repeat constructor.
  Qed.

  Definition inputable (i : Inst F D) : Prop :=
    mode (ctl i) = StepMode /\ itype (ctl i) = CoSimulation \/ mode (ctl i) = InitializationMode \/ mode (ctl i) = EventMode.
  Ltac computes := eexists _, _; split; [lazy -[nle nlt nadd nsub nmul nopp nlit nzero ndblmin nofN ninf ntrunc]; reflexivity|].
  Lemma continuous_eq p u q time e (s : Sys) : reach3 m szof s -> inputable (sinst s) \/ mode (ctl (sinst s)) = ContinuousTimeMode -> holds3 p u q (data (mut (sinst s))) ->
    exists l s', CALLS (continuous3 narrow time e) s = Done (inl l, s', []) /\
      reach3 m szof s' /\ beside (sinst s) (sinst s') /\ holds3 p (ramp time e) (narrow (ramp time e)) (data (mut (sinst s'))).
  Proof.
    intros Rs M H.
    assert (G : exists l s', CALLS (continuous3 narrow time e) s = Done (inl l, s', []) /\
      beside (sinst s) (sinst s') /\ holds3 p (ramp time e) (narrow (ramp time e)) (data (mut (sinst s')))).
    { clear Rs. unfold inputable in M. unfold continuous3. rewrite ramp_eq. generalize (narrow (ramp time e)) as q'. generalize (ramp time e) as u'. intros u' q'.
      fields s; destruct d; unfold holds3, holds in H |- *; cbn in M, H;
      destruct H as ((-> & -> & -> & -> & -> & -> & ->) & -> & -> & -> & -> & -> & -> & -> & -> & ->);
      destruct M as [[(-> & ->)|[-> | ->]] | ->]; computes.
      all: split; [split; [reflexivity|split; [reflexivity|do 2 eexists; reflexivity]]|].
      all: cbn; repeat split. }
    destruct G as (l & s' & E & B & H'). exists l, s'. split; [exact E|]. split; [|auto]. eapply CALLS_reach; [|exact Rs|exact E]. repeat constructor.
  Qed.
  Lemma discrete_eq p u q time (s : Sys) : reach3 m szof s -> inputable (sinst s) -> holds3 p u q (data (mut (sinst s))) ->
    exists l s', CALLS (discrete3 time) s = Done (inl l, s', []) /\
      reach3 m szof s' /\ beside (sinst s) (sinst s') /\ holds3 (phase time) u q (data (mut (sinst s'))).
  Proof.
    intros Rs M H.
    assert (G : exists l s', CALLS (discrete3 time) s = Done (inl l, s', []) /\
      beside (sinst s) (sinst s') /\ holds3 (phase time) u q (data (mut (sinst s')))).
    { clear Rs. unfold inputable in M. unfold discrete3. generalize (tunable_input time) as u'. intro u'. unfold phase, before_step.
      change one with (nlit (F := F) 1 0). generalize (nlt time (nlit 1 0)) as b. intro b.
      fields s; destruct d; unfold holds3, holds in H |- *; cbn in M, H;
      destruct H as ((-> & -> & -> & -> & -> & -> & ->) & -> & -> & -> & -> & -> & -> & -> & -> & ->);
      destruct M as [(-> & ->)|[-> | ->]]; try match goal with x : InterfaceType |- _ => destruct x end; destruct b; computes.
      all: split; [split; [reflexivity|split; [reflexivity|do 2 eexists; reflexivity]]|].
      all: cbn; repeat split. }
    destruct G as (l & s' & E & B & H'). exists l, s'. split; [exact E|]. split; [|auto]. eapply CALLS_reach; [|exact Rs|exact E]. repeat constructor.
  Qed.

  (** ** The co-simulation *)
  Lemma idle_step i i' : idle i -> steps_with FMI3 Feedthrough (handled FMI3 Feedthrough env) 1 i i' -> idle i' /\ data (mut i') = data (mut i).
  Proof.
    intros (A & B & Nd & Tm) W.
    inversion W as [|k j i1 j' Sv Ne W1|k j i1 i2 j' Sv (_ & Ev) Hd W1]; subst; inversion W1; subst; clear W W1.
    - pose proof (sv_frozen Sv) as E1. pose proof (sv_mut Sv) as E3. split; [|exact E1].
      unfold idle. rewrite (sv_nx Sv), (sv_nz Sv), E3. cbn. auto.
    - exfalso. destruct Ev as [(j & a & b & X & _)|(X & _)]; [|congruence].
      unfold SpecOde.stored in X. rewrite B in X. destruct j; discriminate X.
  Qed.

  Variables (S : N) (stop : F).
  Record finv (k : nat) (s : Sys) : Prop := mkFinv {
    fi_reach : reach3 m szof s;
    fi_mode : mode_of s = StepMode;
    fi_type : itype (ctl (sinst s)) = CoSimulation;
    fi_ev : eventModeUsed (ctl (sinst s)) = false;
    fi_er : earlyReturnAllowed (ctl (sinst s)) = false;
    fi_idle : idle (sinst s);
    fi_held : match k with
              | O => holds3 Initial nzero 0%N (data (mut (sinst s)))
              | Datatypes.S k => holds3 (phase (point Feedthrough k)) (ramp (point Feedthrough k) false) (narrow (ramp (point Feedthrough k) false)) (data (mut (sinst s)))
              end;
    fi_steps : steps_of s = N.of_nat k;
    fi_start : start_of s = nzero;
    fi_stop : stop_of s = stop;
    fi_end : end_of s = target Feedthrough k;
    fi_time : time_of s = internal Feedthrough k }.

  Lemma feed_begin path : exists i t l o1 s0 s1 o2 s2,
    fmi3InstantiateCoSimulation m env feed_name (Some (m_token m)) (Some path) false false false S true false = Done (Some i, t) /\
    CALLS start3 (mkSys i []) = Done (inl l, s0, []) /\
    CALL (O3EnterInitializationMode nzero true stop) s0 = Done (inl o1, s1, []) /\
    CALL O3ExitInitializationMode s1 = Done (inl o2, s2, []) /\ finv 0 s2.
  Proof.
    assert (G : exists i t l o1 s0 s1 o2 s2,
      fmi3InstantiateCoSimulation m env feed_name (Some (m_token m)) (Some path) false false false S true false = Done (Some i, t) /\
      CALLS start3 (mkSys i []) = Done (inl l, s0, []) /\
      CALL (O3EnterInitializationMode nzero true stop) s0 = Done (inl o1, s1, []) /\
      CALL O3ExitInitializationMode s1 = Done (inl o2, s2, []) /\ (reach3 m szof s2 -> finv 0 s2)).
    { do 8 eexists. do 4 (split; [lazy -[nle nlt nadd nsub nmul nopp nlit nzero ndblmin nofN ninf ntrunc]; reflexivity|]).
      intro Rs; constructor; [exact Rs|..]; try reflexivity; unfold idle, holds3, holds; cbn; repeat split. }
    destruct G as (i & t & l & o1 & s0 & s1 & o2 & s2 & E1 & E0 & E2 & E3 & K). exists i, t, l, o1, s0, s1, o2, s2.
    split; [exact E1|]. split; [exact E0|]. split; [exact E2|]. split; [exact E3|]. apply K.
    eapply FCALL_reach; [| |exact E3]; [reflexivity|]. eapply FCALL_reach; [| |exact E2]; [reflexivity|].
    eapply CALLS_reach; [|  |exact E0]; [repeat constructor|]. constructor. right; left. do 11 eexists. exact E1.
  Qed.

  Lemma fterm_eq s rows : mode_of s = StepMode \/ mode_of s = ContinuousTimeMode \/ mode_of s = EventMode ->
    ftearDown exec O3Terminate OK s rows = Done (OK, rows, Some (with_mode Terminated s)).
  Proof.
    intros M. unfold ftearDown. cbn [status_num Nat.ltb Nat.leb]. unfold mode_of in M. destruct s as [[c u o] hp].
    cbn [ctl sinst] in M. cbn [exec3]. rewrite outI_eq. unfold fmi3Terminate.
    rewrite BEGIN_pass by (cbn [ctl sinst]; destruct M as [M|[M|M]]; rewrite M; discriminate). reflexivity.
  Qed.

  Notation R3 := (cs_row3 narrow (point Feedthrough)).
  Lemma feed_steps N n : precise (F := F) Feedthrough N -> before Feedthrough stop N -> (N.of_nat N < two64)%N -> 2 <= fuel -> forall k s, finv k s -> k <= N -> N - k < n ->
    (reaches Feedthrough stop N -> exists s', feed_loop3 szof fuel env narrow stop n (N.of_nat k) s = Done (inl tt, s', map R3 (seq k (Datatypes.S (N - k)))) /\ mode_of s' = StepMode) /\
    (passes Feedthrough stop N -> exists s', feed_loop3 szof fuel env narrow stop n (N.of_nat k) s = Done (inr Error, s', map R3 (seq k (Datatypes.S (N - k))))).
  Proof.
    intros (Rh & Rk) Be Hb Hf. induction n as [|n IH]; intros k s I Hk Hn; [lia|].
    assert (Rec : exists s1, frecord exec outputs3 (point Feedthrough k) s = Done (inl tt, s1, [R3 k]) /\ reach3 m szof s1 /\ beside (sinst s) (sinst s1) /\
      exists p u q, holds3 p u q (data (mut (sinst s1)))).
    { pose proof (fi_held I) as H. unfold cs_row3. destruct k as [|k].
      - destruct (record3 (point Feedthrough 0) (fi_reach I) (or_introl (fi_mode I)) H) as (s1 & A & B & C & G). exists s1. repeat (split; [assumption|]). eauto.
      - destruct (record3 (point Feedthrough (Datatypes.S k)) (fi_reach I) (or_introl (fi_mode I)) H) as (s1 & A & B & C & G). exists s1. repeat (split; [assumption|]). eauto. }
    destruct Rec as (s1 & E1 & R1 & B1 & p1 & u1 & q1 & H1).
    assert (In1 : inputable (sinst s1)).
    { left. destruct B1 as (C & _). rewrite C. split; [exact (fi_mode I)|exact (fi_type I)]. }
    destruct (@continuous_eq p1 u1 q1 (point Feedthrough k) false s1 R1 (or_introl In1) H1) as (l2 & s2 & E2 & R2 & B2 & H2).
    assert (In2 : inputable (sinst s2)) by (destruct B2 as (C & _); unfold inputable; rewrite C; exact In1).
    destruct (@discrete_eq p1 _ _ (point Feedthrough k) s2 R2 In2 H2) as (l3 & s3 & E3 & R3' & B3 & H3).
    pose proof (beside_trans (beside_trans B1 B2) B3) as Bs. pose proof (beside_idle Bs (fi_idle I)) as Id3. destruct Bs as (C3 & _).
    assert (Ep : feed_loop3 szof fuel env narrow stop (Datatypes.S n) (N.of_nat k) s =
      match (if nle stop (point Feedthrough k) then fret tt else
             fbind (CALL (O3DoStep (point Feedthrough k) (m_step m) true true true true))
               (fun out => match out with
                 | ODoStep o => if (match o_terminateSimulation o with Some b => b | None => false end) then fret tt
                                else feed_loop3 szof fuel env narrow stop n (N.modulo (N.of_nat k + 1) two64)
                 | _ => ubM end)) s3 with
      | Done (b, s', t') => Done (b, s', R3 k :: t')
      | UB => UB
      | NoFuel => NoFuel
      end).
    { cbn [feed_loop3]. change (nmul (nofN (N.of_nat k)) (m_step m)) with (point (F := F) Feedthrough k).
      unfold fbind at 1. unfold bind at 1. rewrite E1. unfold fbind at 1. unfold bind at 1. rewrite E2. unfold fbind at 1. unfold bind at 1. rewrite E3.
      cbn [app]. destruct (_ s3) as [[[] ?]| |]; reflexivity. }
    rewrite Ep. clear Ep.
    destruct (Nat.eq_dec k N) as [->|Hne].
    - replace (N - N) with 0 by lia. split.
      + intros Rn. unfold reaches in Rn. rewrite Rn. exists s3. split; [reflexivity|]. unfold mode_of; rewrite C3; exact (fi_mode I).
      + intros (Rn & Rb). rewrite Rn. unfold fbind, bind, FCALL.
        rewrite (@dostep3_refused F NF szof Feedthrough); [exists (with_mode Terminated s3); reflexivity|unfold mode_of; rewrite C3; exact (fi_mode I)|].
        intros (_ & _ & X). unfold stop_of in X. rewrite C3 in X. fold (stop_of s) in X. rewrite (fi_stop I) in X.
        change (beyond (target Feedthrough (Datatypes.S N)) stop = false) in X. congruence.
    - destruct (Rk k ltac:(lia)) as (K2 & K4 & K5). destruct (Be k ltac:(lia)) as (K1 & K3). rewrite K1.
      assert (M3 : mode_of s3 = StepMode) by (unfold mode_of; rewrite C3; exact (fi_mode I)).
      assert (Ev3 : eventModeUsed (ctl (sinst s3)) = false) by (rewrite C3; exact (fi_ev I)).
      assert (Er3 : earlyReturnAllowed (ctl (sinst s3)) = false) by (rewrite C3; exact (fi_er I)).
      assert (Ac : acceptable s3 (point Feedthrough k) (m_step m)).
      { unfold acceptable, end_of, stop_of. rewrite C3. fold (end_of s) (stop_of s). rewrite (fi_end I), (fi_stop I). auto. }
      assert (Bc : time (bump m (ctl (sinst s3))) = internal Feedthrough (Datatypes.S k)).
      { rewrite C3. unfold bump. cbn [time set_time set_nSteps]. fold (start_of s) (steps_of s). rewrite (fi_start I), (fi_steps I), next_step by lia. reflexivity. }
      destruct (@one3 F NF Feedthrough szof fuel env (point Feedthrough k) s3) as (i' & r & s4 & t & E4 & R4 & Sw & Ci & Hr & Es); auto; try discriminate.
      { split; [apply Id3|apply Id3]. }
      { unfold time_of. rewrite C3. fold (time_of s). rewrite (fi_time I). exact K4. }
      { rewrite Bc. exact K5. }
      destruct (idle_step Id3 Sw) as (Id4 & D4).
      assert (Tm : terminateSimulation (mut i') = false) by apply Id4.
      assert (r = true) as -> by (destruct Hr; congruence).
      unfold fbind, bind, FCALL. rewrite E4. cbn [o_terminateSimulation]. rewrite Tm.
      rewrite next_step by lia.
      assert (Ec : ctl (sinst s4) = set_nextCommunicationPoint (target Feedthrough (Datatypes.S k)) (bump m (ctl (sinst s)))).
      { rewrite Es. cbn [ctl set_ctl]. rewrite Ci, C3. reflexivity. }
      destruct (IH (Datatypes.S k) s4) as (Ok & Err); [|lia|lia|].
      + constructor; auto.
        * unfold mode_of. rewrite Ec. exact (fi_mode I).
        * rewrite Ec. exact (fi_type I).
        * rewrite Ec. exact (fi_ev I).
        * rewrite Ec. exact (fi_er I).
        * rewrite Es. exact Id4.
        * rewrite Es. cbn [mut set_ctl]. rewrite D4. exact H3.
        * unfold steps_of. rewrite Ec. change (N.modulo (steps_of s + 1) two64 = N.of_nat (Datatypes.S k)). rewrite (fi_steps I). apply next_step. lia.
        * unfold start_of. rewrite Ec. exact (fi_start I).
        * unfold stop_of. rewrite Ec. exact (fi_stop I).
        * unfold end_of. rewrite Ec. reflexivity.
        * unfold time_of. rewrite Ec. rewrite C3 in Bc. exact Bc.
      + replace (Datatypes.S (N - k)) with (Datatypes.S (Datatypes.S (N - Datatypes.S k))) by lia. split.
        * intro Rn. destruct (Ok Rn) as (s5 & E5 & M5). rewrite E5. exists s5. split; [reflexivity|exact M5].
        * intro Rn. destruct (Err Rn) as (s5 & E5). rewrite E5. exists s5. reflexivity.
  Qed.

  Theorem feed_cs3_rows path N n : precise (F := F) Feedthrough N -> before Feedthrough stop N -> (N.of_nat N < two64)%N -> 2 <= fuel -> N < n ->
    (reaches Feedthrough stop N -> exists s, feed_cs3 szof fuel env narrow S stop path n = Done (OK, map R3 (seq 0 (Datatypes.S N)), Some s)) /\
    (passes Feedthrough stop N -> exists s, feed_cs3 szof fuel env narrow S stop path n = Done (Error, map R3 (seq 0 (Datatypes.S N)), Some s)).
  Proof.
    intros Pr Be Hb Hf Hn. destruct (feed_begin path) as (i & t & l & o1 & s0 & s1 & o2 & s2 & E1 & E0 & E2 & E3 & I).
    destruct (@feed_steps N n Pr Be Hb Hf 0 s2 I ltac:(lia) ltac:(lia)) as (Ok & Err).
    assert (G : forall r s3 rows, feed_loop3 szof fuel env narrow stop n 0 s2 = Done (r, s3, rows) ->
      feed_cs3 szof fuel env narrow S stop path n = ftearDown exec O3Terminate (match r with inl _ => OK | inr st => st end) s3 rows).
    { intros r s3 rows E4. unfold feed_cs3, fprogram. rewrite E1. unfold fbind at 1. unfold bind at 1. rewrite E0. unfold fbind at 1. unfold bind at 1. rewrite E2.
      unfold fbind at 1. unfold bind at 1. rewrite E3. rewrite E4. destruct r; reflexivity. }
    cbn [N.of_nat] in Ok, Err. rewrite Nat.sub_0_r in Ok, Err. split.
    - intro Rn. destruct (Ok Rn) as (s3 & E4 & M). rewrite (G _ _ _ E4). rewrite fterm_eq by auto. eexists. reflexivity.
    - intro Rn. destruct (Err Rn) as (s3 & E4). rewrite (G _ _ _ E4). eexists. reflexivity.
  Qed.
End Feed3.
