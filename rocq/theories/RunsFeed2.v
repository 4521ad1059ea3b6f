(** RunsFeed2.v -- the FMI 2 program for Feedthrough (C65). *)
From Coq Require Import List NArith ZArith Bool Arith Lia.
From Verif Require Import Base Instance ModelIface Core Fmi3 Fmi2 Api Fmus SpecModes SpecCreate SpecState SpecSteps SpecOde SpecSafe SpecPrograms SpecFeed Programs
  ProgramsFeed Logic Calls Dyn Solver Fits Steps StepsFmus StepProps Ode SafeAll Progress SpecVars Data Reach Histories Runs FmuFeedthrough RunsFeed.
Import ListNotations.
Set Implicit Arguments.

Section Feed2.
  Context {F : Type} {NF : Num F} (szof : N) (fuel : nat) (env : Env).
  Notation m := (model_of (F := F) FMI2 Feedthrough).
  Notation D := (md m).
  Notation exec := (exec2 m szof fuel env).
  Notation CALL := (FCALL exec).
  Notation CALLS := (FCALLS exec).
  Notation Sys := (Sys F D).

  Lemma FCALL_reach2 o s r s' l : reach2 m szof s -> CALL o s = Done (r, s', l) -> image2 o = None -> reach2 m szof s'.
  Proof.
    intros Rs E Im. unfold FCALL in E. destruct (exec o s) as [[[[st out] s1] t]| |] eqn:E1; try discriminate.
    injection E; intros; subst. eapply reach2_call; [exact Rs| |exact E1]. intros i X. congruence.
  Qed.
  Lemma CALLS_reach2 l : Forall (fun o => image2 o = None) l -> forall s r s' t, reach2 m szof s -> CALLS l s = Done (r, s', t) -> reach2 m szof s'.
  Proof.
    induction 1 as [|o l Ho Hl IH]; intros s r s' t Rs E; cbn [FCALLS] in E.
    - injection E; intros; subst. exact Rs.
    - unfold fbind at 1 in E. unfold bind at 1 in E. destruct (CALL o s) as [[[r1 s1] t1]| |] eqn:E1; try discriminate.
      assert (R1 : reach2 m szof s1) by (eapply FCALL_reach2; [exact Rs|exact E1|exact Ho]). destruct r1 as [x|st]; [|injection E; intros; subst; exact R1].
      unfold fbind, bind in E. destruct (CALLS l s1) as [[[r2 s2] t2]| |] eqn:E2; try discriminate.
      assert (R2 : reach2 m szof s2) by (eapply IH; [exact R1|exact E2]). destruct r2; injection E; intros; subst; exact R2.
  Qed.

  Ltac fields s := let hp := fresh "hp" in let c := fresh "c" in let u := fresh "u" in let o := fresh "o" in
    destruct s as [[c u o] hp]; cbn [md model_of Feedthrough_model] in u, hp |- *;
    destruct u as [u1 u2 u3 u4 u5 u6 u7 [] d];
    destruct c as [c1 c2 c3 c4 c5 c6 c7 c8 c9 c10 c11 c12 c13 c14 c15 md c17 c18 c19 c20].
  Definition tame2 (i : Inst F D) : Prop := mode (ctl i) = StepComplete /\ itype (ctl i) = CoSimulation.
  Ltac computes := eexists _, _; split; [lazy -[nle nlt nadd nsub nmul nopp nlit nzero ndblmin nofN ninf ntrunc]; reflexivity|].
  Lemma record2 p u time (s : Sys) : reach2 m szof s -> tame2 (sinst s) -> holds p Initial u (data (mut (sinst s))) ->
    exists s', frecord exec outputs2 time s = Done (inl tt, s', [(time, columns2 p Initial u)]) /\
      reach2 m szof s' /\ beside (sinst s) (sinst s') /\ holds p Initial u (data (mut (sinst s'))).
  Proof.
    intros Rs M H.
    assert (G : exists s', CALLS outputs2 s = Done (inl (columns2 p Initial u), s', []) /\ beside (sinst s) (sinst s') /\ holds p Initial u (data (mut (sinst s')))).
    { clear Rs. unfold tame2 in M. fields s; destruct d; unfold holds in H |- *; cbn in M, H;
      destruct H as (-> & -> & -> & -> & -> & -> & ->);
      destruct M; subst; destruct p; (eexists; split;
      [lazy -[nle nlt nadd nsub nmul nopp nlit nzero ndblmin nofN ninf ntrunc]; reflexivity|]).
      all: split; [split; [reflexivity|split; [reflexivity|do 2 eexists; reflexivity]]|].
      all: cbn; repeat split. }
    destruct G as (s' & E & B & H'). exists s'. split; [unfold frecord, fbind, bind; rewrite E; reflexivity|].
    split; [|auto]. eapply CALLS_reach2; [|exact Rs|exact E]. repeat constructor.
  Qed.
  Lemma continuous2_eq p u time e (s : Sys) : reach2 m szof s -> tame2 (sinst s) -> holds p Initial u (data (mut (sinst s))) ->
    exists l s', CALLS (continuous2 time e) s = Done (inl l, s', []) /\
      reach2 m szof s' /\ beside (sinst s) (sinst s') /\ holds p Initial (ramp time e) (data (mut (sinst s'))).
  Proof.
    intros Rs M H.
    assert (G : exists l s', CALLS (continuous2 time e) s = Done (inl l, s', []) /\
      beside (sinst s) (sinst s') /\ holds p Initial (ramp time e) (data (mut (sinst s')))).
    { clear Rs. unfold tame2 in M. unfold continuous2. rewrite ramp_eq. generalize (ramp time e) as u'. intros u'.
      fields s; destruct d; unfold holds in H |- *; cbn in M, H;
      destruct H as (-> & -> & -> & -> & -> & -> & ->); destruct M; subst; computes.
      all: split; [split; [reflexivity|split; [reflexivity|do 2 eexists; reflexivity]]|].
      all: cbn; repeat split. }
    destruct G as (l & s' & E & B & H'). exists l, s'. split; [exact E|]. split; [|auto]. eapply CALLS_reach2; [|exact Rs|exact E]. repeat constructor.
  Qed.
  Lemma discrete2_eq p u time (s : Sys) : reach2 m szof s -> tame2 (sinst s) -> holds p Initial u (data (mut (sinst s))) ->
    exists l s', CALLS (discrete2 time) s = Done (inl l, s', []) /\
      reach2 m szof s' /\ beside (sinst s) (sinst s') /\ holds (phase time) Initial u (data (mut (sinst s'))).
  Proof.
    intros Rs M H.
    assert (G : exists l s', CALLS (discrete2 time) s = Done (inl l, s', []) /\
      beside (sinst s) (sinst s') /\ holds (phase time) Initial u (data (mut (sinst s')))).
    { clear Rs. unfold tame2 in M. unfold discrete2. generalize (tunable_input time) as u'. intro u'. unfold phase, before_step.
      change one with (nlit (F := F) 1 0). generalize (nlt time (nlit 1 0)) as b. intro b.
      fields s; destruct d; unfold holds in H |- *; cbn in M, H;
      destruct H as (-> & -> & -> & -> & -> & -> & ->); destruct M; subst; destruct b; computes.
      all: split; [split; [reflexivity|split; [reflexivity|do 2 eexists; reflexivity]]|].
      all: cbn; repeat split. }
    destruct G as (l & s' & E & B & H'). exists l, s'. split; [exact E|]. split; [|auto]. eapply CALLS_reach2; [|exact Rs|exact E]. repeat constructor.
  Qed.

  (** ** A communication step of one solver step *)
  Lemma idle2_steps k i i' : idle i -> steps_with FMI2 Feedthrough (handled2 FMI2 Feedthrough env) k i i' -> idle i' /\ data (mut i') = data (mut i).
  Proof.
    intros Id W. revert Id. induction W as [i|k i i1 i' Sv Ne W IH|k i i1 i2 i' Sv (_ & Ev) Hd W IH]; intro Id; [auto| |].
    - destruct Id as (A & B & Nd & Tm). pose proof (sv_frozen Sv) as E1. pose proof (sv_mut Sv) as E3.
      destruct IH as (Id' & Da).
      + unfold idle. rewrite (sv_nx Sv), (sv_nz Sv), E3. cbn. auto.
      + split; [exact Id'|]. rewrite Da. exact E1.
    - destruct Id as (A & B & Nd & Tm). exfalso. destruct Ev as [(j & a & b & X & _)|(X & _)]; [|congruence].
      unfold SpecOde.stored in X. rewrite B in X. destruct j; discriminate X.
  Qed.
  Lemma one2 ccp (s : Sys) : reach2 m szof s -> mode_of s = StepComplete -> idle (sinst s) -> acceptable s ccp (m_step m) -> 2 <= fuel ->
    beyond (nadd (time_of s) (m_step m)) (nadd ccp (m_step m)) = false ->
    beyond (nadd (time (bump m (ctl (sinst s)))) (m_step m)) (nadd ccp (m_step m)) = true ->
    exists out s' t, exec (O2DoStep ccp (m_step m)) s = Done (OK, out, s', t) /\
      reach2 m szof s' /\ idle (sinst s') /\ data (mut (sinst s')) = data (mut (sinst s)) /\
      ctl (sinst s') = set_nextCommunicationPoint (nadd ccp (m_step m)) (bump m (ctl (sinst s))).
  Proof.
    intros Rs M Id A Hf B0 B1.
    destruct (@progress2 F NF szof Feedthrough fuel env ccp (m_step m) s 1 eq_refl) as (st & out & s' & t & E & Hst); auto; try discriminate.
    pose proof E as E'.
    assert (NS : Feedthrough <> StateSpace) by discriminate.
    apply (dostep2 NS) in E as [(X & _)|(_ & _ & _ & r & i' & k & El & _ & L & Es)]; [| |exact Rs].
    { destruct Hst as [->|(-> & _)]; discriminate X. }
    assert (Ne : st <> Error) by (destruct Hst as [->|(-> & _)]; discriminate).
    destruct (@loop2_inside F NF FMI2 Feedthrough env fuel _ _ _ _ _ _ (@sane_reach2 F NF szof Feedthrough eq_refl s Rs) Ne El) as (_ & (k' & _ & W & Ck & _) & Z).
    destruct (idle2_steps Id W) as (Id' & Da).
    assert (Te : terminateSimulation (mut i') = false) by apply Id'.
    destruct Z as [(-> & -> & Pr)|(_ & _ & X)]; [|congruence].
    assert (C1 : ctl i' = bump m (ctl (sinst s))).
    { pose proof (lq_before L) as Lb. destruct (lq_end L) as [(_ & _ & Ce & _ & Pe)|[(X & _)|(X & _)]]; try discriminate.
      destruct k as [|[|k]].
      - exfalso. rewrite Ce in Pe. cbn [bumps] in Pe. change (pointReached m (nadd ccp (m_step m)) (ctl (sinst s))) with (beyond (nadd (time_of s) (m_step m)) (nadd ccp (m_step m))) in Pe. congruence.
      - exact Ce.
      - exfalso. specialize (Lb 1 ltac:(lia)). cbn [bumps] in Lb.
        change (pointReached m (nadd ccp (m_step m)) (bump m (ctl (sinst s)))) with (beyond (nadd (time (bump m (ctl (sinst s)))) (m_step m)) (nadd ccp (m_step m))) in Lb. congruence. }
    exists out, s', t. split; [exact E'|]. split; [eapply reach2_call; [exact Rs| |exact E']; intros ? X; discriminate X|].
    rewrite Es. split; [exact Id'|]. split; [exact Da|]. cbn [ctl set_ctl]. now rewrite C1.
  Qed.

  Variables (S : N) (stop : F).
  Record finv2 (k : nat) (s : Sys) : Prop := mkFinv2 {
    f2_reach : reach2 m szof s;
    f2_tame : tame2 (sinst s);
    f2_idle : idle (sinst s);
    f2_held : match k with
              | O => holds Initial Initial nzero (data (mut (sinst s)))
              | Datatypes.S k => holds (phase (point Feedthrough k)) Initial (ramp (point Feedthrough k) false) (data (mut (sinst s)))
              end;
    f2_steps : steps_of s = N.of_nat k;
    f2_start : start_of s = nzero;
    f2_stop : stop_of s = stop;
    f2_end : end_of s = target Feedthrough k;
    f2_time : time_of s = internal Feedthrough k }.

  Lemma feed_begin2 uri : exists i t l o0 s' o1 s0 s1 o2 s2,
    fmi2Instantiate m env feed_name CoSimulation (Some (m_token m)) (Some uri) S true false = Done (Some i, t) /\
    CALLS start2 (mkSys i []) = Done (inl l, s', []) /\
    CALL (O2SetupExperiment nzero true stop) s' = Done (inl o0, s0, []) /\
    CALL O2EnterInitializationMode s0 = Done (inl o1, s1, []) /\
    CALL O2ExitInitializationMode s1 = Done (inl o2, s2, []) /\ finv2 0 s2.
  Proof.
    assert (G : exists i t l o0 s' o1 s0 s1 o2 s2,
      fmi2Instantiate m env feed_name CoSimulation (Some (m_token m)) (Some uri) S true false = Done (Some i, t) /\
      CALLS start2 (mkSys i []) = Done (inl l, s', []) /\
      CALL (O2SetupExperiment nzero true stop) s' = Done (inl o0, s0, []) /\
      CALL O2EnterInitializationMode s0 = Done (inl o1, s1, []) /\
      CALL O2ExitInitializationMode s1 = Done (inl o2, s2, []) /\ (reach2 m szof s2 -> finv2 0 s2)).
    { do 10 eexists. do 5 (split; [lazy -[nle nlt nadd nsub nmul nopp nlit nzero ndblmin nofN ninf ntrunc]; reflexivity|]).
      intro Rs; constructor; [exact Rs|..]; try reflexivity; unfold tame2, idle, holds; cbn; repeat split. }
    destruct G as (i & t & l & o0 & s' & o1 & s0 & s1 & o2 & s2 & E1 & Es & E0 & E2 & E3 & K). exists i, t, l, o0, s', o1, s0, s1, o2, s2.
    split; [exact E1|]. split; [exact Es|]. split; [exact E0|]. split; [exact E2|]. split; [exact E3|]. apply K.
    eapply FCALL_reach2; [|exact E3|reflexivity]. eapply FCALL_reach2; [|exact E2|reflexivity]. eapply FCALL_reach2; [|exact E0|reflexivity].
    eapply CALLS_reach2; [|  |exact Es]; [repeat constructor|]. constructor. do 9 eexists. exact E1.
  Qed.

  Lemma fterm2_eq s rows : mode_of s = StepComplete ->
    ftearDown exec O2Terminate OK s rows = Done (OK, rows, Some (with_mode Terminated s)).
  Proof.
    intros M. unfold ftearDown. cbn [status_num Nat.ltb Nat.leb]. unfold mode_of in M. destruct s as [[c u o] hp].
    cbn [ctl sinst] in M. cbn [exec2]. rewrite outI_eq. unfold fmi2Terminate.
    rewrite BEGIN2_pass by (cbn [ctl sinst]; rewrite M; discriminate). reflexivity.
  Qed.

  Notation R2 := (cs_row2 (point Feedthrough)).
  Lemma feed_steps2 N n : precise (F := F) Feedthrough N -> before Feedthrough stop N -> (N.of_nat N < two64)%N -> 2 <= fuel -> forall k s, finv2 k s -> k <= N -> N - k < n ->
    (reaches Feedthrough stop N -> exists s', feed_loop2 szof fuel env stop n (N.of_nat k) s = Done (inl tt, s', map R2 (seq k (Datatypes.S (N - k)))) /\ mode_of s' = StepComplete) /\
    (passes Feedthrough stop N -> exists s', feed_loop2 szof fuel env stop n (N.of_nat k) s = Done (inr Error, s', map R2 (seq k (Datatypes.S (N - k))))).
  Proof.
    intros (Rh & Rk) Be Hb Hf. induction n as [|n IH]; intros k s I Hk Hn; [lia|].
    assert (Rec : exists s1, frecord exec outputs2 (point Feedthrough k) s = Done (inl tt, s1, [R2 k]) /\ reach2 m szof s1 /\ beside (sinst s) (sinst s1) /\
      exists p u, holds p Initial u (data (mut (sinst s1)))).
    { pose proof (f2_held I) as H. unfold cs_row2. destruct k as [|k].
      - destruct (record2 (point Feedthrough 0) (f2_reach I) (f2_tame I) H) as (s1 & A & B & C & G). exists s1. repeat (split; [assumption|]). eauto.
      - destruct (record2 (point Feedthrough (Datatypes.S k)) (f2_reach I) (f2_tame I) H) as (s1 & A & B & C & G). exists s1. repeat (split; [assumption|]). eauto. }
    destruct Rec as (s1 & E1 & R1 & B1 & p1 & u1 & H1).
    assert (In1 : tame2 (sinst s1)) by (destruct B1 as (C & _); unfold tame2; rewrite C; exact (f2_tame I)).
    destruct (@continuous2_eq p1 u1 (point Feedthrough k) false s1 R1 In1 H1) as (l2 & s2 & E2 & R2' & B2 & H2).
    assert (In2 : tame2 (sinst s2)) by (destruct B2 as (C & _); unfold tame2; rewrite C; exact In1).
    destruct (@discrete2_eq p1 _ (point Feedthrough k) s2 R2' In2 H2) as (l3 & s3 & E3 & R3' & B3 & H3).
    pose proof (beside_trans (beside_trans B1 B2) B3) as Bs. pose proof (beside_idle Bs (f2_idle I)) as Id3. destruct Bs as (C3 & _).
    assert (Ep : feed_loop2 szof fuel env stop (Datatypes.S n) (N.of_nat k) s =
      match (if nle stop (point Feedthrough k) then fret tt else fun s =>
          match exec (O2DoStep (point Feedthrough k) (m_step m)) s with
          | Done (st, _, s', _) =>
              (match st with
               | OK => feed_loop2 szof fuel env stop n (N.modulo (N.of_nat k + 1) two64)
               | Discard =>
                   fbind (CALL (O2GetBooleanStatus KTerminated true)) (fun out =>
                   match out with
                   | OBool (Some true) =>
                       fbind (CALL (O2GetRealStatus LastSuccessfulTime true)) (fun out =>
                       match out with
                       | OReal (Some t) => frecord exec outputs2 t
                       | _ => ubM
                       end)
                   | OBool (Some false) => feed_loop2 szof fuel env stop n (N.modulo (N.of_nat k + 1) two64)
                   | _ => ubM
                   end)
               | _ => ret (inr st)
               end) s'
          | UB => UB
          | NoFuel => NoFuel
          end) s3 with
      | Done (b, s', t') => Done (b, s', R2 k :: t')
      | UB => UB
      | NoFuel => NoFuel
      end).
    { cbn [feed_loop2]. change (nmul (nofN (N.of_nat k)) (m_step m)) with (point (F := F) Feedthrough k).
      unfold fbind at 1. unfold bind at 1. rewrite E1. unfold fbind at 1. unfold bind at 1. rewrite E2. unfold fbind at 1. unfold bind at 1. rewrite E3.
      cbn [app]. destruct (_ s3) as [[[] ?]| |]; reflexivity. }
    rewrite Ep. clear Ep.
    destruct (Nat.eq_dec k N) as [->|Hne].
    - replace (N - N) with 0 by lia. split.
      + intros Rn. unfold reaches in Rn. rewrite Rn. exists s3. split; [reflexivity|]. unfold mode_of; rewrite C3; exact (proj1 (f2_tame I)).
      + intros (Rn & Rb). rewrite Rn.
        rewrite (@dostep2_refused F NF szof Feedthrough); [exists (with_mode Terminated s3); reflexivity|unfold mode_of; rewrite C3; exact (proj1 (f2_tame I))|].
        intros (_ & _ & X). unfold stop_of in X. rewrite C3 in X. fold (stop_of s) in X. rewrite (f2_stop I) in X.
        change (beyond (target Feedthrough (Datatypes.S N)) stop = false) in X. congruence.
    - destruct (Rk k ltac:(lia)) as (K2 & K4 & K5). destruct (Be k ltac:(lia)) as (K1 & K3). rewrite K1.
      assert (M3 : mode_of s3 = StepComplete) by (unfold mode_of; rewrite C3; exact (proj1 (f2_tame I))).
      assert (Ac : acceptable s3 (point Feedthrough k) (m_step m)).
      { unfold acceptable, end_of, stop_of. rewrite C3. fold (end_of s) (stop_of s). rewrite (f2_end I), (f2_stop I). auto. }
      assert (Bc : time (bump m (ctl (sinst s3))) = internal Feedthrough (Datatypes.S k)).
      { rewrite C3. unfold bump. cbn [time set_time set_nSteps]. fold (start_of s) (steps_of s). rewrite (f2_start I), (f2_steps I), next_step by lia. reflexivity. }
      destruct (@one2 (point Feedthrough k) s3) as (out & s4 & t & E4 & R4 & Id4 & D4 & Ec); auto.
      { unfold time_of. rewrite C3. fold (time_of s). rewrite (f2_time I). exact K4. }
      { rewrite Bc. exact K5. }
      rewrite E4. rewrite next_step by lia. rewrite C3 in Ec.
      destruct (IH (Datatypes.S k) s4) as (Ok & Err); [|lia|lia|].
      + constructor; auto.
        * unfold tame2. rewrite Ec. exact (f2_tame I).
        * rewrite D4. exact H3.
        * unfold steps_of. rewrite Ec. change (N.modulo (steps_of s + 1) two64 = N.of_nat (Datatypes.S k)). rewrite (f2_steps I). apply next_step. lia.
        * unfold start_of. rewrite Ec. exact (f2_start I).
        * unfold stop_of. rewrite Ec. exact (f2_stop I).
        * unfold end_of. rewrite Ec. reflexivity.
        * unfold time_of. rewrite Ec. rewrite C3 in Bc. exact Bc.
      + replace (Datatypes.S (N - k)) with (Datatypes.S (Datatypes.S (N - Datatypes.S k))) by lia. split.
        * intro Rn. destruct (Ok Rn) as (s5 & E5 & M5). rewrite E5. exists s5. split; [reflexivity|exact M5].
        * intro Rn. destruct (Err Rn) as (s5 & E5). rewrite E5. exists s5. reflexivity.
  Qed.

  Theorem feed_cs2_rows uri N n : precise (F := F) Feedthrough N -> before Feedthrough stop N -> (N.of_nat N < two64)%N -> 2 <= fuel -> N < n ->
    (reaches Feedthrough stop N -> exists s, feed_cs2 szof fuel env S stop uri n = Done (OK, map R2 (seq 0 (Datatypes.S N)), Some s)) /\
    (passes Feedthrough stop N -> exists s, feed_cs2 szof fuel env S stop uri n = Done (Error, map R2 (seq 0 (Datatypes.S N)), Some s)).
  Proof.
    intros Pr Be Hb Hf Hn. destruct (feed_begin2 uri) as (i & t & l & o0 & s' & o1 & s0 & s1 & o2 & s2 & E1 & Es & E0 & E2 & E3 & I).
    destruct (@feed_steps2 N n Pr Be Hb Hf 0 s2 I ltac:(lia) ltac:(lia)) as (Ok & Err).
    assert (G : forall r s3 rows, feed_loop2 szof fuel env stop n 0 s2 = Done (r, s3, rows) ->
      feed_cs2 szof fuel env S stop uri n = ftearDown exec O2Terminate (match r with inl _ => OK | inr st => st end) s3 rows).
    { intros r s3 rows E4. unfold feed_cs2, fprogram. rewrite E1. unfold fbind at 1. unfold bind at 1. rewrite Es. unfold fbind at 1. unfold bind at 1. rewrite E0.
      unfold fbind at 1. unfold bind at 1. rewrite E2. unfold fbind at 1. unfold bind at 1. rewrite E3. rewrite E4. destruct r; reflexivity. }
    cbn [N.of_nat] in Ok, Err. rewrite Nat.sub_0_r in Ok, Err. split.
    - intro Rn. destruct (Ok Rn) as (s3 & E4 & M). rewrite (G _ _ _ E4). rewrite fterm2_eq by auto. eexists. reflexivity.
    - intro Rn. destruct (Err Rn) as (s3 & E4). rewrite (G _ _ _ E4). eexists. reflexivity.
  Qed.
End Feed2.
