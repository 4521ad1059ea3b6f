(** RunsBall.v -- the model exchange program with BouncingBall (C57). *)
From Coq Require Import List NArith ZArith Bool Arith Lia.
From Verif Require Import Base Instance ModelIface Core Fmi3 Api Fmus SpecModes SpecCreate SpecState SpecSteps SpecOde SpecPrograms SpecBall Programs
  Logic Calls Ode Reach Flags Histories Runs RunsMe FmuBouncingBall.
Import ListNotations.
Set Implicit Arguments.

Section Ball.
  Context {F : Type} {NF : Num F} (szof : N) (fuel : nat) (env : Env).
  Notation B := BouncingBall.
  Notation m := (model_of (F := F) FMI3 B).
  Notation D := (md m).
  Notation call := (CALL (F := F) B szof fuel env).
  Notation array := (CALL_array (F := F) B szof fuel env).
  Notation meinv := (@meinv F NF B szof).
  Notation "'run' x '<-' p 'in' k" := (pbind p (fun x => k)) (at level 200, x pattern, p at level 100, k at level 200).
  Notation "p '>>>' k" := (pbind p (fun _ => k)) (at level 199, right associativity).

  Ltac opened s :=
    destruct s as [[c u o] hp]; cbn [md model_of BouncingBall_model] in u, hp |- *;
    destruct u as [u1 u2 u3 u4 u5 u6 u7 [] [dh dv dg de]]; destruct c as [c1 c2 c3 c4 c5 c6 c7 c8 c9 c10 c11 c12 c13 c14 c15 md c17 c18 c19 c20];
    cbn in *; subst md.
  Ltac done6 := lazy -[nle nlt nadd nmul nopp nsub nlit nzero ndblmin nofN ninf ntrunc cstr]; reflexivity.

  Lemma ball_dx h v g s : meinv [h; v; g] s ->
    exists s', array (O3GetContinuousStateDerivatives (Some [nzero; nzero]) 2) [nzero; nzero] s = Done (inl [v; g], s', []) /\ meinv [h; v; g] s'.
  Proof.
    intros (Rs & M & H). 
    assert (G : exists s' t, exec3 m szof fuel env (O3GetContinuousStateDerivatives (Some [nzero; nzero]) 2) s = Done (OK, OFloats (Some [v; g]), s', t) /\
      mode_of s' = ContinuousTimeMode /\ held B [h; v; g] (data (mut (sinst s')))).
    { clear Rs. unfold mode_of, held in *. opened s; destruct H as (H1 & H2); injection H1 as -> ->; injection H2 as -> ->; do 2 eexists; (split; [done6|repeat split; reflexivity]). }
    destruct G as (s' & t & E & M' & H'). exists s'. split; [unfold CALL_array, pbind, bind, CALL; rewrite E; reflexivity|].
    split; [|auto]. eapply reach3_call; [exact Rs| |exact E]; intros ? X; discriminate X.
  Qed.
  Lemma ball_x a b h v g s : meinv [h; v; g] s ->
    exists s', array (O3GetContinuousStates (Some [a; b]) 2) [a; b] s = Done (inl [h; v], s', []) /\ meinv [h; v; g] s'.
  Proof.
    intros (Rs & M & H). 
    assert (G : exists s' t, exec3 m szof fuel env (O3GetContinuousStates (Some [a; b]) 2) s = Done (OK, OFloats (Some [h; v]), s', t) /\
      mode_of s' = ContinuousTimeMode /\ held B [h; v; g] (data (mut (sinst s')))).
    { clear Rs. unfold mode_of, held in *. opened s; destruct H as (H1 & H2); injection H1 as -> ->; injection H2 as -> ->; do 2 eexists; (split; [done6|repeat split; reflexivity]). }
    destruct G as (s' & t & E & M' & H'). exists s'. split; [unfold CALL_array, pbind, bind, CALL; rewrite E; reflexivity|].
    split; [|auto]. eapply reach3_call; [exact Rs| |exact E]; intros ? X; discriminate X.
  Qed.
  Lemma ball_nominals h v g s : meinv [h; v; g] s ->
    exists y s', array (O3GetNominalsOfContinuousStates (Some [nzero; nzero]) 2) [nzero; nzero] s = Done (inl y, s', []) /\ meinv [h; v; g] s'.
  Proof.
    intros (Rs & M & H). 
    assert (G : exists y s' t, exec3 m szof fuel env (O3GetNominalsOfContinuousStates (Some [nzero; nzero]) 2) s = Done (OK, OFloats (Some y), s', t) /\
      mode_of s' = ContinuousTimeMode /\ held B [h; v; g] (data (mut (sinst s')))).
    { clear Rs. unfold mode_of, held in *. opened s; destruct H as (H1 & H2); injection H1 as -> ->; injection H2 as -> ->; do 3 eexists; (split; [done6|repeat split; reflexivity]). }
    destruct G as (y & s' & t & E & M' & H'). exists y, s'. split; [unfold CALL_array, pbind, bind, CALL; rewrite E; reflexivity|].
    split; [|auto]. eapply reach3_call; [exact Rs| |exact E]; intros ? X; discriminate X.
  Qed.
  Lemma ball_z p h v g s : meinv [h; v; g] s ->
    exists s', array (O3GetEventIndicators (Some [p]) 1) [p] s = Done (inl [ground h v], s', []) /\ meinv [h; v; g] s'.
  Proof.
    intros (Rs & M & H). 
    assert (G : exists s' t, exec3 m szof fuel env (O3GetEventIndicators (Some [p]) 1) s = Done (OK, OFloats (Some [ground h v]), s', t) /\
      mode_of s' = ContinuousTimeMode /\ held B [h; v; g] (data (mut (sinst s')))).
    { clear Rs. unfold mode_of, held in *. opened s; destruct H as (H1 & H2); injection H1 as -> ->; injection H2 as -> ->; do 2 eexists; (split; [done6|repeat split; reflexivity]). }
    destruct G as (s' & t & E & M' & H'). exists s'. split; [unfold CALL_array, pbind, bind, CALL; rewrite E; reflexivity|].
    split; [|auto]. eapply reach3_call; [exact Rs| |exact E]; intros ? X; discriminate X.
  Qed.
  Lemma ball_setx h' v' h v g s : meinv [h; v; g] s ->
    exists o s', call (O3SetContinuousStates (Some [h'; v']) 2) s = Done (inl o, s', []) /\ meinv [h'; v'; g] s'.
  Proof.
    intros (Rs & M & H). 
    assert (G : exists o s', call (O3SetContinuousStates (Some [h'; v']) 2) s = Done (inl o, s', []) /\
      mode_of s' = ContinuousTimeMode /\ held B [h'; v'; g] (data (mut (sinst s')))).
    { clear Rs. unfold mode_of, held in *. opened s; destruct H as (H1 & H2); injection H1 as -> ->; injection H2 as -> ->; do 2 eexists; (split; [done6|repeat split; reflexivity]). }
    destruct G as (o & s' & E & M' & H'). exists o, s'. split; [exact E|]. eapply CALL_meinv; eauto. reflexivity.
  Qed.
  (** The event handling, 116-147 of the program *)
  Definition touches (h v : F) : bool := nle h nzero && nlt v nzero.
  Lemma ball_event n h v g s : meinv [h; v; g] s ->
    exists o1 s1 net s2 o3 s3, call O3EnterEventMode s = Done (inl o1, s1, []) /\
      event_iteration B szof fuel env (Datatypes.S n) false false s1 = Done (inl (false, touches h v, false, net), s2, []) /\
      call O3EnterContinuousTimeMode s2 = Done (inl o3, s3, []) /\ meinv (bounced h v g) s3.
  Proof.
    intros (Rs & M & H). pose proof (proj1 (proj1 (@flags_reach3 F NF szof FMI3 B s Rs))) as Nw.
    assert (G : exists o1 s1 e s2 o3 s3, call O3EnterEventMode s = Done (inl o1, s1, []) /\
      call O3UpdateDiscreteStates s1 = Done (inl (OEventInfo (Some e)), s2, []) /\
      call O3EnterContinuousTimeMode s2 = Done (inl o3, s3, []) /\
      ei_terminateSimulation e = false /\ ei_discreteStatesNeedUpdate e = false /\ ei_nextEventTimeDefined e = false /\ ei_nominalsChanged e = false /\ ei_valuesChanged e = touches h v /\
      mode_of s3 = ContinuousTimeMode /\ held B (bounced h v g) (data (mut (sinst s3)))).
    { clear Rs. unfold mode_of, held, bounced, touches in *. opened s; destruct H as (H1 & H2); injection H1 as -> ->; injection H2 as -> ->; subst u1;
      (destruct (nle h nzero) eqn:Q1; [destruct (nlt v nzero) eqn:Q2; [destruct (nlt (nmul (nopp v) (nlit 7 (-1))) (nlit 1 (-1))) eqn:Q3|]|]);
      do 6 eexists; (split; [done6|]);
      (split; [lazy -[nle nlt nadd nmul nopp nsub nlit nzero ndblmin nofN ninf ntrunc cstr]; rewrite ?Q1, ?Q2, ?Q3; reflexivity|]);
      (split; [done6|]); repeat split; reflexivity. }
    destruct G as (o1 & s1 & e & s2 & o3 & s3 & E1 & E2 & E3 & T1 & T2 & T3 & T4 & T5 & M' & H').
    exists o1, s1, (ei_nextEventTime e), s2, o3, s3. split; [exact E1|]. split; [|split; [exact E3|]].
    - cbn [event_iteration]. rewrite (pbind_quiet _ _ _ E2). cbv beta iota. rewrite T1, T2, T3, T4, T5. reflexivity.
    - split; [|auto]. eapply CALL_reach; [| |exact E3]; [reflexivity|]. eapply CALL_reach; [| |exact E2]; [reflexivity|]. eapply CALL_reach; [| |exact E1]; [reflexivity|exact Rs].
  Qed.

  Variables (S : N) (stop : F).
  Notation loop := (me_loop (F := F) B szof fuel env stop 2 1).
  Notation time := (instant (F := F) B).
  Notation sol := (solution (F := F) B).
  Notation rowof x := (OVals TFloat64 (Some (shown (F := F) B x))).

  Lemma bounced_still (h v g : F) : touches h v = false -> bounced h v g = [h; v; g].
  Proof. unfold bounced, touches. now intros ->. Qed.
  Lemma shape (n : nat) : exists h v g, sol n = [h; v; g].
  Proof. pose proof (@solution_len F NF B n) as L. destruct (sol n) as [|h [|v [|g [|]]]]; try discriminate L. now exists h, v, g. Qed.
  Lemma bounced_shape (h v g : F) : exists h' v' g', bounced h v g = [h'; v'; g'].
  Proof. unfold bounced. destruct (_ && _); [destruct (nlt _ _)|]; do 3 eexists; reflexivity. Qed.

  (** A pass without an event: the step, the new indicator, the row *)
  Lemma ball_move n k h v g s pz e net : meinv [h; v; g] s -> (N.of_nat (Datatypes.S k) < two64)%N ->
    exists s', meinv (glide B [h; v; g]) s' /\
      (run dx <- if_any B szof fuel env 2 O3GetContinuousStateDerivatives (repeat nzero 2) in
       let step := N.modulo (N.of_nat k + 1) two64 in
       let time := nmul (nofN step) (m_step m) in
       call (O3SetTime time) >>>
       run x <- (let x := advance B [h; v] dx in call (O3SetContinuousStates (Some x) 2) >>> pret B x) in
       run r <- (run z <- array (O3GetEventIndicators (Some [pz]) 1) [pz] in pret B (z, negb e && roots [pz] z)) in
       let '(pz, stateEvent) := r in
       run out <- call (O3CompletedIntegratorStep (Some tt) (Some tt)) in
       recordVariables B szof fuel env time >>>
       match out with
       | OFlags (Some (stepEvent, terminate)) =>
           if terminate then pret B tt else loop n step time x pz stateEvent stepEvent false net
       | _ => ubM
       end) s = 
      match loop n (N.of_nat (Datatypes.S k)) (time (Datatypes.S k)) (shown B (glide B [h; v; g])) [ground (nth 0 (glide B [h; v; g]) nzero) (nth 1 (glide B [h; v; g]) nzero)]
              (negb e && changes_sign pz (ground (nth 0 (glide B [h; v; g]) nzero) (nth 1 (glide B [h; v; g]) nzero))) false false net s' with
      | Done (b, s2, t) => Done (b, s2, (time (Datatypes.S k), rowof (glide B [h; v; g])) :: t)
      | UB => UB
      | NoFuel => NoFuel
      end.
  Proof.
    intros I Hk. set (h' := nadd h (nmul (nlit 1 (-3)) v)). set (v' := nadd v (nmul (nlit 1 (-3)) g)).
    destruct (@ball_dx h v g s I) as (s1 & E1 & I1).
    destruct (@me_settime F NF B szof fuel env (time (Datatypes.S k)) _ s1 eq_refl I1) as (o2 & s2 & E2 & I2).
    destruct (@ball_setx h' v' h v g s2 I2) as (o3 & s3 & E3 & I3).
    destruct (@ball_z pz h' v' g s3 I3) as (s4 & E4 & I4).
    destruct (@me_done F NF B szof fuel env _ s4 eq_refl I4) as (s5 & E5 & I5).
    destruct (@me_record F NF B szof fuel env (time (Datatypes.S k)) _ s5 eq_refl I5) as (s6 & E6 & I6).
    exists s6. split; [exact I6|]. rewrite (next_step Hk). cbv zeta.
    change (nmul (nofN (N.of_nat (Datatypes.S k))) (m_step m)) with (time (Datatypes.S k)).
    rewrite (pbind_quiet _ _ _ (x := [v; g]) (s1 := s1)) by exact E1. rewrite (pbind_quiet _ _ _ E2).
    rewrite (pbind_quiet _ _ _ (x := [h'; v']) (s1 := s3)) by (unfold pbind, bind; change (advance B [h; v] [v; g]) with [h'; v']; rewrite E3; reflexivity).
    rewrite (pbind_quiet _ _ _ (x := ([ground h' v'], negb e && roots [pz] [ground h' v'])) (s1 := s4)) by (unfold pbind, bind; rewrite E4; reflexivity).
    cbv beta iota. rewrite (pbind_quiet _ _ _ E5). unfold pbind, bind. rewrite E6. 
    unfold roots. cbn [combine existsb fst snd]. rewrite orb_false_r. reflexivity.
  Qed.

  (** The beginning of the k-th pass; [e]: stateEvent, [y]: the values in the FMU, [p]: previous_z *)
  Definition arrived (k : nat) (e : bool) (y : list F) (p : F) : Prop :=
    if e then exists j, k = Datatypes.S j /\ bounces B (sol j) = true /\ y = glide B (sol j)
    else y = sol k /\ p = ground (nth 0 y nzero) (nth 1 y nzero).

  Lemma bounces_glide k : bounces B (sol k) = changes_sign (ground (nth 0 (sol k) nzero) (nth 1 (sol k) nzero)) (ground (nth 0 (glide B (sol k)) nzero) (nth 1 (glide B (sol k)) nzero)).
  Proof. destruct (shape k) as (h & v & g & ->). reflexivity. Qed.
  Lemma sol_glide k : bounces B (sol k) = false -> sol (Datatypes.S k) = glide B (sol k).
  Proof.
    change (sol (Datatypes.S k)) with (next B (sol k)). destruct (shape k) as (h & v & g & ->). cbn [bounces next glide]. now intros ->.
  Qed.
  Lemma sol_bounced k h v g : bounces B (sol k) = true -> glide B (sol k) = [h; v; g] -> sol (Datatypes.S k) = bounced h v g.
  Proof.
    change (sol (Datatypes.S k)) with (next B (sol k)). destruct (shape k) as (a & b & c & ->). cbn [bounces next glide]. intros ->. now injection 1 as -> -> ->.
  Qed.

  Lemma ball_steps N n : divided B stop N -> spaced (F := F) B N -> (N.of_nat N < two64)%N -> forall k e s y p net,
    meinv y s -> arrived k e y p -> k <= N -> Datatypes.S (N - k) < n ->
    exists s', loop n (N.of_nat k) (time k) (shown B y) [p] e false false net s =
      Done (inr OK, s', (if e then [row B time sol k] else []) ++ flat_map (rows_at B time) (seq (Datatypes.S k) (N - k))) /\ mode_of s' = ContinuousTimeMode.
  Proof.
    intros (D1 & D2 & D3) Sp Hb. induction n as [|n IH]; intros k e s y p net I A Hk Hn; [lia|].
    (* the event *)
    assert (Ev : exists s1 net1, meinv (sol k) s1 /\
      ((if e then
          call O3EnterEventMode >>>
          run e <- event_iteration B szof fuel env n false false in
          let '(nominals, values, ned, net) := e in
          call O3EnterContinuousTimeMode >>>
          recordVariables B szof fuel env (time k) >>>
          run x <- (if values then if_any B szof fuel env 2 O3GetContinuousStates (shown B y) else pret B (shown B y)) in
          (if nominals then if_any B szof fuel env 2 O3GetNominalsOfContinuousStates (repeat nzero 2) else pret B []) >>>
          pret B (x, ned, net)
        else pret B (shown B y, false, net)) s = Done (inl (shown B (sol k), false, net1), s1, if e then [row B time sol k] else []))).
    { destruct e; [|destruct A as (-> & _); exists s, net; split; [exact I|reflexivity]].
      destruct A as (j & -> & Bn & ->). destruct n as [|n]; [lia|].
      assert (Y : exists h v g, glide B (sol j) = [h; v; g]) by (destruct (shape j) as (a & b & c & ->); cbn; eauto).
      destruct Y as (h & v & g & Y). rewrite Y in *. pose proof (sol_bounced j Bn Y) as Sj.
      destruct (@ball_event n h v g s I) as (o1 & s1 & net1 & s2 & o3 & s3 & E1 & E2 & E3 & I3).
      destruct (@me_record F NF B szof fuel env (time (Datatypes.S j)) _ s3 eq_refl I3) as (s4 & E4 & I4).
      assert (X : exists s5, (if touches h v then if_any B szof fuel env 2 O3GetContinuousStates [h; v] else pret B [h; v]) s4 = Done (inl (shown B (bounced h v g)), s5, []) /\ meinv (bounced h v g) s5).
      { destruct (touches h v) eqn:T.
        - destruct (bounced_shape h v g) as (h' & v' & g' & Bq). rewrite Bq in *. destruct (@ball_x h v h' v' g' s4 I4) as (s5 & E5 & I5). exists s5. split; [exact E5|exact I5].
        - exists s4. split; [rewrite (bounced_still h v g T); reflexivity|exact I4]. }
      destruct X as (s5 & E5 & I5). exists s5, net1. rewrite Sj. split; [exact I5|].
      rewrite (pbind_quiet _ _ _ E1), (pbind_quiet _ _ _ E2). cbv beta iota. rewrite (pbind_quiet _ _ _ E3).
      unfold pbind at 1. unfold bind at 1. rewrite E4. change (shown B [h; v; g]) with [h; v].
      rewrite (pbind_quiet _ _ _ E5). unfold row. rewrite Sj. reflexivity. }
    destruct Ev as (s1 & net1 & I1 & E1).
    cbn [me_loop]. rewrite (D3 k Hk). cbn [andb orb]. rewrite orb_false_r.
    unfold pbind at 1. unfold bind at 1. rewrite E1. clear E1.
    destruct (Nat.eq_dec k N) as [->|Hne].
    - rewrite D1. replace (N - N) with 0 by lia. exists s1. split; [reflexivity|apply I1].
    - rewrite (D2 k) by lia. cbn [Nat.ltb Nat.leb].
      destruct (shape k) as (h & v & g & Sk). pose proof (bounces_glide k) as Bg. pose proof (sol_glide k) as Sg.
      assert (Rk : rows_at B time (Datatypes.S k) = (time (Datatypes.S k), rowof (glide B (sol k))) :: if bounces B (sol k) then [row B time sol (Datatypes.S k)] else []).
      { unfold rows_at. destruct (bounces B (sol k)); [reflexivity|]. unfold row. rewrite (Sg eq_refl). reflexivity. }
      rewrite Sk in I1. destruct (@ball_move n k h v g s1 p e net1 I1 ltac:(lia)) as (s2 & I2 & E2).
      rewrite Sk. change (shown B [h; v; g]) with [h; v].
      match type of E2 with ?a = _ => match goal with |- context [match ?b with Done _ => _ | UB => _ | NoFuel => _ end] => change b with a end end.
      rewrite E2. clear E2. rewrite <- Sk in *.
      set (e' := negb e && _).
      assert (Ee : e' = if e then false else bounces B (sol k)) by (unfold e'; destruct e; [reflexivity|]; cbn [negb andb]; rewrite Bg; destruct A as (-> & ->); reflexivity).
      assert (Eb : bounces B (sol k) = e').
      { rewrite Ee. destruct e; [|reflexivity]. destruct A as (j & -> & Bn & _). apply (Sp j); [lia|exact Bn]. }
      assert (A' : arrived (Datatypes.S k) e' (glide B (sol k)) (ground (nth 0 (glide B (sol k)) nzero) (nth 1 (glide B (sol k)) nzero))).
      { rewrite <- Eb. unfold arrived. destruct (bounces B (sol k)) eqn:Q; [exists k; auto|]. rewrite (Sg eq_refl). auto. }
      destruct (IH (Datatypes.S k) e' s2 _ _ net1 I2 A' ltac:(lia) ltac:(lia)) as (s3 & E3 & M3).
      rewrite E3. exists s3. split; [|exact M3]. replace (N - k) with (Datatypes.S (N - Datatypes.S k)) by lia. cbn [seq flat_map]. rewrite Rk, Eb. rewrite <- !app_comm_cons. reflexivity.
  Qed.

  Theorem simulate_me_ball path N n : nlt (F := F) nzero nzero = false -> divided B stop N -> spaced (F := F) B N -> (N.of_nat N < two64)%N -> Datatypes.S N < n ->
    exists s, simulate_me B szof fuel env S stop 2 1 path n = Done (OK, event_rows B time N, Some s).
  Proof.
    intros Hz Dv Sp Hb Hn. destruct n as [|n]; [lia|].
    destruct (@me_begin F NF B szof fuel env S stop n path eq_refl Hz) as (i & t & o1 & s1 & o2 & s2 & net & o3 & s3 & s4 & o4 & E1 & E2 & E3 & E4 & E5 & I4).
    destruct (@ball_z nzero _ _ _ s4 I4) as (s5 & E6 & I5).
    destruct (@ball_x nzero nzero _ _ _ s5 I5) as (s6 & E7 & I6).
    destruct (@ball_nominals _ _ _ s6 I6) as (y & s7 & E8 & I7).
    destruct (@me_record F NF B szof fuel env nzero _ s7 eq_refl I7) as (s8 & E9 & I8).
    destruct (@ball_steps N (Datatypes.S n) Dv Sp Hb 0 false s8 _ (ground (nlit 1 0) nzero) net I8 ltac:(split; reflexivity) ltac:(lia) ltac:(lia)) as (s9 & E10 & M9).
    unfold simulate_me, program. rewrite E1, (pbind_quiet _ _ _ E2), (pbind_quiet _ _ _ E3), (pbind_quiet _ _ _ E4). cbv beta iota.
    destruct o3 as (q1 & q2). rewrite (pbind_quiet _ _ _ E5).
    rewrite (pbind_quiet _ _ _ (x := [ground (nlit 1 0) nzero]) (s1 := s5)) by exact E6.
    rewrite (pbind_quiet _ _ _ (x := [nlit 1 0; nzero]) (s1 := s6)) by exact E7.
    rewrite (pbind_quiet _ _ _ (x := y) (s1 := s7)) by exact E8.
    unfold pbind at 1. unfold bind. rewrite E9. cbn [instant N.of_nat] in E10.
    match type of E10 with ?a = _ => match goal with |- context [me_loop ?a1 ?a2 ?a3 ?a4 ?a5 ?a6 ?a7 ?a8 ?a9 ?a10 ?a11 ?a12 ?a13 ?a14 ?a15 ?a16 ?a17] => change (me_loop a1 a2 a3 a4 a5 a6 a7 a8 a9 a10 a11 a12 a13 a14 a15 a16 a17) with a end end.
    rewrite E10. cbn [app]. rewrite term_eq by auto. eexists. rewrite Nat.sub_0_r. reflexivity.
  Qed.
End Ball.
