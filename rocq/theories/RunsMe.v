(** RunsMe.v -- the model exchange program (C57). *)
From Coq Require Import List NArith ZArith Bool Arith Lia.
From Verif Require Import Base Instance ModelIface Core Fmi3 Api Fmus SpecModes SpecCreate SpecState SpecSteps SpecOde SpecPrograms Programs
  Logic Calls Ode Reach Histories Runs FmuBouncingBall FmuDahlquist FmuVanDerPol.
Import ListNotations.
Set Implicit Arguments.

Section Me.
  Context {F : Type} {NF : Num F} (f : FMU) (szof : N) (fuel : nat) (env : Env).
  Notation m := (model_of (F := F) FMI3 f).
  Notation D := (md m).
  Lemma pbind_quiet X Z (p : Prog (F := F) f X) (k : X -> Prog (F := F) f Z) s x s1 : p s = Done (inl x, s1, []) -> pbind p k s = k x s1.
  Proof. intro E. unfold pbind, bind. rewrite E. cbn [app]. destruct (k x s1) as [[[? ?] ?]| |]; reflexivity. Qed.
  Definition meinv (x : list F) (s : Sys F D) : Prop := reach3 m szof s /\ mode_of s = ContinuousTimeMode /\ held f x (data (mut (sinst s))).

  Ltac opened s :=
    destruct s as [[c u o] hp]; cbn [md model_of BouncingBall_model Dahlquist_model VanDerPol_model] in u, hp |- *;
    destruct u as [u1 u2 u3 u4 u5 u6 u7 [] d]; destruct c as [c1 c2 c3 c4 c5 c6 c7 c8 c9 c10 c11 c12 c13 c14 c15 md c17 c18 c19 c20];
    cbn in *; subst md.

  Lemma me_dx x s : recorded f = true -> handles_events f = false -> length x = length (begin f) -> meinv x s ->
    exists dx s', if_any f szof fuel env (length x) O3GetContinuousStateDerivatives (repeat nzero (length x)) s = Done (inl dx, s', []) /\
      meinv x s' /\ advance f (shown f x) dx = shown f (next f x).
  Proof.
    intros Rc He Lx (Rs & M & H).
    assert (G : exists dx s' t, exec3 m szof fuel env (O3GetContinuousStateDerivatives (Some (repeat nzero (length x))) (length x)) s = Done (OK, OFloats (Some dx), s', t) /\
      mode_of s' = ContinuousTimeMode /\ held f x (data (mut (sinst s'))) /\ advance f (shown f x) dx = shown f (next f x)).
    { clear Rs. unfold mode_of, held in *. destruct f; try discriminate Rc; try discriminate He; destruct x as [|a [|b [|]]]; try discriminate Lx.
      - opened s; destruct d as [x0 dx0 k0]; cbn in H; destruct H as (H1 & H2); injection H1 as ->; injection H2 as ->;
        do 3 eexists; (split; [lazy -[nle nlt nadd nmul nopp nlit nzero ndblmin nofN ninf ntrunc]; reflexivity|]); repeat split; reflexivity.
      - opened s; destruct d as [x0 dx0 x1 dx1 k0]; cbn in H; destruct H as (H1 & H2); injection H1 as -> ->; injection H2 as ->;
        do 3 eexists; (split; [lazy -[nle nlt nadd nmul nopp nsub nlit nzero ndblmin nofN ninf ntrunc]; reflexivity|]); repeat split; reflexivity. }
    destruct G as (dx & s' & t & E & M' & H' & A). exists dx, s'. split; [|split; [|exact A]].
    - unfold if_any. replace (Nat.ltb 0 (length x)) with true by (symmetry; apply Nat.ltb_lt; rewrite Lx; destruct f; cbn; try discriminate Rc; lia).
      unfold CALL_array, pbind, bind, CALL. rewrite E. reflexivity.
    - split; [|auto]. eapply reach3_call; [exact Rs| |exact E]. intros ? X; discriminate X.
  Qed.

  Ltac done6 := lazy -[nle nlt nadd nmul nopp nsub nlit nzero ndblmin nofN ninf ntrunc cstr]; reflexivity.
  Lemma CALL_meinv o x s r s' l : image3 o = None -> reach3 m szof s -> CALL f szof fuel env o s = Done (r, s', l) ->
    mode_of s' = ContinuousTimeMode -> held f x (data (mut (sinst s'))) -> meinv x s'.
  Proof. intros Im Rs E M H. split; [eapply CALL_reach; eauto|auto]. Qed.
  Lemma me_settime t x s : recorded f = true -> meinv x s -> exists o s', CALL f szof fuel env (O3SetTime t) s = Done (inl o, s', []) /\ meinv x s'.
  Proof.
    intros Rc (Rs & M & H).
    assert (G : exists o s', CALL f szof fuel env (O3SetTime t) s = Done (inl o, s', []) /\ mode_of s' = ContinuousTimeMode /\ held f x (data (mut (sinst s')))).
    { clear Rs. unfold mode_of in *. destruct f; try discriminate Rc; opened s; do 2 eexists; (split; [done6|split; [reflexivity|exact H]]). }
    destruct G as (o & s' & E & M' & H'). exists o, s'. split; [exact E|]. eapply CALL_meinv; eauto. reflexivity.
  Qed.
  Lemma me_done x s : recorded f = true -> meinv x s ->
    exists s', CALL f szof fuel env (O3CompletedIntegratorStep (Some tt) (Some tt)) s = Done (inl (OFlags (Some (false, false))), s', []) /\ meinv x s'.
  Proof.
    intros Rc (Rs & M & H).
    assert (G : exists s', CALL f szof fuel env (O3CompletedIntegratorStep (Some tt) (Some tt)) s = Done (inl (OFlags (Some (false, false))), s', []) /\ mode_of s' = ContinuousTimeMode /\ held f x (data (mut (sinst s')))).
    { clear Rs. unfold mode_of in *. destruct f; try discriminate Rc; opened s; eexists; (split; [done6|split; [reflexivity|exact H]]). }
    destruct G as (s' & E & M' & H'). exists s'. split; [exact E|]. eapply CALL_meinv; eauto. reflexivity.
  Qed.
  Lemma me_setx x x' s : recorded f = true -> handles_events f = false -> length x' = length (begin f) -> meinv x s ->
    exists o s', CALL f szof fuel env (O3SetContinuousStates (Some (shown f x')) (length x')) s = Done (inl o, s', []) /\ meinv x' s'.
  Proof.
    intros Rc He Lx (Rs & M & H).
    assert (G : exists o s', CALL f szof fuel env (O3SetContinuousStates (Some (shown f x')) (length x')) s = Done (inl o, s', []) /\ mode_of s' = ContinuousTimeMode /\ held f x' (data (mut (sinst s')))).
    { clear Rs. unfold mode_of, held in *. destruct f; try discriminate Rc; try discriminate He; destruct x' as [|a [|b [|]]]; try discriminate Lx.
      - opened s; destruct d as [x0 dx0 k0]; cbn in H; destruct H as (H1 & H2); injection H2 as ->; do 2 eexists; (split; [done6|repeat split; reflexivity]).
      - opened s; destruct d as [x0 dx0 x1 dx1 k0]; cbn in H; destruct H as (H1 & H2); injection H2 as ->; do 2 eexists; (split; [done6|repeat split; reflexivity]). }
    destruct G as (o & s' & E & M' & H'). exists o, s'. split; [exact E|]. eapply CALL_meinv; eauto. reflexivity.
  Qed.
  Lemma me_record t x s : recorded f = true -> meinv x s ->
    exists s', recordVariables f szof fuel env t s = Done (inl tt, s', [(t, OVals TFloat64 (Some (shown f x)))]) /\ meinv x s'.
  Proof.
    intros Rc (Rs & M & H). destruct (@record_eq F NF f szof fuel env t s Rc Rs (or_intror M)) as (s' & E & (C & So & b & d & Em & Es & Ef) & R').
    exists s'. rewrite (proj1 H) in E. split; [exact E|]. split; [exact R'|]. split; [unfold mode_of; rewrite C; exact M|].
    rewrite Em. cbn [data set_data set_dirty]. destruct H as (H1 & H2). unfold held. rewrite Es, Ef. split; [exact H1|]. rewrite H2. clear - Rc. destruct f; try discriminate Rc; reflexivity.
  Qed.

  Lemma me_arrays x s : recorded f = true -> handles_events f = false -> length x = length (begin f) -> meinv x s ->
    exists s1 y s2, CALL_array f szof fuel env (O3GetContinuousStates (Some (repeat nzero (length x))) (length x)) (repeat nzero (length x)) s = Done (inl (shown f x), s1, []) /\
      CALL_array f szof fuel env (O3GetNominalsOfContinuousStates (Some (repeat nzero (length x))) (length x)) (repeat nzero (length x)) s1 = Done (inl y, s2, []) /\ meinv x s2.
  Proof.
    intros Rc He Lx (Rs & M & H).
    assert (G : exists s1 y s2 t1 t2, exec3 m szof fuel env (O3GetContinuousStates (Some (repeat nzero (length x))) (length x)) s = Done (OK, OFloats (Some (shown f x)), s1, t1) /\
       exec3 m szof fuel env (O3GetNominalsOfContinuousStates (Some (repeat nzero (length x))) (length x)) s1 = Done (OK, OFloats (Some y), s2, t2) /\
       mode_of s2 = ContinuousTimeMode /\ held f x (data (mut (sinst s2)))).
    { clear Rs. unfold mode_of, held in *. destruct f; try discriminate Rc; try discriminate He; destruct x as [|a [|b [|]]]; try discriminate Lx.
      - opened s; destruct d as [x0 dx0 k0]; cbn in H; destruct H as (H1 & H2); injection H1 as ->; injection H2 as ->; do 5 eexists; (split; [done6|split; [done6|repeat split; reflexivity]]).
      - opened s; destruct d as [x0 dx0 x1 dx1 k0]; cbn in H; destruct H as (H1 & H2); injection H1 as -> ->; injection H2 as ->; do 5 eexists; (split; [done6|split; [done6|repeat split; reflexivity]]). }
    destruct G as (s1 & y & s2 & t1 & t2 & E1 & E2 & M' & H'). exists s1, y, s2.
    assert (R1 : reach3 m szof s1) by (eapply reach3_call; [exact Rs| |exact E1]; intros ? X; discriminate X).
    split; [unfold CALL_array, pbind, bind, CALL; rewrite E1; reflexivity|]. split; [unfold CALL_array, pbind, bind, CALL; rewrite E2; reflexivity|].
    split; [|auto]. eapply reach3_call; [exact R1| |exact E2]; intros ? X; discriminate X.
  Qed.

  Variables (S : N) (stop : F) (NX NZ : nat).
  Notation loop := (me_loop f szof fuel env stop).
  (** What the program does with the states between two rows; the arrays x of the program *)
  Definition kept (x : list F) : list F := if Nat.ltb 0 NX then shown f x else [].
  Definition moved (x : list F) : list F := if Nat.ltb 0 NX then next f x else x.

  Lemma me_pass n k x s pz net : recorded f = true -> (NX = 0 \/ handles_events f = false /\ NX = length (begin (F := F) f)) ->
    length x = length (begin f) -> meinv x s -> (N.of_nat (Datatypes.S k) < two64)%N ->
    nle ninf (instant f k) = false -> nle stop (instant f k) = false ->
    exists s', meinv (moved x) s' /\
      loop NX 0 (Datatypes.S n) (N.of_nat k) (instant f k) (kept x) pz false false false net s =
      match loop NX 0 n (N.of_nat (Datatypes.S k)) (instant f (Datatypes.S k)) (kept (moved x)) pz false false false net s' with
      | Done (b, s2, t) => Done (b, s2, (instant f (Datatypes.S k), OVals TFloat64 (Some (shown f (moved x)))) :: t)
      | UB => UB
      | NoFuel => NoFuel
      end.
  Proof.
    intros Rc Hx Lx I Hk Hi Hs.
    assert (A : exists dx s1, (if_any f szof fuel env NX O3GetContinuousStateDerivatives (repeat nzero NX)) s = Done (inl dx, s1, []) /\ meinv x s1 /\
       (0 < NX -> advance f (kept x) dx = shown f (next f x))).
    { unfold kept. destruct Hx as [->|(He & ->)]; [exists [], s; split; [reflexivity|]; split; [exact I|lia]|].
      destruct (@me_dx x s Rc He Lx I) as (dx & s1 & E & I1 & Ad). rewrite Lx in E. exists dx, s1. split; [exact E|]. split; [exact I1|].
      intro P. apply Nat.ltb_lt in P. now rewrite P. }
    destruct A as (dx & s1 & E1 & I1 & Ad).
    destruct (@me_settime (instant f (Datatypes.S k)) x s1 Rc I1) as (o2 & s2 & E2 & I2).
    assert (B : exists s3, (if Nat.ltb 0 NX then pbind (CALL f szof fuel env (O3SetContinuousStates (Some (advance f (kept x) dx)) NX)) (fun _ => pret f (advance f (kept x) dx)) else pret f (kept x)) s2
        = Done (inl (kept (moved x)), s3, []) /\ meinv (moved x) s3).
    { unfold kept, moved. destruct (Nat.ltb 0 NX) eqn:P; [|exists s2; split; [reflexivity|exact I2]].
      apply Nat.ltb_lt in P. destruct Hx as [Z|(He & Z)]; [lia|]. specialize (Ad P). unfold kept in Ad. rewrite (proj2 (Nat.ltb_lt _ _) P) in Ad. rewrite Ad.
      pose proof (next_len f x Lx) as Ln. destruct (@me_setx x (next f x) s2 Rc He Ln I2) as (o3 & s3 & E3 & I3). rewrite Ln, <- Z in E3.
      exists s3. split; [|exact I3]. unfold pbind, bind. rewrite E3. reflexivity. }
    destruct B as (s3 & E3 & I3).
    destruct (@me_done _ s3 Rc I3) as (s4 & E4 & I4).
    destruct (@me_record (instant f (Datatypes.S k)) _ s4 Rc I4) as (s5 & E5 & I5).
    exists s5. split; [exact I5|].
    cbn [me_loop]. rewrite Hi, Hs, (next_step Hk). cbn [andb orb negb Nat.ltb Nat.leb].
    change (nmul (nofN (N.of_nat (Datatypes.S k))) (m_step m)) with (instant (F := F) f (Datatypes.S k)).
    rewrite (pbind_quiet _ _ _ (x := (kept x, false, net)) (s1 := s)) by reflexivity. cbv beta iota.
    rewrite (pbind_quiet _ _ _ E1), (pbind_quiet _ _ _ E2), (pbind_quiet _ _ _ E3).
    rewrite (pbind_quiet _ _ _ (x := (pz, false)) (s1 := s3)) by reflexivity. cbv beta iota.
    rewrite (pbind_quiet _ _ _ E4). unfold pbind, bind. rewrite E5. reflexivity.
  Qed.

  Lemma me_steps N n : recorded f = true -> (NX = 0 \/ handles_events f = false /\ NX = length (begin (F := F) f)) ->
    divided f stop N -> (N.of_nat N < two64)%N -> forall k s pz net, meinv (Nat.iter k moved (begin f)) s -> k <= N -> N - k < n ->
    exists s', loop NX 0 n (N.of_nat k) (instant f k) (kept (Nat.iter k moved (begin f))) pz false false false net s =
      Done (inr OK, s', map (row f (instant f) (fun k => Nat.iter k moved (begin f))) (seq (Datatypes.S k) (N - k))) /\ mode_of s' = ContinuousTimeMode.
  Proof.
    intros Rc Hx (D1 & D2 & D3) Hb. 
    assert (Ln : forall k, length (Nat.iter k moved (begin f)) = length (begin (F := F) f)).
    { unfold moved. destruct (Nat.ltb 0 NX); induction k; [reflexivity|now apply next_len|reflexivity|exact IHk]. }
    induction n as [|n IH]; intros k s pz net I Hk Hn; [lia|].
    destruct (Nat.eq_dec k N) as [->|Hne].
    - replace (N - N) with 0 by lia. exists s. split; [|apply I]. cbn [me_loop]. rewrite (D3 N) by lia. cbn [andb orb].
      rewrite (pbind_quiet _ _ _ (x := (kept (Nat.iter N moved (begin f)), false, net)) (s1 := s)) by reflexivity. cbv beta iota. rewrite D1. reflexivity.
    - destruct (@me_pass n k _ s pz net Rc Hx (Ln k) I ltac:(lia) (D3 k ltac:(lia)) (D2 k ltac:(lia))) as (s1 & I1 & ->).
      destruct (IH (Datatypes.S k) s1 pz net I1 ltac:(lia) ltac:(lia)) as (s2 & E2 & M2).
      change (Nat.iter (Datatypes.S k) moved (begin f)) with (moved (Nat.iter k moved (begin f))) in E2. rewrite E2.
      exists s2. split; [|exact M2]. replace (N - k) with (Datatypes.S (N - Datatypes.S k)) by lia. reflexivity.
  Qed.

  Lemma me_begin n path : recorded f = true -> nlt (F := F) nzero nzero = false -> exists i t o1 s1 o2 s2 net o3 s3 s4 o4,
    newME f env S (Some path) = Done (Some i, t) /\
    CALL f szof fuel env (O3EnterInitializationMode nzero true stop) (mkSys i []) = Done (inl o1, s1, []) /\
    CALL f szof fuel env O3ExitInitializationMode s1 = Done (inl o2, s2, []) /\
    event_iteration f szof fuel env (Datatypes.S n) false false s2 = Done (inl (o3, false, net), s3, []) /\
    CALL f szof fuel env O3EnterContinuousTimeMode s3 = Done (inl o4, s4, []) /\ meinv (begin f) s4.
  Proof.
    intros Rc Hz.
    assert (G : exists i t o1 s1 o2 s2 e s3 s4 o4,
      newME f env S (Some path) = Done (Some i, t) /\
      CALL f szof fuel env (O3EnterInitializationMode nzero true stop) (mkSys i []) = Done (inl o1, s1, []) /\
      CALL f szof fuel env O3ExitInitializationMode s1 = Done (inl o2, s2, []) /\
      CALL f szof fuel env O3UpdateDiscreteStates s2 = Done (inl (OEventInfo (Some e)), s3, []) /\
      CALL f szof fuel env O3EnterContinuousTimeMode s3 = Done (inl o4, s4, []) /\
      ei_terminateSimulation e = false /\ ei_discreteStatesNeedUpdate e = false /\ ei_nextEventTimeDefined e = false /\
      mode_of s4 = ContinuousTimeMode /\ held f (begin f) (data (mut (sinst s4)))).
    { destruct f; try discriminate Rc; [|do 10 eexists..];
      [|(split; [done6|]); (split; [done6|]); (split; [done6|]); (split; [done6|]); (split; [done6|]); repeat split; reflexivity..].
      assert (Q : (if nle (nlit (F := F) 1 0) nzero then false else false) = false) by (destruct (nle _ _); reflexivity).
      do 10 eexists. (split; [done6|]); (split; [done6|]); (split; [done6|]).
      split; [lazy -[nle nlt nadd nmul nopp nsub nlit nzero ndblmin nofN ninf ntrunc cstr]; rewrite Hz, Q; reflexivity|].
      (split; [done6|]); repeat split; reflexivity. }
    destruct G as (i & t & o1 & s1 & o2 & s2 & e & s3 & s4 & o4 & E1 & E2 & E3 & E4 & E5 & T1 & T2 & T3 & M & H).
    exists i, t, o1, s1, o2, s2, (ei_nextEventTime e), (ei_nominalsChanged e, ei_valuesChanged e), s3, s4, o4.
    split; [exact E1|]. split; [exact E2|]. split; [exact E3|]. split; [|split; [exact E5|]].
    - cbn [event_iteration]. rewrite (pbind_quiet _ _ _ E4). cbv beta iota. rewrite T1, T2, T3. reflexivity.
    - split; [|auto]. eapply CALL_reach; [| |exact E5]; [reflexivity|]. eapply CALL_reach; [| |exact E4]; [reflexivity|]. eapply CALL_reach; [| |exact E3]; [reflexivity|].
      eapply CALL_reach; [| |exact E2]; [reflexivity|]. constructor. left. unfold newME in E1. do 8 eexists. exact E1.
  Qed.

  Theorem simulate_me_rows path N n : recorded f = true -> nlt (F := F) nzero nzero = false ->
    (NX = 0 \/ handles_events f = false /\ NX = length (begin (F := F) f)) -> divided f stop N -> (N.of_nat N < two64)%N -> N < n ->
    exists s, simulate_me f szof fuel env S stop NX 0 path n = Done (OK, rows f (instant f) (fun k => Nat.iter k moved (begin f)) N, Some s).
  Proof.
    intros Rc Hz Hx Dv Hb Hn. destruct n as [|n]; [lia|].
    destruct (@me_begin n path Rc Hz) as (i & t & o1 & s1 & o2 & s2 & net & o3 & s3 & s4 & o4 & E1 & E2 & E3 & E4 & E5 & I4).
    assert (A : exists y s5 s6, (if_any f szof fuel env NX O3GetContinuousStates (repeat nzero NX)) s4 = Done (inl (kept (begin f)), s5, []) /\
      (if_any f szof fuel env NX O3GetNominalsOfContinuousStates (repeat nzero NX)) s5 = Done (inl y, s6, []) /\ meinv (begin f) s6).
    { destruct Hx as [Z|(He & Z)].
      - unfold kept. rewrite Z. exists [], s4, s4. split; [reflexivity|]. split; [reflexivity|exact I4].
      - destruct (@me_arrays (begin f) s4 Rc He eq_refl I4) as (s5 & y & s6 & A1 & A2 & I6). rewrite <- Z in A1, A2.
        exists y, s5, s6. unfold if_any, kept. replace (Nat.ltb 0 NX) with true; [auto|]. rewrite Z. clear - Rc. destruct f; try discriminate Rc; reflexivity. }
    destruct A as (y & s5 & s6 & E6 & E7 & I6).
    destruct (@me_record nzero _ s6 Rc I6) as (s7 & E8 & I7).
    destruct (@me_steps N (Datatypes.S n) Rc Hx Dv Hb 0 s7 (repeat nzero 0) net I7 ltac:(lia) ltac:(lia)) as (s8 & E9 & M8).
    unfold simulate_me, program. rewrite E1, (pbind_quiet _ _ _ E2), (pbind_quiet _ _ _ E3), (pbind_quiet _ _ _ E4). cbv beta iota.
    destruct o3 as (q1 & q2). rewrite (pbind_quiet _ _ _ E5).
    rewrite (pbind_quiet _ _ _ (x := repeat nzero 0) (s1 := s4)) by reflexivity. rewrite (pbind_quiet _ _ _ E6), (pbind_quiet _ _ _ E7).
    unfold pbind at 1. unfold bind. rewrite E8. cbn [Nat.iter instant N.of_nat] in E9. 
    match type of E9 with ?a = _ => match goal with |- context [me_loop ?a1 ?a2 ?a3 ?a4 ?a5 ?a6 ?a7 ?a8 ?a9 ?a10 ?a11 ?a12 ?a13 ?a14 ?a15 ?a16 ?a17] => change (me_loop a1 a2 a3 a4 a5 a6 a7 a8 a9 a10 a11 a12 a13 a14 a15 a16 a17) with a end end.
    rewrite E9. cbn [app]. rewrite term_eq by auto. eexists. rewrite Nat.sub_0_r. reflexivity.
  Qed.
End Me.

Section Cor.
  Context {F : Type} {NF : Num F}.
  Lemma rows_ext (f : FMU) time (x y : nat -> list F) N : (forall k, x k = y k) -> rows f time x N = rows f time y N.
  Proof. intro E. unfold rows. apply map_ext. intro k. unfold row. now rewrite E. Qed.
  Theorem simulate_me_solution f szof fuel env S (stop : F) path N n : f = Dahlquist \/ f = VanDerPol -> nlt (F := F) nzero nzero = false ->
    divided f stop N -> (N.of_nat N < two64)%N -> N < n ->
    exists s, simulate_me f szof fuel env S stop (length (begin (F := F) f)) 0 path n = Done (OK, rows f (instant f) (solution f) N, Some s).
  Proof.
    intros Hf Hz Dv Hb Hn. assert (Rc : recorded f = true /\ handles_events f = false /\ 0 < length (begin (F := F) f)) by (destruct Hf; subst f; cbn; repeat split; lia).
    destruct Rc as (Rc & He & Hl).
    destruct (@simulate_me_rows F NF f szof fuel env S stop (length (begin (F := F) f)) path N n Rc Hz (or_intror (conj He eq_refl)) Dv Hb Hn) as (s & E).
    exists s. rewrite E. do 3 f_equal. apply rows_ext. intro k. unfold moved, solution. now rewrite (proj2 (Nat.ltb_lt _ _) Hl).
  Qed.
  Theorem simulate_me_still f szof fuel env S (stop : F) path N n : recorded f = true -> nlt (F := F) nzero nzero = false ->
    divided f stop N -> (N.of_nat N < two64)%N -> N < n ->
    exists s, simulate_me f szof fuel env S stop 0 0 path n = Done (OK, rows f (instant f) (fun _ => begin f) N, Some s).
  Proof.
    intros Rc Hz Dv Hb Hn.
    destruct (@simulate_me_rows F NF f szof fuel env S stop 0 path N n Rc Hz (or_introl eq_refl) Dv Hb Hn) as (s & E).
    exists s. rewrite E. do 3 f_equal. apply rows_ext. intro k. unfold moved. cbn. induction k; [reflexivity|exact IHk].
  Qed.
End Cor.
