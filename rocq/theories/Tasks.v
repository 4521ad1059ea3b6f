(** Tasks.v -- every schedule of the partitions amounts to calls one after the other (lemmas for C54). *)
From Coq Require Import List NArith ZArith Bool Arith Lia Permutation.
From Verif Require Import Base Instance ModelIface Core Fmi3 Api Fmus FmuClocks ImpBuffer Preempt SpecModes SpecHist SpecPreempt Logic Calls Histories Vars.
Import ListNotations.
Set Implicit Arguments.

Section Tasks.
  Context {F : Type} {NF : Num F} (c : Ctl F).
  Notation D := (CLData F).

  Fixpoint run_code (p : Part) (k : list Instr) (d : D) (l : bool) (a b : Z) : res (D * bool * Z * Z * list Seen) :=
    match k with
    | [] => Done (d, l, a, b, [])
    | i :: k' =>
        let! r := instr c p i d l a b in
        let '(d1, l1, a1, b1, o1) := r in
        let! r := run_code p k' d1 l1 a1 b1 in
        let '(d2, l2, a2, b2, o2) := r in Done (d2, l2, a2, b2, o1 ++ o2)
    end.
  Lemma run_snoc p i : forall k d l a b d1 l1 a1 b1 o1 d2 l2 a2 b2 o2,
    run_code p k d l a b = Done (d1, l1, a1, b1, o1) -> instr c p i d1 l1 a1 b1 = Done (d2, l2, a2, b2, o2) ->
    run_code p (k ++ [i]) d l a b = Done (d2, l2, a2, b2, o1 ++ o2).
  Proof.
    induction k as [|j k IH]; cbn [run_code app]; intros d l a b d1 l1 a1 b1 o1 d2 l2 a2 b2 o2 H E.
    - inversion H; subst. rewrite E. cbn. rewrite app_nil_r. reflexivity.
    - destruct (instr c p j d l a b) as [[[[[d3 l3] a3] b3] o3]| |]; [|discriminate|discriminate]. cbn [rbind] in *.
      destruct (run_code p k d3 l3 a3 b3) as [[[[[d4 l4] a4] b4] o4]| |] eqn:R; [|discriminate|discriminate]. cbn [rbind] in *.
      inversion H; subst. rewrite (IH _ _ _ _ _ _ _ _ _ _ _ _ _ _ R E). cbn. rewrite app_assoc. reflexivity.
  Qed.

  Definition with3 (v w : Z) (d : D) : D := set_cl_t3 v (set_cl_output3 w d).
  Definition crit2 : list Instr := increment Ct2 ++ increment Ctotal ++
    [LoadA Cresult2; LoadB Cinput2; Store Cresult2 (fun a b => a + b)%Z; Store Cinput2 (fun _ _ => 0%Z)] ++ setOut ++ [Unlock].
  Definition crit3 : list Instr := increment Ctotal ++ setOut ++ [Unlock].

  Definition serial1 (e : Sched F) (d : D) : res (D * list (bool + Z)) :=
    match e with
    | Start p t => let! k := code p t in let! r := run_code p k d false 0 0 in Done (fst (fst (fst (fst r))), [])
    | Go => Done (d, [])
    | SetInput v => Done (set_cl_input2 v d, [])
    | ReadClock => Done (set_cl_outClock false d, [inl (cl_outClock d)])
    | ReadInterval => Done (if Z.eqb (cl_qualifier d) 2 then set_cl_qualifier 1%Z d else d, [inr (cl_qualifier d)])
    end.
  Fixpoint serial (l : list (Sched F)) (d : D) : res (D * list (bool + Z)) :=
    match l with
    | [] => Done (d, [])
    | e :: l' => let! r := serial1 e d in let! r' := serial l' (fst r) in Done (fst r', snd r ++ snd r')
    end.
  Lemma serial_app : forall l1 l2 d d1 o1 d2 o2, serial l1 d = Done (d1, o1) -> serial l2 d1 = Done (d2, o2) -> serial (l1 ++ l2) d = Done (d2, o1 ++ o2).
  Proof.
    induction l1 as [|e l1 IH]; cbn [serial app]; intros l2 d d1 o1 d2 o2 H E.
    - inversion H; subst. exact E.
    - destruct (serial1 e d) as [[d3 o3]| |]; [|discriminate|discriminate]. cbn [rbind fst snd] in *.
      destruct (serial l1 d3) as [[d4 o4]| |] eqn:R; [|discriminate|discriminate]. cbn [rbind fst snd] in *. inversion H; subst.
      rewrite (IH _ _ _ _ _ _ R E). cbn. rewrite app_assoc. reflexivity.
  Qed.

  Definition reporting (k : list Instr) : Prop := k = reportOut \/ k = tl reportOut.
  Definition is3 (t : Task) : Prop := t_part t = P3.
  (** The tasks [ts] are not in the middle of a change; [g] are the data without what is pending,
      and [v], [w] what is in inClock3Ticks and output3. *)
  Inductive Rest : list Task -> D -> Z -> Z -> list (Sched F) -> Prop :=
  | R_nil g : Rest [] g (cl_t3 g) (cl_output3 g) []
  | R_post3 k a b g : reporting k -> Rest [mkTask P3 k a b] g (cl_t3 g) (cl_output3 g) []
  | R_pre0 t a b g : Rest [mkTask P3 code3 a b] g (cl_t3 g) (cl_output3 g) [Start P3 t]
  | R_pre1 t b g : Rest [mkTask P3 (skipn 1 code3) (cl_t3 g) b] g (cl_t3 g) (cl_output3 g) [Start P3 t]
  | R_pre2 t a b g : in_int (cl_t3 g + 1) = true -> Rest [mkTask P3 (skipn 2 code3) a b] g (cl_t3 g + 1) (cl_output3 g) [Start P3 t]
  | R_pre3 t a b g : in_int (cl_t3 g + 1) = true -> Rest [mkTask P3 (skipn 3 code3) a b] g (cl_t3 g + 1) 1000 [Start P3 t]
  | R_pre t a b ts g v w pend : Rest ts g v w pend -> Forall is3 ts -> Rest (mkTask P2 code2 a b :: ts) g v w (Start P2 t :: pend)
  | R_post k a b ts g v w pend : Rest ts g v w pend -> Forall is3 ts -> reporting k -> Rest (mkTask P2 k a b :: ts) g v w pend.
  Inductive Inv : D -> bool -> list Task -> D -> list (Sched F) -> Prop :=
  | I_free ts g v w pend : Rest ts g v w pend -> Inv (with3 v w g) false ts g pend
  | I_one t pre k d a b o ts g v w pend : Rest ts g v w pend -> code P1 t = Done (pre ++ k) -> k <> [] ->
      run_code P1 pre (with3 v w g) false 0 0 = Done (d, false, a, b, o) -> Inv d false (mkTask P1 k a b :: ts) g (Start P1 t :: pend)
  | I_two t pre k d a b a0 b0 o ts g v w pend : Rest ts g v w pend -> Forall is3 ts -> crit2 = pre ++ k -> k <> [] ->
      run_code P2 pre (with3 v w g) true a0 b0 = Done (d, true, a, b, o) -> Inv d true (mkTask P2 (k ++ reportOut) a b :: ts) g (Start P2 t :: pend)
  | I_three t pre k d a b a0 b0 o g : in_int (cl_t3 g + 1) = true -> crit3 = pre ++ k -> k <> [] ->
      run_code P3 pre (with3 (cl_t3 g + 1) 1000 g) true a0 b0 = Done (d, true, a, b, o) -> Inv d true [mkTask P3 (k ++ reportOut) a b] g [Start P3 t].

  Lemma with3_self (g : D) : with3 (cl_t3 g) (cl_output3 g) g = g. Proof. destruct g; reflexivity. Qed.
  Lemma Rest_frame ts g v w pend g' : Rest ts g v w pend -> cl_t3 g' = cl_t3 g -> cl_output3 g' = cl_output3 g -> Rest ts g' v w pend.
  Proof.
    induction 1; intros E1 E2; try (rewrite <- E1); try (rewrite <- E2); try (constructor; auto; congruence).
    all: try (apply R_pre2; congruence).
  Qed.
  Lemma Rest_parts ts g v w pend : Rest ts g v w pend -> Forall (fun t => above P1 (t_part t) = true) ts.
  Proof.
    intro H. induction H; repeat constructor; cbn; auto.
  Qed.

  Hypothesis HL : hasLockPreemption c = true.
  Hypothesis HU : hasUnlockPreemption c = true.
  Hypothesis HC : hasClockUpdate c = true.

  Ltac ints H := repeat match type of H with context [if in_int ?x then _ else _] => destruct (in_int x) eqn:?; [cbn -[in_int] in H|discriminate H] end.
  Lemma whole1 b v w g d l a b' o : run_code P1 (code1 b) (with3 v w g) false 0 0 = Done (d, l, a, b', o) ->
    exists g' o', run_code P1 (code1 b) g false 0 0 = Done (g', l, a, b', o') /\ d = with3 v w g' /\ l = false /\ cl_t3 g' = cl_t3 g /\ cl_output3 g' = cl_output3 g /\ reads_seen o = [].
  Proof.
    destruct g as [iv q out n1 n2 n3 tot re inp o3]. unfold code1. intro H. destruct b; cbn -[in_int Z.add Z.rem] in *.
    all: repeat match type of H with context [in_int ?x] => destruct (in_int x) eqn:?; cbn -[in_int Z.add Z.rem] in *; [|discriminate H] end.
    all: repeat match type of H with context [if ?x then _ else _] => destruct x eqn:?; cbn -[in_int Z.add Z.rem] in * end.
    all: try discriminate H; inversion H; subst; eexists _, _; repeat split; try reflexivity.
  Qed.
  Lemma whole2 v w g d l a b a0 b0 o : run_code P2 crit2 (with3 v w g) true a0 b0 = Done (d, l, a, b, o) ->
    exists g' a' b' o', run_code P2 code2 g false 0 0 = Done (g', false, a', b', o') /\ d = with3 v w g' /\ l = false /\ cl_t3 g' = cl_t3 g /\ cl_output3 g' = cl_output3 g.
  Proof.
    destruct g as [iv q out n1 n2 n3 tot re inp o3]. unfold crit2, code2. intro H. cbn -[in_int Z.add Z.rem] in *. rewrite HL, ?HU, ?HC in *.
    repeat match type of H with context [in_int ?x] => destruct (in_int x) eqn:?; cbn -[in_int Z.add Z.rem] in *; [|discriminate H] end.
    rewrite ?HU, ?HC in *. cbn -[in_int Z.add Z.rem] in *.
    repeat match goal with |- context [if ?x then _ else _] => destruct x eqn:?; cbn -[in_int Z.add Z.rem] in * end.
    all: try discriminate; inversion H; subst; eexists _, _, _, _; repeat split; try reflexivity.
  Qed.
  Lemma whole3 g d l a b a0 b0 o : in_int (cl_t3 g + 1) = true -> run_code P3 crit3 (with3 (cl_t3 g + 1) 1000 g) true a0 b0 = Done (d, l, a, b, o) ->
    exists a' b' o', run_code P3 code3 g false 0 0 = Done (d, false, a', b', o') /\ l = false.
  Proof.
    destruct g as [iv q out n1 n2 n3 tot re inp o3]. unfold crit3, code3. intros I H. cbn -[in_int Z.add Z.rem] in *. rewrite HL, I, ?HU, ?HC in *. cbn -[in_int Z.add Z.rem] in *.
    repeat match type of H with context [in_int ?x] => destruct (in_int x) eqn:?; cbn -[in_int Z.add Z.rem] in *; [|discriminate H] end.
    rewrite ?HU, ?HC in *. cbn -[in_int Z.add Z.rem] in *. change (in_int 1000) with true. cbn -[in_int Z.add Z.rem] in *.
    repeat match goal with |- context [in_int ?x] => match goal with H : in_int x = _ |- _ => rewrite H; cbn -[in_int Z.add Z.rem] in * end end.
    rewrite ?HU, ?HC in *. cbn -[in_int Z.add Z.rem] in *.
    repeat match goal with |- context [if ?x then _ else _] => destruct x eqn:?; cbn -[in_int Z.add Z.rem] in * end.
    all: try discriminate; inversion H; subst; eexists _, _, _; repeat split; try reflexivity.
  Qed.

  Definition done_of (e : Sched F) : list (Sched F) := match e with Go => [] | _ => [e] end.
  (** The access that a task in the middle of a change makes. *)
  Lemma one_lock t pre i k d a b d' l a' b' o : code P1 t = Done (pre ++ i :: k) -> instr c P1 i d false a b = Done (d', l, a', b', o) -> l = false /\ reads_seen o = [].
  Proof.
    cbn [code]. destruct (ntrunc t) as [z|]; [|discriminate]. destruct (in_int z); [|discriminate]. intro E. inversion E as [E1]; clear E.
    assert (I : In i (code1 (Z.eqb z 4))) by (rewrite E1; apply in_elt). clear E1.
    destruct (Z.eqb z 4); cbn in I; repeat (destruct I as [<-|I]; [cbn -[in_int Z.add Z.rem]; repeat match goal with |- context [if ?x then _ else _] => destruct x end; intro H; inversion H; subst; auto|]); destruct I.
  Qed.
  Lemma in_last {A} (x : A) l pre i k : l ++ [x] = pre ++ i :: k -> (k = [] /\ i = x) \/ (In i l /\ exists k', k = k' ++ [x]).
  Proof.
    intro E. destruct k as [|j k] using rev_ind.
    - left. apply app_inj_tail in E as [_ ->]. auto.
    - right. clear IHk. change (pre ++ i :: k ++ [j]) with (pre ++ (i :: k) ++ [j]) in E. rewrite app_assoc in E. apply app_inj_tail in E as [-> ->]. split; [apply in_elt|eauto].
  Qed.
  Lemma two_lock p l0 pre i k d a b d' l a' b' o : Forall (fun j => j <> Unlock /\ forall e, j <> ClockUpdateIf e) l0 -> l0 ++ [Unlock] = pre ++ i :: k ->
    instr c p i d true a b = Done (d', l, a', b', o) -> o = [] /\ (k = [] /\ i = Unlock \/ l = true /\ k <> []).
  Proof.
    intros Hl E H. apply in_last in E as [[-> ->]|[I [k' ->]]].
    - cbn in H. inversion H; subst. auto.
    - rewrite Forall_forall in Hl. specialize (Hl _ I) as [N1 N2]. destruct i; cbn in H; try congruence; try (inversion H; subst; split; auto; right; split; auto; destruct k'; discriminate).
      + destruct (in_int _); [|discriminate]. inversion H; subst. split; auto. right. split; auto. destruct k'; discriminate.
      + inversion H; subst. split; auto. right. split; [destruct (hasLockPreemption c); auto|]. destruct k'; discriminate.
  Qed.
  Lemma sched_step e d l ts g pend d' l' ts' o : Inv d l ts g pend -> sched1 c e (mkCpu d l ts) = Done (Some (mkCpu d' l' ts', o)) ->
    exists dn pend' g', Inv d' l' ts' g' pend' /\ Permutation (dn ++ pend') (done_of e ++ pend) /\ serial dn g = Done (g', reads_seen o).
  Proof.
    intros H E. destruct e as [p t| |x| |]; cbn [sched1 mayInterrupt mayCall cpu_locked cpu_tasks cpu_data done_of app] in E |- *.
    - (* Start *)
      unfold mayInterrupt in E. cbn [cpu_locked cpu_tasks] in E.
      inversion H; subst; cbn [negb andb t_part] in E; try discriminate.
      2: { destruct p; discriminate. }
      destruct (match ts with [] => _ | _ => _ end) eqn:A; [|discriminate].
      destruct (code p t) as [k| |] eqn:K; cbn [rbind] in E; try discriminate. inversion E; subst; clear E.
      exists [], (Start p t :: pend), g. split; [|split; [reflexivity|reflexivity]].
      destruct p.
      + eapply I_one with (pre := []); [eassumption|exact K| |reflexivity]. cbn in K. destruct (ntrunc t); [|discriminate]. destruct (in_int z); [|discriminate]. inversion K. discriminate.
      + inversion K; subst. apply I_free, R_pre; [assumption|]. destruct ts as [|t0 ts]; [constructor|]. inversion H0; subst; cbn in A; try discriminate; repeat constructor; auto.
      + inversion K; subst. destruct ts as [|t0 ts]; [|destruct (t_part t0); discriminate]. inversion H0; subst. apply I_free. apply R_pre0.
    - (* Go *)
      destruct ts as [|[p [|i k] a b] ts]; try discriminate.
      destruct (instr c p i d l a b) as [[[[[d1 l1] a1] b1] o1]| |] eqn:I; cbn [rbind] in E; try discriminate. inversion E; subst; clear E.
      inversion H; subst; clear H.
      + (* a task that is not in the middle of a change *)
        match goal with R : Rest _ _ _ _ _ |- _ => inversion R; subst; clear R end.
        * match goal with R : reporting _ |- _ => destruct R as [R|R]; inversion R; subst; clear R end; cbn in I; [inversion I; subst|].
          { exists [], [], g. split; [|split; [cbn [app]; reflexivity|reflexivity]]. apply I_free, R_post3. right; reflexivity. }
          { rewrite HC in I. assert (d' = with3 (cl_t3 g) (cl_output3 g) g /\ l' = false /\ reads_seen o = []) as (-> & -> & ->) by (destruct (negb _); inversion I; subst; auto).
            exists [], [], g. split; [|split; [cbn [app]; reflexivity|reflexivity]]. apply I_free, R_nil. }
        * cbn in I. inversion I; subst. exists [], [Start P3 t], g. split; [|split; [cbn [app]; reflexivity|reflexivity]]. destruct g. apply I_free. apply R_pre1.
        * cbn -[in_int Z.add] in I. destruct (in_int _) eqn:Q in I; [|discriminate]. inversion I; subst. exists [], [Start P3 t], g. split; [|split; [cbn [app]; reflexivity|reflexivity]].
          match goal with |- Inv ?dd _ _ _ _ => replace dd with (with3 (cl_t3 g + 1) (cl_output3 g) g) by (destruct g; reflexivity) end. apply I_free, R_pre2. exact Q.
        * cbn -[in_int Z.add] in I. change (in_int 1000) with true in I. inversion I; subst. exists [], [Start P3 t], g. split; [|split; [cbn [app]; reflexivity|reflexivity]].
          match goal with |- Inv ?dd _ _ _ _ => replace dd with (with3 (cl_t3 g + 1) 1000 g) by (destruct g; reflexivity) end. apply I_free, R_pre3. assumption.
        * cbn -[in_int Z.add] in I. rewrite HL in I. inversion I; subst. exists [], [Start P3 t], g. split; [|split; [cbn [app]; reflexivity|reflexivity]].
          eapply I_three with (pre := []) (k := crit3); [assumption|reflexivity|discriminate|reflexivity].
        * cbn -[in_int Z.add] in I. rewrite HL in I. inversion I; subst. eexists [], (Start P2 t :: _), g. split; [|split; [cbn [app]; reflexivity|reflexivity]].
          eapply I_two with (pre := []) (k := crit2); [eassumption|assumption|reflexivity|discriminate|reflexivity].
        * match goal with R : reporting _ |- _ => destruct R as [R|R]; inversion R; subst; clear R end; cbn in I; [inversion I; subst|].
          { eexists [], _, g. split; [|split; [cbn [app]; reflexivity|reflexivity]]. apply I_free, R_post; [eassumption|assumption|]. right; reflexivity. }
          { rewrite HC in I. assert (d' = with3 v w g /\ l' = false /\ reads_seen o = []) as (-> & -> & ->) by (destruct (negb _); inversion I; subst; auto).
            eexists [], _, g. split; [|split; [cbn [app]; reflexivity|reflexivity]]. apply I_free. eassumption. }
      + (* partition 1 *)
        match goal with H : code P1 _ = _ |- _ => destruct (one_lock _ _ _ _ _ _ _ H I) as [L S] end. subst l'. rewrite S.
        match goal with H : run_code P1 _ _ _ _ _ = _ |- _ => pose proof (run_snoc _ _ _ _ _ _ _ H I) as X end.
        destruct k as [|j k].
        * match goal with H : code P1 _ = _ |- _ => pose proof H as K end. pose proof K as K0. cbn [code] in K. destruct (ntrunc t) as [z|]; [|discriminate]. destruct (in_int z); [|discriminate].
          inversion K as [K1]. rewrite <- K1 in X. apply whole1 in X as (g' & o' & X & -> & _ & T3 & O3 & _).
          eexists [Start P1 t], _, g'. split; [apply I_free; eapply Rest_frame; [eassumption|exact T3|exact O3]|]. split; [reflexivity|].
          cbn [serial serial1]. rewrite K0, <- K1. cbn [rbind]. rewrite X. reflexivity.
        * eexists [], (Start P1 t :: _), g. split; [|split; [cbn [app]; reflexivity|reflexivity]]. eapply I_one with (pre := pre ++ [i]); [eassumption| |discriminate|exact X].
          rewrite <- app_assoc. assumption.
      + (* partition 2 *)
        destruct k0 as [|i0 k0]; [congruence|]. match goal with H : _ = i :: k |- _ => cbn in H; inversion H; subst; clear H end.
        assert (CE : removelast crit2 ++ [Unlock] = pre ++ i :: k0) by (etransitivity; [|eassumption]; reflexivity).
        match goal with H : crit2 = _ |- _ => pose proof H as K end.
        assert (FA : Forall (fun j => j <> Unlock /\ forall e, j <> ClockUpdateIf e) (removelast crit2)) by (cbn; repeat constructor; discriminate).
        destruct (two_lock _ _ _ _ _ _ _ FA CE I) as [OE CC]. subst o. destruct CC as [[C1 C2]|[C1 N]]; [subst k0 i|subst l'].
        * match goal with H : run_code P2 _ _ _ _ _ = _ |- _ => pose proof (run_snoc _ _ _ _ _ _ _ H I) as X end. rewrite <- K in X.
          apply whole2 in X as (g' & a' & b' & o' & X & -> & -> & T3 & O3).
          eexists [Start P2 t], _, g'. split; [apply I_free, R_post; [eapply Rest_frame; [eassumption|exact T3|exact O3]|assumption|left; reflexivity]|]. split; [reflexivity|].
          cbn [serial serial1 code rbind]. rewrite X. reflexivity.
        * match goal with H : run_code P2 _ _ _ _ _ = _ |- _ => pose proof (run_snoc _ _ _ _ _ _ _ H I) as X end.
          eexists [], (Start P2 t :: _), g. split; [|split; [cbn [app]; reflexivity|reflexivity]]. destruct k0 as [|j k0]; [congruence|]. cbn [app].
          eapply I_two with (pre := pre ++ [i]) (k := j :: k0); [eassumption|assumption| |discriminate|exact X]. rewrite <- app_assoc. exact K.
      + (* partition 3 *)
        destruct k0 as [|i0 k0]; [congruence|]. match goal with H : _ = i :: k |- _ => cbn in H; inversion H; subst; clear H end.
        assert (CE : removelast crit3 ++ [Unlock] = pre ++ i :: k0) by (etransitivity; [|eassumption]; reflexivity).
        match goal with H : crit3 = _ |- _ => pose proof H as K end.
        assert (FA : Forall (fun j => j <> Unlock /\ forall e, j <> ClockUpdateIf e) (removelast crit3)) by (cbn; repeat constructor; discriminate).
        destruct (two_lock _ _ _ _ _ _ _ FA CE I) as [OE CC]. subst o. destruct CC as [[C1 C2]|[C1 N]]; [subst k0 i|subst l'].
        * match goal with H : run_code P3 _ _ _ _ _ = _ |- _ => pose proof (run_snoc _ _ _ _ _ _ _ H I) as X end. rewrite <- K in X.
          apply whole3 in X as (a' & b' & o' & X & ->); [|assumption].
          eexists [Start P3 t], [], d'. split; [rewrite <- (with3_self d') at 1; apply I_free, R_post3; left; reflexivity|]. split; [reflexivity|].
          cbn [serial serial1 code rbind]. rewrite X. reflexivity.
        * match goal with H : run_code P3 _ _ _ _ _ = _ |- _ => pose proof (run_snoc _ _ _ _ _ _ _ H I) as X end.
          eexists [], [Start P3 t], g. split; [|split; [cbn [app]; reflexivity|reflexivity]]. destruct k0 as [|j k0]; [congruence|]. cbn [app].
          eapply I_three with (pre := pre ++ [i]) (k := j :: k0); [assumption| |discriminate|exact X]. rewrite <- app_assoc. exact K.
    - unfold mayCall in E. cbn [cpu_locked cpu_tasks] in E. inversion H; subst; cbn [negb andb t_part above] in E; try discriminate.
      destruct (match ts with [] => _ | _ => _ end); [|discriminate]. inversion E; subst.
      exists [SetInput x], pend, (set_cl_input2 x g). split; [|split; [cbn [app]; reflexivity|reflexivity]].
      match goal with |- Inv ?dd _ _ _ _ => replace dd with (with3 v w (set_cl_input2 x g)) by (destruct g; reflexivity) end. apply I_free. eapply Rest_frame; [eassumption|reflexivity|reflexivity].
    - unfold mayCall in E. cbn [cpu_locked cpu_tasks] in E. inversion H; subst; cbn [negb andb t_part above] in E; try discriminate.
      destruct (match ts with [] => _ | _ => _ end); [|discriminate]. inversion E; subst.
      exists [ReadClock], pend, (set_cl_outClock false g). split; [|split; [cbn [app]; reflexivity|reflexivity]].
      match goal with |- Inv ?dd _ _ _ _ => replace dd with (with3 v w (set_cl_outClock false g)) by (destruct g; reflexivity) end. apply I_free. eapply Rest_frame; [eassumption|reflexivity|reflexivity].
    - unfold mayCall in E. cbn [cpu_locked cpu_tasks] in E. inversion H; subst; cbn [negb andb t_part above] in E; try discriminate.
      destruct (match ts with [] => _ | _ => _ end); [|discriminate]. inversion E; subst.
      exists [ReadInterval], pend, (if Z.eqb (cl_qualifier g) 2 then set_cl_qualifier 1%Z g else g). split; [|split; [cbn [app]; reflexivity|reflexivity]].
      match goal with |- Inv ?dd _ _ _ _ => replace dd with (with3 v w (if Z.eqb (cl_qualifier g) 2 then set_cl_qualifier 1%Z g else g)) by (destruct g; cbn; destruct (Z.eqb _ 2); reflexivity) end.
      apply I_free. eapply Rest_frame; [eassumption| |]; destruct (Z.eqb (cl_qualifier g) 2); reflexivity.
  Qed.
  Definition acts (l : list (Sched F)) : list (Sched F) := flat_map done_of l.
  Lemma sched_inv : forall l d lk ts g pend m' o, Inv d lk ts g pend -> sched c l (mkCpu d lk ts) = Done (Some (m', o)) ->
    exists dn pend' g', Inv (cpu_data m') (cpu_locked m') (cpu_tasks m') g' pend' /\ Permutation (dn ++ pend') (acts l ++ pend) /\ serial dn g = Done (g', reads_seen o).
  Proof.
    induction l as [|e l IH]; intros d lk ts g pend m' o H E; cbn [sched acts flat_map] in E |- *.
    - inversion E; subst. exists [], pend, g. cbn. auto.
    - destruct (sched1 c e _) as [[[m1 o1]|]| |] eqn:E1; cbn [rbind] in E; try discriminate.
      destruct (sched c l m1) as [[[m2 o2]|]| |] eqn:E2; cbn [rbind] in E; try discriminate. inversion E; subst; clear E.
      destruct m1 as [d1 l1 t1]. destruct (sched_step e H E1) as (dn1 & p1 & g1 & H1 & Q1 & S1).
      destruct (IH _ _ _ _ _ _ _ H1 E2) as (dn2 & p2 & g2 & H2 & Q2 & S2).
      exists (dn1 ++ dn2), p2, g2. split; [exact H2|]. split.
      + rewrite <- app_assoc. rewrite Q2. fold (acts l). rewrite (Permutation_app_comm (done_of e) (acts l)), <- app_assoc, <- Q1.
        rewrite !app_assoc. apply Permutation_app_tail, Permutation_app_comm.
      + rewrite (serial_app _ _ _ S1 S2). unfold reads_seen. rewrite flat_map_app. reflexivity.
  Qed.
  Lemma sched_serial l d m' o : sched c l (idle d) = Done (Some (m', o)) -> cpu_tasks m' = [] ->
    exists dn, Permutation dn (acts l) /\ serial dn d = Done (cpu_data m', reads_seen o).
  Proof.
    intros E N. destruct (@sched_inv l d false [] d [] m' o) as (dn & pend & g & H & Q & S).
    - rewrite <- (with3_self d) at 1. apply I_free, R_nil.
    - exact E.
    - rewrite N in H. inversion H; subst. match goal with R : Rest _ _ _ _ _ |- _ => inversion R; subst end.
      exists dn. rewrite !app_nil_r in Q. split; [exact Q|]. rewrite S, with3_self. reflexivity.
  Qed.
  Lemma serial_ticks1 e d d' o : serial1 e d = Done (d', o) ->
    cl_t1 d' = (cl_t1 d + activations P1 [e])%Z /\ cl_t2 d' = (cl_t2 d + activations P2 [e])%Z /\ cl_t3 d' = (cl_t3 d + activations P3 [e])%Z /\ cl_total d' = (cl_total d + all_activations [e])%Z.
  Proof.
    destruct d as [iv q out n1 n2 n3 tot re inp o3].
    destruct e as [p t| |x| |]; cbn -[in_int Z.add Z.rem].
    2-4: intro H; inversion H; subst; cbn; repeat split; lia.
    2: { destruct (Z.eqb q 2); intro H; inversion H; subst; cbn; repeat split; lia. }
    assert (K : forall k, (k = code2 /\ p = P2 \/ k = code3 /\ p = P3 \/ exists b, k = code1 b /\ p = P1) ->
      (let! r := run_code p k (mkCL iv q out n1 n2 n3 tot re inp o3) false 0 0 in Done (fst (fst (fst (fst r))), [])) = Done (d', o) ->
      cl_t1 d' = (n1 + activations P1 [Start p t])%Z /\ cl_t2 d' = (n2 + activations P2 [Start p t])%Z /\ cl_t3 d' = (n3 + activations P3 [Start p t])%Z /\ cl_total d' = (tot + all_activations [Start p t])%Z).
    { intros k C. destruct C as [[-> ->]|[[-> ->]|[b [-> ->]]]]; unfold code1, code2, code3; try destruct b; cbn -[in_int Z.add Z.rem]; intro H.
      all: repeat match type of H with context [in_int ?x] => destruct (in_int x) eqn:?; cbn -[in_int Z.add Z.rem] in *; [|discriminate H] end.
      all: repeat match type of H with context [if ?x then _ else _] => destruct x eqn:?; cbn -[in_int Z.add Z.rem] in * end.
      all: try discriminate H; inversion H; subst; cbn; repeat split; lia. }
    destruct p; cbn [code rbind].
    - destruct (ntrunc t) as [z|]; [|discriminate]. destruct (in_int z); [|discriminate]. cbn [rbind]. apply K. right. right. eauto.
    - apply K. auto.
    - apply K. auto.
  Qed.
  Lemma activations_app p l1 l2 : activations (F := F) p (l1 ++ l2) = (activations p l1 + activations p l2)%Z.
  Proof. unfold activations. rewrite filter_app, app_length. lia. Qed.
  Lemma serial_ticks : forall l d d' o, serial l d = Done (d', o) ->
    cl_t1 d' = (cl_t1 d + activations P1 l)%Z /\ cl_t2 d' = (cl_t2 d + activations P2 l)%Z /\ cl_t3 d' = (cl_t3 d + activations P3 l)%Z /\ cl_total d' = (cl_total d + all_activations l)%Z.
  Proof.
    induction l as [|e l IH]; intros d d' o E; cbn [serial] in E.
    - inversion E; subst. cbn. repeat split; lia.
    - destruct (serial1 e d) as [[d1 o1]| |] eqn:E1; [|discriminate|discriminate]. cbn [rbind fst snd] in E.
      destruct (serial l d1) as [[d2 o2]| |] eqn:E2; [|discriminate|discriminate]. cbn [rbind fst snd] in E. inversion E; subst.
      apply serial_ticks1 in E1 as (A1 & A2 & A3 & A4). apply IH in E2 as (B1 & B2 & B3 & B4). unfold all_activations in *.
      change (e :: l) with ([e] ++ l). rewrite !activations_app. repeat split; lia.
  Qed.
  Lemma activations_perm p l1 l2 : Permutation l1 l2 -> activations (F := F) p l1 = activations p l2.
  Proof.
    unfold activations. intro H. f_equal. induction H; cbn; auto; try lia.
    - destruct (match x with Start P1 _ => _ | _ => _ end); cbn; lia.
    - destruct (match x with Start P1 _ => _ | _ => _ end), (match y with Start P1 _ => _ | _ => _ end); cbn; lia.
  Qed.
  Lemma activations_acts p l : activations p (acts l) = activations p l.
  Proof.
    induction l as [|e l IH]; [reflexivity|]. cbn [acts flat_map]. fold (acts l). change (e :: l) with ([e] ++ l). rewrite !activations_app, IH. f_equal. destruct e; reflexivity.
  Qed.
  Lemma sched_ticks l d m' o : sched c l (idle d) = Done (Some (m', o)) -> cpu_tasks m' = [] ->
    let d' := cpu_data m' in
    cl_t1 d' = (cl_t1 d + activations P1 l)%Z /\ cl_t2 d' = (cl_t2 d + activations P2 l)%Z /\ cl_t3 d' = (cl_t3 d + activations P3 l)%Z /\ cl_total d' = (cl_total d + all_activations l)%Z.
  Proof.
    intros E N d'. destruct (sched_serial l d E N) as (dn & Q & S). apply serial_ticks in S. unfold all_activations in *.
    rewrite <- !(activations_acts _ l). rewrite <- !(activations_perm _ Q). exact S.
  Qed.
  Lemma inv_progress d l ts g pend : Inv d l ts g pend -> ts <> [] -> sched1 c Go (mkCpu d l ts) <> Done None.
  Proof.
    assert (K : forall p k a b r, k <> [] -> sched1 c Go (mkCpu d l (mkTask p k a b :: r)) <> Done None).
    { intros p k a b r Nk. destruct k as [|i k]; [congruence|]. cbn [sched1 cpu_tasks cpu_data cpu_locked].
      destruct (instr c p i d l a b) as [[[[[? ?] ?] ?] ?]| |]; cbn; discriminate. }
    assert (P : forall k, reporting k -> k <> []) by (intros k [->| ->]; discriminate).
    intros H N. inversion H; subst; try (apply K; auto).
    - match goal with R : Rest _ _ _ _ _ |- _ => inversion R; subst end; try congruence; apply K; auto; discriminate.
    - intro E. apply app_eq_nil in E as [_ E]. discriminate.
    - intro E. apply app_eq_nil in E as [_ E]. discriminate.
  Qed.
  Lemma inv_total d l t ts g pend d' l' ts' o : Inv d l (t :: ts) g pend -> t_part t <> P1 -> sched1 c Go (mkCpu d l (t :: ts)) = Done (Some (mkCpu d' l' ts', o)) ->
    cl_total d' <> cl_total d -> l = true /\ l' = true.
  Proof.
    assert (K : forall p i k a b r, sched1 c Go (mkCpu d l (mkTask p (i :: k) a b :: r)) = Done (Some (mkCpu d' l' ts', o)) -> cl_total d' <> cl_total d -> exists e, i = Store Ctotal e /\ l' = l).
    { intros p i k a b r E Nd. cbn [sched1 cpu_tasks cpu_data cpu_locked] in E. destruct i as [x|x|x e| | | |e]; cbn [instr] in E; try (inversion E; subst; exfalso; apply Nd; reflexivity).
      - destruct (in_int (e a b)); [|discriminate]. cbn [rbind] in E. inversion E; subst. destruct x; try (exfalso; apply Nd; reflexivity). eauto.
      - destruct (e a b); [rewrite HC in E|]; inversion E; subst; exfalso; apply Nd; reflexivity. }
    intros H Np E Nd. inversion H; subst.
    - exfalso. match goal with R : Rest _ _ _ _ _ |- _ => inversion R; subst end;
        try match goal with Q : reporting _ |- _ => destruct Q as [->| ->] end;
        apply K in E as (e & E & _); try assumption; discriminate E.
    - exfalso. apply Np. reflexivity.
    - destruct k as [|i k]; [congruence|]. cbn [app] in E. apply K in E as (e & _ & ->); auto.
    - destruct k as [|i k]; [congruence|]. cbn [app] in E. apply K in E as (e & _ & ->); auto.
  Qed.
  Lemma idle_inv (d : D) : Inv d false [] d [].
  Proof. rewrite <- (with3_self d) at 1. apply I_free, R_nil. Qed.
  Lemma sched_progress l d m' o : sched c l (idle d) = Done (Some (m', o)) -> (cpu_tasks m' = [] -> cpu_locked m' = false) /\ (cpu_tasks m' <> [] -> sched1 c Go m' <> Done None).
  Proof.
    intro E. destruct (@sched_inv l d false [] d [] m' o (idle_inv d) E) as (dn & pend & g & H & _). destruct m' as [d' l' ts']. cbn [cpu_data cpu_locked cpu_tasks] in *. split.
    - intros ->. inversion H; reflexivity.
    - eapply inv_progress; eassumption.
  Qed.
  Lemma sched_total l d m o t ts m' o' : sched c l (idle d) = Done (Some (m, o)) -> cpu_tasks m = t :: ts -> t_part t <> P1 -> sched1 c Go m = Done (Some (m', o')) ->
    cl_total (cpu_data m') <> cl_total (cpu_data m) -> cpu_locked m = true /\ cpu_locked m' = true.
  Proof.
    intros E T Np G Nd. destruct (@sched_inv l d false [] d [] m o (idle_inv d) E) as (dn & pend & g & H & _). destruct m as [d1 l1 ts1], m' as [d2 l2 ts2]. cbn [cpu_data cpu_locked cpu_tasks] in *. subst.
    eapply inv_total; eassumption.
  Qed.
  (** A task that is not interrupted. *)
  Lemma alone p : forall k d l a b d' l' a' b' o, k <> [] -> run_code p k d l a b = Done (d', l', a', b', o) ->
    sched c (repeat Go (List.length k)) (mkCpu d l [mkTask p k a b]) = Done (Some (mkCpu d' l' [], o)).
  Proof.
    induction k as [|i k IH]; intros d l a b d' l' a' b' o Nk E; [congruence|]. cbn [run_code] in E. cbn [List.length repeat sched sched1 cpu_tasks cpu_data cpu_locked].
    destruct (instr c p i d l a b) as [[[[[d1 l1] a1] b1] o1]| |]; [|discriminate|discriminate]. cbn [rbind] in *.
    destruct (run_code p k d1 l1 a1 b1) as [[[[[d2 l2] a2] b2] o2]| |] eqn:R; [|discriminate|discriminate]. cbn [rbind] in *. inversion E; subst.
    destruct k as [|j k]; [cbn in R |- *; inversion R; subst; reflexivity|].
    rewrite (IH _ _ _ _ _ _ _ _ _ ltac:(discriminate) R). reflexivity.
  Qed.
End Tasks.

Section Api.
  Context {F : Type} {NF : Num F} (szof : N) (fuel : nat) (env : Env).
  Notation mm := (model_of (F := F) FMI3 Clocks).
  Definition got {T} (ob : Status * Out F (md mm) * T) := reads_got [ob].
  Ltac fin HC := rewrite ?HC; repeat (match goal with
      | |- context [Z.eqb ?x ?y] => destruct (Z.eqb x y) eqn:?
      | |- context [in_int 0] => change (in_int 0) with true
      | |- context [in_int 1] => change (in_int 1) with true
      | |- context [in_int 2] => change (in_int 2) with true
      | |- context [in_int ?x] => destruct (in_int x) eqn:?; [|cbn; discriminate] end; cbn -[in_int Z.add Z.rem]; rewrite ?HC);
    let H := fresh in intro H; inversion H; subst; split; [reflexivity|]; eexists; reflexivity.
  Lemma partition_runs p t e c (u : Mut F (CLData F)) d' o : hasClockUpdate c = true -> serial1 c (Start p t) (data u) = Done (d', o) ->
    o = [] /\ exists tr, cl_activateModelPartition (clock_of p) t e c u = Done (OK, set_data d' u, tr).
  Proof.
    intros HC. destruct u as [u1 u2 u3 u4 u5 u6 u7 u8 [iv q out n1 n2 n3 tot re inp o3]]. cbn [data].
    unfold cl_activateModelPartition, cl_var; destruct p; cbn -[in_int Z.add Z.rem].
    - destruct (ntrunc t) as [z|] eqn:Z1; [|discriminate]. destruct (in_int z) eqn:Z2; [|discriminate]. cbn -[in_int Z.add Z.rem code1].
      unfold cl_partition1, cl_int, cl_at4, cl_setOut, cl_clockUpdate, mbind, bind, mdata, mmodd, mret, mctl, mtell, mub, mmod, modS, ubM, tell, ret.
      rewrite Z1, Z2. unfold code1. destruct (Z.eqb z 4) eqn:Z4; destruct out; cbn -[in_int Z.add Z.rem]; fin HC.
    - unfold cl_partition2, cl_int, cl_lock, cl_unlock, cl_setOut, cl_clockUpdate, mbind, bind, mdata, mmodd, mret, mctl, mtell, mub, mmod, modS, ubM, tell, ret.
      unfold code2. destruct out, (hasLockPreemption c), (hasUnlockPreemption c); cbn -[in_int Z.add Z.rem]; fin HC.
    - unfold cl_partition3, cl_int, cl_lock, cl_unlock, cl_setOut, cl_clockUpdate, mbind, bind, mdata, mmodd, mret, mctl, mtell, mub, mmod, modS, ubM, tell, ret.
      unfold code3. destruct out, (hasLockPreemption c), (hasUnlockPreemption c); cbn -[in_int Z.add Z.rem]; fin HC.
  Qed.
  Ltac back HC := repeat (match goal with
      | |- context [Z.eqb ?x ?y] => destruct (Z.eqb x y) eqn:?
      | |- context [in_int 0] => change (in_int 0) with true
      | |- context [in_int 1] => change (in_int 1) with true
      | |- context [in_int 2] => change (in_int 2) with true
      | |- context [in_int ?x] => destruct (in_int x) eqn:?; [|cbn; discriminate]
      | |- context [hasClockUpdate ?x] => destruct (hasClockUpdate x) eqn:?; [|cbn; discriminate] end; cbn -[in_int Z.add Z.rem]);
    let H := fresh in intro H; inversion H; subst; eexists _, _, _, _; (split; [reflexivity|]); cbn -[in_int Z.add Z.rem];
    repeat (first [match goal with K : ?x = _ |- context [?x] => rewrite K end | progress change (in_int 0) with true | progress change (in_int 1) with true | progress change (in_int 2) with true | progress change (in_int 1000) with true];
      cbn -[in_int Z.add Z.rem]); reflexivity.
  Lemma partition_alone p t e c (u : Mut F (CLData F)) u' tr : cl_activateModelPartition (clock_of p) t e c u = Done (OK, u', tr) ->
    exists k l a b, code p t = Done k /\ run_code c p k (data u) false 0 0 = Done (data u', l, a, b, updates p tr).
  Proof.
    destruct u as [u1 u2 u3 u4 u5 u6 u7 u8 [iv q out n1 n2 n3 tot re inp o3]]. cbn [data].
    unfold cl_activateModelPartition, cl_var; destruct p; cbn -[in_int Z.add Z.rem code].
    - unfold cl_partition1, cl_int, cl_at4, cl_setOut, cl_clockUpdate, mbind, bind, mdata, mmodd, mret, mctl, mtell, mub, mmod, modS, ubM, tell, ret. unfold code.
      cbn -[in_int Z.add Z.rem code1]. destruct (in_int (n1 + 1)) eqn:?; [|discriminate]. cbn -[in_int Z.add Z.rem code1]. destruct (in_int (tot + 1)) eqn:?; [|discriminate]. cbn -[in_int Z.add Z.rem code1].
      destruct (ntrunc t) as [z|]; [|discriminate]. destruct (in_int z); [|discriminate]. unfold code1. destruct (Z.eqb z 4), out; cbn -[in_int Z.add Z.rem]; back HC.
    - unfold cl_partition2, cl_int, cl_lock, cl_unlock, cl_setOut, cl_clockUpdate, mbind, bind, mdata, mmodd, mret, mctl, mtell, mub, mmod, modS, ubM, tell, ret.
      unfold code, code2. destruct out, (hasLockPreemption c), (hasUnlockPreemption c); cbn -[in_int Z.add Z.rem]; back HC.
    - unfold cl_partition3, cl_int, cl_lock, cl_unlock, cl_setOut, cl_clockUpdate, mbind, bind, mdata, mmodd, mret, mctl, mtell, mub, mmod, modS, ubM, tell, ret.
      unfold code, code3. destruct out, (hasLockPreemption c), (hasUnlockPreemption c); cbn -[in_int Z.add Z.rem]; back HC.
  Qed.
  Lemma call_runs e (s : Sys F (md mm)) d' rd z o : mode (ctl (sinst s)) = ClockActivationMode -> hasClockUpdate (ctl (sinst s)) = true ->
    serial1 (ctl (sinst s)) e (data (mut (sinst s))) = Done (d', rd) -> call_of z e = Some o ->
    exists out s' t, exec3 mm szof fuel env o s = Done (OK, out, s', t) /\ ctl (sinst s') = ctl (sinst s) /\ data (mut (sinst s')) = d' /\
      forall T (x : T), reads_got [(OK, out, x)] = rd.
  Proof.
    destruct s as [[c u so] h]. cbn [sinst ctl mut]. intros M HC E C.
    assert (Am : N.land (bit3 (mode c)) MASK_AnyState <> 0%N) by (rewrite M; discriminate).
    destruct e as [p t| |v| |]; cbn [call_of] in C; try discriminate C; inversion C; subst o; clear C.
    - apply partition_runs with (e := env) in E as (-> & tr & E); [|exact HC].
      eexists ONone, (mkSys (mkInst c (set_data d' u) so) h), _. split; [|split; [reflexivity|split; reflexivity]].
      cbn [exec3]. rewrite outI_eq. unfold fmi3ActivateModelPartition. rewrite BEGIN_pass by (cbn [sinst ctl]; rewrite M; discriminate).
      unfold bind, call. cbn [sinst ctl mut m_activateModelPartition model_of Clocks_model]. 
      match goal with |- context [cl_activateModelPartition ?a ?b ?x ?y ?w] => replace (cl_activateModelPartition a b x y w) with (Done (OK, set_data d' u, tr)) by (symmetry; exact E) end.
      reflexivity.
    - cbn [serial1] in E. inversion E; subst. eexists ONone, (mkSys (mkInst c (set_dirty true (set_data (set_cl_input2 v (data u)) u)) so) h), _. split; [|split; [reflexivity|split; reflexivity]].
      cbn [exec3]. rewrite outI_eq. unfold fmi3Set. rewrite BEGIN_pass by (cbn [sinst ctl]; rewrite M; discriminate). reflexivity.
    - cbn [serial1] in E. inversion E; subst. eexists (OClocks (Some [_])), (mkSys (mkInst c (set_data (set_cl_outClock false (data u)) u) so) h), _. split; [|split; [reflexivity|split; reflexivity]].
      cbn [exec3]. rewrite outI_eq. unfold fmi3GetClock. rewrite BEGIN_pass by (cbn [sinst ctl]; rewrite M; discriminate). reflexivity.
    - cbn [serial1] in E. inversion E; subst. clear E. cbn [md model_of Clocks_model] in u, h.
      cbn [exec3]. rewrite outI_eq. unfold fmi3GetIntervalDecimal. rewrite BEGIN_pass by (cbn [sinst ctl]; rewrite M; discriminate). cbn.
      unfold bind, call, cl_getInterval, mbind, bind. cbn. destruct (cl_qualifier (data u) =? 2)%Z eqn:Q; cbn.
      + eexists (OInterval (Some [_]) (Some [_])), (mkSys (mkInst c _ so) h), _. split; [reflexivity|]. auto.
      + eexists (OInterval (Some [_]) (Some [_])), (mkSys (mkInst c _ so) h), _. split; [reflexivity|]. auto.
  Qed.
  Lemma serial_run z : forall dn (s : Sys F (md mm)) d' rd, mode (ctl (sinst s)) = ClockActivationMode -> hasClockUpdate (ctl (sinst s)) = true ->
    serial (ctl (sinst s)) dn (data (mut (sinst s))) = Done (d', rd) ->
    exists obs s', run3 mm szof fuel (map (pair env) (calls_of z dn)) s = Done (obs, s') /\ Forall (fun ob => fst (fst ob) = OK) obs /\
      ctl (sinst s') = ctl (sinst s) /\ data (mut (sinst s')) = d' /\ reads_got obs = rd.
  Proof.
    induction dn as [|e dn IH]; intros s d' rd M HC E; cbn [serial] in E.
    - inversion E; subst. exists [], s. cbn. auto.
    - destruct (serial1 (ctl (sinst s)) e (data (mut (sinst s)))) as [[d1 r1]| |] eqn:E1; [|discriminate|discriminate]. cbn [rbind fst snd] in E.
      destruct (serial (ctl (sinst s)) dn d1) as [[d2 r2]| |] eqn:E2; [|discriminate|discriminate]. cbn [rbind fst snd] in E. inversion E; subst. clear E.
      destruct (call_of (D := md mm) z e) as [o|] eqn:C.
      + destruct (@call_runs e s d1 r1 z o M HC E1 C) as (out & s1 & t & X & Ec & Ed & Er).
        destruct (IH s1 d' r2) as (obs & s2 & X2 & O & Ec2 & Ed2 & Er2); [congruence|congruence|rewrite Ec, Ed; exact E2|].
        exists ((OK, out, t) :: obs), s2. split.
        { unfold calls_of. cbn [flat_map]. rewrite C. cbn [app map]. unfold run3 in *. cbn [run]. rewrite X. unfold calls_of in X2. rewrite X2. reflexivity. }
        split; [constructor; auto|]. split; [congruence|]. split; [exact Ed2|].
        change ((OK, out, t) :: obs) with ([(OK, out, t)] ++ obs). unfold reads_got at 1. rewrite flat_map_app. f_equal; [apply Er|exact Er2].
      + destruct e; try discriminate C. cbn in E1. inversion E1; subst.
        destruct (IH s d' r2 M HC E2) as (obs & s2 & X2 & Rest). exists obs, s2. split; [|exact Rest]. exact X2.
  Qed.
  Lemma calls_perm (z : F) l1 l2 : Permutation l1 l2 -> Permutation (calls_of (D := md mm) z l1) (calls_of z l2).
  Proof. intro H. unfold calls_of. apply Permutation_flat_map, H. Qed.
  Lemma calls_acts (z : F) : forall l, calls_of (D := md mm) z (acts l) = calls_of z l.
  Proof. induction l as [|e l IH]; [reflexivity|]. unfold acts, calls_of in *. cbn [flat_map]. rewrite flat_map_app. rewrite IH. f_equal. destruct e; reflexivity. Qed.
  Lemma schedule_serial z l (s : Sys F (md mm)) m' seen :
    mode_of s = ClockActivationMode -> hasLockPreemption (ctl (sinst s)) = true -> hasUnlockPreemption (ctl (sinst s)) = true -> hasClockUpdate (ctl (sinst s)) = true ->
    sched (ctl (sinst s)) l (idle (data (mut (sinst s)))) = Done (Some (m', seen)) -> cpu_tasks m' = [] ->
    exists calls obs s', Permutation calls (calls_of z l) /\ run3 mm szof fuel (map (pair env) calls) s = Done (obs, s') /\
      Forall (fun ob => fst (fst ob) = OK) obs /\ data (mut (sinst s')) = cpu_data m' /\ reads_got obs = reads_seen seen.
  Proof.
    intros M HL HU HC E T. destruct (@sched_serial F NF _ HL HU HC l _ m' seen E T) as (dn & Q & S).
    destruct (@serial_run z dn s _ _ M HC S) as (obs & s' & X & O & _ & Ed & Er).
    exists (calls_of z dn), obs, s'. split; [|auto]. rewrite (calls_perm z Q), calls_acts. reflexivity.
  Qed.
  Lemma schedule_alone p t (s : Sys F (md mm)) out s' tr : hasLockPreemption (ctl (sinst s)) = true -> hasUnlockPreemption (ctl (sinst s)) = true -> hasClockUpdate (ctl (sinst s)) = true ->
    exec3 mm szof fuel env (O3ActivateModelPartition (clock_of p) t) s = Done (OK, out, s', tr) ->
    exists n, sched (ctl (sinst s)) (Start p t :: repeat Go n) (idle (data (mut (sinst s)))) = Done (Some (mkCpu (data (mut (sinst s'))) false [], updates p tr)).
  Proof.
    destruct s as [[c u so] h]. cbn [sinst ctl mut]. intros HL HU HC E. cbn [exec3] in E. rewrite outI_eq in E.
    destruct (fmi3ActivateModelPartition _ _ _ _ _) as [[[[st0 x] i'] tt0]| |] eqn:G; try discriminate. injection E; intros; subst. clear E. cbn [sinst].
    unfold fmi3ActivateModelPartition in G. apply BEGIN_any in G. destruct G as [(_ & G)|(G & _)]; [|discriminate].
    apply bind_Done in G as (s0 & i1 & t1 & t2 & E1 & E & ->). unfold call in E1. cbn [ctl mut m_activateModelPartition model_of Clocks_model] in E1.
    destruct (cl_activateModelPartition _ _ _ _ _) as [[[s1 u1] t3]| |] eqn:P; try discriminate. inversion E1; subst. clear E1.
    unfold CALLk in E. apply bind_Done in E as (s'' & i4 & t7 & t8 & E4 & E & ->).
    assert (Q : s0 = OK /\ s'' = OK /\ t7 = [] /\ t8 = [] /\ i' = i4 /\ mut i4 = u1).
    { unfold CALL in E4. destruct s0; cbn in E4; inversion E4; subst; cbn in E; inversion E; subst; auto 10. }
    destruct Q as (-> & -> & -> & -> & -> & ->). cbn [app]. rewrite app_nil_r.
    cbn [sinst ctl mut] in P. apply partition_alone in P as (k & l & a & b & Ck & R). cbn [md model_of Clocks_model] in u, u1, h |- *.
    exists (List.length k). cbn [sched sched1 idle mayInterrupt cpu_locked cpu_tasks cpu_data negb andb]. rewrite Ck. cbn [rbind].
    assert (Nk : k <> []). { intros ->. destruct p; cbn in Ck; try discriminate. destruct (ntrunc t) as [z|]; [destruct (in_int z)|]; try discriminate. }
    rewrite (@alone F NF c p k _ _ _ _ _ _ _ _ _ Nk R). cbn [rbind app].
    assert (l = false). { pose proof (@sched_progress F NF c HL HU HC (Start p t :: repeat Go (List.length k)) (data u) (mkCpu (data u1) l []) (updates p t1)) as W.
      apply W; [|reflexivity]. cbn [sched sched1 idle mayInterrupt cpu_locked cpu_tasks cpu_data negb andb]. rewrite Ck. cbn [rbind].
      rewrite (@alone F NF c p k _ _ _ _ _ _ _ _ _ Nk R). reflexivity. }
    subst l. reflexivity.
  Qed.
End Api.
