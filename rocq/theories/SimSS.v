(** SimSS.v -- the relation of Sim.v for StateSpace. *)
From Coq Require Import List NArith ZArith Bool Arith Lia.
From Verif Require Import Base Instance ModelIface Core Fmus Logic Calls Sim SimRules.
From Verif Require Import FmuStateSpace.
Import ListNotations.
Set Implicit Arguments.
Arguments SS_MAX : simpl never.

Section SS.
  Context {F : Type} {NF : Num F} (lg : Prop) (x : bool).

  (** The fixed sizes of the arrays (config.h) and the bounds of the structural parameters. *)
  Definition row (l : list F) : Prop := length l = SS_MAX.
  Definition mat (a : list (list F)) : Prop := length a = SS_MAX /\ Forall row a.
  Record shape (d : SSData F) : Prop := mkShape {
    sh_m : ss_m d <= SS_MAX; sh_n : ss_n d <= SS_MAX; sh_r : ss_r d <= SS_MAX;
    sh_A : mat (ss_A d); sh_B : mat (ss_B d); sh_C : mat (ss_C d); sh_D : mat (ss_D d);
    sh_x0 : row (ss_x0 d); sh_u : row (ss_u d); sh_x : row (ss_x d);
    sh_y : row (ss_y d); sh_der : row (ss_der_x d) }.

  Lemma dot_some k (p v : list F) a : k <= SS_MAX -> row p -> row v -> exists b, dot k p v a = Some b.
  Proof.
    unfold row, dot. intros H A B. rewrite A, B, (proj2 (Nat.leb_le _ _) H). cbn. eauto.
  Qed.
  Lemma lin_some rows nx nu : forall P Q (v u : list F), rows <= length P -> rows <= length Q ->
    Forall row P -> Forall row Q -> row v -> row u -> nx <= SS_MAX -> nu <= SS_MAX ->
    exists l, lin rows nx nu P Q v u = Some l /\ length l = rows.
  Proof.
    induction rows as [|rows IH]; intros P Q v u HP HQ FP FQ Hv Hu Hx Hn; cbn; [eauto|].
    destruct P as [|p P]; cbn in HP; [lia|]. destruct Q as [|q Q]; cbn in HQ; [lia|].
    inversion FP; inversion FQ; subst.
    destruct (@dot_some nx p v nzero) as [a ->]; auto.
    destruct (@dot_some nu q u a) as [b ->]; auto.
    destruct (IH P Q v u) as (l & -> & L); auto; try lia. exists (b :: l). split; [reflexivity|]. cbn. now rewrite L.
  Qed.
  Lemma paste1_some T (l v : list T) : length l <= length v ->
    paste1 l v = Some (l ++ skipn (length l) v) /\ length (l ++ skipn (length l) v) = length v.
  Proof.
    intro H. unfold paste1. rewrite (proj2 (Nat.leb_le _ _) H). split; [reflexivity|].
    rewrite app_length, skipn_length. lia.
  Qed.
  Lemma paste1_length T (l v w : list T) : paste1 l v = Some w -> length w = length v.
  Proof.
    unfold paste1. destruct (Nat.leb_spec (length l) (length v)); [|discriminate]. intro E. injection E as <-.
    rewrite app_length, skipn_length. lia.
  Qed.
  Lemma paste2_mat rows cols : forall l (a b : list (list F)), Forall row a -> paste2 rows cols l a = Some b ->
    length b = length a /\ Forall row b.
  Proof.
    induction rows as [|rows IH]; intros l a b H; cbn; [injection 1 as <-; auto|].
    destruct a as [|r a]; [discriminate|]. inversion H; subst.
    destruct (paste1 (firstn cols l) r) as [w|] eqn:E; [|discriminate].
    destruct (paste2 rows cols (skipn cols l) a) as [z|] eqn:G; [|discriminate].
    injection 1 as <-. destruct (IH _ _ _ H3 G) as [A B]. cbn. split; [now rewrite A|].
    constructor; [|exact B]. unfold row in *. rewrite (paste1_length _ _ E). assumption.
  Qed.
  Lemma paste2_mat' rows cols l (a b : list (list F)) : mat a -> paste2 rows cols l a = Some b -> mat b.
  Proof. intros [A B] H. destruct (paste2_mat _ _ _ B H). split; congruence. Qed.

  Record ssR (d d' : SSData F) : Prop := mkSsR {
    s_m : ss_m d' = ss_m d; s_n : ss_n d' = ss_n d; s_r : ss_r d' = ss_r d;
    s_A : ss_A d' = ss_A d; s_B : ss_B d' = ss_B d; s_C : ss_C d' = ss_C d; s_D : ss_D d' = ss_D d;
    s_x0 : ss_x0 d' = ss_x0 d; s_u : ss_u d' = ss_u d; s_x : ss_x d' = ss_x d;
    s_sh : shape d; s_sh' : shape d' }.
  Definition relSS : Rel (SSData F) := mkRel lg x (fun _ => True) (fun _ => True) True False ssR.

  Lemma ss_calc_some d : shape d ->
    exists dx y, length dx = ss_n d /\ length y = ss_r d /\
      lin (ss_n d) (ss_n d) (ss_r d) (ss_A d) (ss_B d) (ss_x d) (ss_u d) = Some dx /\
      lin (ss_r d) (ss_n d) (ss_m d) (ss_C d) (ss_D d) (ss_x d) (ss_u d) = Some y /\
      ss_calc d = Some (set_ss_y (y ++ skipn (ss_r d) (ss_y d)) (set_ss_der_x (dx ++ skipn (ss_n d) (ss_der_x d)) d)).
  Proof.
    intros []. destruct sh_A0, sh_B0, sh_C0, sh_D0. unfold row in *.
    destruct (@lin_some (ss_n d) (ss_n d) (ss_r d) (ss_A d) (ss_B d) (ss_x d) (ss_u d)) as (dx & E1 & L1);
      auto; try lia.
    destruct (@lin_some (ss_r d) (ss_n d) (ss_m d) (ss_C d) (ss_D d) (ss_x d) (ss_u d)) as (y & E2 & L2);
      auto; try lia.
    exists dx, y. split; [exact L1|]. split; [exact L2|]. split; [exact E1|]. split; [exact E2|].
    unfold ss_calc. rewrite E1, E2.
    rewrite (proj1 (@paste1_some _ dx (ss_der_x d) ltac:(lia))), (proj1 (@paste1_some _ y (ss_y d) ltac:(lia))).
    now rewrite L1, L2.
  Qed.
  Lemma sub1_app T (l v : list T) : sub1 (length l) (l ++ v) = Some l.
  Proof.
    unfold sub1. rewrite app_length, (proj2 (Nat.leb_le _ _)) by lia. now rewrite firstn_app_r'.
  Qed.
  Lemma ss_calc_rel d d' : ssR d d' -> exists e e', ss_calc d = Some e /\ ss_calc d' = Some e' /\ ssR e e' /\ ssR e d' /\ ssR d e' /\
    sub1 (ss_n e) (ss_der_x e') = sub1 (ss_n e) (ss_der_x e) /\ sub1 (ss_r e) (ss_y e') = sub1 (ss_r e) (ss_y e).
  Proof.
    intros [Em En Er EA EB EC ED Ex0 Eu Ex Sh Sh']. destruct (ss_calc_some Sh) as (dx & y & L1 & L2 & E1 & E2 & E).
    destruct (ss_calc_some Sh') as (dx' & y' & L1' & L2' & E1' & E2' & E').
    rewrite En, Er, EA, EB, Ex, Eu in E1'. rewrite Em, En, Er, EC, ED, Ex, Eu in E2'.
    rewrite E1 in E1'. injection E1' as <-. rewrite E2 in E2'. injection E2' as <-.
    rewrite En, Er in E'.
    do 2 eexists. split; [exact E|]. split; [exact E'|].
    assert (G : shape (set_ss_y (y ++ skipn (ss_r d) (ss_y d)) (set_ss_der_x (dx ++ skipn (ss_n d) (ss_der_x d)) d))).
    { destruct Sh. constructor; cbn; auto; unfold row in *; rewrite app_length, skipn_length; lia. }
    assert (G' : shape (set_ss_y (y ++ skipn (ss_r d) (ss_y d')) (set_ss_der_x (dx ++ skipn (ss_n d) (ss_der_x d')) d'))).
    { destruct Sh, Sh'. constructor; cbn; auto; unfold row in *; rewrite app_length, skipn_length; lia. }
    split; [constructor; cbn; auto|]. split; [constructor; cbn; auto|]. split; [constructor; cbn; auto|].
    cbn. rewrite <- L1, <- L2, !sub1_app. auto.
  Qed.

  Lemma sb_calc e (c c' : Ctl F) (u u' : Mut F (SSData F)) Y Z (Q : Y -> Z -> _)
    (k : Status -> MF F (SSData F) Y) (k' : Status -> MF F (SSData F) Z) :
    mutR relSS u u' ->
    (forall v v', mutR relSS v v' -> sub1 (ss_n (data v)) (ss_der_x (data v')) = sub1 (ss_n (data v)) (ss_der_x (data v)) ->
       sub1 (ss_r (data v)) (ss_y (data v')) = sub1 (ss_r (data v)) (ss_y (data v)) ->
       ss_n (data v) = ss_n (data u) ->
       orel relSS Q (k OK e c v) (k' OK e c' v')) ->
    orel relSS Q (mbind ss_calculateValues k e c u) (mbind ss_calculateValues k' e c' u').
  Proof.
    intros M K. destruct (ss_calc_rel (mr_data M)) as (d & d' & E & E' & R & RL & _ & A & B).
    unfold ss_calculateValues. apply sb_assoc, sb_data. rewrite E, E'.
    apply sb_assoc, sb_modd, sb_assoc, sb_mod, sb_ret. apply K; cbn; auto.
    - destruct M. mut_side.
    - rewrite <- (s_n RL). apply s_n, (mr_data M).
  Qed.
  Lemma sub1_length T n (v l : list T) : sub1 n v = Some l -> length l = n.
  Proof.
    unfold sub1. destruct (Nat.leb_spec n (length v)); [|discriminate]. injection 1 as <-. rewrite firstn_length. lia.
  Qed.
  Lemma sb_takel2 n (a b : list F) e (c c' : Ctl F) (u u' : Mut F (SSData F)) Y Z (Q : Y -> Z -> _)
    (k : list F -> MF F (SSData F) Y) (k' : list F -> MF F (SSData F) Z) :
    length a = length b -> firstn n a = firstn n b ->
    (forall l, length l = n -> orel relSS Q (k l e c u) (k' l e c' u')) ->
    orel relSS Q (mbind (takel (Some a) 0 n) k e c u) (mbind (takel (Some b) 0 n) k' e c' u').
  Proof.
    intros H G K.
    assert (E : takel (F:=F) (D:=SSData F) (Some b) 0 n e c' u' = takel (Some a) 0 n e c' u')
      by (symmetry; now apply takel_firstn).
    assert (J : mbind (takel (Some b) 0 n) k' e c' u' = mbind (takel (Some a) 0 n) k' e c' u')
      by (unfold mbind, bind; now rewrite E).
    rewrite J. now apply sb_takel.
  Qed.
  Ltac ss_open M :=
    let R := fresh "R" in
    pose proof (mr_data M) as R;
    pose proof (s_m R); pose proof (s_n R); pose proof (s_r R); pose proof (s_A R); pose proof (s_B R);
    pose proof (s_C R); pose proof (s_D R); pose proof (s_x0 R); pose proof (s_u R); pose proof (s_x R).
  Lemma row_paste1 (l v w : list F) : row v -> paste1 l v = Some w -> row w.
  Proof. unfold row. intros H E. now rewrite (paste1_length _ _ E). Qed.
  Lemma n_bound v : N.ltb (N.of_nat SS_MAX) v = false -> N.to_nat v <= SS_MAX.
  Proof. intro H. apply N.ltb_ge in H. lia. Qed.
  Ltac ss_shape := constructor; cbn; eauto using row_paste1, paste2_mat', n_bound.
  Ltac ss_mut :=
    match goal with M : mutR _ ?u ?u' |- mutR _ _ _ =>
      destruct M as [? ? ? ? ? ? ? ? HD]; destruct HD as [? ? ? ? ? ? ? ? ? ? [] []]; cbn in *
    end; constructor; cbn; auto; try tauto; constructor; cbn; auto; ss_shape.
  Ltac ss_leaf :=
    lazymatch goal with
    | |- mutR _ _ _ => first [assumption | ss_mut]
    | |- bufS _ _ _ _ _ => idtac
    | |- _ => sm_leaf
    end.
  Ltac ss_case :=
    match goal with
    | |- context [paste1 ?l ?v] => destruct (paste1 l v) eqn:?
    | |- context [paste2 ?a ?b ?l ?v] => destruct (paste2 a b l v) eqn:?
    end.
  Ltac ss_step :=
    lazymatch goal with
    | |- orel _ _ (mbind (match ?x with _ => _ end) _ _ _ _) _ => first [ss_case; cbn | sm_step]
    | |- orel _ _ (match ?x with _ => _ end _ _ _) _ => first [ss_case; cbn | sm_step]
    | |- _ => sm_step
    end.
  Ltac ss_go := repeat (norm; ss_step); try reflexivity.
  Ltac ss_all := let M := fresh "M" in intros e c c' u u' He C M; ss_open M; ss_go; ss_leaf.

  Lemma ss_buf n (a b z w : list F) k : k = n -> length z = length a -> length w = length b ->
    firstn k z = firstn k w -> bufS n a b (OK, Some z) (OK, Some w).
  Proof. intros -> A B E. split; [reflexivity|]. exists z, w. auto 6. Qed.
  Lemma ss_buf_err n (a b : list F) : bufS n a b (Error, Some a) (Error, Some b).
  Proof. split; [reflexivity|]. exists a, b. repeat split; auto. intros [E|E]; [discriminate|exact E]. Qed.

  Lemma sim_SS : SimLaws (StateSpace_model (F:=F)) relSS.
  Proof.
    constructor; unfold StateSpace_model; sl_begin; 
    try solve [cbn in *; discriminate]; try solve [exfalso; cbn in *; lia]; try solve [cbn; auto].
    all: try solve [sm_all].
    - intros e c c' u u' He C M. destruct (mr_data M). destruct s_sh0, s_sh'0. sm_go. destruct M.
      constructor; cbn; auto. constructor; cbn; auto; constructor; cbn; auto;
        try (split; [reflexivity|]); try (repeat constructor).
    - intros e c c' u u' He C M. destruct (ss_calc_rel (mr_data M)) as (d & d' & E & E' & R & _).
      unfold ss_calculateValues. apply sb_data. rewrite E, E'. apply sb_modd, sb_mod, sm_ret; [reflexivity|].
      destruct M. mut_side.
    - intros e c c' u u' He C M. unfold ss_getFloat64, nnGet. destruct values; [|sm_go; assumption].
      apply sb_calc; [exact M|]. intros v v' M' A B _. ss_open M'. ss_go; assumption.
    - ss_all.
    - ss_all.
    - ss_all.
    - destruct (mr_data H). split; [auto|]. now destruct s_sh0.
    - ss_all.
    - ss_all.
    - intros e c c' u u' He C M. unfold ss_getDerivatives, arrGet. apply sb_data. ss_open M. norm.
      destruct x0; [|sm_go; assumption]. destruct (Nat.eqb n (ss_n (data u))); [|sm_go; assumption].
      apply sb_calc; [exact M|]. intros v v' M' A B _. ss_open M'. ss_go; assumption.
    - ss_all.
    - intros e c c' u u' He C M. unfold ss_getContinuousStates, arrGet. apply sb_data. ss_open M. norm.
      destruct (Nat.eqb n (ss_n (data u))) eqn:En; [|sm_go; [apply ss_buf_err|assumption]].
      apply Nat.eqb_eq in En. unfold ss_out. destruct (sub1 (ss_n (data u)) (ss_x (data u))) as [l|] eqn:El; [|exact I].
      apply sb_writel_buf; [assumption|reflexivity|]. intros z w A B G. apply sm_ret; [|assumption].
      apply (@ss_buf n _ _ _ _ (length l)); auto. rewrite (sub1_length _ _ El). auto.
    - intros e c c' u u' He C M. unfold ss_getDerivatives, arrGet. apply sb_data. ss_open M. norm.
      destruct (Nat.eqb n (ss_n (data u))) eqn:En; [|sm_go; [apply ss_buf_err|assumption]].
      apply sb_calc; [exact M|]. intros v v' M' A B G. apply Nat.eqb_eq in En. apply sb_data. ss_open M'. rewrite G in A. norm.
      unfold ss_out. try rewrite A. destruct (sub1 (ss_n (data u)) (ss_der_x (data v))) as [l|] eqn:El; [|exact I].
      apply sb_writel_buf; [assumption|reflexivity|]. intros z w A' B' G'. apply sm_ret; [|assumption].
      apply (@ss_buf n _ _ _ _ (length l)); auto. rewrite (sub1_length _ _ El). congruence.
    - intros e c c' u u' He C M. unfold ss_setContinuousStates, arrSet. apply sb_data. ss_open M. norm.
      destruct (Nat.eqb n (ss_n (data u))) eqn:En; [|sm_go; assumption].
      apply Nat.eqb_eq in En. subst n.
      apply sb_takel2; [assumption|assumption|]. intros l Hl.
      ss_go; ss_leaf.
    - sl_ev.
    - destruct (ss_calc_rel (mr_data H1)) as (d & d' & E & E' & _ & R & _). eexists. split.
      + unfold ss_calculateValues, mbind at 1, mdata, bind at 1. rewrite E. reflexivity.
      + destruct H1. mut_side.
    - destruct (ss_calc_rel (mr_data H1)) as (d & d' & E & E' & _ & _ & R & _). eexists. split.
      + unfold ss_calculateValues, mbind at 1, mdata, bind at 1. rewrite E'. reflexivity.
      + destruct H1. mut_side.
  Qed.
End SS.
