(** SimRules.v -- rules and tactics to show that the functions of an FMU keep a relation of Sim.v. *)
From Coq Require Import List NArith ZArith Bool Arith Lia.
From Verif Require Import Base Instance ModelIface Core Fmus Logic Calls Sim.
From Verif Require Import FmuBouncingBall FmuDahlquist FmuStair FmuVanDerPol FmuRoberts FmuClocks
  FmuResource FmuStateSpace FmuFeedthrough.
Import ListNotations.
Set Implicit Arguments.

Section Rules.
  Context {F : Type} {NF : Num F} {D : Type} (P : Rel D).
  Variables (e : Env) (c c' : Ctl F) (u u' : Mut F D).

  Section Bind.
    Context {Y Z : Type} (Q : Y -> Z -> Mut F D -> Mut F D -> Prop).
    Notation orel := (orel P Q).

    Lemma sb_assoc X X' W W' (f : MF F D X) g (k : W -> MF F D Y) (f' : MF F D X') g' (k' : W' -> MF F D Z) :
      orel (mbind f (fun x => mbind (g x) k) e c u) (mbind f' (fun x => mbind (g' x) k') e c' u') ->
      orel (mbind (mbind f g) k e c u) (mbind (mbind f' g') k' e c' u').
    Proof. unfold mbind. now rewrite !bind_assoc. Qed.
    Lemma sb_ret X X' (a : X) (a' : X') (k : X -> MF F D Y) (k' : X' -> MF F D Z) :
      orel (k a e c u) (k' a' e c' u') -> orel (mbind (mret a) k e c u) (mbind (mret a') k' e c' u').
    Proof. unfold mbind, mret. now rewrite !bind_ret_l. Qed.
    Lemma sb_ctl (k : Ctl F -> MF F D Y) (k' : Ctl F -> MF F D Z) :
      orel (k c e c u) (k' c' e c' u') -> orel (mbind mctl k e c u) (mbind mctl k' e c' u').
    Proof. unfold mbind, mctl. now rewrite !bind_ret_l. Qed.
    Lemma sb_env (k : Env -> MF F D Y) (k' : Env -> MF F D Z) :
      orel (k e e c u) (k' e e c' u') -> orel (mbind menv k e c u) (mbind menv k' e c' u').
    Proof. unfold mbind, menv. now rewrite !bind_ret_l. Qed.
    Lemma sb_get (k : Mut F D -> MF F D Y) (k' : Mut F D -> MF F D Z) :
      orel (k u e c u) (k' u' e c' u') -> orel (mbind mget k e c u) (mbind mget k' e c' u').
    Proof.
      unfold mbind, mget, getS, bind. destruct (k u e c u) as [[[? ?] ?]| |], (k' u' e c' u') as [[[? ?] ?]| |]; auto.
    Qed.
    Lemma sb_data (k : D -> MF F D Y) (k' : D -> MF F D Z) :
      orel (k (data u) e c u) (k' (data u') e c' u') -> orel (mbind mdata k e c u) (mbind mdata k' e c' u').
    Proof.
      unfold mbind, mdata, bind.
      destruct (k (data u) e c u) as [[[? ?] ?]| |], (k' (data u') e c' u') as [[[? ?] ?]| |]; auto.
    Qed.
    Lemma sb_mod f g (k : unit -> MF F D Y) (k' : unit -> MF F D Z) :
      orel (k tt e c (f u)) (k' tt e c' (g u')) -> orel (mbind (mmod f) k e c u) (mbind (mmod g) k' e c' u').
    Proof.
      unfold mbind, mmod, modS, bind.
      destruct (k tt e c (f u)) as [[[? ?] ?]| |], (k' tt e c' (g u')) as [[[? ?] ?]| |]; auto.
    Qed.
    Lemma sb_modd f g (k : unit -> MF F D Y) (k' : unit -> MF F D Z) :
      orel (k tt e c (set_data (f (data u)) u)) (k' tt e c' (set_data (g (data u')) u')) ->
      orel (mbind (mmodd f) k e c u) (mbind (mmodd g) k' e c' u').
    Proof. apply sb_mod. Qed.
    Lemma sb_ub X X' (k : X -> MF F D Y) (k' : X' -> MF F D Z) : orel (mbind mub k e c u) (mbind mub k' e c' u').
    Proof. exact I. Qed.
    Lemma sb_log (k : unit -> MF F D Y) (k' : unit -> MF F D Z) :
      ctlR P False c c' -> orel (k tt e c u) (k' tt e c' u') ->
      orel (mbind mlogError k e c u) (mbind mlogError k' e c' u').
    Proof.
      intros C K.
      apply (@orel_bind _ _ P _ _ _ _ _ _ (fun a b v v' => v = u /\ v' = u')).
      - unfold mlogError. rewrite (cr_logger C). unfold Sim.orel, tell, ret, traceR.
        destruct (logErrors c) eqn:A, (logErrors c') eqn:B, (hasLogger c); cbn; (split; [auto|]);
          (split; [reflexivity|]); intro G; try reflexivity; rewrite (cr_logErrors C G) in B; congruence.
      - intros [] [] v v' [-> ->]. exact K.
    Qed.
    Lemma sb_tell ev (k : unit -> MF F D Y) (k' : unit -> MF F D Z) :
      orel (k tt e c u) (k' tt e c' u') -> orel (mbind (mtell ev) k e c u) (mbind (mtell ev) k' e c' u').
    Proof.
      intro K. apply (@orel_bind _ _ P _ _ _ _ _ _ (fun a b v v' => v = u /\ v' = u')).
      - cbn. repeat split.
      - intros [] [] v v' [-> ->]. exact K.
    Qed.
    Lemma sb_rd T (b b' : Buf T) i (k : T -> MF F D Y) (k' : T -> MF F D Z) :
      b = b' -> (forall v, orel (k v e c u) (k' v e c' u')) -> orel (mbind (mrd b i) k e c u) (mbind (mrd b' i) k' e c' u').
    Proof.
      intros <- K. unfold mbind, mrd, rd. destruct b as [l|]; [|exact I].
      destruct (nth_error l i); [|exact I]. rewrite !bind_ret_l. apply K.
    Qed.
    Lemma sb_rd2 T (x y : list T) i (k : T -> MF F D Y) (k' : T -> MF F D Z) :
      nth_error x i = nth_error y i -> (forall v, orel (k v e c u) (k' v e c' u')) ->
      orel (mbind (mrd (Some x) i) k e c u) (mbind (mrd (Some y) i) k' e c' u').
    Proof.
      intros H K. unfold mbind, mrd, rd. rewrite <- H.
      destruct (nth_error x i); [|exact I]. rewrite !bind_ret_l. apply K.
    Qed.
    Lemma sb_wr T (b : Buf T) i v v' (k : Buf T -> MF F D Y) (k' : Buf T -> MF F D Z) :
      v = v' -> (forall b', orel (k b' e c u) (k' b' e c' u')) ->
      orel (mbind (mwr b i v) k e c u) (mbind (mwr b i v') k' e c' u').
    Proof.
      intros <- K. unfold mbind, mwr, wr. destruct b as [l|]; [|exact I].
      destruct (Nat.ltb i (length l)); [|exact I]. rewrite !bind_ret_l. apply K.
    Qed.
  End Bind.
  Lemma sm_ret X Y (RX : X -> Y -> Prop) x y :
    RX x y -> mutR P u u' -> orel P (mpost P RX) (mret x e c u) (mret y e c' u').
  Proof. intros A B. apply orel_ret. now split. Qed.
  Lemma sm_ub X Y (Q : X -> Y -> _) : orel P Q (mub e c u) (mub e c' u').
  Proof. exact I. Qed.
End Rules.

Section Arrays.
  Context {F : Type} {NF : Num F} {D : Type} (P : Rel D).
  Lemma sb_takel T n : forall (b b' : Buf T) i e (c c' : Ctl F) (u u' : Mut F D) Y Z (Q : Y -> Z -> _)
      (k : list T -> MF F D Y) (k' : list T -> MF F D Z),
    b = b' -> (forall l, length l = n -> orel P Q (k l e c u) (k' l e c' u')) ->
    orel P Q (mbind (takel b i n) k e c u) (mbind (takel b' i n) k' e c' u').
  Proof.
    induction n as [|n IH]; intros b b' i e c c' u u' Y Z Q k k' <- K; cbn.
    - apply sb_ret, K. reflexivity.
    - apply sb_assoc, sb_rd; [reflexivity|]. intro v. apply sb_assoc. apply IH; [reflexivity|].
      intros l Hl. apply sb_ret, K. cbn. now rewrite Hl.
  Qed.
  Lemma sb_writel T l : forall l' (b : Buf T) i e (c c' : Ctl F) (u u' : Mut F D) Y Z (Q : Y -> Z -> _)
      (k : Buf T -> MF F D Y) (k' : Buf T -> MF F D Z),
    l = l' -> (forall b', orel P Q (k b' e c u) (k' b' e c' u')) ->
    orel P Q (mbind (writel b i l) k e c u) (mbind (writel b i l') k' e c' u').
  Proof.
    induction l as [|v l IH]; intros l' b i e c c' u u' Y Z Q k k' <- K; cbn.
    - apply sb_ret, K.
    - apply sb_assoc, sb_wr; [reflexivity|]. intro b'. now apply IH.
  Qed.
  Lemma sm_putl T l : forall l' (b : Buf T) i e (c c' : Ctl F) (u u' : Mut F D),
    l = l' -> mutR P u u' -> orel P (mpost P eq) (putl b i l e c u) (putl b i l' e c' u').
  Proof.
    induction l as [|v l IH]; intros l' b i e c c' u u' <- K; cbn.
    - apply sm_ret; auto.
    - apply sb_wr; [reflexivity|]. intro b'. now apply IH.
  Qed.

  (** Writing a whole array, as one step. *)
  Lemma upd_snoc T (x : list T) i v y : i < length x ->
    firstn (S i) (upd x i v) = firstn i x ++ [v] /\ skipn (S i) (upd x i v) = skipn (S i) x /\ length (upd x i v) = length x
    /\ y = y :> list T.
  Proof.
    revert i; induction x as [|a x IH]; intros [|i] H; cbn in *; try lia; [auto|].
    destruct (IH i ltac:(lia)) as (A & B & C & _). cbn in A. rewrite A, B, C. auto.
  Qed.
  Lemma skipn_plus T a b : forall l : list T, skipn a (skipn b l) = skipn (a + b) l.
  Proof.
    intro l. rewrite Nat.add_comm. revert l; induction b as [|b IH]; intros [|v l]; cbn; auto.
    now rewrite skipn_nil.
  Qed.
  Lemma writel_some T l : forall (x : list T) i e (c : Ctl F) (u : Mut F D),
    writel (Some x) i l e c u =
    if Nat.leb (i + length l) (length x) || Nat.eqb (length l) 0
    then Done (Some (match l with [] => x | _ => firstn i x ++ l ++ skipn (i + length l) x end), u, []) else UB.
  Proof.
    induction l as [|v l IH]; intros x i e c u; cbn.
    - rewrite orb_true_r. reflexivity.
    - rewrite orb_false_r. unfold mbind, mwr, wr. destruct (Nat.ltb_spec i (length x)) as [H|H].
      + rewrite bind_ret_l, IH. destruct (upd_snoc x v [] H) as (A & B & C & _). rewrite C.
        replace (S i + length l) with (i + S (length l)) by lia.
        destruct (Nat.leb_spec (i + S (length l)) (length x)) as [G|G]; cbn.
        * destruct l as [|w l]; cbn.
          -- replace (i + 1) with (S i) by lia.
             rewrite <- (firstn_skipn (S i) (upd x i v)), A, B, <- app_assoc. reflexivity.
          -- cbn in A. rewrite A, <- app_assoc. cbn. do 4 f_equal.
             replace (S (length l)) with (length (w :: l)) by reflexivity.
             replace (i + S (length (w :: l))) with (length (w :: l) + S i) by lia.
             rewrite <- !skipn_plus. now rewrite B.
        * destruct l as [|w l]; cbn in *; [lia|reflexivity].
      + destruct (Nat.leb_spec (i + S (length l)) (length x)); [lia|reflexivity].
  Qed.
  Lemma firstn_app_r' T (l r : list T) : firstn (length l) (l ++ r) = l.
  Proof. now rewrite firstn_app, firstn_all, Nat.sub_diag, app_nil_r. Qed.
  Lemma sb_writel_buf (x y l l' : list F) e (c c' : Ctl F) (u u' : Mut F D) Y Z (Q : Y -> Z -> _)
      (k : Buf F -> MF F D Y) (k' : Buf F -> MF F D Z) :
    length x = length y -> l = l' ->
    (forall z w, length z = length x -> length w = length y -> firstn (length l) z = firstn (length l) w ->
                 orel P Q (k (Some z) e c u) (k' (Some w) e c' u')) ->
    orel P Q (mbind (writel (Some x) 0 l) k e c u) (mbind (writel (Some y) 0 l') k' e c' u').
  Proof.
    intros H <- K. unfold mbind, bind. rewrite !writel_some. cbn. rewrite H.
    destruct (Nat.leb (length l) (length y) || Nat.eqb (length l) 0) eqn:B; [|exact I].
    assert (G : length l <= length y).
    { apply orb_true_iff in B as [B|B]; [now apply Nat.leb_le|]. apply Nat.eqb_eq in B. lia. }
    set (z := match l with [] => x | _ => l ++ skipn (length l) x end).
    set (w := match l with [] => y | _ => l ++ skipn (length l) y end).
    assert (A : orel P Q (k (Some z) e c u) (k' (Some w) e c' u')).
    { apply K; subst z w; destruct l as [|a l]; try reflexivity;
        rewrite ?app_length, ?skipn_length; cbn [length] in *; try lia.
      pose proof (@firstn_app_r' F (a :: l)) as G'. now rewrite !G'. }
    unfold orel in *. destruct (k (Some z) e c u) as [[[? ?] ?]| |], (k' (Some w) e c' u') as [[[? ?] ?]| |]; auto.
  Qed.
  Lemma takel_firstn T n : forall (x y : list T) i e (c : Ctl F) (u : Mut F D), length x = length y ->
    firstn (i + n) x = firstn (i + n) y -> takel (Some x) i n e c u = takel (Some y) i n e c u.
  Proof.
    induction n as [|n IH]; intros x y i e c u H G; [reflexivity|]. cbn. unfold mbind.
    assert (A : nth_error x i = nth_error y i).
    { clear - G H. revert x y H G; induction i as [|i IH]; intros [|a x] [|b y] H G; cbn in *; try congruence; try discriminate.
      apply IH; [lia|]. now inversion G. }
    unfold mrd, rd. rewrite <- A. destruct (nth_error x i) as [v|]; [|reflexivity].
    rewrite !bind_ret_l. unfold bind. rewrite (IH x y (S i)); auto. now rewrite Nat.add_succ_comm.
  Qed.
End Arrays.

Arguments mbind : simpl never.
Arguments mret : simpl never.
Arguments mub : simpl never.
Arguments mctl : simpl never.
Arguments menv : simpl never.
Arguments mget : simpl never.
Arguments mmod : simpl never.
Arguments mdata : simpl never.
Arguments mmodd : simpl never.
Arguments mtell : simpl never.
Arguments mrd : simpl never.
Arguments mwr : simpl never.
Arguments mlogError : simpl never.
Arguments inModes : simpl never.
Arguments isME : simpl never.
Arguments Nat.leb : simpl never.
Arguments Nat.ltb : simpl never.
Arguments Nat.eqb : simpl never.
Arguments ModelState_eqb : simpl never.
Arguments putl : simpl never.
Arguments takel : simpl never.
Arguments writel : simpl never.

Ltac head_of t := match t with ?f _ => head_of f | _ => t end.

(** Rewrite the right instance into the left one. *)
Ltac norm_modes :=
  repeat match goal with
  | C : ctlR _ _ ?c ?c' |- context [inModes ?l (mode ?c')] =>
      rewrite <- (modeR_inModes l (cr_mode C)) by (cbn; intuition discriminate)
  end.
Lemma modeR_init y a b : modeR y a b -> ModelState_eqb b InitializationMode = ModelState_eqb a InitializationMode.
Proof. now intros [->|(_ & -> & ->)]. Qed.
Ltac norm_ctl :=
  norm_modes;
  repeat match goal with
  | C : ctlR _ _ ?c ?c' |- context [ModelState_eqb (mode ?c') InitializationMode] => rewrite (modeR_init (cr_mode C))
  | C : ctlR _ _ ?c ?c' |- context [time ?c'] => rewrite (cr_time C)
  | C : ctlR _ _ ?c ?c' |- context [itype ?c'] => rewrite (cr_itype C)
  | C : ctlR _ _ ?c ?c' |- context [resourceLocation ?c'] => rewrite (cr_loc C eq_refl)
  | C : ctlR _ _ ?c ?c' |- context [hasClockUpdate ?c'] => rewrite (cr_cu C)
  | C : ctlR _ _ ?c ?c' |- context [hasLockPreemption ?c'] => rewrite (cr_lp C)
  | C : ctlR _ _ ?c ?c' |- context [hasUnlockPreemption ?c'] => rewrite (cr_up C)
  end.
Ltac norm_mut :=
  repeat match goal with
  | H : _ ?u' = _ ?u |- _ => progress rewrite H
  | H : _ (data ?u') = _ (data ?u) |- _ => progress rewrite H
  | H : _ (_ (data ?u')) = _ (_ (data ?u)) |- _ => progress rewrite H
  end.
Ltac norm := cbn; norm_ctl; norm_mut.

Ltac rel_side :=
  repeat match goal with M : mutR _ ?u ?u' |- _ => destruct M end;
  cbn in *; try solve [norm; congruence]; try solve [norm; intuition congruence].
Ltac mut_side := constructor; cbn; norm_mut; try reflexivity; try tauto; auto.

Ltac sm_prog m :=
  let h := head_of m in
  lazymatch h with
  | match ?x with _ => _ end => destruct x eqn:?
  | _ => unfold h
  end.
Ltac sm_step :=
  lazymatch goal with
  | |- orel _ _ (mbind ?m _ _ _ _) _ =>
      lazymatch m with
      | mbind _ _ => apply sb_assoc
      | mret _ => apply sb_ret
      | mctl => apply sb_ctl
      | menv => apply sb_env
      | mget => apply sb_get
      | mdata => apply sb_data
      | mmod _ => apply sb_mod
      | mmodd _ => apply sb_modd
      | mub => apply sb_ub
      | mlogError => apply sb_log; [assumption|]
      | mtell _ => apply sb_tell
      | mrd _ _ => first [apply sb_rd; [reflexivity|intro] | apply sb_rd2; [reflexivity|intro]]
      | mwr _ _ _ => apply sb_wr; [norm; try reflexivity|intro]
      | takel _ _ _ => apply sb_takel; [reflexivity|intros]
      | writel _ _ _ => first [apply sb_writel; [norm; try reflexivity|intro] | apply sb_writel_buf; [assumption|norm; try reflexivity|intros]]
      | _ => sm_prog m
      end
  | |- orel _ (mpost _ _) (mret _ _ _ _) _ => apply sm_ret
  | |- orel _ _ (mret _ _ _ _) _ => apply orel_ret; split; [norm|split]
  | |- orel _ _ (mub _ _ _) _ => exact I
  | |- orel _ _ (putl _ _ _ _ _ _) _ => apply sm_putl; [norm; try reflexivity|]
  | |- orel _ _ ?t _ => sm_prog t
  end.
Ltac sm_go := repeat (norm; sm_step); try reflexivity.
Ltac arr_unfold := unfold nnGet, nnSet, arrGet, arrSet.


Ltac buf_side :=
  split; [reflexivity|]; do 2 eexists; split; [reflexivity|]; split; [reflexivity|];
  split; [assumption || reflexivity|]; split; [assumption || reflexivity|];
  repeat match goal with H : Nat.eqb _ _ = true |- _ => apply Nat.eqb_eq in H; subst end;
  first [ intro; first [assumption | reflexivity] | intros [?|?]; [discriminate|assumption] ].
Ltac sm_fun :=
  match goal with
  | |- msim _ _ _ _ => let M := fresh "M" in intros e c c' u u' He C M; destruct M; cbn in *
  | |- forall (e : Env), _ => let M := fresh "M" in intros e c c' u u' He C M; destruct M; cbn in *
  end;
  repeat match goal with H : _ /\ _ |- _ => destruct H end.
Ltac sm_leaf :=
  lazymatch goal with
  | |- mutR _ _ _ => mut_side
  | |- bufS _ _ _ _ _ => buf_side
  | |- _ = _ => norm; try reflexivity; try congruence
  | |- _ => idtac
  end.
Ltac sm_all := sm_fun; sm_go; sm_leaf.
(** Two arrays with equal first elements. *)
Lemma firstn_cons_inv T n (a b : T) x y : firstn (S n) (a :: x) = firstn (S n) (b :: y) -> a = b /\ firstn n x = firstn n y.
Proof. cbn. now injection 1. Qed.
Ltac peel :=
  match goal with
  | L : length ?x = length ?y, G : firstn (S _) ?x = firstn _ ?y |- _ =>
      destruct x, y; cbn in L; try discriminate L; [clear G|injection L as L; apply firstn_cons_inv in G as [-> G]]
  end.
Ltac set_states k :=
  match goal with
  | L : length ?x = length ?y, G : firstn ?n ?x = firstn ?n ?y |- _ =>
      destruct (Nat.eqb_spec n k) as [->|N];
      [ repeat peel; sm_all
      | sm_fun; arr_unfold; rewrite (proj2 (Nat.eqb_neq _ _) N); sm_go; sm_leaf ]
  end.
Ltac sl_begin :=
  cbn [m_setStartValues m_calculateValues m_get m_set m_getBinary m_setBinary m_activateClock
      m_getClock m_getInterval m_activateModelPartition m_nz m_nx m_getContinuousStates m_getNominals m_getDerivatives
      m_getEventIndicators m_setContinuousStates m_getOutputDerivative m_getPartialDerivative m_eventUpdateF m_eventUpdate
      m_maxX m_maxZ md]; intros; try match goal with t : VType |- _ => destruct t end.
Ltac sl_refresh :=
  match goal with M : mutR _ _ _ |- _ => destruct M; cbn in *; eexists; split; [reflexivity|mut_side] end.
Ltac sl_ev :=
  match goal with M : mutR _ _ _ |- _ => destruct M; cbn in * end;
  repeat match goal with H : _ /\ _ |- _ => destruct H end; sm_go; sm_leaf; auto.
Ltac sl_all k :=
  sl_begin; try solve [sm_all]; try solve [split; cbn; try lia; reflexivity]; try solve [cbn in *; discriminate]; try solve [exfalso; cbn in *; lia];
  try solve [set_states k]; try solve [sl_refresh]; try solve [sl_ev]; try solve [cbn; auto].

