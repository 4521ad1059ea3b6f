(** VarsFmus.v -- the get and set functions of the nine FMUs obey the laws of Vars.v. *)
From Coq Require Import List NArith ZArith Bool Arith Lia.
From Verif Require Import Base Instance ModelIface Core Fmi3 Fmi2 Api Fmus Logic Calls SpecVars Vars SimFT SimSS.
From Verif Require Import FmuBouncingBall FmuDahlquist FmuStair FmuVanDerPol FmuRoberts
  FmuClocks FmuResource FmuStateSpace FmuFeedthrough.
Import ListNotations.
Set Implicit Arguments.

Section Tools.
  Context {F : Type} {NF : Num F} {D : Type}.

  (** ** Getters of scalars. *)
  Definition put_result {T} (v : option T) (l : list T) (nV i : nat) (c : Ctl F) (u : Mut F D)
    : res (GetRes T * Mut F D * list (Event F)) :=
    match v with
    | Some x => if i + 1 <=? nV then Done ((OK, Some (splice i [x] l), i + 1), u, [])
                else Done ((Error, Some l, i), u, warn c)
    | None => Done ((Error, Some l, i), u, warn c)
    end.
  Lemma failGet_eq T (l : list T) nV i e c u : failGet (F := F) (D := D) (Some l) i e c u = put_result None l nV i c u.
  Proof. unfold failGet, mbind, mlogError, mret, put_result, warn. destruct (logErrors c && hasLogger c); reflexivity. Qed.
  Lemma put1_eq T (l : list T) nV i v e c u : nV <= length l ->
    put1 (F := F) (D := D) (Some l) nV i v e c u = put_result (Some v) l nV i c u.
  Proof.
    intro L. unfold put1, nvalues_ok, put_result. destruct (Nat.leb_spec (i + 1) nV) as [H|H].
    - unfold mbind, mwr, mret, bind, wr. cbn.
      destruct (Nat.ltb_spec i (length l)); [|lia]. cbn. rewrite <- splice_upd by lia. now rewrite Nat.add_1_r.
    - now rewrite (failGet_eq l nV).
  Qed.

  (** ** Setters of scalars. *)
  Definition setsP {T} (A : T -> D -> option D) (l : list T) (nV i : nat) (c : Ctl F) (ok : Prop) (k : MF F D SetRes) : Prop :=
    forall e u st i' u' tr, k e c u = Done ((st, i'), u', tr) ->
      match st with
      | OK => exists v d b, nth_error l i = Some v /\ A v (data u) = Some d /\ u' = set_dirty b (set_data d u) /\
                i' = i + 1 /\ i' <= nV /\ ok
      | Error => u' = u
      | _ => False
      end.
  Definition posP {T} (v : T) (l1 l2 : list T) (a b : MF F D SetRes) : Prop :=
    forall e c u, a e c u = match b e c u with
      | Done ((st, k), u', tr) => Done ((st, length l1 + k), u', tr) | UB => UB | NoFuel => NoFuel end.

  Lemma sets_fail T A (l : list T) nV i c ok : setsP A l nV i c ok (failSet i).
  Proof.
    intros e u st i' u' tr E. unfold failSet, mbind, mlogError, mret, bind in E.
    destruct (logErrors c && hasLogger c); inversion E; subst; reflexivity.
  Qed.
  Lemma mut_dirty (u : Mut F D) d : set_data d u = set_dirty (dirty u) (set_data d u).
  Proof. now destruct u. Qed.
  Lemma sets_take1 T (A : T -> D -> option D) f (l : list T) nV i c (ok : Prop) : ok -> (forall v d, A v d = Some (f v d)) ->
    setsP A l nV i c ok (take1 (Some l) nV i f).
  Proof.
    intros Ho HA e u st i' u' tr E. unfold take1, nvalues_ok in E. destruct (Nat.leb_spec (i + 1) nV); [|exact (@sets_fail T A l nV i c ok _ _ _ _ _ _ E)].
    unfold mbind, mrd, mmodd, mmod, mret, bind, rd in E. destruct (nth_error l i) as [v|] eqn:Ev; [|discriminate].
    cbn in E. inversion E; subst. exists v, (f v (data u)), (dirty u). rewrite HA. repeat split; auto; try lia; now destruct u.
  Qed.
  Lemma sets_mod T (A : T -> D -> option D) f (l : list T) nV i c (ok : Prop) v : ok -> (forall d, A v d = Some (f d)) ->
    nth_error l i = Some v -> nvalues_ok i 1 nV = true -> setsP A l nV i c ok (mbind (mmodd f) (fun _ => mret (OK, S i))).
  Proof.
    intros Ho HA Hv Hn e u st i' u' tr E. apply Nat.leb_le in Hn. unfold mbind, mmodd, mmod, mret, bind in E.
    cbn in E. inversion E; subst. exists v, (f (data u)), (dirty u). rewrite HA. repeat split; auto; try lia; now destruct u.
  Qed.
  Lemma sets_dirty T (A : T -> D -> option D) (l : list T) nV i c ok k : setsP A l nV i c ok k -> setsP A l nV i c ok (thenDirty k).
  Proof.
    intros H e u st i' u' tr E. unfold thenDirty, mbind in E. unfold bind in E.
    destruct (k e c u) as [[[[s j] w] t]| |] eqn:G; try discriminate. specialize (H _ _ _ _ _ _ G). cbn [fst] in E.
    destruct s; cbn in E; inversion E; subst; auto.
    destruct H as (v & d & b & A1 & A2 & A3 & A4). exists v, d, true. split; [exact A1|]. split; [exact A2|]. split; [|exact A4].
    subst w. now destruct u.
  Qed.
  Lemma pos_fail T (v : T) l1 l2 : posP v l1 l2 (failSet (length l1)) (failSet 0).
  Proof.
    intros e c u. unfold failSet, mbind, mlogError, mret, bind. destruct (logErrors c && hasLogger c); cbn; now rewrite Nat.add_0_r.
  Qed.
  Lemma rd_mid T (v : T) l1 l2 E S (s : S) : rd (E := E) (Some (l1 ++ v :: l2)) (length l1) s = Done (v, s, []).
  Proof. unfold rd. now rewrite nth_error_app2, Nat.sub_diag by lia. Qed.
  Lemma nv_mid T (v : T) l1 l2 : nvalues_ok (length l1) 1 (length (l1 ++ [v] ++ l2)) = true.
  Proof. unfold nvalues_ok. rewrite app_length. cbn. apply Nat.leb_le. lia. Qed.
  Lemma nv_one : nvalues_ok 0 1 1 = true.
  Proof. reflexivity. Qed.
  Lemma pos_take1 T (v : T) l1 l2 f :
    posP v l1 l2 (take1 (Some (l1 ++ [v] ++ l2)) (length (l1 ++ [v] ++ l2)) (length l1) f) (take1 (Some [v]) 1 0 f).
  Proof.
    intros e c u. unfold take1, nvalues_ok. rewrite app_length. cbn [length app Nat.leb Nat.add].
    rewrite (proj2 (Nat.leb_le _ _)) by lia. unfold mbind, mrd. unfold bind. rewrite rd_mid. change (1 <=? 1) with true. unfold mmodd, mmod, modS, mret, ret. cbn. now rewrite Nat.add_1_r.
  Qed.
  Lemma pos_dirty T (v : T) l1 l2 a b : posP v l1 l2 a b -> posP v l1 l2 (thenDirty a) (thenDirty b).
  Proof.
    intros H e c u. unfold thenDirty, mbind, bind. rewrite H. destruct (b e c u) as [[[[s j] w] t]| |]; auto. cbn [fst].
    destruct s; cbn; reflexivity.
  Qed.
  Lemma pos_ctl T (v : T) l1 l2 a b : (forall c, posP v l1 l2 (a c) (b c)) -> posP v l1 l2 (mbind mctl a) (mbind mctl b).
  Proof.
    intros H e c u. unfold mbind, mctl, bind. cbn. specialize (H c e c u). rewrite H.
    destruct (b c e c u) as [[[[? ?] ?] ?]| |]; reflexivity.
  Qed.
  Lemma pos_rd T (v : T) l1 l2 a b : posP v l1 l2 (a v) (b v) ->
    posP v l1 l2 (mbind (mrd (Some (l1 ++ [v] ++ l2)) (length l1)) a) (mbind (mrd (Some [v]) 0) b).
  Proof.
    intros H e c u. unfold mbind, mrd. unfold bind. cbn [app]. rewrite rd_mid. cbn. specialize (H e c u). rewrite H.
    destruct (b v e c u) as [[[[? ?] ?] ?]| |]; reflexivity.
  Qed.
  Lemma sets_ctl T (A : T -> D -> option D) (l : list T) nV i c ok k : setsP A l nV i c ok (k c) -> setsP A l nV i c ok (mbind mctl k).
  Proof.
    intros H e u st i' u' tr E. unfold mbind, mctl in E. unfold bind in E. cbn in E.
    destruct (k c e c u) as [[[[? ?] ?] ?]| |] eqn:G; inversion E; subst. now apply H in G.
  Qed.
  Lemma sets_rd T (A : T -> D -> option D) (l : list T) nV i c ok k :
    (forall v, nth_error l i = Some v -> setsP A l nV i c ok (k v)) -> setsP A l nV i c ok (mbind (mrd (Some l) i) k).
  Proof.
    intros H e u st i' u' tr E.
    assert (G : exists v, nth_error l i = Some v /\ k v e c u = Done ((st, i'), u', tr)).
    { unfold mbind, mrd, rd in E. unfold bind in E. destruct (nth_error l i) as [v|]; [|discriminate]. exists v. split; [reflexivity|].
      cbn in E. destruct (k v e c u) as [[[[? ?] ?] ?]| |]; inversion E; subst; reflexivity. }
    destruct G as (v & Ev & G). exact (H v Ev _ _ _ _ _ _ G).
  Qed.
  Lemma sets_ub T (A : T -> D -> option D) (l : list T) nV i c ok : setsP A l nV i c ok mub.
  Proof. intros e u st i' u' tr E. discriminate. Qed.
End Tools.

Section Scalar.
  Context {F : Type} {NF : Num F} (m : Model F).
  Notation D := (md m).
  Context (wf : D -> Prop) (calcs : VType -> bool)
    (value : forall t, N -> Ctl F -> D -> option (val F t))
    (assign : forall t, N -> val F t -> D -> option D)
    (recalc : Env -> Ctl F -> D -> D) (outc : Env -> Ctl F -> option (Status * list (Event F))).
  Let c0 : Ctl F := ctl (blank m [] None 0%N CoSimulation false false false).
  Definition sc_value t vr c d : option (list (val F t)) := option_map (fun x => [x]) (value t vr c d).
  Definition sc_size t vr (d : D) : option nat := option_map (fun _ => 1) (value t vr c0 (md0 m)).
  Definition sc_assign t vr (vs : list (val F t)) d : option D := match vs with [x] => assign t vr x d | _ => None end.
  Context
    (H_calc : forall e c u, wf (data u) ->
      match outc e c with
      | None => m_calculateValues m e c u = UB
      | Some (st, tr) => (st = OK \/ st = Error) /\ exists u', m_calculateValues m e c u = Done (st, u', tr) /\
          data u' = recalc e c (data u) /\ wf (data u') /\ (dirty u' = true -> dirty u = true)
      end)
    (H_idem : forall e c d, wf d -> recalc e c (recalc e c d) = recalc e c d)
    (H_mode : forall e c md, outc e (set_mode md c) = outc e c)
    (H_rmode : forall e c md d, recalc e (set_mode md c) d = recalc e c d)
    (H_vmode : forall t vr c md d, value t vr (set_mode md c) d = value t vr c d)
    (H_nocalc : forall t vr e c d, calcs t = false -> wf d -> value t vr c (recalc e c d) = value t vr c d)
    (H_get : forall t vr l nV i e c u, wf (data u) -> nV <= length l ->
      m_get m t vr (Some l) nV i e c u =
      bind ((if calcs t then m_calculateValues m else mret OK) e c) (fun _ u' => put_result (value t vr c (data u')) l nV i c u') u)
    (H_known : forall t vr c d, value t vr c d = None <-> value t vr c0 (md0 m) = None)
    (H_set : forall t vr l nV i e c u st i' u' tr, wf (data u) ->
      m_set m t vr (Some l) nV i e c u = Done ((st, i'), u', tr) ->
      match st with
      | OK => exists v d b, nth_error l i = Some v /\ assign t vr v (data u) = Some d /\ u' = set_dirty b (set_data d u) /\
                i' = i + 1 /\ i' <= nV /\ (exists tr, outc e c = Some (OK, tr))
      | Error => u' = u
      | _ => False
      end)
    (H_assign : forall t vr v d d', wf d -> assign t vr v d = Some d' -> wf d' /\ value t vr c0 (md0 m) <> None)
    (H_pos : forall t vr v l1 l2,
      posP v l1 l2 (m_set m t vr (Some (l1 ++ [v] ++ l2)) (length (l1 ++ [v] ++ l2)) (length l1)) (m_set m t vr (Some [v]) 1 0)).

  Lemma sc_get t vr l nV i e c u : wf (data u) -> nV <= length l ->
    m_get m t vr (Some l) nV i e c u =
    bind ((if calcs t then m_calculateValues m else mret OK) e c) (fun _ u' =>
      match sc_value t vr c (data u') with
      | Some vs => if i + length vs <=? nV
                   then Done ((OK, Some (splice i vs l), i + length vs), u', [])
                   else Done ((Error, Some l, i), u', warn c)
      | None => Done ((Error, Some l, i), u', warn c)
      end) u.
  Proof.
    intros W L. rewrite H_get by auto. apply bind_ext. intros x w.
    unfold sc_value, put_result. destruct (value t vr c (data w)); reflexivity.
  Qed.
  Lemma sc_set t vr l nV i e c u st i' u' tr : wf (data u) ->
    m_set m t vr (Some l) nV i e c u = Done ((st, i'), u', tr) ->
    match st with
    | OK => exists vs d b, vs = firstn (length vs) (skipn i l) /\ (vs = [] \/ i + length vs <= length l) /\
              sc_size t vr (data u) = Some (length vs) /\
              sc_assign t vr vs (data u) = Some d /\ u' = set_dirty b (set_data d u) /\ wf d /\
              i' = i + length vs /\ i' <= nV /\ exists tr, outc e c = Some (OK, tr)
    | Error => u' = u
    | _ => False
    end.
  Proof.
    intros W E. pose proof (@H_set _ _ _ _ _ _ _ _ _ _ _ _ W E) as K. destruct st; auto.
    destruct K as (v & d & b & A1 & A2 & A3 & A4 & A5 & A6). exists [v], d, b.
    destruct (@H_assign _ _ _ _ _ W A2) as (B1 & B2).
    assert (Hi : i < length l) by (apply nth_error_Some; congruence).
    split. { cbn [length]. clear -A1. revert l A1. induction i as [|i IH]; intros [|x l] A1; try discriminate; cbn in *;
      [now injection A1 as ->|auto]. }
    cbn [length]. split; [right; lia|]. split; [|auto 10].
    unfold sc_size. destruct (value t vr c0 (md0 m)); [reflexivity|congruence].
  Qed.
  Lemma sc_pos t vr vs l1 l2 e c u : true = true -> wf (data u) ->
    sc_size t vr (data u) = Some (length vs) \/ (sc_size t vr (data u) = None /\ length vs = 1) ->
    m_set m t vr (Some (l1 ++ vs ++ l2)) (length (l1 ++ vs ++ l2)) (length l1) e c u =
    match m_set m t vr (Some vs) (length vs) 0 e c u with
    | Done ((st, k), u', tr) => Done ((st, length l1 + k), u', tr) | UB => UB | NoFuel => NoFuel end.
  Proof.
    intros _ W H. assert (L : length vs = 1).
    { destruct H as [H|[_ H]]; [|exact H]. unfold sc_size in H. destruct (value _ _ _ _); cbn in H; congruence. }
    destruct vs as [|v [|]]; try discriminate. apply H_pos.
  Qed.
  Lemma sc_vsize t vr c d vs : sc_value t vr c d = Some vs -> sc_size t vr d = Some (length vs).
  Proof.
    unfold sc_value, sc_size. intro H. destruct (value t vr c d) eqn:E; [|discriminate]. injection H as <-.
    destruct (value t vr c0 (md0 m)) eqn:E0; [reflexivity|]. apply (H_known t vr c d) in E0. congruence.
  Qed.
  Definition scalar_laws : VarLaws m.
  Proof.
    refine (@mkVarLaws F m wf calcs sc_value sc_size sc_assign recalc outc H_calc H_idem H_mode H_rmode _ _ sc_get sc_set
      (fun _ => true) (fun t vr vs l1 l2 e c u => @sc_pos t vr vs l1 l2 e c u) sc_vsize _ _).
    - intros. unfold sc_value. now rewrite H_vmode.
    - intros. unfold sc_value. now rewrite H_nocalc.
    - reflexivity.
    - reflexivity.
  Defined.
End Scalar.

(** ** The FMUs. *)
Ltac vals := unfold mbind, mctl, mdata, mret; unfold bind; cbn -[put_result put1 failGet splice];
  first [rewrite put1_eq by assumption | match goal with L : ?nV <= length ?l |- _ => rewrite (failGet_eq l nV) end];
  unfold put_result; repeat match goal with |- context [if ?b then Done _ else _] => destruct b end; reflexivity.
Ltac noget := match goal with L : ?nV <= length ?l |- m_get _ _ _ _ _ ?i ?e ?c ?u = _ =>
  change (failGet (Some l) i e c u = bind (mret OK e c) (fun _ u' => put_result None l nV i c u') u);
  rewrite (failGet_eq l nV); reflexivity end.
Ltac setter := repeat match goal with
  | |- setsP _ _ _ _ _ _ (nnSet (Some _) _ _) => unfold nnSet
  | |- setsP _ _ _ _ _ _ (mbind mctl _) => apply sets_ctl
  | |- setsP _ _ _ _ _ _ (thenDirty _) => apply sets_dirty
  | |- setsP _ _ _ _ _ _ (failSet _) => apply sets_fail
  | |- setsP _ _ _ _ _ _ (set_not_allowed _ _ _ _) => apply sets_fail
  | |- setsP _ _ _ _ _ _ mub => apply sets_ub
  | |- setsP _ _ _ _ _ _ (mbind (mrd _ _) _) => apply sets_rd; intros ? ?
  | |- setsP _ _ _ _ _ _ (take1 _ _ _ _) => apply sets_take1; [eexists; reflexivity|intros; reflexivity]
  | |- setsP _ _ _ _ _ _ (if ?b then _ else _) => destruct b eqn:?
  | |- setsP _ _ _ _ _ _ (match ?x with _ => _ end) => destruct x
  end.
Ltac poser := repeat match goal with
  | |- posP _ _ _ (nnSet (Some _) _ _) _ => unfold nnSet
  | |- posP _ _ _ (mbind mctl _) _ => apply pos_ctl; intro
  | |- posP _ _ _ (thenDirty _) _ => apply pos_dirty
  | |- posP _ _ _ (failSet _) _ => apply pos_fail
  | |- posP _ _ _ (set_not_allowed _ _ _ _) _ => apply pos_fail
  | |- posP _ _ _ (mbind (mrd _ _) _) _ => apply pos_rd
  | |- posP _ _ _ (take1 _ _ _ _) _ => apply pos_take1
  | |- posP _ _ _ (if nvalues_ok _ _ _ then _ else _) _ => rewrite nv_mid, nv_one
  | |- posP _ _ _ (if ?b then _ else _) _ => destruct b
  | |- posP _ _ _ (match ?x with _ => _ end) _ => destruct x
  end.
Ltac ftassign fmi2 A W v :=
  first [ injection A as <-; split; [exact W|discriminate]
        | destruct fmi2; cbn [negb] in A |- *; first [discriminate A | injection A as <-; split; [exact W|discriminate]]
        | destruct v as [b|]; [|discriminate A]; destruct (Nat.leb STRING_MAX_LEN (strlen b)) eqn:?; [discriminate A|];
          injection A as <-; split; [split; [now apply ft_str_bound|apply W]|discriminate] ].
Ltac known := let t := fresh in intros t ? ? ?; destruct t; try (split; reflexivity).
Ltac sets_goal A m := let t := fresh "t" in let vr := fresh "vr" in let l := fresh "l" in let nV := fresh in let i := fresh in let c := fresh "c" in
  let e := fresh in
  intros t vr l nV i e c u st i' u' tr ?W; revert u st i' u' tr W;
  match goal with |- forall u st i' u' tr, _ -> _ -> match st with OK => exists v d b, _ /\ _ /\ _ /\ _ /\ _ /\ ?ok | _ => _ end =>
    let K := fresh in enough (K : setsP (A t vr) l nV i c ok (m_set m t vr (Some l) nV i))
      by (let W := fresh in intros ? ? ? ? ? W; apply K) end.
Section Instances.
  Context {F : Type} {NF : Num F}.
  Definition bb_value (t : VType) (vr : N) (c : Ctl F) (d : BBData F) : option (val F t) :=
    match t with
    | TFloat64 => match bb_var vr with | Some BBtime => Some (time c) | Some BBh => Some (bb_h d) | Some BBder_h => Some (bb_v d) | Some BBv => Some (bb_v d) | Some BBder_v => Some (bb_g d) | Some BBg => Some (bb_g d) | Some BBe => Some (bb_e d) | Some BBv_min => Some V_MIN | _ => None end
    | _ => None
    end.
  Definition bb_assign (t : VType) (vr : N) : val F t -> BBData F -> option (BBData F) :=
    match t with
    | TFloat64 => fun x d => match bb_var vr with | Some BBh => Some (set_bb_h x d) | Some BBv => Some (set_bb_v x d) | Some BBg => Some (set_bb_g x d) | Some BBe => Some (set_bb_e x d) | _ => None end
    | _ => fun _ _ => None
    end.
  Definition bb_laws : VarLaws (BouncingBall_model (F := F)).
  Proof.
    apply (@scalar_laws F NF BouncingBall_model (fun _ => True) (fun t => match t with | TFloat64 => true | _ => false end)
      bb_value bb_assign (fun _ _ d => d) (fun _ _ => Some (OK, []))).
    - intros e c u W. split; [auto|]. eexists. split; [reflexivity|]. split; [reflexivity|]. split; [exact I|]. cbn. auto; discriminate.
    - intros e c d W. reflexivity.
    - reflexivity.
    - reflexivity.
    - intros t vr c md d. destruct t; reflexivity.
    - intros t vr e c d Ht W. reflexivity.
    - intros t vr l nV i e c u W L. destruct t; try noget; cbn [m_get BouncingBall_model]; unfold bb_getFloat64, nnGet;
        apply bind_ext; intros x w; unfold bb_value; destruct (bb_var vr) as [[]|]; vals.
    - known; unfold bb_value; destruct (bb_var _) as [[]|]; split; congruence.
    - sets_goal bb_assign (BouncingBall_model (F := F)).
      destruct t; cbn [m_set BouncingBall_model]; setter; unfold bb_setFloat64, bb_assign; destruct (bb_var vr) as [[]|]; setter.
    - intros t vr v d d' W A. destruct t; try discriminate; unfold bb_value; unfold bb_assign in A;
        destruct (bb_var vr) as [[]|]; try discriminate; (split; [exact I|discriminate]).
    - intros t vr v l1 l2. destruct t; cbn [m_set BouncingBall_model]; poser; unfold bb_setFloat64; poser.
  Defined.
  Definition da_value (t : VType) (vr : N) (c : Ctl F) (d : DAData F) : option (val F t) :=
    match t with
    | TFloat64 => match da_var vr with | Some DAtime => Some (time c) | Some DAx => Some (da_x d) | Some DAder_x => Some (da_der_x d) | Some DAk => Some (da_k d) | _ => None end
    | _ => None
    end.
  Definition da_assign (t : VType) (vr : N) : val F t -> DAData F -> option (DAData F) :=
    match t with
    | TFloat64 => fun x d => match da_var vr with | Some DAx => Some (set_da_x x d) | Some DAk => Some (set_da_k x d) | _ => None end
    | _ => fun _ _ => None
    end.
  Definition da_laws : VarLaws (Dahlquist_model (F := F)).
  Proof.
    apply (@scalar_laws F NF Dahlquist_model (fun _ => True) (fun t => match t with | TFloat64 => true | _ => false end)
      da_value da_assign (fun _ _ d => da_calc d) (fun _ _ => Some (OK, []))).
    - intros e c u W. split; [auto|]. eexists. split; [reflexivity|]. split; [reflexivity|]. split; [exact I|]. cbn. auto; discriminate.
    - intros e c d W. reflexivity.
    - reflexivity.
    - reflexivity.
    - intros t vr c md d. destruct t; reflexivity.
    - intros t vr e c d Ht W. destruct t; try reflexivity; discriminate.
    - intros t vr l nV i e c u W L. destruct t; try noget; cbn [m_get Dahlquist_model]; unfold da_getFloat64, nnGet;
        apply bind_ext; intros x w; unfold da_value; destruct (da_var vr) as [[]|]; vals.
    - known; unfold da_value; destruct (da_var _) as [[]|]; split; congruence.
    - sets_goal da_assign (Dahlquist_model (F := F)).
      destruct t; cbn [m_set Dahlquist_model]; setter; unfold da_setFloat64, da_assign; destruct (da_var vr) as [[]|]; setter.
    - intros t vr v d d' W A. destruct t; try discriminate; unfold da_value; unfold da_assign in A;
        destruct (da_var vr) as [[]|]; try discriminate; (split; [exact I|discriminate]).
    - intros t vr v l1 l2. destruct t; cbn [m_set Dahlquist_model]; poser; unfold da_setFloat64; poser.
  Defined.
  Definition vp_value (t : VType) (vr : N) (c : Ctl F) (d : VPData F) : option (val F t) :=
    match t with
    | TFloat64 => match vp_var vr with | Some VPtime => Some (time c) | Some VPx0 => Some (vp_x0 d) | Some VPder_x0 => Some (vp_der_x0 d) | Some VPx1 => Some (vp_x1 d) | Some VPder_x1 => Some (vp_der_x1 d) | Some VPmu => Some (vp_mu d) | _ => None end
    | _ => None
    end.
  Definition vp_assign (t : VType) (vr : N) : val F t -> VPData F -> option (VPData F) :=
    match t with
    | TFloat64 => fun x d => match vp_var vr with | Some VPx0 => Some (set_vp_x0 x d) | Some VPx1 => Some (set_vp_x1 x d) | Some VPmu => Some (set_vp_mu x d) | _ => None end
    | _ => fun _ _ => None
    end.
  Definition vp_laws : VarLaws (VanDerPol_model (F := F)).
  Proof.
    apply (@scalar_laws F NF VanDerPol_model (fun _ => True) (fun t => match t with | TFloat64 => true | _ => false end)
      vp_value vp_assign (fun _ _ d => vp_calc d) (fun _ _ => Some (OK, []))).
    - intros e c u W. split; [auto|]. eexists. split; [reflexivity|]. split; [reflexivity|]. split; [exact I|]. cbn. auto; discriminate.
    - intros e c d W. reflexivity.
    - reflexivity.
    - reflexivity.
    - intros t vr c md d. destruct t; reflexivity.
    - intros t vr e c d Ht W. destruct t; try reflexivity; discriminate.
    - intros t vr l nV i e c u W L. destruct t; try noget; cbn [m_get VanDerPol_model]; unfold vp_getFloat64, nnGet;
        apply bind_ext; intros x w; unfold vp_value; destruct (vp_var vr) as [[]|]; vals.
    - known; unfold vp_value; destruct (vp_var _) as [[]|]; split; congruence.
    - sets_goal vp_assign (VanDerPol_model (F := F)).
      destruct t; cbn [m_set VanDerPol_model]; setter; unfold vp_setFloat64, vp_assign; destruct (vp_var vr) as [[]|]; setter.
    - intros t vr v d d' W A. destruct t; try discriminate; unfold vp_value; unfold vp_assign in A;
        destruct (vp_var vr) as [[]|]; try discriminate; (split; [exact I|discriminate]).
    - intros t vr v l1 l2. destruct t; cbn [m_set VanDerPol_model]; poser; unfold vp_setFloat64; poser.
  Defined.
  Definition st_value (t : VType) (vr : N) (c : Ctl F) (d : STData) : option (val F t) :=
    match t with
    | TFloat64 => match st_var vr with | Some STtime => Some (time c) | _ => None end
    | TInt32 => match st_var vr with | Some STcounter => Some (st_counter d) | _ => None end
    | _ => None
    end.
  Definition st_assign (t : VType) (vr : N) : val F t -> STData -> option (STData) :=
    match t with
    | TInt32 => fun x d => match st_var vr with | Some STcounter => Some (mkST x) | _ => None end
    | _ => fun _ _ => None
    end.
  Definition st_laws : VarLaws (Stair_model (F := F)).
  Proof.
    apply (@scalar_laws F NF Stair_model (fun _ => True) (fun t => match t with | TFloat64 => true | TInt32 => true | _ => false end)
      st_value st_assign (fun _ _ d => d) (fun _ _ => Some (OK, []))).
    - intros e c u W. split; [auto|]. eexists. split; [reflexivity|]. split; [reflexivity|]. split; [exact I|]. cbn. auto; discriminate.
    - intros e c d W. reflexivity.
    - reflexivity.
    - reflexivity.
    - intros t vr c md d. destruct t; reflexivity.
    - intros t vr e c d Ht W. reflexivity.
    - intros t vr l nV i e c u W L. destruct t; try noget; cbn [m_get Stair_model]; unfold st_getFloat64, st_getInt32, nnGet;
        apply bind_ext; intros x w; unfold st_value; destruct (st_var vr) as [[]|]; vals.
    - known; unfold st_value; destruct (st_var _) as [[]|]; split; congruence.
    - sets_goal st_assign (Stair_model (F := F)).
      destruct t; cbn [m_set Stair_model]; setter; unfold st_setInt32, st_assign; destruct (st_var vr) as [[]|]; setter.
    - intros t vr v d d' W A. destruct t; try discriminate; unfold st_value; unfold st_assign in A;
        destruct (st_var vr) as [[]|]; try discriminate; (split; [exact I|discriminate]).
    - intros t vr v l1 l2. destruct t; cbn [m_set Stair_model]; poser; unfold st_setInt32; poser.
  Defined.
  Definition ro_value (t : VType) (vr : N) (c : Ctl F) (d : ROData F) : option (val F t) :=
    match t with
    | TFloat64 => match ro_var vr with | Some ROtime => Some (time c) | Some ROy1 => Some (ro_y1 d) | Some ROder_y1 => Some (ro_der_y1 d) | Some ROy2 => Some (ro_y2 d) | Some ROder_y2 => Some (ro_der_y2 d) | Some ROy3 => Some (ro_y3 d) | Some ROy3_nominal => Some (nlit 1 (-2)) | Some ROr => Some (ro_r d) | Some ROg1 => Some (ro_g1 d) | Some ROg2 => Some (ro_g2 d) | _ => None end
    | TBoolean => match ro_var vr with | Some ROdae => Some (ro_dae d) | _ => None end
    | _ => None
    end.
  Definition ro_assign (t : VType) (vr : N) : val F t -> ROData F -> option (ROData F) :=
    match t with
    | TFloat64 => fun x d => match ro_var vr with | Some ROy1 => Some (set_ro_y1 x d) | Some ROy2 => Some (set_ro_y2 x d) | Some ROy3 => Some (set_ro_y3 x d) | _ => None end
    | TBoolean => fun x d => match ro_var vr with | Some ROdae => Some (set_ro_dae x d) | _ => None end
    | _ => fun _ _ => None
    end.
  Definition ro_laws : VarLaws (Roberts_model (F := F)).
  Proof.
    apply (@scalar_laws F NF Roberts_model (fun _ => True) (fun t => match t with | TFloat64 => true | TBoolean => true | _ => false end)
      ro_value ro_assign (fun _ _ d => ro_calc d) (fun _ _ => Some (OK, []))).
    - intros e c u W. split; [auto|]. eexists. split; [reflexivity|]. split; [reflexivity|]. split; [exact I|]. cbn. auto; discriminate.
    - intros e c d W. destruct d as [[]]; reflexivity.
    - reflexivity.
    - reflexivity.
    - intros t vr c md d. destruct t; reflexivity.
    - intros t vr e c d Ht W. destruct t; try reflexivity; discriminate.
    - intros t vr l nV i e c u W L. destruct t; try noget; cbn [m_get Roberts_model]; unfold ro_getFloat64, ro_getBoolean, nnGet;
        apply bind_ext; intros x w; unfold ro_value; destruct (ro_var vr) as [[]|]; vals.
    - known; unfold ro_value; destruct (ro_var _) as [[]|]; split; congruence.
    - sets_goal ro_assign (Roberts_model (F := F)).
      destruct t; cbn [m_set Roberts_model]; setter; unfold ro_setFloat64, ro_setBoolean, ro_assign; destruct (ro_var vr) as [[]|]; setter.
    - intros t vr v d d' W A. destruct t; try discriminate; unfold ro_value; unfold ro_assign in A;
        destruct (ro_var vr) as [[]|]; try discriminate; (split; [exact I|discriminate]).
    - intros t vr v l1 l2. destruct t; cbn [m_set Roberts_model]; poser; unfold ro_setFloat64, ro_setBoolean; poser.
  Defined.
  Definition cl_value (t : VType) (vr : N) (c : Ctl F) (d : CLData F) : option (val F t) :=
    match t with
    | TFloat64 => match cl_var vr with | Some CLtime => Some (time c) | _ => None end
    | TInt32 => match cl_var vr with | Some CLinClock1Ticks => Some (cl_t1 d) | Some CLinClock2Ticks => Some (cl_t2 d) | Some CLinClock3Ticks => Some (cl_t3 d) | Some CLtotal => Some (cl_total d) | Some CLresult2 => Some (cl_result2 d) | Some CLinput2 => Some (cl_input2 d) | Some CLoutput3 => Some (cl_output3 d) | _ => None end
    | _ => None
    end.
  Definition cl_assign (t : VType) (vr : N) : val F t -> CLData F -> option (CLData F) :=
    match t with
    | TInt32 => fun x d => match cl_var vr with | Some CLinput2 => Some (set_cl_input2 x d) | _ => None end
    | _ => fun _ _ => None
    end.
  Definition cl_laws : VarLaws (Clocks_model (F := F)).
  Proof.
    apply (@scalar_laws F NF Clocks_model (fun _ => True) (fun _ => false)
      cl_value cl_assign (fun _ _ d => d) (fun _ _ => Some (OK, []))).
    - intros e c u W. split; [auto|]. eexists. split; [reflexivity|]. split; [reflexivity|]. split; [exact I|]. cbn. auto; discriminate.
    - intros e c d W. reflexivity.
    - reflexivity.
    - reflexivity.
    - intros t vr c md d. destruct t; reflexivity.
    - intros t vr e c d Ht W. reflexivity.
    - intros t vr l nV i e c u W L. destruct t; try noget; cbn [m_get Clocks_model]; unfold cl_getFloat64, cl_getInt32;
        (destruct (nvalues_ok i 1 nV) eqn:Nv; cbn [negb];
         [unfold cl_value; destruct (cl_var vr) as [[]|]; vals
         |unfold nvalues_ok in Nv; rewrite (failGet_eq l nV); unfold put_result, mret, bind, ret; cbn -[cl_value Nat.leb Nat.add]; rewrite Nv;
          match goal with |- context [cl_value ?t vr c ?d] => destruct (cl_value t vr c d) end; reflexivity]).
    - known; unfold cl_value; destruct (cl_var _) as [[]|]; split; congruence.
    - sets_goal cl_assign (Clocks_model (F := F)).
      destruct t; cbn [m_set Clocks_model]; setter; unfold cl_setInt32, cl_assign; destruct (cl_var vr) as [[]|]; setter.
    - intros t vr v d d' W A. destruct t; try discriminate; unfold cl_value; unfold cl_assign in A;
        destruct (cl_var vr) as [[]|]; try discriminate; (split; [exact I|discriminate]).
    - intros t vr v l1 l2. destruct t; cbn [m_set Clocks_model]; poser; unfold cl_setInt32; rewrite nv_mid, nv_one; cbn [negb]; poser.
  Defined.
  Definition ft_value (fmi2 : bool) (t : VType) (vr : N) (c : Ctl F) (d : FTData F) : option (val F t) :=
    match t with
    | TFloat32 => match ft_var vr with | Some FTf32c_in => Some (ft_f32c_in d) | Some FTf32c_out => Some (ft_f32c_out d) | Some FTf32d_in => Some (ft_f32d_in d) | Some FTf32d_out => Some (ft_f32d_out d) | _ => None end
    | TFloat64 => match ft_var vr with | Some FTtime => Some (time c) | Some FTf64_fixed => Some (ft_f64_fixed d) | Some FTf64_tunable => Some (ft_f64_tunable d) | Some FTf64c_in => Some (ft_f64c_in d) | Some FTf64c_out => Some (ft_f64c_out d) | Some FTf64d_in => Some (ft_f64d_in d) | Some FTf64d_out => Some (ft_f64d_out d) | _ => None end
    | TInt8 => match ft_var vr with | Some FTi8_in => Some (ft_i8_in d) | Some FTi8_out => Some (ft_i8_out d) | _ => None end
    | TUInt8 => match ft_var vr with | Some FTu8_in => Some (ft_u8_in d) | Some FTu8_out => Some (ft_u8_out d) | _ => None end
    | TInt16 => match ft_var vr with | Some FTi16_in => Some (ft_i16_in d) | Some FTi16_out => Some (ft_i16_out d) | _ => None end
    | TUInt16 => match ft_var vr with | Some FTu16_in => Some (ft_u16_in d) | Some FTu16_out => Some (ft_u16_out d) | _ => None end
    | TInt32 => match ft_var vr with | Some FTi32_in => Some (ft_i32_in d) | Some FTi32_out => Some (ft_i32_out d) | Some FTenum_in => (if fmi2 then Some (ft_enum_in d) else None) | Some FTenum_out => (if fmi2 then Some (ft_enum_out d) else None) | _ => None end
    | TUInt32 => match ft_var vr with | Some FTu32_in => Some (ft_u32_in d) | Some FTu32_out => Some (ft_u32_out d) | _ => None end
    | TInt64 => match ft_var vr with | Some FTi64_in => Some (ft_i64_in d) | Some FTi64_out => Some (ft_i64_out d) | Some FTenum_in => (if negb fmi2 then Some (ft_enum_in d) else None) | Some FTenum_out => (if negb fmi2 then Some (ft_enum_out d) else None) | _ => None end
    | TUInt64 => match ft_var vr with | Some FTu64_in => Some (ft_u64_in d) | Some FTu64_out => Some (ft_u64_out d) | _ => None end
    | TBoolean => match ft_var vr with | Some FTbool_in => Some (ft_bool_in d) | Some FTbool_out => Some (ft_bool_out d) | _ => None end
    | TString => match ft_var vr with | Some FTstr_in => Some (Some (ft_str_in d)) | Some FTstr_out => Some (Some (ft_str_out d)) | _ => None end
    end.
  Definition ft_assign (fmi2 : bool) (t : VType) (vr : N) : val F t -> FTData F -> option (FTData F) :=
    match t with
    | TFloat32 => fun x d => match ft_var vr with | Some FTf32c_in => Some (set_ft_f32c_in x d) | Some FTf32d_in => Some (set_ft_f32d_in x d) | _ => None end
    | TFloat64 => fun x d => match ft_var vr with | Some FTf64_fixed => Some (set_ft_f64_fixed x d) | Some FTf64_tunable => Some (set_ft_f64_tunable x d) | Some FTf64c_in => Some (set_ft_f64c_in x d) | Some FTf64d_in => Some (set_ft_f64d_in x d) | _ => None end
    | TInt8 => fun x d => match ft_var vr with | Some FTi8_in => Some (set_ft_i8_in x d) | _ => None end
    | TUInt8 => fun x d => match ft_var vr with | Some FTu8_in => Some (set_ft_u8_in x d) | _ => None end
    | TInt16 => fun x d => match ft_var vr with | Some FTi16_in => Some (set_ft_i16_in x d) | _ => None end
    | TUInt16 => fun x d => match ft_var vr with | Some FTu16_in => Some (set_ft_u16_in x d) | _ => None end
    | TInt32 => fun x d => match ft_var vr with | Some FTi32_in => Some (set_ft_i32_in x d) | Some FTenum_in => (if fmi2 then Some (set_ft_enum_in x d) else None) | _ => None end
    | TUInt32 => fun x d => match ft_var vr with | Some FTu32_in => Some (set_ft_u32_in x d) | _ => None end
    | TInt64 => fun x d => match ft_var vr with | Some FTi64_in => Some (set_ft_i64_in x d) | Some FTenum_in => (if negb fmi2 then Some (set_ft_enum_in x d) else None) | _ => None end
    | TUInt64 => fun x d => match ft_var vr with | Some FTu64_in => Some (set_ft_u64_in x d) | _ => None end
    | TBoolean => fun x d => match ft_var vr with | Some FTbool_in => Some (set_ft_bool_in x d) | Some FTbool_out => Some (set_ft_bool_out x d) | _ => None end
    | TString => fun x d => match ft_var vr with | Some FTstr_in => (match x with Some b => if Nat.leb STRING_MAX_LEN (strlen b) then None else Some (set_ft_str_in (cstr b) d) | None => None end) | _ => None end
    end.
  Definition ft_laws (fmi2 : bool) : VarLaws (Feedthrough_model (F := F) fmi2).
  Proof.
    apply (@scalar_laws F NF (Feedthrough_model fmi2) (fun d => Nat.ltb (length (ft_str_in d)) STRING_MAX_LEN = true /\ Nat.leb (length (ft_bin_in d)) BINARY_MAX_LEN = true) (fun t => match t with | TFloat32 => true | TFloat64 => true | TInt8 => true | TUInt8 => true | TInt16 => true | TUInt16 => true | TInt32 => true | TUInt32 => true | TInt64 => true | TUInt64 => true | TBoolean => true | TString => true end)
      (ft_value fmi2) (ft_assign fmi2) (fun _ _ d => ft_calc d) (fun _ _ => Some (OK, []))).
    - intros e c u (W1 & W2). split; [auto|]. cbn [m_calculateValues Feedthrough_model]. unfold ft_calculateValues, mbind, mdata. unfold bind. cbv beta iota zeta. cbn [md Feedthrough_model] in *.
      rewrite W1, W2. eexists. split; [reflexivity|]. split; [reflexivity|]. split; [split; assumption|]. cbn. discriminate.
    - intros e c d W. reflexivity.
    - reflexivity.
    - reflexivity.
    - intros t vr c md d. destruct t; reflexivity.
    - intros t vr e c d Ht W. destruct t; discriminate.
    - intros t vr l nV i e c u W L. destruct t; try noget; cbn [m_get Feedthrough_model]; unfold ft_getFloat32, ft_getFloat64, ft_getInt8, ft_getUInt8, ft_getInt16, ft_getUInt16, ft_getInt32, ft_getUInt32, ft_getInt64, ft_getUInt64, ft_getBoolean, ft_getString, nnGet;
        apply bind_ext; intros x w; unfold ft_value; destruct (ft_var vr) as [[]|]; try vals; destruct fmi2; cbn [negb]; vals.
    - known; unfold ft_value; destruct (ft_var _) as [[]|]; try (split; congruence); destruct fmi2; cbn [negb]; split; congruence.
    - sets_goal (ft_assign fmi2) (Feedthrough_model (F := F) fmi2).
      destruct t; cbn [m_set Feedthrough_model]; setter; unfold ft_setFloat32, ft_setFloat64, ft_setInt8, ft_setUInt8, ft_setInt16, ft_setUInt16, ft_setInt32, ft_setUInt32, ft_setInt64, ft_setUInt64, ft_setBoolean, ft_setString, ft_assign; destruct (ft_var vr) as [[]|]; setter; try (apply sets_ub); try (destruct fmi2; setter; fail);
      try (destruct (negb fmi2); setter; fail);
      (eapply sets_mod; [eexists; reflexivity| |eassumption|assumption]; intro; cbn -[STRING_MAX_LEN Nat.leb set_ft_str_in strlen]; match goal with H : Nat.leb STRING_MAX_LEN _ = _ |- _ => rewrite H end; reflexivity).
    - intros t vr v d d' W A. destruct t; try discriminate; unfold ft_value; unfold ft_assign in A;
        destruct (ft_var vr) as [[]|]; try discriminate; ftassign fmi2 A W v.
    - intros t vr v l1 l2. destruct t; cbn [m_set Feedthrough_model]; poser; unfold ft_setFloat32, ft_setFloat64, ft_setInt8, ft_setUInt8, ft_setInt16, ft_setUInt16, ft_setInt32, ft_setUInt32, ft_setInt64, ft_setUInt64, ft_setBoolean, ft_setString; poser; try (destruct fmi2; poser; fail); try (intros e c u; reflexivity); intros e c u; unfold mbind, mmodd, mmod, modS, mret, bind, ret; cbn; now rewrite Nat.add_1_r.
  Defined.

  (** Resource: calculateValues reads the file. *)
  Definition re_path (fmi2 : bool) (loc : bytes) : option (option bytes) :=   (* None: undefined *)
    if fmi2 then Some (path2 (cstr loc)) else option_map Some (path3 (cstr loc)).
  Definition re_file (fmi2 : bool) (e : Env) (c : Ctl F) : option (option Z) :=
    match resourceLocation c with
    | None => Some None
    | Some loc => match re_path fmi2 loc with
                  | None => None
                  | Some None => Some None
                  | Some (Some p) => Some (env_file e p)
                  end
    end.
  Definition re_out (fmi2 : bool) (e : Env) (c : Ctl F) : option (Status * list (Event F)) :=
    match re_file fmi2 e c with
    | None => None
    | Some None => Some (Error, warn c)
    | Some (Some _) => Some (OK, [])
    end.
  Definition re_recalc (fmi2 : bool) (e : Env) (c : Ctl F) (d : REData) : REData :=
    match re_file fmi2 e c with Some (Some y) => mkRE y | _ => d end.
  Definition re_value (t : VType) (vr : N) (c : Ctl F) (d : REData) : option (val F t) :=
    match t with
    | TFloat64 => match re_var vr with Some REtime => Some (time c) | _ => None end
    | TInt32 => match re_var vr with Some REy => Some (re_y d) | _ => None end
    | _ => None
    end.
  Lemma re_calc_eq fmi2 e c (u : Mut F REData) :
    match re_out fmi2 e c with
    | None => re_calculateValues fmi2 e c u = UB
    | Some (st, tr) => (st = OK \/ st = Error) /\ exists u', re_calculateValues fmi2 e c u = Done (st, u', tr) /\
        data u' = re_recalc fmi2 e c (data u) /\ True /\ (dirty u' = true -> dirty u = true)
    end.
  Proof.
    assert (Hf : fail (F := F) (D := REData) e c u = Done (Error, u, warn c)).
    { unfold fail, mbind, mlogError, mret, warn, bind. destruct (logErrors c && hasLogger c); reflexivity. }
    assert (B : forall (k : MF F REData Status), (k e c u = Done (Error, u, warn c) ->
        exists u', k e c u = Done (Error, u', warn c) /\ data u' = data u /\ True /\ (dirty u' = true -> dirty u = true))).
    { intros k ->. exists u. auto. }
    unfold re_calculateValues, mbind, mctl. unfold bind. cbv beta iota. cbn [ret].
    unfold re_out, re_recalc, re_file, re_path. destruct (resourceLocation c) as [loc|].
    2: { split; [auto|]. exists u. rewrite Hf. auto. }
    assert (R : forall q, match match env_file e q with Some _ => Some (OK, []) | None => Some (Error, warn c) end with
                None => False
              | Some (st, tr) => (st = OK \/ st = Error) /\ exists u', re_read q e c u = Done (st, u', tr) /\
                  data u' = match env_file e q with Some y => mkRE y | None => data u end /\ True /\ (dirty u' = true -> dirty u = true) end).
    { intro q. unfold re_read, mbind, menv. unfold bind. cbv beta iota. cbn [ret]. destruct (env_file e q) as [y|].
      - split; [auto|]. eexists. split; [reflexivity|]. cbn. split; [reflexivity|]. split; [exact I|]. discriminate.
      - split; [auto|]. exists u. rewrite Hf. auto. }
    destruct fmi2.
    - destruct (path2 (cstr loc)) as [q|].
      + specialize (R q). destruct (env_file e q); destruct R as (R0 & u' & R1 & R2); (split; [exact R0|]); exists u'; rewrite R1; auto.
      + split; [auto|]. exists u. rewrite Hf. auto.
    - destruct (path3 (cstr loc)) as [q|]; cbn [option_map]; [|reflexivity].
      specialize (R q). destruct (env_file e q); destruct R as (R0 & u' & R1 & R2); (split; [exact R0|]); exists u'; rewrite R1; auto.
  Qed.
  Definition re_laws (fmi2 : bool) : VarLaws (Resource_model (F := F) fmi2).
  Proof.
    apply (@scalar_laws F NF (Resource_model fmi2) (fun _ => True) (fun t => match t with TFloat64 | TInt32 => true | _ => false end)
      re_value (fun _ _ _ _ => None) (re_recalc fmi2) (re_out fmi2)).
    - intros e c u _. apply re_calc_eq.
    - intros e c d _. unfold re_recalc. destruct (re_file fmi2 e c) as [[]|]; reflexivity.
    - reflexivity.
    - reflexivity.
    - intros t vr c md d. destruct t; reflexivity.
    - intros t vr e c d Ht W. destruct t; reflexivity || discriminate.
    - intros t vr l nV i e c u W L. destruct t; try noget; cbn [m_get Resource_model]; unfold re_getFloat64, re_getInt32, nnGet;
        apply bind_ext; intros x w; unfold re_value; destruct (re_var vr) as [[]|]; vals.
    - known; unfold re_value; destruct (re_var _) as [[]|]; split; congruence.
    - intros t vr l nV i e c u st i' u' tr W E. change (failSet i e c u = Done (st, i', u', tr)) in E.
      unfold failSet, mbind, mlogError, mret, bind in E. destruct (logErrors c && hasLogger c); inversion E; subst; reflexivity.
    - discriminate.
    - intros t vr v l1 l2. apply pos_fail.
  Defined.

  (** StateSpace. *)
  Definition ss_value (t : VType) (vr : N) (c : Ctl F) (d : SSData F) : option (list (val F t)) :=
    match t with
    | TFloat64 =>
        match ss_var vr with
        | Some SStime => Some [time c]
        | Some SSA => option_map (@concat F) (sub2 (ss_n d) (ss_n d) (ss_A d))
        | Some SSB => option_map (@concat F) (sub2 (ss_m d) (ss_n d) (ss_B d))
        | Some SSC => option_map (@concat F) (sub2 (ss_r d) (ss_n d) (ss_C d))
        | Some SSD => option_map (@concat F) (sub2 (ss_r d) (ss_m d) (ss_D d))
        | Some SSx0 => sub1 (ss_n d) (ss_x0 d)
        | Some SSu => sub1 (ss_m d) (ss_u d)
        | Some SSy => sub1 (ss_r d) (ss_y d)
        | Some SSx => sub1 (ss_n d) (ss_x d)
        | Some SSder_x => sub1 (ss_n d) (ss_der_x d)
        | _ => None
        end
    | TUInt64 =>
        match ss_var vr with
        | Some SSm => Some [N.of_nat (ss_m d)]
        | Some SSn => Some [N.of_nat (ss_n d)]
        | Some SSr => Some [N.of_nat (ss_r d)]
        | _ => None
        end
    | _ => None
    end.
  Definition ss_size (t : VType) (vr : N) (d : SSData F) : option nat :=
    match t with
    | TFloat64 =>
        match ss_var vr with
        | Some SStime => Some 1
        | Some SSA => Some (ss_n d * ss_n d)
        | Some SSB => Some (ss_n d * ss_m d)
        | Some SSC => Some (ss_r d * ss_n d)
        | Some SSD => Some (ss_r d * ss_m d)
        | Some SSx0 | Some SSx | Some SSder_x => Some (ss_n d)
        | Some SSu => Some (ss_m d)
        | Some SSy => Some (ss_r d)
        | _ => None
        end
    | TUInt64 => match ss_var vr with Some SSm | Some SSn | Some SSr => Some 1 | _ => None end
    | _ => None
    end.
  Definition ss_assign (t : VType) (vr : N) : list (val F t) -> SSData F -> option (SSData F) :=
    match t with
    | TFloat64 => fun l d =>
        match ss_var vr with
        | Some SSA => option_map (fun a => set_ss_A a d) (paste2 (ss_n d) (ss_n d) l (ss_A d))
        | Some SSB => option_map (fun a => set_ss_B a d) (paste2 (ss_n d) (ss_m d) l (ss_B d))
        | Some SSC => option_map (fun a => set_ss_C a d) (paste2 (ss_r d) (ss_n d) l (ss_C d))
        | Some SSD => option_map (fun a => set_ss_D a d) (paste2 (ss_r d) (ss_m d) l (ss_D d))
        | Some SSx0 => option_map (fun a => set_ss_x0 a d) (paste1 l (ss_x0 d))
        | Some SSu => option_map (fun a => set_ss_u a d) (paste1 l (ss_u d))
        | Some SSx => option_map (fun a => set_ss_x a d) (paste1 l (ss_x d))
        | _ => None
        end
    | TUInt64 => fun l d =>
        match l with
        | [x] =>
            if N.ltb (N.of_nat SS_MAX) x then None else
            match ss_var vr with
            | Some SSm => Some (set_ss_m (N.to_nat x) d)
            | Some SSn => Some (set_ss_n (N.to_nat x) d)
            | Some SSr => Some (set_ss_r (N.to_nat x) d)
            | _ => None
            end
        | _ => None
        end
    | _ => fun _ _ => None
    end.
  Definition ss_recalc (d : SSData F) : SSData F := match ss_calc d with Some d' => d' | None => d end.

  Lemma sub2_length T rows cols : forall (a : list (list T)) l, sub2 rows cols a = Some l ->
    length (concat l) = rows * cols.
  Proof.
    induction rows as [|rows IH]; intros a l E; cbn in E; [injection E as <-; reflexivity|].
    destruct a as [|r a]; [discriminate|]. destruct (sub1 cols r) as [x|] eqn:E1; [|discriminate].
    destruct (sub2 rows cols a) as [y|] eqn:E2; [|discriminate]. injection E as <-. cbn [concat]. rewrite app_length.
    apply sub1_length in E1. rewrite (IH _ _ E2). cbn. lia.
  Qed.
  Lemma sub1_some T n (v : list T) : n <= length v -> sub1 n v = Some (firstn n v).
  Proof. intro H. unfold sub1. now rewrite (proj2 (Nat.leb_le _ _)). Qed.
  Lemma sub2_some rows cols : forall (a : list (list F)), rows <= length a -> cols <= SS_MAX -> Forall (row (F := F)) a ->
    exists l, sub2 rows cols a = Some l.
  Proof.
    induction rows as [|rows IH]; intros a L C W; cbn; [eauto|]. destruct a as [|r a]; [cbn in L; lia|].
    inversion W; subst. rewrite sub1_some by (unfold row in *; lia). cbn in L.
    destruct (IH a ltac:(lia) C H2) as (y & ->). eauto.
  Qed.
  Lemma putl_eq e c (u : Mut F (SSData F)) : forall (vs l : list F) i, i + length vs <= length l ->
    putl (Some l) i vs e c u = Done ((OK, Some (splice i vs l), i + length vs), u, []).
  Proof.
    induction vs as [|v vs IH]; intros l i H; cbn [putl length] in *.
    - now rewrite splice_nil, Nat.add_0_r.
    - change (putl (Some l) i (v :: vs)) with (mbind (F := F) (D := SSData F) (mwr (Some l) i v) (fun b => putl b (S i) vs)).
      unfold mbind, mwr, wr. unfold bind. cbv beta. destruct (Nat.ltb_spec i (length l)); [|lia]. unfold ret. cbv beta iota.
      rewrite splice_upd by lia. rewrite IH by (rewrite splice_length; cbn; lia). cbn [app].
      replace (S i) with (i + length [v]) by (cbn; lia). rewrite splice_splice by (cbn; lia). cbn. do 4 f_equal. lia.
  Qed.
  Lemma putarr_eq (l : list F) nV i vs e c (u : Mut F (SSData F)) : nV <= length l ->
    putarr (Some l) nV i (Some vs) e c u =
    if i + length vs <=? nV then Done ((OK, Some (splice i vs l), i + length vs), u, [])
    else Done ((Error, Some l, i), u, warn c).
  Proof.
    intro L. unfold putarr, nvalues_ok. destruct (Nat.leb_spec (i + length vs) nV) as [H|H].
    - apply putl_eq. lia.
    - now rewrite (failGet_eq l nV).
  Qed.
  Lemma takel_Done T e c (u : Mut F (SSData F)) : forall n (l : list T) i x w t, takel (Some l) i n e c u = Done (x, w, t) ->
    x = firstn n (skipn i l) /\ length x = n /\ (n = 0 \/ i + n <= length l) /\ w = u /\ t = [].
  Proof.
    induction n as [|n IH]; intros l i x w t E; idtac.
    - inversion E; subst. cbn. auto.
    - change (mbind (F := F) (D := SSData F) (mrd (Some l) i) (fun v => mbind (takel (Some l) (S i) n) (fun l0 => mret (v :: l0))) e c u = Done (x, w, t)) in E.
      unfold mbind in E. apply bind_Done in E as (v & u1 & t1 & t2 & E1 & E2 & ->).
      unfold mrd, rd in E1. destruct (nth_error l i) as [v'|] eqn:Ev; [|discriminate]. inversion E1; subst.
      apply bind_Done in E2 as (y & u2 & t3 & t4 & E3 & E4 & ->). inversion E4; subst.
      destruct (IH _ _ _ _ _ E3) as (-> & L & Hn & -> & ->).
      assert (Hi : i < length l) by (apply nth_error_Some; congruence).
      assert (Es : skipn i l = v :: skipn (S i) l).
      { clear -Ev. revert l Ev. induction i as [|i IH]; intros [|a l] Ev; try discriminate; cbn in *; [congruence|]. now rewrite IH. }
      rewrite Es. cbn [firstn length]. rewrite L. repeat split; auto. right. lia.
  Qed.
  Lemma takel_eq T e c (u : Mut F (SSData F)) (l2 : list T) : forall vs l1,
    takel (Some (l1 ++ vs ++ l2)) (length l1) (length vs) e c u = Done (vs, u, []).
  Proof.
    induction vs as [|v vs IH]; intro l1; cbn [length]; [reflexivity|].
    change (takel (Some (l1 ++ (v :: vs) ++ l2)) (length l1) (S (length vs))) with (mbind (F := F) (D := SSData F) (mrd (Some (l1 ++ v :: vs ++ l2)) (length l1)) (fun v0 => mbind (takel (Some (l1 ++ v :: vs ++ l2)) (S (length l1)) (length vs)) (fun l0 => mret (v0 :: l0)))).
    unfold mbind, mrd. unfold bind. rewrite rd_mid. cbv beta iota.
    specialize (IH (l1 ++ [v])). rewrite app_length in IH. cbn [length] in IH. rewrite Nat.add_1_r, <- app_assoc in IH. cbn [app] in IH.
    rewrite IH. reflexivity.
  Qed.

  Lemma ss_recalc_eq d : shape d -> exists dx y, length dx = ss_n d /\ length y = ss_r d /\
    lin (ss_n d) (ss_n d) (ss_r d) (ss_A d) (ss_B d) (ss_x d) (ss_u d) = Some dx /\
    lin (ss_r d) (ss_n d) (ss_m d) (ss_C d) (ss_D d) (ss_x d) (ss_u d) = Some y /\
    ss_recalc d = set_ss_y (y ++ skipn (ss_r d) (ss_y d)) (set_ss_der_x (dx ++ skipn (ss_n d) (ss_der_x d)) d).
  Proof.
    intro W. destruct (ss_calc_some W) as (dx & y & L1 & L2 & E1 & E2 & E). exists dx, y. unfold ss_recalc. rewrite E. auto.
  Qed.
  Lemma ss_recalc_shape d : shape d -> shape (ss_recalc d).
  Proof.
    intro W. destruct (ss_recalc_eq W) as (dx & y & L1 & L2 & _ & _ & ->). destruct W. unfold row in *.
    constructor; cbn; auto; unfold row; rewrite app_length, skipn_length; lia.
  Qed.
  Lemma ss_recalc_idem d : shape d -> ss_recalc (ss_recalc d) = ss_recalc d.
  Proof.
    intro W. pose proof (ss_recalc_shape W) as W'. destruct (ss_recalc_eq W') as (dx' & y' & L1' & L2' & E1' & E2' & ->).
    destruct (ss_recalc_eq W) as (dx & y & L1 & L2 & E1 & E2 & E). rewrite E in *. cbn in *.
    rewrite E1 in E1'. rewrite E2 in E2'. injection E1' as <-. injection E2' as <-.
    unfold set_ss_y, set_ss_der_x. cbn.
    replace (skipn (ss_n d) (dx ++ skipn (ss_n d) (ss_der_x d))) with (skipn (ss_n d) (ss_der_x d))
      by (rewrite <- L1 at 2; rewrite skipn_app, skipn_all, Nat.sub_diag; reflexivity).
    replace (skipn (ss_r d) (y ++ skipn (ss_r d) (ss_y d))) with (skipn (ss_r d) (ss_y d))
      by (rewrite <- L2 at 2; rewrite skipn_app, skipn_all, Nat.sub_diag; reflexivity).
    reflexivity.
  Qed.
  Lemma ss_calc_do e c (u : Mut F (SSData F)) : shape (data u) ->
    ss_calculateValues e c u = Done (OK, set_dirty false (set_data (ss_recalc (data u)) u), []).
  Proof.
    intro W. destruct (ss_calc_some W) as (dx & y & _ & _ & _ & _ & E). unfold ss_calculateValues, mbind, mdata. unfold bind. cbv beta iota.
    unfold ss_recalc. rewrite E. reflexivity.
  Qed.
  Lemma ss_value_known vr c d : shape d -> ss_value TFloat64 vr c d = None <-> ss_size TFloat64 vr d = None.
  Proof.
    intros []. destruct sh_A, sh_B, sh_C, sh_D. unfold row in *.
    assert (S2 : forall rows cols (a : list (list F)), rows <= SS_MAX -> cols <= SS_MAX -> mat a ->
               exists l, sub2 rows cols a = Some l).
    { intros rows cols a Hr Hc [La Fa]. apply sub2_some; auto; unfold row in *; lia. }
    unfold ss_value, ss_size. destruct (ss_var vr) as [[]|]; try (split; congruence);
      try (rewrite sub1_some by lia; split; congruence);
      match goal with |- context [sub2 ?r ?c ?a] => destruct (S2 r c a) as (l & ->); [lia|lia|split; assumption|split; discriminate] end.
  Qed.
  Lemma ss_vsize t vr c d vs : ss_value t vr c d = Some vs -> ss_size t vr d = Some (length vs).
  Proof.
    destruct t; try discriminate; unfold ss_value, ss_size; destruct (ss_var vr) as [[]|]; try discriminate; intro H;
      try (injection H as <-; reflexivity); try (apply sub1_length in H; congruence);
      match type of H with option_map _ (sub2 ?r ?c ?a) = _ =>
        destruct (sub2 r c a) eqn:E; [|discriminate]; injection H as <-; apply sub2_length in E; f_equal; etransitivity; [|symmetry; exact E]; lia end.
  Qed.
  Lemma takearr_Done (l : list F) nV i n f e c (u : Mut F (SSData F)) st i' u' tr :
    takearr (Some l) nV i n f e c u = Done ((st, i'), u', tr) ->
    match st with
    | OK => exists vs d, vs = firstn (length vs) (skipn i l) /\ length vs = n /\ (n = 0 \/ i + n <= length l) /\ f vs (data u) = Some d /\
              u' = set_data d u /\ i' = i + n /\ i' <= nV
    | Error => u' = u
    | _ => False
    end.
  Proof.
    intro E. unfold takearr, nvalues_ok in E. destruct (Nat.leb_spec (i + n) nV) as [H|H].
    - unfold mbind in E. apply bind_Done in E as (vs & u1 & t1 & t2 & E1 & E2 & ->).
      apply takel_Done in E1 as (E1 & L & Hn & -> & ->).
      apply bind_Done in E2 as (d0 & u2 & t3 & t4 & E2 & E3 & ->). inversion E2; subst d0 u2 t3.
      destruct (f vs (data u)) as [d|] eqn:Ef; [|discriminate]. cbn in E3. inversion E3; subst st i' u'.
      exists vs, d. rewrite L. auto 10.
    - unfold failSet, mbind, mlogError, mret, bind in E. destruct (logErrors c && hasLogger c); inversion E; subst; reflexivity.
  Qed.

  Lemma takearr_pos (vs l1 l2 : list F) n f e c (u : Mut F (SSData F)) : length vs = n ->
    takearr (Some (l1 ++ vs ++ l2)) (length (l1 ++ vs ++ l2)) (length l1) n f e c u =
    match takearr (Some vs) (length vs) 0 n f e c u with
    | Done ((st, k), u', tr) => Done ((st, length l1 + k), u', tr) | UB => UB | NoFuel => NoFuel end.
  Proof.
    intros <-. unfold takearr, nvalues_ok. rewrite !app_length.
    rewrite (proj2 (Nat.leb_le (length l1 + length vs) _)) by lia. cbn [Nat.add]. rewrite Nat.leb_refl.
    unfold mbind, bind. rewrite takel_eq. pose proof (takel_eq e c u [] vs []) as T. cbn [app length] in T. rewrite app_nil_r in T. rewrite T.
    unfold mdata. cbv beta iota. destruct (f vs (data u)) as [d|]; reflexivity.
  Qed.
  Lemma thenDirty_pos (n : nat) (a b : MF F (SSData F) SetRes) e c u :
    a e c u = match b e c u with Done ((st, k), u', tr) => Done ((st, n + k), u', tr) | UB => UB | NoFuel => NoFuel end ->
    thenDirty a e c u = match thenDirty b e c u with Done ((st, k), u', tr) => Done ((st, n + k), u', tr) | UB => UB | NoFuel => NoFuel end.
  Proof.
    intro H. unfold thenDirty, mbind, bind. rewrite H. destruct (b e c u) as [[[[s j] w] t]| |]; auto. cbn [fst]. destruct s; reflexivity.
  Qed.
  Lemma ss_set_ok t vr (l : list (val F t)) nV i e c (u : Mut F (SSData F)) st i' u' tr : shape (data u) ->
    m_set StateSpace_model t vr (Some l) nV i e c u = Done ((st, i'), u', tr) ->
    match st with
    | OK => exists vs d b, vs = firstn (length vs) (skipn i l) /\ (vs = [] \/ i + length vs <= length l) /\
              ss_size t vr (data u) = Some (length vs) /\ ss_assign t vr vs (data u) = Some d /\
              u' = set_dirty b (set_data d u) /\ shape d /\ i' = i + length vs /\ i' <= nV
    | Error => u' = u
    | _ => False
    end.
  Proof.
    intros W E.
    assert (Fl : forall st i' u' tr, failSet (F := F) (D := SSData F) i e c u = Done ((st, i'), u', tr) -> st = Error /\ u' = u).
    { intros ? ? ? ? K. unfold failSet, mbind, mlogError, mret, bind in K. destruct (logErrors c && hasLogger c); inversion K; auto. }
    destruct t; try (destruct (Fl _ _ _ _ E) as [-> ->]; reflexivity).
    - cbn [m_set StateSpace_model] in E. unfold ss_setFloat64, nnSet, mbind, mctl, mdata in E. unfold bind in E. cbv beta iota in E. cbn [ret] in E.
      destruct (thenDirty _ e c u) as [[[[st0 k0] u0] t0]| |] eqn:G in E; [|discriminate|discriminate]. inversion E; subst st0 k0 u0. clear E.
      unfold thenDirty, mbind, bind in G.
      match type of G with match ?x with _ => _ end = _ => destruct x as [[[[s1 k1] u1] t1]| |] eqn:G1 end; try discriminate. cbn [fst] in G.
      assert (K : forall n, (match s1 with
                  | OK => exists vs d, vs = firstn (length vs) (skipn i l) /\ length vs = n /\ (n = 0 \/ i + n <= length l) /\ ss_assign TFloat64 vr vs (data u) = Some d /\
                            u1 = set_data d u /\ k1 = i + n /\ k1 <= nV
                  | Error => u1 = u | _ => False end) ->
                ss_size TFloat64 vr (data u) = Some n ->
                (forall vs d, ss_assign TFloat64 vr vs (data u) = Some d -> shape d) ->
                match st with
                | OK => exists vs d b, vs = firstn (length vs) (skipn i l) /\ (vs = [] \/ i + length vs <= length l) /\
                          ss_size TFloat64 vr (data u) = Some (length vs) /\ ss_assign TFloat64 vr vs (data u) = Some d /\
                          u' = set_dirty b (set_data d u) /\ shape d /\ i' = i + length vs /\ i' <= nV
                | Error => u' = u
                | _ => False
                end).
      { intros n K Hn Hs. destruct s1; try contradiction.
        - destruct K as (vs & d & K1 & K2 & K3 & K4 & -> & -> & K5). cbn in G. inversion G; subst st i' u'.
          exists vs, d, true. rewrite K2. split; [congruence|]. split; [destruct K3; [left; destruct vs; [reflexivity|cbn in *; lia]|auto]|].
          split; [exact Hn|]. split; [exact K4|]. split; [reflexivity|]. split; [now apply Hs in K4|]. auto.
        - subst u1. cbn in G. inversion G; subst. reflexivity. }
      assert (K0 : s1 = Error /\ u1 = u -> match st with
                | OK => exists vs d b, vs = firstn (length vs) (skipn i l) /\ (vs = [] \/ i + length vs <= length l) /\
                          ss_size TFloat64 vr (data u) = Some (length vs) /\ ss_assign TFloat64 vr vs (data u) = Some d /\
                          u' = set_dirty b (set_data d u) /\ shape d /\ i' = i + length vs /\ i' <= nV
                | Error => u' = u
                | _ => False
                end).
      { intros [-> ->]. cbn in G. inversion G; subst. reflexivity. }
      unfold ss_size, ss_assign in K, K0. unfold ss_assign. unfold ss_size.
      destruct W. destruct (ss_var vr) as [[]|] eqn:Ev; try (apply K0; now apply Fl in G1);
        try (destruct (negb (inModes _ _)); [apply K0; now apply Fl in G1|]);
        (apply takearr_Done in G1; apply K in G1; [exact G1|reflexivity|]; clear -sh_m sh_n sh_r sh_A sh_B sh_C sh_D sh_x0 sh_u sh_x sh_y sh_der;
         intros vs d Hd;
         match type of Hd with option_map _ ?p = _ => destruct p eqn:Ep; [|discriminate] end; injection Hd as <-;
         constructor; cbn; auto; eauto using paste2_mat', row_paste1).
    - cbn [m_set StateSpace_model] in E. unfold ss_setUInt64, nnSet in E. unfold mbind at 1 in E. unfold mctl in E. unfold bind in E. cbv beta iota in E. cbn [ret] in E.
      destruct (negb (inModes _ _)).
      { destruct (failSet i e c u) as [[[[a b] w] t]| |] eqn:G in E; [|discriminate|discriminate]. inversion E; subst.
        destruct (Fl _ _ _ _ G) as [-> ->]. reflexivity. }
      match type of E with match ?x with _ => _ end = _ => destruct x as [[[[s1 k1] u1] t1]| |] eqn:G end; try discriminate. inversion E; subst s1 k1 u1. clear E.
      unfold mbind at 1 in G. unfold mrd, rd in G. unfold bind in G. cbv beta iota in G.
      cbn [val] in *. destruct (nth_error l i) as [v|] eqn:Ev; [|discriminate]. unfold ret in G at 1. cbv beta iota in G.
      assert (Fs : forall st i' u' tr, failSet (F := F) (D := SSData F) (S i) e c u = Done ((st, i'), u', tr) -> st = Error /\ u' = u).
      { intros ? ? ? ? K. unfold failSet, mbind, mlogError, mret, bind in K. destruct (logErrors c && hasLogger c); inversion K; auto. }
      match type of G with match ?x with _ => _ end = _ => destruct x as [[[[s1 k1] u1] t2]| |] eqn:G1 end; try discriminate. inversion G; subst s1 k1 u1. clear G.
      unfold thenDirty, mbind at 1 in G1. unfold bind in G1.
      match type of G1 with match ?x with _ => _ end = _ => destruct x as [[[[s2 k2] u2] t3]| |] eqn:G2 end; try discriminate. cbn [fst] in G1.
      assert (Hi : i < length l) by (apply nth_error_Some; congruence).
      assert (Hv : [v] = firstn 1 (skipn i l)).
      { clear -Ev. revert l Ev. induction i as [|i IH]; intros [|a l] Ev; try discriminate; cbn in *; [now injection Ev as ->|auto]. }
      unfold ss_size, ss_assign.
      assert (K : s2 = Error /\ u2 = u \/ (s2 = OK /\ N.ltb (N.of_nat SS_MAX) v = false /\ k2 = S i /\ S i + 1 <= nV /\ exists set,
                    u2 = set_data (set (N.to_nat v) (data u)) u /\
                    ((ss_var vr = Some SSm /\ set = set_ss_m) \/ (ss_var vr = Some SSn /\ set = set_ss_n) \/ (ss_var vr = Some SSr /\ set = set_ss_r)))).
      { unfold nvalues_ok in G2. destruct (ss_var vr) as [[]|]; try (left; now apply Fs in G2);
          (destruct (N.ltb (N.of_nat SS_MAX) v); [left; now apply Fs in G2|]; destruct (Nat.leb_spec (S i + 1) nV); [|left; now apply Fs in G2];
           right; unfold mbind, mmodd, mmod, modS, mret, ret in G2; unfold bind in G2; inversion G2; subst; split; [reflexivity|]; split; [reflexivity|];
           split; [reflexivity|]; split; [assumption|]; eexists; split; [reflexivity|]; auto). }
      destruct K as [[-> ->]|(-> & Hx & -> & Hn & set & -> & K)]; [inversion G1; subst; reflexivity|].
      cbn in G1. inversion G1; subst st i' u'. exists [v].
      apply n_bound in Hx as Hb. destruct W.
      exists (set (N.to_nat v) (data u)), true. split; [exact Hv|]. split; [right; cbn; lia|]. rewrite Hx.
      destruct K as [[-> ->]|[[-> ->]|[-> ->]]]; (split; [reflexivity|]; split; [reflexivity|]; split; [reflexivity|]; split; [constructor; auto|cbn; lia]).
  Qed.

  Definition ss_laws : VarLaws (StateSpace_model (F := F)).
  Proof.
    refine (@mkVarLaws F StateSpace_model (shape (F := F)) (fun t => match t with TFloat64 => true | _ => false end)
      ss_value ss_size ss_assign (fun _ _ => ss_recalc) (fun _ _ => Some (OK, [])) _ _ _ _ _ _ _ _
      (fun t => match t with TUInt64 => false | _ => true end) _ ss_vsize _ _).
    - intros e c u W. split; [auto|]. eexists. split; [apply (ss_calc_do e c u W)|]. split; [reflexivity|]. split; [now apply ss_recalc_shape|]. discriminate.
    - intros e c d W. now apply ss_recalc_idem.
    - reflexivity.
    - reflexivity.
    - intros t vr c md d. destruct t; reflexivity.
    - intros t vr e c d Ht W. destruct t; try reflexivity; [discriminate|].
      destruct (ss_recalc_eq W) as (dx & y & _ & _ & _ & _ & ->). reflexivity.
    - intros t vr l nV i e c u W L. destruct t; try noget.
      + cbn [m_get StateSpace_model]. unfold ss_getFloat64, nnGet. unfold mbind at 1. unfold bind.
        change (m_calculateValues StateSpace_model e c u) with (ss_calculateValues e c u).
        rewrite ss_calc_do by exact W. cbv beta iota. set (w := set_dirty false _).
        assert (Ww : shape (data w)) by (now apply ss_recalc_shape). clearbody w.
        unfold mctl, mdata. cbn [mbind]. unfold mbind, bind. cbv beta iota. cbn [ret].
        pose proof (ss_value_known vr c Ww) as Kn. unfold ss_value, ss_size in *.
        cbn [val md StateSpace_model] in *.
        destruct (ss_var vr) as [[]|];
          try (rewrite (failGet_eq l nV); reflexivity);
          try (rewrite put1_eq by exact L; unfold put_result; cbn [length]; destruct (i + 1 <=? nV); reflexivity);
          match goal with |- context [putarr _ _ _ ?o] => destruct o as [vs|] eqn:Eo; [|destruct Kn as [Kn _]; specialize (Kn eq_refl); discriminate] end;
          rewrite putarr_eq by exact L; rewrite ?Eo; destruct (i + length vs <=? nV); reflexivity.
      + cbn [m_get StateSpace_model]. unfold ss_getUInt64, nnGet, mbind, mdata, mret. unfold bind. cbv beta iota. cbn [ret]. unfold ss_value.
        destruct (ss_var vr) as [[]|];
          try (rewrite (failGet_eq l nV); reflexivity);
          rewrite put1_eq by exact L; unfold put_result; cbn [length]; destruct (i + 1 <=? nV); reflexivity.
    - intros t vr l nV i e c u st i' u' tr W E. pose proof (@ss_set_ok t vr l nV i e c u st i' u' tr W E) as K. destruct st; auto.
      destruct K as (vs & d & b & K). exists vs, d, b. intuition eauto.
    - intros t vr vs l1 l2 e c u Ht W Hs.
      assert (Fl : failSet (F := F) (D := SSData F) (length l1) e c u =
        match failSet (F := F) (D := SSData F) 0 e c u with Done ((st, k), u', tr) => Done ((st, length l1 + k), u', tr) | UB => UB | NoFuel => NoFuel end).
      { unfold failSet, mbind, mlogError, mret, bind. destruct (logErrors c && hasLogger c); cbn; now rewrite Nat.add_0_r. }
      destruct t; try discriminate; try exact Fl.
      cbn [m_set StateSpace_model]. unfold ss_setFloat64, nnSet. unfold mbind, mctl, mdata. unfold bind. cbv beta iota. cbn [ret].
      match goal with |- match match thenDirty ?a _ _ _ with _ => _ end with _ => _ end = match match match thenDirty ?b _ _ _ with _ => _ end with _ => _ end with _ => _ end =>
        assert (K : thenDirty a e c u = match thenDirty b e c u with Done ((st, k), u', tr) => Done ((st, length l1 + k), u', tr) | UB => UB | NoFuel => NoFuel end) end.
      { apply thenDirty_pos. unfold ss_size in Hs. cbn [length] in *.
        destruct (ss_var vr) as [[]|]; try exact Fl; try (destruct (negb (inModes _ _)); [exact Fl|]);
          (apply takearr_pos; destruct Hs as [Hs|[Hs _]]; [injection Hs as Hs; cbn [val] in Hs; lia|discriminate]). }
      rewrite K. match goal with |- context [thenDirty ?b e c u] => destruct (thenDirty b e c u) as [[[[? ?] ?] ?]| |] end; reflexivity.
    - intros t vr vs d d' vr2 A. destruct t; try discriminate; unfold ss_assign in A; unfold ss_size.
      + destruct (ss_var vr) as [[]|]; try discriminate;
          match type of A with option_map _ ?p = _ => destruct p; [|discriminate] end; injection A as <-; reflexivity.
      + reflexivity.
    - intros t vr e c d W. destruct (ss_recalc_eq W) as (dx & y & _ & _ & _ & _ & ->). reflexivity.
  Defined.
End Instances.
