(** Vars.v -- reading and writing variables: what the get and set functions of an FMU do, as a
    record of laws, and its consequences for the loops of the API. *)
From Coq Require Import List NArith ZArith Bool Arith Lia.
From Verif Require Import Base Instance ModelIface Core Fmi3 Fmi2 Api Fmus Logic SpecModes Gate Effect Calls SpecVars.
Import ListNotations.
Set Implicit Arguments.

Section Splice.
  Context {T : Type}.
  Definition splice (i : nat) (vs l : list T) : list T := firstn i l ++ vs ++ skipn (i + length vs) l.
  Lemma splice_nil i (l : list T) : splice i [] l = l.
  Proof. unfold splice. cbn. rewrite Nat.add_0_r. apply firstn_skipn. Qed.
  Lemma splice_length i (vs l : list T) : i + length vs <= length l -> length (splice i vs l) = length l.
  Proof. intro H. unfold splice. rewrite !app_length, firstn_length, skipn_length. lia. Qed.
Lemma firstn_add {A} a b (l : list A) : firstn (a + b) l = firstn a l ++ firstn b (skipn a l).
Proof. revert l. induction a; intros [|x l]; cbn; rewrite ?firstn_nil; auto. now rewrite IHa. Qed.
  Lemma skipn_add (a b : nat) (l : list T) : skipn a (skipn b l) = skipn (b + a) l.
  Proof.
    revert l; induction b as [|b IH]; intro l; [reflexivity|]. destruct l; cbn; [now rewrite skipn_nil|]. apply IH.
  Qed.
  Lemma skipn_splice n i (vs l : list T) : i + length vs <= n -> n <= length l -> skipn n (splice i vs l) = skipn n l.
  Proof.
    intros A B. unfold splice. rewrite app_assoc, skipn_app.
    rewrite (skipn_all2 (firstn i l ++ vs)) by (rewrite app_length, firstn_length; lia).
    rewrite app_length, firstn_length, skipn_add. cbn [app]. f_equal. lia.
  Qed.
  Lemma splice_upd i (v : T) l : i < length l -> upd l i v = splice i [v] l.
  Proof.
    unfold splice. cbn [length app]. revert i; induction l as [|a l IH]; intros i H; [cbn in H; lia|].
    destruct i as [|i]; cbn; [now rewrite ?Nat.add_0_r|]. f_equal. rewrite IH by (cbn in H; lia). reflexivity.
  Qed.
  Lemma splice_splice i (vs ws l : list T) : i + length vs + length ws <= length l ->
    splice (i + length vs) ws (splice i vs l) = splice i (vs ++ ws) l.
  Proof.
    intro H. unfold splice. rewrite app_length.
    assert (L : length (firstn i l) = i) by (rewrite firstn_length; lia).
    rewrite (app_assoc (firstn i l) vs), firstn_app.
    assert (L2 : length (firstn i l ++ vs) = i + length vs) by (rewrite app_length; lia).
    rewrite (firstn_all2 (firstn i l ++ vs)) by lia.
    rewrite L2, Nat.sub_diag. cbn [firstn]. rewrite app_nil_r.
    rewrite skipn_app, (skipn_all2 (firstn i l ++ vs)) by lia. rewrite L2, skipn_add. cbn [app].
    rewrite <- !app_assoc. do 3 f_equal. f_equal. lia.
  Qed.
End Splice.

Section Vars.
  Context {F : Type} {NF : Num F}.
  Definition warn (c : Ctl F) : list (Event F) :=
    if logErrors c && hasLogger c then [ELog Error CatLogStatusError] else [].

  Record VarLaws (m : Model F) := mkVarLaws {
    vl_wf : md m -> Prop;
    vl_calcs : VType -> bool;                      (* getters of this type call calculateValues *)
    vl_value : forall t, N -> Ctl F -> md m -> option (list (val F t));
    vl_size : forall t : VType, N -> md m -> option nat;
    vl_assign : forall t, N -> list (val F t) -> md m -> option (md m);
    vl_recalc : Env -> Ctl F -> md m -> md m;      (* calculateValues *)
    (* the status of calculateValues; None: undefined *)
    vl_out : Env -> Ctl F -> option (Status * list (Event F));
    vl_calc : forall e c u, vl_wf (data u) ->
      match vl_out e c with
      | None => m_calculateValues m e c u = UB
      | Some (st, tr) => (st = OK \/ st = Error) /\ exists u', m_calculateValues m e c u = Done (st, u', tr) /\
          data u' = vl_recalc e c (data u) /\ vl_wf (data u') /\ (dirty u' = true -> dirty u = true)
      end;
    vl_idem : forall e c d, vl_wf d -> vl_recalc e c (vl_recalc e c d) = vl_recalc e c d;
    vl_mode : forall e c md, vl_out e (set_mode md c) = vl_out e c;
    vl_rmode : forall e c md d, vl_recalc e (set_mode md c) d = vl_recalc e c d;
    vl_vmode : forall t vr c md d, vl_value t vr (set_mode md c) d = vl_value t vr c d;
    vl_nocalc : forall t vr e c d, vl_calcs t = false -> vl_wf d -> vl_value t vr c (vl_recalc e c d) = vl_value t vr c d;
    vl_get : forall t vr l nV i e c u, vl_wf (data u) -> nV <= length l ->
      m_get m t vr (Some l) nV i e c u =
      bind ((if vl_calcs t then m_calculateValues m else mret OK) e c) (fun _ u' =>
        match vl_value t vr c (data u') with
        | Some vs => if i + length vs <=? nV
                     then Done ((OK, Some (splice i vs l), i + length vs), u', [])
                     else Done ((Error, Some l, i), u', warn c)
        | None => Done ((Error, Some l, i), u', warn c)
        end) u;
    vl_set : forall t vr l nV i e c u st i' u' tr, vl_wf (data u) ->
      m_set m t vr (Some l) nV i e c u = Done ((st, i'), u', tr) ->
      match st with
      | OK => exists vs d b, vs = firstn (length vs) (skipn i l) /\ (vs = [] \/ i + length vs <= length l) /\
                vl_size t vr (data u) = Some (length vs) /\
                vl_assign t vr vs (data u) = Some d /\ u' = set_dirty b (set_data d u) /\ vl_wf d /\
                i' = i + length vs /\ i' <= nV /\ exists tr, vl_out e c = Some (OK, tr)
      | Error => u' = u
      | _ => False
      end;
    (* a value inside a longer array is treated as if it stood alone; this fails for the setter
       of the structural parameters of StateSpace, which looks at the next value *)
    vl_alone : VType -> bool;
    vl_pos : forall t vr vs l1 l2 e c u, vl_alone t = true -> vl_wf (data u) ->
      vl_size t vr (data u) = Some (length vs) \/ (vl_size t vr (data u) = None /\ length vs = 1) ->
      m_set m t vr (Some (l1 ++ vs ++ l2)) (length (l1 ++ vs ++ l2)) (length l1) e c u =
      match m_set m t vr (Some vs) (length vs) 0 e c u with
      | Done ((st, k), u', tr) => Done ((st, length l1 + k), u', tr) | UB => UB | NoFuel => NoFuel end;
    vl_vsize : forall t vr c d vs, vl_value t vr c d = Some vs -> vl_size t vr d = Some (length vs);
    vl_asize : forall t vr vs d d' vr2, vl_assign t vr vs d = Some d' -> vl_size t vr2 d' = vl_size t vr2 d;
    vl_rsize : forall t vr e c d, vl_wf d -> vl_size t vr (vl_recalc e c d) = vl_size t vr d
  }.

  Section Laws.
    Context (m : Model F) (V : VarLaws m) (szof : N) (env : Env).
    Notation D := (md m).
    Notation wf i := (vl_wf V (data (mut i))).

    (** The value a variable has in an instance. *)
    Definition peek (i : Inst F D) (t : VType) (vr : N) : option (list (val F t)) :=
      vl_value V t vr (ctl i) (vl_recalc V env (ctl i) (data (mut i))).

    (** [i'] shows the same values as [i] but for the mode. *)
    Definition alike (i i' : Inst F D) : Prop :=
      (exists md, ctl i' = set_mode md (ctl i)) /\ wf i' /\
      (data (mut i') = data (mut i) \/ data (mut i') = vl_recalc V env (ctl i) (data (mut i))) /\
      (dirty (mut i') = true -> dirty (mut i) = true).
    Lemma set_mode_same (c : Ctl F) : set_mode (mode c) c = c.
    Proof. now destruct c. Qed.
    Lemma set_mode_twice a b (c : Ctl F) : set_mode a (set_mode b c) = set_mode a c.
    Proof. now destruct c. Qed.
    Lemma alike_refl i : wf i -> alike i i.
    Proof. intro H. split; [exists (mode (ctl i)); now rewrite set_mode_same|]. auto. Qed.
    Lemma alike_trans i j k : wf i -> alike i j -> alike j k -> alike i k.
    Proof.
      intros W ((a & A) & Wj & Dj & Fj) ((b & B) & Wk & Dk & Fk). split; [exists b; rewrite B, A; apply set_mode_twice|].
      split; [exact Wk|]. split; [|auto].
      rewrite A, vl_rmode in Dk. destruct Dj as [Dj|Dj], Dk as [Dk|Dk]; rewrite Dj in Dk; auto.
      rewrite vl_idem in Dk; auto.
    Qed.
    Lemma alike_peek i j t vr : wf i -> alike i j -> peek j t vr = peek i t vr.
    Proof.
      intros W ((a & A) & Wj & Dj & _). unfold peek. rewrite A, vl_rmode, vl_vmode.
      destruct Dj as [->| ->]; [reflexivity|]. now rewrite vl_idem.
    Qed.
    Lemma alike_mode i md : wf i -> alike i (set_ctl (set_mode md (ctl i)) i).
    Proof. intro W. split; [exists md; reflexivity|]. auto. Qed.

    Lemma call_eq X (f : MF F D X) i : call m env f i =
      match f env (ctl i) (mut i) with
      | Done (x, u, t) => Done (x, set_mut u i, t) | UB => UB | NoFuel => NoFuel end.
    Proof. reflexivity. Qed.

    (** One get function. *)
    Lemma get_call t vr l nV k i r i' tr : wf i -> nV <= length l ->
      call m env (m_get m t vr (Some l) nV k) i = Done (r, i', tr) ->
      ctl i' = ctl i /\ sol i' = sol i /\ alike i i' /\
      match r with
      | (OK, b', k') => exists vs, peek i t vr = Some vs /\ k' = k + length vs /\ k' <= nV /\ b' = Some (splice k vs l)
      | (Error, b', k') => b' = Some l /\ k' = k /\
          (peek i t vr = None \/ exists vs, peek i t vr = Some vs /\ nV < k + length vs)
      | _ => False
      end.
    Proof.
      intros W L E. rewrite call_eq in E.
      destruct (m_get m t vr (Some l) nV k env (ctl i) (mut i)) as [[[y u] t0]| |] eqn:G; try discriminate.
      injection E as -> <- <-. cbn [set_mut ctl mut sol]. split; [reflexivity|]. split; [reflexivity|].
      rewrite vl_get with (v := V) in G by auto.
      apply bind_Done in G as (st & u1 & t1 & t2 & E1 & E2 & ->).
      assert (K : (data u1 = data (mut i) \/ data u1 = vl_recalc V env (ctl i) (data (mut i))) /\ vl_wf V (data u1) /\
                  (dirty u1 = true -> dirty (mut i) = true) /\ forall vs, vl_value V t vr (ctl i) (data u1) = vs -> peek i t vr = vs).
      { destruct (vl_calcs V t) eqn:C.
        - pose proof (vl_calc V env (ctl i) (mut i) W) as Q. destruct (vl_out V env (ctl i)) as [[st0 tr0]|];
            [|rewrite Q in E1; discriminate]. destruct Q as (_ & u0 & Q & A & B & Fl). rewrite Q in E1. injection E1; intros; subst.
          split; [auto|]. split; [exact B|]. split; [exact Fl|]. intros vs Hv.
          unfold peek. now rewrite <- A.
        - inversion E1; subst. split; [auto|]. split; [exact W|]. split; [auto|]. intros vs Hv. unfold peek. now rewrite vl_nocalc. }
      destruct K as (K1 & K2 & K4 & K3).
      assert (Hu : u = u1).
      { destruct (vl_value V t vr (ctl i) (data u1)) as [vs|]; [destruct (k + length vs <=? nV)|]; now injection E2. }
      subst u1. split.
      { split; [exists (mode (ctl i)); cbn; now rewrite set_mode_same|]. split; cbn; [exact K2|]. split; [exact K1|exact K4]. }
      destruct (vl_value V t vr (ctl i) (data u)) as [vs|] eqn:Ev.
      - destruct (Nat.leb_spec (k + length vs) nV) as [H|H]; injection E2 as <- <-.
        + exists vs. rewrite (K3 _ eq_refl). auto.
        + rewrite (K3 _ eq_refl). split; [reflexivity|]. split; [reflexivity|]. right. exists vs. auto.
      - injection E2 as <- <-. rewrite (K3 _ eq_refl). auto.
    Qed.

    (** The loop of Get. *)
    Lemma get_loop_spec t nV : forall n vrs l k i st b' k' i' tr, wf i -> nV <= length l -> k <= nV ->
      get_loop m env t vrs n (Some l) nV k OK i = Done ((st, b', k'), i', tr) ->
      alike i i' /\ sol i' = sol i /\
      exists l', b' = Some l' /\ length l' = length l /\ skipn nV l' = skipn nV l /\ k' <= nV /\
      ((st = OK /\ ctl i' = ctl i /\ n <= length vrs /\
        exists vss, Forall2 (fun vr vs => peek i t vr = Some vs) (firstn n vrs) vss /\
          k' = k + length (concat vss) /\ l' = splice k (concat vss) l)
       \/ (st = Error /\ mode (ctl i') = Terminated)).
    Proof.
      induction n as [|n IH]; intros vrs l k i st b' k' i' tr W L Hk E; cbn [get_loop] in E.
      - inversion E; subst. split; [now apply alike_refl|]. split; [reflexivity|]. exists l.
        split; [reflexivity|]. split; [reflexivity|]. split; [reflexivity|]. split; [lia|]. left. split; [reflexivity|]. split; [reflexivity|].
        split; [lia|]. exists []. split; [constructor|]. cbn. rewrite splice_nil. split; [lia|reflexivity].
      - destruct vrs as [|vr vrs]; [discriminate|].
        apply bind_Done in E as (r & i1 & t1 & t2 & E1 & E2 & ->).
        destruct (@get_call t vr l nV k i _ _ _ W L E1) as (C1 & S1 & A1 & R1). destruct r as [[s b1] k1].
        destruct s; try contradiction.
        + destruct R1 as (vs & Pv & -> & Hk1 & ->). rewrite CALL_ok in E2. cbn [stops] in E2.
          assert (W1 : wf i1) by apply A1.
          pose proof (@splice_length _ k vs l ltac:(lia)) as L1.
          destruct (IH vrs _ _ _ _ _ _ _ _ W1 ltac:(rewrite L1; exact L) Hk1 E2) as (A & Sn & l' & -> & Ln & Sk & Hk' & Q).
          split; [now apply alike_trans with i1|]. split; [congruence|]. exists l'. split; [reflexivity|]. split; [congruence|].
          split; [rewrite Sk; apply skipn_splice; lia|]. split; [exact Hk'|].
          destruct Q as [(-> & Cq & Ln' & vss & Fq & Kq & Lq)|Q]; [left|now right].
          split; [reflexivity|]. split; [congruence|]. split; [cbn; lia|]. exists (vs :: vss).
          split; [cbn [firstn]; constructor; [exact Pv|]|].
          { clear -Fq A1 W. induction Fq; constructor; auto. rewrite <- H. symmetry. now apply alike_peek. }
          cbn [concat]. rewrite app_length. split; [lia|]. rewrite Lq. apply splice_splice. lia.
        + destruct R1 as (-> & -> & _). rewrite CALL_err in E2. cbn [stops] in E2. inversion E2; subst.
          split; [apply alike_trans with i1; auto; apply alike_mode; apply A1|]. split; [exact S1|]. exists l.
          split; [reflexivity|]. split; [reflexivity|]. split; [reflexivity|]. split; [lia|]. right. auto.
    Qed.
    (** ... and what it does if all is well. *)
    Definition calculable (t : VType) (c : Ctl F) : Prop := vl_calcs V t = true -> vl_out V env c <> None.
    Lemma get_loop_do t nV : forall n vrs l k i vss, wf i -> calculable t (ctl i) -> nV <= length l ->
      n = length vrs -> Forall2 (fun vr vs => peek i t vr = Some vs) vrs vss -> k + length (concat vss) <= nV ->
      exists i' tr, get_loop m env t vrs n (Some l) nV k OK i =
        Done ((OK, Some (splice k (concat vss) l), k + length (concat vss)), i', tr).
    Proof.
      intros n vrs l k i vss. revert n l k i.
      induction vrs as [|vr vrs IH] in vss |- *; intros n l k i W R L -> Fq Hk; inversion Fq; subst; cbn [length].
      - exists i, []. cbn. rewrite splice_nil, Nat.add_0_r. reflexivity.
      - rename y into vs. rename l' into vss. cbn [concat] in *. rewrite app_length in Hk. cbn [get_loop].
        assert (C : exists i1 t1, call m env (m_get m t vr (Some l) nV k) i = Done ((OK, Some (splice k vs l), k + length vs), i1, t1)).
        { rewrite call_eq, (vl_get V) by auto. unfold bind.
          destruct (vl_calcs V t) eqn:Ec.
          - pose proof (vl_calc V env (ctl i) (mut i) W) as Q. specialize (R Ec). destruct (vl_out V env (ctl i)) as [[st0 tr0]|]; [|congruence].
            destruct Q as (_ & u & Eu & Du & _). rewrite Eu.
            unfold peek in H1. rewrite Du, H1, (proj2 (Nat.leb_le _ _)) by lia. eexists. eexists. reflexivity.
          - cbn. unfold peek in H1. rewrite (vl_nocalc V) in H1 by auto.
            rewrite H1, (proj2 (Nat.leb_le _ _)) by lia. eexists. eexists. reflexivity. }
        destruct C as (i1 & t1 & C). destruct (@get_call t vr l nV k i _ _ _ W L C) as (C1 & S1 & A1 & _).
        assert (W1 : wf i1) by apply A1.
        destruct (IH vss (length vrs) (splice k vs l) (k + length vs) i1) as (i' & tr & E); auto.
        + now rewrite C1.
        + rewrite splice_length by lia. exact L.
        + clear -H3 A1 W. induction H3; constructor; auto. rewrite <- H. now apply alike_peek.
        + lia.
        + exists i', (t1 ++ tr). unfold bind at 1. rewrite C. rewrite CALL_ok. cbn [stops]. rewrite E. cbn.
          rewrite splice_splice by lia. rewrite app_length, Nat.add_assoc. reflexivity.
    Qed.

    (** One set function, and the loop of Set. *)
    Lemma set_call t vr l nV k i st k' i' tr : wf i ->
      call m env (m_set m t vr (Some l) nV k) i = Done ((st, k'), i', tr) ->
      ctl i' = ctl i /\ sol i' = sol i /\
      match st with
      | OK => exists vs d b, vs = firstn (length vs) (skipn k l) /\ (vs = [] \/ k + length vs <= length l) /\
                vl_size V t vr (data (mut i)) = Some (length vs) /\
                vl_assign V t vr vs (data (mut i)) = Some d /\ mut i' = set_dirty b (set_data d (mut i)) /\ vl_wf V d /\
                k' = k + length vs /\ k' <= nV /\ exists tr, vl_out V env (ctl i) = Some (OK, tr)
      | Error => i' = i
      | _ => False
      end.
    Proof.
      intros W E. rewrite call_eq in E.
      destruct (m_set m t vr (Some l) nV k env (ctl i) (mut i)) as [[[y u] t0]| |] eqn:G; try discriminate.
      injection E as -> <- <-. split; [reflexivity|]. split; [reflexivity|]. pose proof (vl_set V _ _ _ _ _ _ _ _ W G) as K.
      destruct st; auto. subst u. now destruct i.
    Qed.
    (** The assignments made by a list of value references and their values. *)
    Inductive assigns (t : VType) : list N -> list (val F t) -> D -> D -> Prop :=
    | assigns_nil d : assigns t [] [] d d
    | assigns_cons vr vs vrs ws d d1 d2 : vl_size V t vr d = Some (length vs) -> vl_assign V t vr vs d = Some d1 ->
        assigns t vrs ws d1 d2 -> assigns t (vr :: vrs) (vs ++ ws) d d2.
    Lemma set_dirty_twice (u : Mut F D) a b x y : set_dirty a (set_data x (set_dirty b (set_data y u))) = set_dirty a (set_data x u).
    Proof. now destruct u. Qed.
    Lemma mut_same (u : Mut F D) : set_dirty (dirty u) (set_data (data u) u) = u.
    Proof. now destruct u. Qed.
    Lemma set_loop_spec t nV : forall n vrs l k i st k' i' tr, wf i -> k <= nV ->
      set_loop m env t vrs n (Some l) nV k OK i = Done ((st, k'), i', tr) ->
      sol i' = sol i /\ (exists md, ctl i' = set_mode md (ctl i)) /\
      exists n' vs d b, assigns t (firstn n' vrs) vs (data (mut i)) d /\ mut i' = set_dirty b (set_data d (mut i)) /\ vl_wf V d /\
        k + length vs <= nV /\ (vs <> [] -> vs = firstn (length vs) (skipn k l)) /\
        (0 < n' -> exists tr, vl_out V env (ctl i) = Some (OK, tr)) /\ (n' = 0 -> b = dirty (mut i)) /\
      ((st = OK /\ ctl i' = ctl i /\ n <= length vrs /\ n' = n /\ k' = k + length vs)
       \/ (st = Error /\ mode (ctl i') = Terminated /\ n' < n)).
    Proof.
      induction n as [|n IH]; intros vrs l k i st k' i' tr W Hk E; cbn [set_loop] in E.
      - inversion E; subst. split; [reflexivity|]. split; [exists (mode (ctl i')); now rewrite set_mode_same|].
        exists 0, [], (data (mut i')), (dirty (mut i')). split; [constructor|]. split; [now rewrite mut_same|]. split; [exact W|].
        cbn. split; [lia|]. split; [congruence|]. split; [lia|]. split; [reflexivity|]. left. repeat split; lia.
      - destruct vrs as [|vr vrs]; [discriminate|].
        apply bind_Done in E as (r & i1 & t1 & t2 & E1 & E2 & ->). destruct r as [s k1].
        destruct (@set_call t vr l nV k i _ _ _ _ W E1) as (C1 & S1 & R1). destruct s; try contradiction.
        + destruct R1 as (vs & d1 & b1 & Hv & Lv & Sv & Av & U1 & W1 & -> & Hk1 & Ro). rewrite CALL_ok in E2. cbn [stops] in E2.
          assert (Hd : data (mut i1) = d1) by (now rewrite U1). rewrite <- Hd in W1.
          destruct (IH vrs l _ _ _ _ _ _ W1 Hk1 E2) as (S2 & (md & M2) & n' & ws & d & b & A & U & Wd & Kn & Lw & Rq & _ & Q).
          split; [congruence|]. split; [exists md; congruence|]. exists (S n'), (vs ++ ws), d, b.
          rewrite Hd in A. split; [cbn [firstn]; now apply assigns_cons with d1|]. split; [now rewrite U, U1, set_dirty_twice|].
          split; [exact Wd|]. rewrite app_length. split; [lia|]. split.
          { intros _. rewrite firstn_add, <- Hv. f_equal. destruct ws; [reflexivity|]. rewrite skipn_add. apply Lw. discriminate. }
          split; [intros _; exact Ro|]. split; [discriminate|].
          destruct Q as [(-> & Cq & Ln & -> & ->)|(-> & M & L)]; [left|right]; repeat split; try congruence; cbn; lia.
        + subst i1. rewrite CALL_err in E2. cbn [stops] in E2. inversion E2; subst.
          split; [reflexivity|]. split; [exists Terminated; reflexivity|]. exists 0, [], (data (mut i)), (dirty (mut i)).
          split; [constructor|]. split; [cbn; now rewrite mut_same|]. split; [exact W|]. cbn. split; [lia|]. split; [congruence|]. split; [lia|].
          split; [reflexivity|]. right. repeat split. lia.
    Qed.

    (** ** The API functions. *)
    Lemma BEGIN_any X mask (x : X) k i st y i' tr : BEGIN m env mask x k i = Done ((st, y), i', tr) ->
      (N.land (bit3 (mode (ctl i))) mask <> 0%N /\ k i = Done ((st, y), i', tr)) \/
      (st = Error /\ y = x /\ i' = set_ctl (set_mode Terminated (ctl i)) i).
    Proof.
      intro E. destruct (N.eqb_spec (N.land (bit3 (mode (ctl i))) mask) 0) as [H|H].
      - right. unfold BEGIN, allowedState in E. unfold bind at 1 in E. rewrite bind_getC, H in E. cbn [N.eqb] in E.
        rewrite bind_logError in E. cbn in E. inversion E; subst. auto.
      - left. split; [exact H|]. now rewrite BEGIN_pass in E.
    Qed.
    Lemma refresh_spec X (x : X) (k : Status -> AF F D (Status * X)) i st y i' tr : wf i ->
      refresh m env OK x k i = Done ((st, y), i', tr) ->
      (exists i1 tr1, alike i i1 /\ ctl i1 = ctl i /\ sol i1 = sol i /\ dirty (mut i1) = false /\ k OK i1 = Done ((st, y), i', tr1)) \/
      (st = Error /\ y = x /\ alike i i' /\ sol i' = sol i /\ mode (ctl i') = Terminated).
    Proof.
      intros W E. unfold refresh in E. rewrite bind_getM in E. destruct (dirty (mut i)) eqn:Dt.
      - apply bind_Done in E as (s & i1 & t1 & t2 & E1 & E2 & ->). rewrite call_eq in E1.
        pose proof (vl_calc V env (ctl i) (mut i) W) as Q. destruct (vl_out V env (ctl i)) as [[st0 tr0]|];
          [|rewrite Q in E1; discriminate]. destruct Q as (So & u0 & Q & A & B & Fl). rewrite Q in E1. inversion E1; subst.
        destruct So as [->| ->].
        + rewrite CALLk_ok, bind_modM in E2. left. eexists. eexists. split; [|split; [|split; [|split; [|exact E2]]]]; try reflexivity.
          split; [exists (mode (ctl i)); cbn; now rewrite set_mode_same|]. cbn. auto.
        + rewrite CALLk_err in E2. inversion E2; subst. right. split; [reflexivity|]. split; [reflexivity|]. split; [|split; reflexivity].
          split; [exists Terminated; reflexivity|]. cbn. auto.
      - left. exists i, tr. split; [now apply alike_refl|]. auto.
    Qed.

    Lemma get3_spec t vrs nvr l nV fuel s st out s' tr : wf (sinst s) -> nV <= length l -> nvr <> 0 ->
      exec3 m szof fuel env (O3Get t (Some vrs) nvr (Some l) nV) s = Done (st, out, s', tr) ->
      alike (sinst s) (sinst s') /\ heap s' = heap s /\
      exists l', out = OVals t (Some l') /\ length l' = length l /\ skipn nV l' = skipn nV l /\
      ((st = OK /\ ctl (sinst s') = ctl (sinst s) /\ N.land (bit3 (mode_of s)) (MASK_Get t) <> 0%N /\ nvr <= length vrs /\
        exists vss, Forall2 (fun vr vs => peek (sinst s) t vr = Some vs) (firstn nvr vrs) vss /\
          nV = length (concat vss) /\ l' = concat vss ++ skipn nV l) \/ (st = Error /\ mode_of s' = Terminated)).
    Proof.
      intros W L Hn E. cbn [exec3] in E. rewrite outI_eq in E.
      destruct (fmi3Get _ _ _ _ _ _ _ _) as [[[[st0 b] i'] t0]| |] eqn:G; try discriminate.
      injection E as <- <- <- <-. cbn [sinst heap]. unfold mode_of. cbn [sinst].
      unfold fmi3Get in G. apply BEGIN_any in G as [[Hm G]|(-> & -> & ->)].
      2: { split; [now apply alike_mode|]. split; [reflexivity|]. exists l. split; [reflexivity|]. split; [reflexivity|]. split; [reflexivity|]. right. auto. }
      destruct (Nat.eqb_spec nvr 0) as [|_]; [contradiction|]. cbn [ASSERT_NOT_NULL] in G.
      assert (G' : refresh m env OK (Some l) (fun st =>
        bind (get_loop m env t vrs nvr (Some l) nV 0 st) (fun r =>
        let '(st, values', index) := r in
        if stops st then ret (st, values') else
        if negb (Nat.eqb index nV) then
          bind (logError m env) (fun _ => CALLk m st Error values' (fun st => ret (st, values')))
        else ret (st, values'))) (sinst s) = Done ((st0, b), i', t0)) by (destruct (Nat.ltb 0 nV); exact G).
      clear G. rename G' into G. apply refresh_spec in G; [|exact W].
      destruct G as [(i1 & t1 & A1 & C1 & S1 & D1 & G)|(-> & -> & A & S1 & Mt)].
      2: { split; [exact A|]. split; [reflexivity|]. exists l. split; [reflexivity|]. split; [reflexivity|]. split; [reflexivity|].
           right. auto. }
      apply bind_Done in G as ([[s2 b2] k2] & i2 & t2 & t3 & E1 & E2 & ->).
      assert (W1 : wf i1) by apply A1.
      destruct (@get_loop_spec t nV nvr vrs l 0 i1 _ _ _ _ _ W1 L ltac:(lia) E1) as (A2 & S2 & l' & -> & L2 & K2 & Hk & Q).
      assert (A12 : alike (sinst s) i2) by (now apply alike_trans with i1).
      destruct Q as [(-> & C2 & Ln & vss & Fq & Kq & Lq)|(-> & M2)].
      - cbn [stops] in E2. destruct (Nat.eqb_spec k2 nV) as [He|He]; cbn [negb] in E2.
        + inversion E2; subst st0 b i2 t3. split; [exact A12|]. split; [reflexivity|]. exists l'. split; [reflexivity|].
          split; [exact L2|]. split; [exact K2|]. left. split; [reflexivity|]. split; [congruence|]. split; [exact Hm|].
          split; [exact Ln|]. exists vss. split.
          { clear -Fq A1 W. induction Fq; constructor; auto. rewrite <- H. symmetry. now apply alike_peek. }
          cbn in Kq. split; [congruence|]. rewrite Lq. unfold splice. cbn. do 2 f_equal. congruence.
        + rewrite bind_logError, CALLk_err in E2. inversion E2; subst st0 b i'. split.
          { apply alike_trans with i2; auto. apply alike_mode, A2. }
          split; [reflexivity|]. exists l'. do 3 (split; [reflexivity || assumption|]). right. auto.
      - cbn [stops] in E2. inversion E2; subst st0 b i2. split; [exact A12|]. split; [reflexivity|]. exists l'. do 3 (split; [reflexivity || assumption|]). right. auto.
    Qed.

    (** A Get in which all is well. *)
    Definition canread (t : VType) (i : Inst F D) : Prop :=
      N.land (bit3 (mode (ctl i))) (MASK_Get t) <> 0%N /\
      if dirty (mut i) then exists tr, vl_out V env (ctl i) = Some (OK, tr) else calculable t (ctl i).
    Lemma get3_do t vrs vss l fuel s : wf (sinst s) -> canread t (sinst s) -> vrs <> [] ->
      Forall2 (fun vr vs => peek (sinst s) t vr = Some vs) vrs vss -> length (concat vss) <= length l ->
      exists s' tr, exec3 m szof fuel env (O3Get t (Some vrs) (length vrs) (Some l) (length (concat vss))) s =
        Done (OK, OVals t (Some (concat vss ++ skipn (length (concat vss)) l)), s', tr).
    Proof.
      intros W (Hm & R) Hv Fq L. set (nV := length (concat vss)) in *.
      assert (K : forall i1, alike (sinst s) i1 -> ctl i1 = ctl (sinst s) -> calculable t (ctl i1) ->
                exists i' tr, (bind (get_loop m env t vrs (length vrs) (Some l) nV 0 OK) (fun r =>
                  let '(st, values', index) := r in
                  if stops st then ret (st, values') else
                  if negb (Nat.eqb index nV) then
                    bind (logError m env) (fun _ => CALLk m st Error values' (fun st => ret (st, values')))
                  else ret (st, values'))) i1 = Done ((OK, Some (concat vss ++ skipn nV l)), i', tr)).
      { intros i1 A1 C1 R1. destruct (@get_loop_do t nV (length vrs) vrs l 0 i1 vss) as (i2 & tr & E); auto.
        - apply A1.
        - clear -Fq A1 W. induction Fq; constructor; auto. rewrite <- H. now apply alike_peek.
        - exists i2, (tr ++ []). unfold bind at 1. rewrite E. cbn [stops Nat.add]. fold nV. rewrite Nat.eqb_refl. reflexivity. }
      assert (G : exists i' tr, fmi3Get m env t (Some vrs) (length vrs) (Some l) nV (sinst s) =
                    Done ((OK, Some (concat vss ++ skipn nV l)), i', tr)).
      { unfold fmi3Get. rewrite BEGIN_pass by exact Hm.
        destruct (Nat.eqb_spec (length vrs) 0) as [H0|_]; [destruct vrs; [contradiction|discriminate]|]. cbn [ASSERT_NOT_NULL].
        assert (G' : exists i' tr, refresh m env OK (Some l) (fun st =>
          bind (get_loop m env t vrs (length vrs) (Some l) nV 0 st) (fun r =>
          let '(st, values', index) := r in
          if stops st then ret (st, values') else
          if negb (Nat.eqb index nV) then
            bind (logError m env) (fun _ => CALLk m st Error values' (fun st => ret (st, values')))
          else ret (st, values'))) (sinst s) = Done ((OK, Some (concat vss ++ skipn nV l)), i', tr));
          [|destruct (Nat.ltb 0 nV); exact G'].
        unfold refresh. setoid_rewrite bind_getM. destruct (dirty (mut (sinst s))) eqn:Dt.
        - destruct R as (tr0 & R). pose proof (vl_calc V env (ctl (sinst s)) (mut (sinst s)) W) as Q. rewrite R in Q.
          destruct Q as (_ & u & Eu & Du & Wu & Fl).
          destruct (K (set_mut (set_dirty false u) (sinst s))) as (i' & tr & E).
          + split; [exists (mode (ctl (sinst s))); cbn; now rewrite set_mode_same|]. cbn. auto.
          + reflexivity.
          + intros _. cbn. rewrite R. discriminate.
          + exists i', (tr0 ++ [] ++ tr). unfold bind at 1. rewrite call_eq, Eu, CALLk_ok. unfold bind at 1. cbn [modM modS].
            unfold set_mut. cbn. unfold set_mut in E. cbn in E. rewrite E. reflexivity.
        - exact (K (sinst s) (alike_refl _ W) eq_refl R). }
      destruct G as (i' & tr & G). exists (mkSys i' (heap s)), tr. cbn [exec3]. rewrite outI_eq, G. reflexivity.
    Qed.
    Lemma alike_canread t i j : mode (ctl j) = mode (ctl i) \/ mode (ctl j) = Terminated -> alike i j -> canread t i -> canread t j.
    Proof.
      intros M ((md & A) & _ & _ & Fl) (Hm & R). split.
      - destruct M as [-> | ->]; [exact Hm|]. destruct t; discriminate.
      - unfold calculable in *. rewrite A, vl_mode in *. destruct (dirty (mut j)); [rewrite Fl in R by auto; exact R|].
        destruct (dirty (mut i)); [destruct R as (tr & R); rewrite R; discriminate|exact R].
    Qed.

    (** Reading one variable. *)
    Lemma get3_canread t vrs nvr l nV fuel s out s' tr : wf (sinst s) -> nV <= length l -> nvr <> 0 ->
      exec3 m szof fuel env (O3Get t (Some vrs) nvr (Some l) nV) s = Done (OK, out, s', tr) -> canread t (sinst s).
    Proof.
      intros W L Hn E0. pose proof E0 as E. apply get3_spec in E; [|exact W|exact L|exact Hn].
      destruct E as (_ & _ & l' & E1 & _ & _ & [(_ & _ & Hm & _)|(X & _)]); [|discriminate]. split; [exact Hm|].
      cbn [exec3] in E0. rewrite outI_eq in E0. unfold fmi3Get in E0. rewrite BEGIN_pass in E0 by exact Hm.
      destruct (Nat.eqb_spec nvr 0); [contradiction|]. cbn [ASSERT_NOT_NULL] in E0.
      assert (G : exists k r, refresh m env OK (Some l) (fun st => bind (get_loop m env t vrs nvr (Some l) nV 0 st) k) (sinst s) = Done r
                   /\ fst (fst (fst r)) = OK).
      { destruct (Nat.ltb 0 nV); destruct (refresh _ _ _ _ _ _) as [[[[st0 b] i'] t0]| |] eqn:G; try discriminate;
          (eexists; eexists; split; [exact G|]; injection E0; intros; subst; reflexivity). }
      destruct G as (k & [[[st0 b] i'] t0] & G & Hs). cbn in Hs. subst st0. unfold refresh in G. rewrite bind_getM in G.
      destruct (dirty (mut (sinst s))) eqn:Dt.
      - apply bind_Done in G as (st1 & i1 & t1 & t2 & G1 & G2 & _). rewrite call_eq in G1.
        pose proof (vl_calc V env (ctl (sinst s)) (mut (sinst s)) W) as K. destruct (vl_out V env (ctl (sinst s))) as [[st2 tr2]|];
          [|rewrite K in G1; discriminate]. destruct K as ([->| ->] & u & K & _); [eauto|].
        rewrite K in G1. injection G1 as <- <- <-. rewrite CALLk_err in G2. discriminate.
      - apply bind_Done in G as (r1 & i1 & t1 & t2 & G1 & G2 & _). destruct nvr as [|nvr]; [contradiction|]. cbn [get_loop] in G1.
        destruct vrs as [|vr vrs]; [discriminate|].
        apply bind_Done in G1 as (r3 & i3 & t3 & t4 & G1 & _). rewrite call_eq, (vl_get V) in G1 by auto.
        intros Ec Hx. rewrite Ec in G1. pose proof (vl_calc V env (ctl (sinst s)) (mut (sinst s)) W) as K. rewrite Hx in K.
        unfold bind in G1. rewrite K in G1. discriminate.
    Qed.
    Lemma get1_iff s t vr vs : wf (sinst s) ->
      get3 m szof env s t vr vs <-> canread t (sinst s) /\ peek (sinst s) t vr = Some vs.
    Proof.
      intro W. split.
      - intros (buf & s' & tr & Lb & E). pose proof E as E0. apply get3_spec in E; [|exact W|lia|lia].
        destruct E as (_ & _ & l' & E1 & _ & _ & [(_ & _ & Hm & _ & vss & Fq & L & E2)|(X & _)]); [|discriminate].
        cbn [firstn] in Fq. inversion Fq as [|? vs0 ? ? P Q]; subst. inversion Q; subst.
        assert (vs0 = vs).
        { apply (f_equal (fun o : Out F D => match o with OVals t0 b => existT _ t0 b | _ => existT _ t None end)) in E1.
          apply Eqdep_dec.inj_pair2_eq_dec in E1; [|intros [] []; (left; reflexivity) || (right; discriminate)].
          injection E1 as E1. cbn [concat] in E1. rewrite <- Lb, skipn_all, !app_nil_r in E1. auto. }
        subst. split; [|exact P]. apply get3_canread in E0; auto; lia.
      - intros (C & P). destruct (@get3_do t [vr] [vs] vs 0 s) as (s' & tr & E); auto; try discriminate.
        + cbn. now rewrite app_nil_r.
        + exists vs, s', tr. split; [reflexivity|]. cbn [concat length] in E. rewrite app_nil_r, skipn_all, app_nil_r in E. exact E.
    Qed.

    (** Set. *)
    Lemma set3_spec t vrs nvr l nV fuel s st out s' tr : wf (sinst s) -> nvr <> 0 ->
      exec3 m szof fuel env (O3Set t (Some vrs) nvr (Some l) nV) s = Done (st, out, s', tr) ->
      heap s' = heap s /\ sol (sinst s') = sol (sinst s) /\ (exists md, ctl (sinst s') = set_mode md (ctl (sinst s))) /\
      exists n' vs d b, assigns t (firstn n' vrs) vs (data (mut (sinst s))) d /\
        mut (sinst s') = set_dirty b (set_data d (mut (sinst s))) /\ vl_wf V d /\
        (vs <> [] -> vs = firstn (length vs) l) /\ length vs <= nV /\
        (0 < n' -> exists tr, vl_out V env (ctl (sinst s)) = Some (OK, tr)) /\ (n' = 0 -> b = dirty (mut (sinst s))) /\
      ((st = OK /\ ctl (sinst s') = ctl (sinst s) /\ N.land (bit3 (mode_of s)) (MASK_Set t) <> 0%N /\ nvr <= length vrs /\
        b = true /\ n' = nvr /\ length vs = nV) \/
       (st = Error /\ mode_of s' = Terminated /\ n' <= nvr)).
    Proof.
      intros W Hn E. cbn [exec3] in E. rewrite outI_eq in E.
      destruct (fmi3Set _ _ _ _ _ _ _ _) as [[[[st0 x] i'] t0]| |] eqn:G; try discriminate.
      injection E as <- <- <- <-. cbn [sinst heap]. unfold mode_of. cbn [sinst]. split; [reflexivity|].
      unfold fmi3Set in G. apply BEGIN_any in G as [[Hm G]|(-> & -> & ->)].
      2: { split; [reflexivity|]. split; [exists Terminated; reflexivity|]. exists 0, [], (data (mut (sinst s))), (dirty (mut (sinst s))).
           split; [constructor|]. split; [cbn; now rewrite mut_same|]. split; [exact W|]. split; [congruence|]. cbn. split; [lia|]. split; [lia|]. split; [reflexivity|].
           right. repeat split. lia. }
      destruct (Nat.eqb_spec nvr 0) as [|_]; [contradiction|]. cbn [ASSERT_NOT_NULL] in G.
      apply bind_Done in G as ([s2 k2] & i2 & t2 & t3 & E1 & E2 & ->).
      destruct (@set_loop_spec t nV nvr vrs l 0 _ _ _ _ _ W ltac:(lia) E1) as (S2 & M2 & n' & vs & d & b & A & U & Wd & Kn & Lw & Ro & Rz & Q).
      cbn [skipn Nat.add] in *.
      destruct Q as [(-> & Cq & Ln & -> & ->)|(-> & M & L)]; cbn [stops] in E2.
      - rewrite bind_modM in E2.
        assert (U' : forall b0, set_dirty b0 (mut i2) = set_dirty b0 (set_data d (mut (sinst s)))) by (intro; rewrite U; now destruct (mut (sinst s))).
        destruct (Nat.eqb_spec (length vs) nV) as [He|He]; cbn [negb] in E2.
        + inversion E2; subst st0 x i' t3. cbn. split; [exact S2|]. split; [exact M2|].
          exists nvr, vs, d, true. rewrite U'. do 6 (split; [assumption || reflexivity|]). split; [congruence|]. left. auto 10.
        + rewrite bind_logError, CALLk_err in E2. inversion E2; subst st0 x i'. cbn. split; [exact S2|].
          split; [exists Terminated; now rewrite Cq|].
          exists nvr, vs, d, true. rewrite U'. do 6 (split; [assumption || reflexivity|]). split; [congruence|]. right. auto.
      - inversion E2; subst st0 x i' t3. split; [exact S2|]. split; [exact M2|]. exists n', vs, d, b.
        do 7 (split; [assumption || reflexivity|]). right. split; [reflexivity|]. split; [exact M|lia].
    Qed.
  End Laws.
End Vars.
