(** Logic.v -- proof rules for the state/writer monad. *)

From Coq Require Import List NArith ZArith Bool Arith Lia.
From Verif Require Import Base Instance ModelIface Core.
Import ListNotations.
Set Implicit Arguments.

(** What holds of the outcome of a computation: [Q] of a normal outcome, [ub] of
    undefined behaviour, [nf] of an exhausted fuel. *)
Definition wp {E S X} (ub nf : Prop) (m : SW E S X) (Q : X -> S -> list E -> Prop) (s : S) : Prop :=
  match m s with
  | Done (x, s', t) => Q x s' t
  | UB => ub
  | NoFuel => nf
  end.

Section Rules.
  Context {E S : Type} (ub nf : Prop).

  Lemma wp_conseq X (m : SW E S X) (Q Q' : X -> S -> list E -> Prop) s :
    (forall x s' t, Q x s' t -> Q' x s' t) -> wp ub nf m Q s -> wp ub nf m Q' s.
  Proof. unfold wp. destruct (m s) as [[[? ?] ?]| |]; auto. Qed.

  Lemma wp_ret X (x : X) (Q : X -> S -> list E -> Prop) (s : S) : Q x s (@nil E) -> wp ub nf (ret x) Q s.
  Proof. exact (fun H => H). Qed.

  Lemma wp_bind X Y (m : SW E S X) (k : X -> SW E S Y) Q s :
    wp ub nf m (fun x s1 t1 => wp ub nf (k x) (fun y s2 t2 => Q y s2 (t1 ++ t2)) s1) s ->
    wp ub nf (bind m k) Q s.
  Proof.
    unfold wp, bind. destruct (m s) as [[[x s1] t1]| |]; auto.
    destruct (k x s1) as [[[y s2] t2]| |]; auto.
  Qed.

  Lemma wp_bind_inv X Y (m : SW E S X) (k : X -> SW E S Y) Q s :
    wp ub nf (bind m k) Q s ->
    wp ub nf m (fun x s1 t1 => wp ub nf (k x) (fun y s2 t2 => Q y s2 (t1 ++ t2)) s1) s.
  Proof.
    unfold wp, bind. destruct (m s) as [[[x s1] t1]| |]; auto.
    destruct (k x s1) as [[[y s2] t2]| |]; auto.
  Qed.

  Lemma wp_tell (e : E) (Q : unit -> S -> list E -> Prop) (s : S) : Q tt s [e] -> wp ub nf (tell e) Q s.
  Proof. exact (fun H => H). Qed.
  Lemma wp_modS f (Q : unit -> S -> list E -> Prop) (s : S) : Q tt (f s) (@nil E) -> wp ub nf (modS f) Q s.
  Proof. exact (fun H => H). Qed.
  Lemma wp_getS (Q : S -> S -> list E -> Prop) (s : S) : Q s s (@nil E) -> wp ub nf getS Q s.
  Proof. exact (fun H => H). Qed.
  Lemma wp_ub X (Q : X -> S -> list E -> Prop) (s : S) : ub -> wp ub nf (@ubM E S X) Q s.
  Proof. exact (fun H => H). Qed.
  Lemma wp_nofuel X (Q : X -> S -> list E -> Prop) (s : S) : nf -> wp ub nf (@nofuelM E S X) Q s.
  Proof. exact (fun H => H). Qed.
  Lemma wp_rd T (b : Buf T) i (Q : T -> S -> list E -> Prop) (s : S) :
    (match b with Some l => match nth_error l i with Some v => Q v s (@nil E) | None => ub end | None => ub end) ->
    wp ub nf (rd b i) Q s.
  Proof. unfold wp, rd. destruct b as [l|]; [destruct (nth_error l i)|]; exact (fun H => H). Qed.
  Lemma wp_wr T (b : Buf T) i v (Q : Buf T -> S -> list E -> Prop) (s : S) :
    (match b with Some l => if Nat.ltb i (length l) then Q (Some (upd l i v)) s (@nil E) else ub | None => ub end) ->
    wp ub nf (wr b i v) Q s.
  Proof. unfold wp, wr. destruct b as [l|]; [destruct (Nat.ltb i (length l))|]; exact (fun H => H). Qed.
End Rules.

Lemma bind_Done E S X Y (m : SW E S X) (k : X -> SW E S Y) s y s2 t :
  bind m k s = Done (y, s2, t) ->
  exists x s1 t1 t2, m s = Done (x, s1, t1) /\ k x s1 = Done (y, s2, t2) /\ t = t1 ++ t2.
Proof.
  unfold bind. destruct (m s) as [[[x s1] t1]| |]; try discriminate.
  destruct (k x s1) as [[[y' s2'] t2]| |] eqn:E2; try discriminate.
  intro H; inversion H; subst. eauto 10.
Qed.

Lemma bind_assoc E S X Y Z (m : SW E S X) (k : X -> SW E S Y) (l : Y -> SW E S Z) s :
  bind (bind m k) l s = bind m (fun x => bind (k x) l) s.
Proof.
  unfold bind. destruct (m s) as [[[x s1] t1]| |]; auto.
  destruct (k x s1) as [[[y s2] t2]| |]; auto.
  destruct (l y s2) as [[[z s3] t3]| |]; auto. now rewrite app_assoc.
Qed.

Lemma bind_ret_l E S X Y (x : X) (k : X -> SW E S Y) s : bind (ret x) k s = k x s.
Proof. unfold bind, ret. destruct (k x s) as [[[? ?] ?]| |]; auto. Qed.

Lemma bind_ext E S X Y (m : SW E S X) (k k' : X -> SW E S Y) s :
  (forall x s1, k x s1 = k' x s1) -> bind m k s = bind m k' s.
Proof. intro H. unfold bind. destruct (m s) as [[[x s1] t1]| |]; auto. now rewrite H. Qed.

(** ** Model functions *)
Section Good.
  Context {F D : Type} {NF : Num F}.

  (** The trace of a function that may log errors: only as enabled. *)
  Definition log_event (e : Event F) : bool := match e with ELog _ _ => true | _ => false end.
  Definition logs_ok (c : Ctl F) (t : list (Event F)) : Prop :=
    forall e, In e t -> log_event e = true ->
      e = ELog Error CatLogStatusError /\ logErrors c = true /\ hasLogger c = true.

  Lemma logs_ok_nil c : logs_ok c [].
  Proof. intros e []. Qed.
  Lemma logs_ok_app c t1 t2 : logs_ok c t1 -> logs_ok c t2 -> logs_ok c (t1 ++ t2).
  Proof. intros H1 H2 e He. apply in_app_or in He as [He|He]; auto. Qed.

  (** [f] never runs out of fuel, its results satisfy [Q], its log messages are enabled. *)
  Definition gd {X} (Q : X -> Prop) (f : MF F D X) : Prop :=
    forall e c u, match f e c u with
                  | Done (x, _, t) => Q x /\ logs_ok c t
                  | UB => True
                  | NoFuel => False
                  end.

  Lemma gd_ret X (Q : X -> Prop) x : Q x -> gd Q (mret x).
  Proof. intros H e c u. simpl. split; auto using logs_ok_nil. Qed.
  Lemma gd_bind X Y (Q : Y -> Prop) (P : X -> Prop) (f : MF F D X) k :
    gd P f -> (forall x, P x -> gd Q (k x)) -> gd Q (mbind f k).
  Proof.
    intros Hf Hk e c u. unfold mbind, bind. specialize (Hf e c u).
    destruct (f e c u) as [[[x u1] t1]| |]; auto. destruct Hf as [Px L1].
    specialize (Hk x Px e c u1). destruct (k x e c u1) as [[[y u2] t2]| |]; auto.
    destruct Hk. split; auto using logs_ok_app.
  Qed.
  Lemma gd_ub X (Q : X -> Prop) : gd Q mub.
  Proof. intros e c u. exact I. Qed.
  Lemma gd_ctl : gd (fun _ => True) mctl.
  Proof. intros e c u. simpl. split; auto using logs_ok_nil. Qed.
  Lemma gd_env : gd (fun _ => True) menv.
  Proof. intros e c u. simpl. split; auto using logs_ok_nil. Qed.
  Lemma gd_get : gd (fun _ => True) mget.
  Proof. intros e c u. simpl. split; auto using logs_ok_nil. Qed.
  Lemma gd_data : gd (fun _ => True) mdata.
  Proof. intros e c u. simpl. split; auto using logs_ok_nil. Qed.
  Lemma gd_mod f : gd (fun _ => True) (mmod f).
  Proof. intros e c u. simpl. split; auto using logs_ok_nil. Qed.
  Lemma gd_modd f : gd (fun _ => True) (mmodd f).
  Proof. intros e c u. simpl. split; auto using logs_ok_nil. Qed.
  Lemma gd_rd T (b : Buf T) i : gd (fun _ => True) (mrd b i).
  Proof.
    intros e c u. unfold mrd, rd. destruct b as [l|]; simpl; auto.
    destruct (nth_error l i); simpl; auto using logs_ok_nil.
  Qed.
  Lemma gd_wr T (b : Buf T) i v : gd (fun _ => True) (mwr b i v).
  Proof.
    intros e c u. unfold mwr, wr. destruct b as [l|]; simpl; auto.
    destruct (Nat.ltb i (length l)); simpl; auto using logs_ok_nil.
  Qed.
  Lemma gd_tell e : log_event e = false -> gd (fun _ => True) (mtell e).
  Proof.
    intros He e' c u. simpl. split; auto. intros x [<-|[]] Hx. congruence.
  Qed.
  Lemma gd_log : gd (fun _ => True) mlogError.
  Proof.
    intros e c u. unfold mlogError. destruct (logErrors c) eqn:L, (hasLogger c) eqn:H;
      simpl; split; auto using logs_ok_nil.
    intros x [<-|[]] Hx. auto.
  Qed.
  Lemma gd_weaken X (P Q : X -> Prop) f : (forall x, P x -> Q x) -> gd P f -> gd Q f.
  Proof.
    intros HPQ Hf e c u. specialize (Hf e c u).
    destruct (f e c u) as [[[x u1] t1]| |]; auto. destruct Hf; auto.
  Qed.
  Lemma gd_true X (P : X -> Prop) f : gd P f -> gd (fun _ => True) f.
  Proof. apply gd_weaken; auto. Qed.

  Definition okerr (s : Status) : Prop := s = OK \/ s = Error.
  Definition st_get {T} (r : GetRes T) : Status := fst (fst r).
  Definition st_bin (r : Status * Buf nat * Buf bytes * nat) : Status := fst (fst (fst r)).

  Lemma gd_failGet T (v : Buf T) i : gd (fun r => okerr (st_get r)) (failGet v i).
  Proof.
    eapply gd_bind; [apply gd_log|]. intros. apply gd_ret. right; reflexivity.
  Qed.
  Lemma gd_failSet i : gd (fun r => okerr (fst r)) (failSet i).
  Proof.
    eapply gd_bind; [apply gd_log|]. intros. apply gd_ret. right; reflexivity.
  Qed.
  Lemma gd_fail : gd okerr fail.
  Proof.
    eapply gd_bind; [apply gd_log|]. intros. apply gd_ret. right; reflexivity.
  Qed.
  Lemma gd_put1 T (v : Buf T) n i x : gd (fun r => okerr (st_get r)) (put1 v n i x).
  Proof.
    unfold put1. destruct (nvalues_ok i 1 n); [|apply gd_failGet].
    eapply gd_bind; [apply gd_wr|]. intros. apply gd_ret. left; reflexivity.
  Qed.
  Lemma gd_putl T l : forall (v : Buf T) i, gd (fun r => okerr (st_get r)) (putl v i l).
  Proof.
    induction l; simpl; intros.
    - apply gd_ret. left; reflexivity.
    - eapply gd_bind; [apply gd_wr|]. auto.
  Qed.
  Lemma gd_takel T n : forall (v : Buf T) i, gd (fun _ => True) (takel v i n).
  Proof.
    induction n; simpl; intros.
    - apply gd_ret; auto.
    - eapply gd_bind; [apply gd_rd|]. intros. eapply gd_bind; [apply IHn|]. intros. apply gd_ret; auto.
  Qed.
  Lemma gd_writel T l : forall (v : Buf T) i, gd (fun _ => True) (writel v i l).
  Proof.
    induction l; simpl; intros.
    - apply gd_ret; auto.
    - eapply gd_bind; [apply gd_wr|]. auto.
  Qed.
  Lemma gd_take1 T (v : Buf T) n i f : gd (fun r => okerr (fst r)) (take1 v n i f).
  Proof.
    unfold take1. destruct (nvalues_ok i 1 n); [|apply gd_failSet].
    eapply gd_bind; [apply gd_rd|]. intros. eapply gd_bind; [apply gd_modd|]. intros.
    apply gd_ret. left; reflexivity.
  Qed.
  Lemma gd_thenDirty f : gd (fun r => okerr (fst r)) f -> gd (fun r => okerr (fst r)) (thenDirty f).
  Proof.
    intro H. eapply gd_bind; [exact H|]. intros r Hr. destruct (fst r) eqn:E.
    1: eapply gd_bind; [apply gd_mod|]; intros.
    all: apply gd_ret; first [exact Hr | rewrite E; exact Hr].
  Qed.
  Lemma gd_nnGet T (v : Buf T) i k :
    gd (fun r => okerr (st_get r)) k -> gd (fun r => okerr (st_get r)) (nnGet v i k).
  Proof. intro H. destruct v; simpl; auto using gd_failGet. Qed.
  Lemma gd_nnSet T (v : Buf T) i k :
    gd (fun r => okerr (fst r)) k -> gd (fun r => okerr (fst r)) (nnSet v i k).
  Proof. intro H. destruct v; simpl; auto using gd_failSet. Qed.
  Lemma gd_logret X (Q : X -> Prop) x : Q x -> gd Q (mbind mlogError (fun _ => mret x)).
  Proof. intro H. eapply gd_bind; [apply gd_log|]. intros. now apply gd_ret. Qed.
  Lemma gd_arrGet x n k f :
    gd (fun r => okerr (fst r)) f -> gd (fun r => okerr (fst r)) (arrGet x n k f).
  Proof.
    intro H. unfold arrGet. destruct x; [destruct (Nat.eqb n k)|]; auto;
      apply gd_logret; right; reflexivity.
  Qed.
  Lemma gd_arrSet x n k f : gd okerr f -> gd okerr (arrSet x n k f).
  Proof. intro H. unfold arrSet. destruct x; [destruct (Nat.eqb n k)|]; auto using gd_fail. Qed.
End Good.

Ltac gd_step :=
  match goal with
  | |- gd _ (mbind mlogError (fun _ => mret _)) => apply gd_logret; (right; reflexivity)
  | |- gd _ (mret _) => apply gd_ret; first [exact I | left; reflexivity | right; reflexivity]
  | |- gd _ mub => apply gd_ub
  | |- gd _ fail => apply gd_fail
  | |- gd _ (failGet _ _) => apply gd_failGet
  | |- gd _ (failSet _) => apply gd_failSet
  | |- gd _ (put1 _ _ _ _) => apply gd_put1
  | |- gd _ (putl _ _ _) => apply gd_putl
  | |- gd _ (take1 _ _ _ _) => apply gd_take1
  | |- gd _ (takel _ _ _) => apply gd_takel
  | |- gd _ (writel _ _ _) => apply gd_writel
  | |- gd _ (thenDirty _) => apply gd_thenDirty
  | |- gd _ (nnGet _ _ _) => apply gd_nnGet
  | |- gd _ (nnSet _ _ _) => apply gd_nnSet
  | |- gd _ (arrGet _ _ _ _) => apply gd_arrGet
  | |- gd _ (arrSet _ _ _ _) => apply gd_arrSet
  | |- gd _ mctl => apply gd_ctl
  | |- gd _ menv => apply gd_env
  | |- gd _ mget => apply gd_get
  | |- gd _ mdata => apply gd_data
  | |- gd _ (mmod _) => apply gd_mod
  | |- gd _ (mmodd _) => apply gd_modd
  | |- gd _ (mrd _ _) => apply gd_rd
  | |- gd _ (mwr _ _ _) => apply gd_wr
  | |- gd _ mlogError => apply gd_log
  | |- gd _ (mtell _) => apply gd_tell; reflexivity
  | |- gd _ (mbind _ _) => eapply (@gd_bind _ _ _ _ _ (fun _ => True)); [| intros ? _]
  | |- gd _ (match ?x with _ => _ end) => destruct x
  | |- gd _ (if ?x then _ else _) => destruct x
  | |- gd _ (let x := _ in _) => cbv zeta
  end.

(** ** Laws of an FMU used by the framework proofs: statuses are OK or Error, no fuel is
    needed, log messages only as enabled. *)
Record Laws {F : Type} {NF : Num F} (m : Model F) : Prop := mkLaws {
  l_start : gd okerr (m_setStartValues m);
  l_calc : gd okerr (m_calculateValues m);
  l_get : forall t vr v n i, gd (fun r => okerr (st_get r)) (m_get m t vr v n i);
  l_set : forall t vr v n i, gd (fun r => okerr (fst r)) (m_set m t vr v n i);
  l_getBinary : forall vr s v n i, gd (fun r => okerr (st_bin r)) (m_getBinary m vr s v n i);
  l_setBinary : forall vr s v n i, gd (fun r => okerr (fst r)) (m_setBinary m vr s v n i);
  l_activateClock : forall vr, gd okerr (m_activateClock m vr);
  l_getClock : forall vr, gd (fun r => okerr (fst r)) (m_getClock m vr);
  l_getInterval : forall vr, gd (fun r => okerr (fst (fst r))) (m_getInterval m vr);
  l_activate : forall vr t, gd okerr (m_activateModelPartition m vr t);
  l_states : forall x n, gd (fun r => okerr (fst r)) (m_getContinuousStates m x n);
  l_nominals : forall x n, gd (fun r => okerr (fst r)) (m_getNominals m x n);
  l_setStates : forall x n, gd okerr (m_setContinuousStates m x n);
  l_derivs : forall x n, gd (fun r => okerr (fst r)) (m_getDerivatives m x n);
  l_indicators : forall x n, gd (fun r => okerr (fst r)) (m_getEventIndicators m x n);
  l_outDeriv : forall b vr o, gd (fun r => okerr (fst r)) (m_getOutputDerivative m b vr o);
  l_partial : forall u k, gd (fun r => okerr (fst r)) (m_getPartialDerivative m u k);
  l_event : gd okerr (m_eventUpdateF m)
}.
