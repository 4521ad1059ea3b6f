(** Safe.v -- a small logic for the absence of undefined behaviour (C26). *)
From Coq Require Import List NArith ZArith Bool Arith Lia.
From Verif Require Import Base Instance ModelIface.
Import ListNotations.
Set Implicit Arguments.

(** The run ends (or loops), not in undefined behaviour, and then with [Q]. *)
Definition safe {E S X} (Q : X -> S -> Prop) (r : res (X * S * list E)) : Prop :=
  match r with Done (x, s, _) => Q x s | UB => False | NoFuel => True end.
Lemma safe_not E S X (Q : X -> S -> Prop) (r : res (X * S * list E)) : safe Q r -> r <> UB.
Proof. intros H ->. exact H. Qed.
Lemma safe_conseq E S X (Q Q' : X -> S -> Prop) (r : res (X * S * list E)) : safe Q r -> (forall x s, Q x s -> Q' x s) -> safe Q' r.
Proof. destruct r as [[[x s] t]| |]; cbn; auto. Qed.
Lemma safe_ret E S X (Q : X -> S -> Prop) (x : X) s : Q x s -> safe Q (@ret E S X x s).
Proof. auto. Qed.
Lemma safe_bind E S X Y (Q : Y -> S -> Prop) (f : SW E S X) (k : X -> SW E S Y) s :
  safe (fun x s' => safe Q (k x s')) (f s) -> safe Q (bind f k s).
Proof. unfold bind. destruct (f s) as [[[x s1] t1]| |]; cbn; auto. destruct (k x s1) as [[[y s2] t2]| |]; auto. Qed.

(** Arrays *)
Lemma upd_length T (v : T) : forall (l : list T) k, length (upd l k v) = length l.
Proof. induction l as [|x l IH]; intros [|k]; cbn; auto. Qed.
Definition blen {T} (b : Buf T) : nat := match b with Some l => length l | None => 0 end.
Definition shape {T} (b b' : Buf T) : Prop :=
  match b, b' with Some l, Some l' => length l' = length l | None, None => True | _, _ => False end.
Lemma shape_refl T (b : Buf T) : shape b b.
Proof. destruct b; cbn; auto. Qed.
Lemma shape_trans T (a b c : Buf T) : shape a b -> shape b c -> shape a c.
Proof. destruct a, b, c; cbn; auto; try tauto. congruence. Qed.
Lemma shape_blen T (a b : Buf T) : shape a b -> blen b = blen a.
Proof. destruct a, b; cbn; tauto || auto. Qed.
Lemma safe_rd E S T (b : Buf T) i s (Q : T -> S -> Prop) :
  i < blen b -> (forall v, nth_error (match b with Some l => l | None => [] end) i = Some v -> Q v s) -> safe Q (@rd E S T b i s).
Proof.
  destruct b as [l|]; cbn; [|lia]. intros H K. destruct (nth_error l i) eqn:En; cbn; [now apply K|].
  apply nth_error_None in En. lia.
Qed.
Lemma safe_wr E S T (b : Buf T) i v s (Q : Buf T -> S -> Prop) :
  i < blen b -> (forall b', shape b b' -> Q b' s) -> safe Q (@wr E S T b i v s).
Proof.
  destruct b as [l|]; cbn [blen]; [|lia]. intros H K. unfold wr. apply Nat.ltb_lt in H as ->. cbn. apply K. cbn. apply upd_length.
Qed.

(** Model functions *)
Section MSafe.
  Context {F D : Type}.
  Definition msafe {X} (Q : X -> Mut F D -> Prop) (f : MF F D X) (e : Env) (c : Ctl F) (u : Mut F D) : Prop := safe Q (f e c u).
  Lemma ms_conseq X (Q Q' : X -> Mut F D -> Prop) f e c u : msafe Q f e c u -> (forall x s, Q x s -> Q' x s) -> msafe Q' f e c u.
  Proof. apply safe_conseq. Qed.
  Lemma ms_ret X (x : X) (Q : X -> Mut F D -> Prop) e c u : Q x u -> msafe Q (mret x) e c u.
  Proof. auto. Qed.
  Lemma ms_bind X Y (f : MF F D X) (k : X -> MF F D Y) (Q : Y -> Mut F D -> Prop) e c u :
    msafe (fun x u' => msafe Q (k x) e c u') f e c u -> msafe Q (mbind f k) e c u.
  Proof. apply safe_bind. Qed.
  Lemma ms_ctl (Q : Ctl F -> Mut F D -> Prop) e c u : Q c u -> msafe Q mctl e c u.
  Proof. auto. Qed.
  Lemma ms_env (Q : Env -> Mut F D -> Prop) e c u : Q e u -> msafe Q menv e c u.
  Proof. auto. Qed.
  Lemma ms_get (Q : Mut F D -> Mut F D -> Prop) e c u : Q u u -> msafe Q mget e c u.
  Proof. auto. Qed.
  Lemma ms_data (Q : D -> Mut F D -> Prop) e c u : Q (data u) u -> msafe Q mdata e c u.
  Proof. auto. Qed.
  Lemma ms_mod f (Q : unit -> Mut F D -> Prop) e c u : Q tt (f u) -> msafe Q (mmod f) e c u.
  Proof. auto. Qed.
  Lemma ms_modd f (Q : unit -> Mut F D -> Prop) e c u : Q tt (set_data (f (data u)) u) -> msafe Q (mmodd f) e c u.
  Proof. auto. Qed.
  Lemma ms_tell ev (Q : unit -> Mut F D -> Prop) e c u : Q tt u -> msafe Q (mtell ev) e c u.
  Proof. auto. Qed.
  Lemma ms_log (Q : unit -> Mut F D -> Prop) e c u : Q tt u -> msafe Q mlogError e c u.
  Proof. unfold msafe, mlogError. destruct (logErrors c && hasLogger c); auto. Qed.
  Lemma ms_fail (Q : Status -> Mut F D -> Prop) e c u : Q Error u -> msafe Q fail e c u.
  Proof. intro H. apply ms_bind, ms_log, ms_ret, H. Qed.
  Lemma ms_rd T (b : Buf T) i (Q : T -> Mut F D -> Prop) e c u :
    i < blen b -> (forall v, nth_error (match b with Some l => l | None => [] end) i = Some v -> Q v u) -> msafe Q (mrd b i) e c u.
  Proof. apply safe_rd. Qed.
  Lemma ms_wr T (b : Buf T) i v (Q : Buf T -> Mut F D -> Prop) e c u :
    i < blen b -> (forall b', shape b b' -> Q b' u) -> msafe Q (mwr b i v) e c u.
  Proof. apply safe_wr. Qed.
  Lemma ms_takel T n : forall (b : Buf T) i (Q : list T -> Mut F D -> Prop) e c u,
    i + n <= blen b -> (forall l, length l = n -> Q l u) -> msafe Q (takel b i n) e c u.
  Proof.
    induction n as [|n IH]; cbn [takel]; intros b i Q e c u H K; [apply ms_ret; now apply K|].
    apply ms_bind, ms_rd; [lia|]. intros v _. apply ms_bind, IH; [lia|]. intros l L. apply ms_ret, K. cbn. lia.
  Qed.
  Lemma ms_writel T (l : list T) : forall (b : Buf T) i (Q : Buf T -> Mut F D -> Prop) e c u,
    i + length l <= blen b -> (forall b', shape b b' -> Q b' u) -> msafe Q (writel b i l) e c u.
  Proof.
    induction l as [|v l IH]; cbn [writel length]; intros b i Q e c u H K; [apply ms_ret, K, shape_refl|].
    apply ms_bind, ms_wr; [lia|]. intros b' S. apply IH; [rewrite (shape_blen _ _ S); lia|].
    intros b2 S2. apply K. eapply shape_trans; eauto.
  Qed.

  (** *** Getters: the array keeps its length *)
  Definition got {T} (W : Mut F D -> Prop) (values : Buf T) (r : GetRes T) (u : Mut F D) : Prop :=
    W u /\ shape values (snd (fst r)).
  Lemma ms_failGet T (values : Buf T) ix (W : Mut F D -> Prop) e c u : W u -> msafe (got W values) (failGet values ix) e c u.
  Proof. intro H. apply ms_bind, ms_log, ms_ret. split; [exact H|apply shape_refl]. Qed.
  Lemma ms_put1 T (values : Buf T) nv ix v (W : Mut F D -> Prop) e c u : nv <= blen values -> W u -> msafe (got W values) (put1 values nv ix v) e c u.
  Proof.
    intros L H. unfold put1, nvalues_ok. destruct (Nat.leb_spec (ix + 1) nv); [|now apply ms_failGet].
    apply ms_bind, ms_wr; [lia|]. intros b' S. apply ms_ret. split; auto.
  Qed.
  Lemma ms_putl T (l : list T) : forall (b : Buf T) ix (W : Mut F D -> Prop) e c u, ix + length l <= blen b -> W u -> msafe (got W b) (putl b ix l) e c u.
  Proof.
    induction l as [|v l IH]; cbn [putl length]; intros b ix W e c u H K; [apply ms_ret; split; [exact K|apply shape_refl]|].
    apply ms_bind, ms_wr; [lia|]. intros b' S. eapply ms_conseq; [apply IH; [rewrite (shape_blen _ _ S); lia|exact K]|].
    intros r u' [A B]. split; [exact A|]. eapply shape_trans; eauto.
  Qed.
  Lemma ms_nnGet T (values : Buf T) ix k (W : Mut F D -> Prop) e c u : W u ->
    (forall l, values = Some l -> msafe (got W values) k e c u) -> msafe (got W values) (nnGet values ix k) e c u.
  Proof. intros H K. destruct values; cbn [nnGet]; [eapply K; reflexivity|now apply ms_failGet]. Qed.
  (** *** Setters *)
  Definition wrote (W : Mut F D -> Prop) (one : Prop) (ix : nat) (r : SetRes) (u : Mut F D) : Prop :=
    W u /\ (fst r = OK \/ fst r = Error) /\ (fst r = OK -> one -> snd r = S ix).
  Lemma ms_failSet ix ix' (W : Mut F D -> Prop) one e c u : W u -> msafe (wrote W one ix) (failSet ix') e c u.
  Proof. intro H. apply ms_bind, ms_log, ms_ret. split; [exact H|]. split; [now right|discriminate]. Qed.
  Lemma ms_take1 T (values : Buf T) nv ix f (W : Mut F D -> Prop) (one : Prop) e c u : nv <= blen values -> W u ->
    (forall v, W (set_data (f v (data u)) u)) -> msafe (wrote W one ix) (take1 values nv ix f) e c u.
  Proof.
    intros L H K. unfold take1, nvalues_ok. destruct (Nat.leb_spec (ix + 1) nv); [|now apply ms_failSet].
    apply ms_bind, ms_rd; [lia|]. intros v _. apply ms_bind, ms_modd, ms_ret. split; [apply K|]. split; auto.
  Qed.
  Lemma ms_thenDirty f (W : Mut F D -> Prop) (one : Prop) ix e c u : (forall u b, W u -> W (set_dirty b u)) ->
    msafe (wrote W one ix) f e c u -> msafe (wrote W one ix) (thenDirty f) e c u.
  Proof.
    intros H K. apply ms_bind. eapply ms_conseq; [exact K|]. intros [st ix'] u' (A & B & C). cbn [fst snd] in *.
    destruct B as [-> | ->]; [apply ms_bind, ms_mod, ms_ret|apply ms_ret]; (split; [auto|]; split; auto).
  Qed.
  Lemma ms_nnSet T (values : Buf T) ix ix' k (W : Mut F D -> Prop) one e c u : W u ->
    (forall l, values = Some l -> msafe (wrote W one ix) k e c u) -> msafe (wrote W one ix) (nnSet values ix' k) e c u.
  Proof. intros H K. destruct values; cbn [nnSet]; [eapply K; reflexivity|now apply ms_failSet]. Qed.
  (** *** States *)
  Definition filled (W : Mut F D -> Prop) (b : Buf F) (r : Status * Buf F) (u : Mut F D) : Prop :=
    W u /\ shape b (snd r) /\ (fst r = OK \/ fst r = Error).
  Definition ended (W : Mut F D -> Prop) (r : Status) (u : Mut F D) : Prop := W u /\ (r = OK \/ r = Error).
  Lemma ms_arrGet b nx n k (W : Mut F D -> Prop) e c u : W u ->
    (forall l, b = Some l -> nx = n -> msafe (filled W b) k e c u) -> msafe (filled W b) (arrGet b nx n k) e c u.
  Proof.
    intros H K. unfold arrGet. destruct b as [l|].
    - destruct (Nat.eqb_spec nx n); [eapply K; eauto|]. apply ms_bind, ms_log, ms_ret. split; [exact H|]. split; [apply shape_refl|auto].
    - apply ms_bind, ms_log, ms_ret. split; [exact H|]. split; [apply shape_refl|auto].
  Qed.
  Lemma ms_arrSet b nx n k (W : Mut F D -> Prop) e c u : W u ->
    (forall l, b = Some l -> nx = n -> msafe (ended W) k e c u) -> msafe (ended W) (arrSet b nx n k) e c u.
  Proof.
    intros H K. unfold arrSet. destruct b as [l|].
    - destruct (Nat.eqb_spec nx n); [eapply K; eauto|]. apply ms_fail. split; auto.
    - apply ms_fail. split; auto.
  Qed.
  Lemma ms_states_default b n (W : Mut F D -> Prop) e c u : W u -> msafe (filled W b) (states_default b n) e c u.
  Proof.
    intro H. unfold states_default. destruct (n =? 0); [apply ms_ret|apply ms_bind, ms_log, ms_ret];
      (split; [exact H|]; split; [apply shape_refl|auto]).
  Qed.
  Lemma ms_indicators_default b n (W : Mut F D -> Prop) e c u : W u -> msafe (filled W b) (indicators_default b n) e c u.
  Proof. apply ms_states_default. Qed.
  Lemma ms_setStates_default b n (W : Mut F D -> Prop) e c u : W u -> msafe (ended W) (setStates_default b n) e c u.
  Proof. intro H. unfold setStates_default. destruct (n =? 0); [apply ms_ret|apply ms_fail]; split; auto. Qed.
End MSafe.
