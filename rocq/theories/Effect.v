(** Effect.v -- [effect3]/[effect2], the log discipline and the heap of saved states, for every
    call of both APIs. *)
From Coq Require Import List NArith ZArith Bool Arith Lia.
From Verif Require Import Base Instance ModelIface Core Fmi3 Fmi2 Api Logic SpecModes Frame Frame3.
Import ListNotations.
Set Implicit Arguments.

Section Effect.
  Context {F : Type} {NF : Num F} (m : Model F) (szof : N) (env : Env).
  Notation D := (md m).
  Hypothesis L : Laws m.

  Lemma outS_gate3 X mask (x : X) k o s st out s' t :
    outS (m:=m) (BEGIN3S env mask x k) o s = Done (st, out, s', t) ->
    (st = Error /\ ctl (sinst s') = set_mode Terminated (ctl (sinst s)) /\ heap s' = heap s /\
      logs_ok (ctl (sinst s)) t) \/
    (exists y, k s = Done ((st, y), s', t) /\ out = o y).
  Proof.
    unfold outS, BEGIN3S, onInst, allowedState. unfold bind at 1 2 3. cbn [getC].
    destruct (N.eqb_spec (N.land (bit3 (mode (ctl (sinst s)))) mask) 0) as [E|E].
    - unfold bind at 1. pose proof (@quiet_logError _ m env (sinst s)) as H.
      destruct (logError m env (sinst s)) as [[[u i'] t']| |]; try discriminate.
      destruct H as (_ & C & Lg). cbn. rewrite !app_nil_r. intro H; inversion H; subst; cbn. rewrite C.
      left; auto.
    - cbn. destruct s as [i h]. cbn. destruct (k (mkSys i h)) as [[[[st1 y] i1] t1]| |]; try discriminate. cbn.
      rewrite app_nil_r. intro H; inversion H; subst. right. exists y. auto.
  Qed.
  Lemma outS_gate3' X mask (x : X) k o s st out s' t :
    outS (m:=m) (BEGIN3S env mask x k) o s = Done (st, out, s', t) ->
    (N.land (bit3 (mode (ctl (sinst s)))) mask = 0%N /\ st = Error) \/
    (exists y, k s = Done ((st, y), s', t) /\ out = o y).
  Proof.
    unfold outS, BEGIN3S, onInst, allowedState. unfold bind at 1 2 3. cbn [getC].
    destruct (N.eqb_spec (N.land (bit3 (mode (ctl (sinst s)))) mask) 0) as [E|E].
    - unfold bind at 1. destruct (logError m env (sinst s)) as [[[u i'] t']| |]; try discriminate.
      intro H; inversion H; subst. auto.
    - cbn. destruct s as [i h]. cbn. destruct (k (mkSys i h)) as [[[[st1 y] i1] t1]| |]; try discriminate. cbn.
      rewrite app_nil_r. intro H; inversion H; subst. right. exists y. auto.
  Qed.
  Lemma outS_gate2 X mask (x : X) k o s st out s' t :
    outS (m:=m) (BEGIN2S env mask x k) o s = Done (st, out, s', t) ->
    (st = Error /\ ctl (sinst s') = set_mode Terminated (ctl (sinst s)) /\ heap s' = heap s /\
      logs_ok (ctl (sinst s)) t) \/
    (exists y, k s = Done ((st, y), s', t) /\ out = o y).
  Proof.
    unfold outS, BEGIN2S, onInst, allowedState2. unfold bind at 1 2 3. cbn [getC].
    destruct (N.eqb_spec (N.land (bit2 (mode (ctl (sinst s)))) mask) 0) as [E|E].
    - unfold bind at 1. pose proof (@quiet_logError _ m env (sinst s)) as H.
      destruct (logError m env (sinst s)) as [[[u i'] t']| |]; try discriminate.
      destruct H as (_ & C & Lg). cbn. rewrite !app_nil_r. intro H; inversion H; subst; cbn. rewrite C.
      left; auto.
    - cbn. destruct s as [i h]. cbn. destruct (k (mkSys i h)) as [[[[st1 y] i1] t1]| |]; try discriminate. cbn.
      rewrite app_nil_r. intro H; inversion H; subst. right. exists y. auto.
  Qed.

  (** The saved states after a call: those from before, a copy of the instance, the image
      handed in. *)
  Definition heap_from (img : option (Inst F D)) (s s' : Sys F D) : Prop :=
    forall i, In (Some i) (heap s') -> In (Some i) (heap s) \/ i = sinst s \/ img = Some i.
  Lemma heap_from_eq img s s' : heap s' = heap s -> heap_from img s s'.
  Proof. intros E i. rewrite E. auto. Qed.

  Lemma In_upd {T} (l : list T) k v x : In x (upd l k v) -> In x l \/ x = v.
  Proof.
    revert k. induction l; intros [|k]; cbn; try tauto.
    - intros [->|H]; auto.
    - intros [->|H]; auto. apply IHl in H. tauto.
  Qed.

  (** What the FMU-state functions do. *)
  Lemma getFMUState_Done p h s h' s' t :
    getFMUState m p h s = Done (h', s', t) ->
    p = true /\ sinst s' = sinst s /\ t = [] /\ heap_from None s s' /\
    h' = Some (length (heap s)) /\ saved s' (length (heap s)) = Some (sinst s).
  Proof.
    unfold getFMUState, bind, alloc, store, ret. destruct p; [cbn|discriminate].
    assert (A : forall l, nth_error (l ++ [Some (sinst s)]) (length l) = Some (Some (sinst s))).
    { intro l. rewrite nth_error_app2, Nat.sub_diag; auto. }
    assert (Hup : forall {T} (l : list T) k v, length (upd l k v) = length l).
    { induction l; intros [|?] ?; cbn; auto. }
    destruct h as [k|]; cbn.
    - destruct (nth_error (heap s) k) as [[|]|]; try discriminate. intro H; inversion H; subst; cbn.
      split; [reflexivity|]. split; [reflexivity|]. split; [reflexivity|]. split; [|split].
      + intros i' Hi. apply in_app_or in Hi as [Hi|[Hi|[]]].
        * apply In_upd in Hi as [Hi|Hi]; [auto|discriminate].
        * inversion Hi; auto.
      + now rewrite Hup.
      + unfold saved. cbn. rewrite <- (Hup _ (heap s) k None), A. reflexivity.
    - intro H; inversion H; subst; cbn.
      split; [reflexivity|]. split; [reflexivity|]. split; [reflexivity|]. split; [|split]; auto.
      + intros i' Hi. apply in_app_or in Hi as [Hi|[Hi|[]]]; auto. inversion Hi; auto.
      + unfold saved. cbn. now rewrite A.
  Qed.
  Lemma freeFMUState_Done p h s h' s' t :
    freeFMUState m p h s = Done (h', s', t) ->
    sinst s' = sinst s /\ t = [] /\ heap_from None s s' /\ h' = None.
  Proof.
    unfold freeFMUState, bind, store, ret. destruct p; [cbn|discriminate].
    destruct h as [k|]; cbn.
    - destruct (nth_error (heap s) k) as [[|]|]; try discriminate. intro H; inversion H; subst; cbn.
      repeat split; auto. intros i' Hi. apply In_upd in Hi as [Hi|Hi]; [auto|discriminate].
    - intro H; inversion H; subst. repeat split; auto. now apply heap_from_eq.
  Qed.
  Definition failed (s s' : Sys F D) (t : list (Event F)) : Prop :=
    s' = with_mode Terminated s /\ t = refusal s.
  Lemma refusal_logs (s : Sys F D) : logs_ok (ctl (sinst s)) (refusal s).
  Proof.
    unfold refusal. destruct (logErrors (ctl (sinst s))) eqn:E1, (hasLogger (ctl (sinst s))) eqn:E2; cbn;
      try apply logs_ok_nil.
    intros e [<-|[]] _. auto.
  Qed.
  Lemma refuse_eq s :
    onInst m (bind (setMode m Terminated) (fun _ => bind (logError m env) (fun _ => ret true))) s
    = Done (true, with_mode Terminated s, refusal s).
  Proof.
    destruct s as [[c u so] h]. unfold onInst, bind, logError, call, mlogError, refusal. cbn.
    destruct (logErrors c && hasLogger c); reflexivity.
  Qed.
  Lemma nullPointer_Done T (p : option T) s b s' t :
    onInst m (nullPointer m env p) s = Done (b, s', t) ->
    p = None /\ b = true /\ failed s s' t \/ p <> None /\ b = false /\ s' = s /\ t = [].
  Proof.
    unfold nullPointer. destruct p.
    - cbn. intro H; inversion H; subst. right. destruct s; repeat split; auto; discriminate.
    - rewrite refuse_eq. intro H; inversion H; subst. left. unfold failed. auto.
  Qed.
  Lemma invalidNumber_Done a e s b s' t :
    onInst m (invalidNumber m env a e) s = Done (b, s', t) ->
    a <> e /\ b = true /\ failed s s' t \/ a = e /\ b = false /\ s' = s /\ t = [].
  Proof.
    unfold invalidNumber. destruct (N.eqb_spec a e).
    - cbn. intro H; inversion H; subst. right. destruct s; repeat split; auto.
    - rewrite refuse_eq. intro H; inversion H; subst. left. unfold failed. auto.
  Qed.
  Lemma serialize_Done h dst size s r s' t :
    serializeFMUState m szof env h dst size s = Done (r, s', t) ->
    fst r = Error /\ snd r = dst /\ failed s s' t \/
    (size = szof /\ s' = s /\ t = [] /\ fst r = OK /\
     exists k d i, h = Some k /\ dst = Some d /\ saved s k = Some i /\ (szof <= bsize d)%N /\
                   snd r = Some (mkBlob (bsize d) (Some i))).
  Proof.
    unfold serializeFMUState. intro H.
    apply bind_Done in H as (b & s1 & t1 & t2 & E1 & E2 & ->).
    apply nullPointer_Done in E1 as [(-> & -> & Hf)|(Hh & -> & -> & ->)].
    { inversion E2; subst. left. rewrite app_nil_r. auto. }
    apply bind_Done in E2 as (b & s1 & t3 & t4 & E1 & E2 & ->).
    apply invalidNumber_Done in E1 as [(_ & -> & Hf)|(-> & -> & -> & ->)].
    { inversion E2; subst. left. rewrite app_nil_r. auto. }
    destruct h as [k|]; [|congruence]. destruct dst as [d|]; [|discriminate].
    apply bind_Done in E2 as (i & s1 & t5 & t6 & E1 & E2 & ->).
    unfold deref in E1. destruct (nth_error (heap s) k) as [[i0|]|] eqn:En; try discriminate.
    inversion E1; subst. destruct (N.ltb_spec (bsize d) szof); [discriminate|].
    inversion E2; subst. right. repeat split; auto. exists k, d, i. unfold saved. rewrite En. auto 10.
  Qed.
  Lemma deserialize_Done src size p h s r s' t :
    deserializeFMUState m szof env src size p h s = Done (r, s', t) ->
    fst r = Error /\ snd r = h /\ failed s s' t \/
    (size = szof /\ sinst s' = sinst s /\ t = [] /\ fst r = OK /\ p = true /\
     exists b i k, src = Some b /\ bimage b = Some i /\ (szof <= bsize b)%N /\
                   heap_from (Some i) s s' /\ snd r = Some k /\ saved s' k = Some i).
  Proof.
    unfold deserializeFMUState. intro H.
    apply bind_Done in H as (b & s1 & t1 & t2 & E1 & E2 & ->).
    apply invalidNumber_Done in E1 as [(_ & -> & Hf)|(-> & -> & -> & ->)].
    { inversion E2; subst. left. rewrite app_nil_r. auto. }
    destruct p; [|discriminate]. cbn in E2. destruct src as [b|]; [|discriminate].
    destruct (bimage b) as [i|] eqn:Eb; [|discriminate].
    destruct (N.ltb_spec (bsize b) szof); [discriminate|].
    right. destruct h as [k|].
    - unfold bind, store in E2. destruct (nth_error (heap s) k) as [[i0|]|] eqn:En; try discriminate.
      inversion E2; subst; cbn. repeat split; auto. exists b, i, k. repeat split; auto.
      + intros j Hj. apply In_upd in Hj as [Hj|Hj]; auto.
      + unfold saved. cbn.
        assert (Hup : forall {T} (l : list T) k v x, nth_error l k = Some x -> nth_error (upd l k v) k = Some v).
        { induction l; intros [|?] ? ?; cbn; try discriminate; eauto. }
        now rewrite (Hup _ _ _ _ _ En).
    - unfold bind, alloc in E2. inversion E2; subst; cbn. repeat split; auto.
      exists b, i, (length (heap s)). repeat split; auto.
      + intros j Hj. apply in_app_or in Hj as [Hj|[Hj|[]]]; auto.
      + unfold saved. cbn. rewrite nth_error_app2, Nat.sub_diag; auto.
  Qed.
  Lemma setFMUState_Done h s st s' t :
    setFMUStateS m env h s = Done (st, s', t) ->
    (h = None /\ st = Error /\ sinst s' = sinst s /\ heap s' = heap s /\ logs_ok (ctl (sinst s)) t) \/
    (exists k i, h = Some k /\ saved s k = Some i /\ st = OK /\ heap s' = heap s /\ t = [] /\
       ctl (sinst s') = restoreCtl (ctl i) (ctl (sinst s)) /\
       mut (sinst s') = mut i /\ restoreSol (sol i) (sol (sinst s)) = Some (sol (sinst s'))).
  Proof.
    unfold setFMUStateS. destruct h as [k|].
    - intro H. apply bind_Done in H as (i & s1 & t1 & t2 & E1 & E2 & ->).
      unfold deref in E1. destruct (nth_error (heap s) k) as [[i0|]|] eqn:En; try discriminate.
      inversion E1; subst. unfold onInst, setFMUState in E2.
      destruct (restoreSol (sol i) (sol (sinst s1))) eqn:Er; [|discriminate].
      inversion E2; subst; cbn. right. exists k, i. unfold saved. rewrite En. repeat split; auto.
      destruct (mut i); reflexivity.
    - unfold onInst, setFMUState, bind. pose proof (@quiet_logError _ m env (sinst s)) as H.
      unfold logError, call, mlogError in *.
      destruct (logErrors (ctl (sinst s)) && hasLogger (ctl (sinst s))); cbn in *; intro E; inversion E; subst;
        left; cbn; (split; [reflexivity|]); (split; [reflexivity|]);
        (split; [destruct (sinst s); reflexivity|]); (split; [reflexivity|]); apply H.
  Qed.

  Lemma outI_heap X (f : AF F D (Status * X)) o s st out s' t :
    outI m f o s = Done (st, out, s', t) -> heap s' = heap s.
  Proof.
    unfold outI, outS, onInst, bind. destruct (f (sinst s)) as [[[x i'] t']| |]; try discriminate.
    cbn. intro E. inversion E; subst. reflexivity.
  Qed.

  Lemma exec3_heap fuel o s st out s' t :
    exec3 m szof fuel env o s = Done (st, out, s', t) -> heap_from (image3 o) s s'.
  Proof.
    destruct o; cbn [exec3 image3]; intro E;
      try (apply heap_from_eq; eapply outI_heap; exact E);
      apply outS_gate3 in E as [(_ & _ & H & _)|(y & E & _)]; try (now apply heap_from_eq).
    - apply bind_Done in E as (h' & s1 & t1 & t2 & E1 & E2 & ->). inversion E2; subst.
      apply getFMUState_Done in E1. tauto.
    - apply bind_Done in E as (h' & s1 & t1 & t2 & E1 & E2 & ->). apply heap_from_eq.
      unfold onInst in E2. destruct (CALLk m OK h' tt _ (sinst s1)) as [[[? ?] ?]| |]; inversion E2; subst; cbn.
      apply setFMUState_Done in E1 as [H|(k0 & i0 & H)]; tauto.
    - apply bind_Done in E as (h' & s1 & t1 & t2 & E1 & E2 & ->). inversion E2; subst.
      apply freeFMUState_Done in E1. tauto.
    - destruct p; inversion E; subst. now apply heap_from_eq.
    - apply serialize_Done in E as [(_ & _ & -> & _)|(_ & -> & _)]; now apply heap_from_eq.
    - apply deserialize_Done in E as [(_ & _ & -> & _)|(_ & _ & _ & _ & _ & b & i & k & -> & Hb & _ & H & _)].
      + now apply heap_from_eq.
      + cbn. rewrite Hb. exact H.
  Qed.
  Lemma exec2_heap fuel o s st out s' t :
    exec2 m szof fuel env o s = Done (st, out, s', t) -> heap_from (image2 o) s s'.
  Proof.
    destruct o; cbn [exec2 image2]; intro E;
      try (apply heap_from_eq; eapply outI_heap; exact E);
      apply outS_gate2 in E as [(_ & _ & H & _)|(y & E & _)]; try (now apply heap_from_eq).
    - apply bind_Done in E as (h' & s1 & t1 & t2 & E1 & E2 & ->). inversion E2; subst.
      apply getFMUState_Done in E1. tauto.
    - apply bind_Done in E as (h' & s1 & t1 & t2 & E1 & E2 & ->). inversion E2; subst. apply heap_from_eq.
      apply setFMUState_Done in E1 as [H|(k0 & i0 & H)]; tauto.
    - apply bind_Done in E as (h' & s1 & t1 & t2 & E1 & E2 & ->). inversion E2; subst.
      apply freeFMUState_Done in E1. tauto.
    - destruct p; inversion E; subst. now apply heap_from_eq.
    - apply serialize_Done in E as [(_ & _ & -> & _)|(_ & -> & _)]; now apply heap_from_eq.
    - apply deserialize_Done in E as [(_ & _ & -> & _)|(_ & _ & _ & _ & _ & b & i & k & -> & Hb & _ & H & _)].
      + now apply heap_from_eq.
      + cbn. rewrite Hb. exact H.
  Qed.

  Notation id := (fun c : Ctl F => c).

  Lemma effect_good X U (f : AF F D (Status * X)) oo s st out s' t c :
    good m U fst f -> outI m f oo s = Done (st, out, s', t) -> c = U (ctl (sinst s)) ->
    (st = OK /\ ctl (sinst s') = c \/ st = Error /\ ctl (sinst s') = set_mode Terminated (ctl (sinst s))) /\
    logs_within (ctl (sinst s)) (ctl (sinst s')) t.
  Proof.
    intros G E ->. apply (good_outI (m:=m) _ _ G) in E as [H W]. auto using logs_ok_within.
  Qed.
  Lemma land_when mask (l : list ModelState) md :
    (forall x, N.land (bit3 x) mask <> 0%N -> In x l) -> N.land (bit3 md) mask <> 0%N -> In md l.
  Proof. auto. Qed.

  Lemma debug3 (s : Sys F D) st c' t :
    (st = Error /\ c' = set_mode Terminated (ctl (sinst s)) /\ logs_ok (ctl (sinst s)) t) \/
    ((exists ev er, c' = set_mode (mode c') (set_logErrors er (set_logEvents ev (ctl (sinst s))))) /\
     (st = OK /\ mode c' = mode (ctl (sinst s)) \/ st = Error /\ mode c' = Terminated) /\ logs_ok c' t) ->
    (exists ev er, c' = set_mode (mode c') (set_logErrors er (set_logEvents ev (ctl (sinst s)))) /\
       (st = OK /\ mode c' = mode (ctl (sinst s)) \/ st = Error /\ mode c' = Terminated)) /\
    logs_within (ctl (sinst s)) c' t.
  Proof.
    intros [(-> & -> & W)|((ev & er & C) & H & W)].
    - split; [|now apply logs_ok_within].
      exists (logEvents (ctl (sinst s))), (logErrors (ctl (sinst s))). split; [|right; auto].
      destruct (ctl (sinst s)); reflexivity.
    - split; [exists ev, er; auto|].
      intros e He Hl. destruct (W e He Hl) as (? & ? & Hh). rewrite C in Hh. cbn in Hh. auto.
  Qed.
  (** calls that only touch the heap, or fail *)
  Definition same_or_fail (s s' : Sys F D) (st : Status) (t : list (Event F)) : Prop :=
    st = OK /\ sinst s' = sinst s /\ t = [] \/
    st = Error /\ ctl (sinst s') = set_mode Terminated (ctl (sinst s)) /\ logs_ok (ctl (sinst s)) t.
  Lemma same_or_fail_effect s s' st t : same_or_fail s s' st t ->
    (st = OK /\ ctl (sinst s') = ctl (sinst s) \/
     st = Error /\ ctl (sinst s') = set_mode Terminated (ctl (sinst s))) /\
    logs_within (ctl (sinst s)) (ctl (sinst s')) t.
  Proof.
    intros [(-> & -> & ->)|(-> & E & W)].
    - split; auto. apply logs_ok_within, logs_ok_nil.
    - split; auto. now apply logs_ok_within.
  Qed.
  Lemma sof_get p h s st y s' t :
    bind (getFMUState m p h) (fun h' => ret (OK, h')) s = Done ((st, y), s', t) -> same_or_fail s s' st t.
  Proof.
    intro E. apply bind_Done in E as (h' & s1 & t1 & t2 & E1 & E2 & ->). inversion E2; subst.
    apply getFMUState_Done in E1 as (_ & H1 & -> & _). left. auto.
  Qed.
  Lemma sof_free p h s st y s' t :
    bind (freeFMUState m p h) (fun h' => ret (OK, h')) s = Done ((st, y), s', t) -> same_or_fail s s' st t.
  Proof.
    intro E. apply bind_Done in E as (h' & s1 & t1 & t2 & E1 & E2 & ->). inversion E2; subst.
    apply freeFMUState_Done in E1 as (H1 & -> & _). left. auto.
  Qed.
  Lemma sof_size p s st y s' t :
    (if p : bool then ret (OK, Some szof) else ubM) s = Done ((st, y), s', t) -> same_or_fail s s' st t.
  Proof. destruct p; intro E; inversion E; subst. left. auto. Qed.
  Lemma sof_ser h d n s st y s' t :
    serializeFMUState m szof env h d n s = Done ((st, y), s', t) -> same_or_fail s s' st t.
  Proof.
    intro E. apply serialize_Done in E as [(E & _ & -> & ->)|(_ & -> & -> & E & _)]; cbn in E; subst.
    - right. auto using refusal_logs.
    - left. auto.
  Qed.
  Lemma sof_des b n p h s st y s' t :
    deserializeFMUState m szof env b n p h s = Done ((st, y), s', t) -> same_or_fail s s' st t.
  Proof.
    intro E. apply deserialize_Done in E as [(E & _ & -> & ->)|(_ & E' & -> & E & _)]; cbn in E; subst.
    - right. auto using refusal_logs.
    - left. auto.
  Qed.
  Ltac heapop3 lem :=
    match goal with E : outS _ _ _ = Done _ |- _ =>
      apply outS_gate3 in E as [(-> & C & _ & W)|(y & E & _)];
        [split; [right; auto|now apply logs_ok_within]
        |apply same_or_fail_effect; eapply lem; exact E] end.
  Ltac heapop2 lem :=
    match goal with E : outS _ _ _ = Done _ |- _ =>
      apply outS_gate2 in E as [(-> & C & _ & W)|(y & E & _)];
        [split; [right; auto|now apply logs_ok_within]
        |apply same_or_fail_effect; eapply lem; exact E] end.
  Ltac byg lem := eapply effect_good; [ | eassumption | ]; [ lem | reflexivity ].
  Ltac body := first [ apply good_BEGIN | apply good_BEGIN2 ].

  (** the checks of DoStep that fail *)
  Lemma DoStep_failed X (x : X) i r i' t :
    bind (logError m env) (fun _ => CALLk m OK Error x (fun st => ret (st, x))) i = Done (r, i', t) ->
    fst r = Error /\ ctl i' = set_mode Terminated (ctl i) /\ logs_ok (ctl i) t.
  Proof.
    intro E. unfold bind at 1 in E. pose proof (@quiet_logError _ m env i) as H.
    destruct (logError m env i) as [[[u i1] t1]| |]; inversion E; subst.
    destruct H as (_ & C & W). cbn. rewrite C, !app_nil_r. auto.
  Qed.
  Lemma stepdone_fail (c : Ctl F) (P : Status -> Prop) st c' t :
    st = Error -> c' = set_mode Terminated c -> logs_ok c t ->
    (exists a n p, c' = set_mode (mode c') (set_time a (set_nSteps n (set_nextCommunicationPoint p c))) /\
          (P st /\ mode c' = mode c \/ st = Error /\ mode c' = Terminated)) /\ logs_within c c' t.
  Proof.
    intros -> -> W. split; [|now apply logs_ok_within].
    exists (time c), (nSteps c), (nextCommunicationPoint c). split; [destruct c; reflexivity|]. right. auto.
  Qed.
  Lemma stepctl (c : Ctl F) a n :
    set_time a (set_nSteps n c) = set_mode (mode c) (set_time a (set_nSteps n (set_nextCommunicationPoint (nextCommunicationPoint c) c))).
  Proof. destruct c; reflexivity. Qed.

  Lemma exec3_effect fuel o s st out s' t :
    In (mode_of s) modes3 ->
    exec3 m szof fuel env o s = Done (st, out, s', t) ->
    effect3 (m_outputDerivative m) o s st (ctl (sinst s')) /\ logs_within (ctl (sinst s)) (ctl (sinst s')) t.
  Proof.
    intro Hm.
    destruct o; cbn [exec3 effect3 settings3 next3]; intro E; cbv zeta; rewrite ?set_mode_same.
    - (* SetDebugLogging *) apply debug3.
      apply outI_gate3 in E as [(-> & C & _ & W)|(y & E & _ & _ & _)]; [left; auto|].
      right. eapply body_debug; eassumption.
    - byg ltac:(apply good_EnterInit).
    - destruct (good_outI _ _ (good_ExitInit L env) E) as [H W]. split; [|now apply logs_ok_within].
      unfold modeAfterInit in H. destruct (itype (ctl (sinst s))), (eventModeUsed (ctl (sinst s))); exact H.
    - byg ltac:(apply good_modeswitch).
    - byg ltac:(apply good_modeswitch).
    - byg ltac:(apply good_BEGIN, good_reset, L).
    - byg ltac:(apply good_Get, L).
    - byg ltac:(apply good_Set, L).
    - byg ltac:(apply good_GetBinary, L).
    - byg ltac:(apply good_SetBinary, L).
    - byg ltac:(apply good_BEGIN, good_getClock_loop, L).
    - byg ltac:(apply good_BEGIN, good_setClock_loop, L).
    - heapop3 sof_get.
    - (* SetFMUState *)
      apply outS_gate3' in E as [(H & _)|(y & E & _)].
      { exfalso. revert Hm H. unfold mode_of. destruct (mode (ctl (sinst s))); cbn; intros Hm H;
          try discriminate H; intuition discriminate. }
      apply bind_Done in E as (r & s1 & t1 & t2 & E1 & E2 & ->).
      apply setFMUState_Done in E1 as [(-> & -> & H1 & H2 & W)|(k & i & -> & Hs & -> & _ & -> & C & _)].
      + inversion E2; subst. rewrite H1, app_nil_r. split; [|now apply logs_ok_within].
        right. cbn. rewrite ?H1. auto.
      + inversion E2; subst. cbn. rewrite C. split; [|apply logs_ok_within, logs_ok_nil].
        exists i. auto.
    - heapop3 sof_free.
    - heapop3 sof_size.
    - heapop3 sof_ser.
    - heapop3 sof_des.
    - byg ltac:(apply good_BEGIN, good_deriv_rows; intros; apply (l_partial L)).
    - byg ltac:(apply good_BEGIN, good_deriv_rows; intros; apply (l_partial L)).
    - destruct (good_outI _ _ (good_EnterConfig m env) E) as [H W]. split; [|now apply logs_ok_within].
      destruct (mode (ctl (sinst s))); exact H.
    - destruct (good_outI _ _ (good_ExitConfig L env) E) as [H W]. split; [|now apply logs_ok_within].
      unfold modeAfterConfig in H. destruct (mode (ctl (sinst s))), (itype (ctl (sinst s))); exact H.
    - byg ltac:(apply good_BEGIN, good_interval_loop, L).
    - (* NotImplemented *)
      unfold outI, outS, onInst, fmi3NotImplemented, NOT_IMPLEMENTED, bind in E.
      pose proof (@quiet_logError _ m env (sinst s)) as H.
      destruct (logError m env (sinst s)) as [[[? i1] ?]| |]; inversion E; subst.
      destruct H as (_ & C & W). cbn. rewrite !app_nil_r. split; auto using logs_ok_within.
    - byg ltac:(apply good_UpdateDiscrete, L).
    - byg ltac:(apply good_modeswitch).
    - byg ltac:(apply good_BEGIN, good_ASSERT, good_ASSERT, good_ret; reflexivity).
    - byg ltac:(apply good_SetTime).
    - byg ltac:(apply good_BEGIN, good_callS, (l_setStates L)).
    - byg ltac:(apply good_BEGIN, good_callA, (l_derivs L)).
    - byg ltac:(apply good_BEGIN, good_callA, (l_indicators L)).
    - byg ltac:(apply good_BEGIN, good_callA, (l_states L)).
    - byg ltac:(apply good_BEGIN, good_callA, (l_nominals L)).
    - byg ltac:(apply good_GetNumber).
    - byg ltac:(apply good_GetNumber).
    - byg ltac:(apply good_modeswitch).
    - (* GetOutputDerivatives *)
      unfold fmi3GetOutputDerivatives in E. destruct (m_outputDerivative m).
      + assert (H : (st = OK /\ ctl (sinst s') = ctl (sinst s) \/
           st = Error /\ ctl (sinst s') = set_mode Terminated (ctl (sinst s))) /\
           logs_within (ctl (sinst s)) (ctl (sinst s')) t).
        { byg ltac:(apply good_BEGIN, good_outputDerivative_loop, L). }
        destruct H; auto.
      + apply outI_gate3 in E as [(-> & C & _ & W)|(y & E & _ & _ & M)].
        { split; [|now apply logs_ok_within]. left; right; auto. }
        pose proof (@quiet_logError _ m env (sinst s)) as H. unfold NOT_IMPLEMENTED, bind in E.
        destruct (logError m env (sinst s)) as [[[? i1] ?]| |]; inversion E; subst.
        destruct H as (_ & C & W). rewrite !app_nil_r. split; [|now apply logs_ok_within].
        right. repeat split; auto. destruct (mode (ctl (sinst s))); cbn in M |- *; auto; congruence.
    - (* DoStep *)
      apply outI_gate3 in E as [(-> & C & _ & W)|(y & E & _ & _ & _)].
      { apply (stepdone_fail (fun x => x = OK)); auto. }
      apply bind_Done in E as (c & i1 & t1 & t2 & E1 & E & ->). inversion E1; subst. cbn [app].
      destruct (negb (isClose ccp (nextCommunicationPoint (ctl (sinst s))))).
      { apply DoStep_failed in E as (? & ? & ?). now apply (stepdone_fail (fun x => x = OK)). }
      destruct (nle h nzero).
      { apply DoStep_failed in E as (? & ? & ?). now apply (stepdone_fail (fun x => x = OK)). }
      cbv zeta in E.
      destruct (nlt (stopTime (ctl (sinst s))) (nadd ccp h) && _).
      { apply DoStep_failed in E as (? & ? & ?). now apply (stepdone_fail (fun x => x = OK)). }
      destruct (negb (p1 && p2 && p3)); [discriminate|].
      apply bind_Done in E as ([[st1 ehn] reached] & i2 & t3 & t4 & E2 & E & ->).
      pose proof (doStep_loop_effect L env fuel (nadd ccp h) false (sinst s)) as H.
      rewrite E2 in H. destruct H as ((a & n & H) & W). cbn in H.
      destruct H as [[-> C]|[-> C]].
      + cbn in E. destruct (negb p4); [discriminate|]. inversion E; subst. cbn. rewrite ?app_nil_r.
        split; [|now apply logs_ok_within].
        exists a, n, (if reached then nadd ccp h else a). destruct i2; cbn in C |- *; subst.
        split; [reflexivity|]. left. auto.
      + cbn in E. inversion E; subst. rewrite C, app_nil_r. split; [|now apply logs_ok_within].
        exists a, n, (nextCommunicationPoint (ctl (sinst s))).
        split; [destruct (ctl (sinst s)); reflexivity|]. right. auto.
    - byg ltac:(apply good_BEGIN, good_callS, (l_activate L)).
  Qed.
  Lemma good_Setup2 (a : F) (b : bool) (e : F) :
    good m (fun c => set_nextCommunicationPoint a (set_time a (set_stopTime (if b then e else ninf) (set_startTime a c))))
         fst (fmi2SetupExperiment m env a b e).
  Proof. apply good_BEGIN2. intro i. cbn. auto using logs_ok_nil. Qed.
  Lemma good_Get2 t vrs nvr v : good m id fst (fmi2GetV m env t vrs nvr v).
  Proof.
    apply good_BEGIN2. destruct (Nat.eqb nvr 0); [now apply good_ret|]. apply good_ASSERT, good_ASSERT.
    apply good_refresh; auto.
    eapply good_bind2; [apply good_get_loop; auto| |]; intros [[st v'] ix] Hst; cbn in Hst; subst st; cbn.
    - now apply good_ret.
    - now apply quiet_ret.
  Qed.
  Lemma good_Set2 t vrs nvr v : good m id fst (fmi2SetV m env t vrs nvr v).
  Proof.
    apply good_BEGIN2. destruct (Nat.eqb nvr 0); [now apply good_ret|]. apply good_ASSERT, good_ASSERT.
    eapply good_bind2; [apply good_set_loop; auto| |]; intros [st ix] Hst; cbn in Hst; subst st; cbn.
    - eapply good_bind; [apply quiet_modM|]. intros _ _. now apply good_ret.
    - now apply quiet_ret.
  Qed.
  Lemma good_nullPointer T X U (p : option T) (x : X) k :
    good m U fst k ->
    good m U fst (bind (nullPointer m env p)
      (fun b : bool => if b then CALLk m OK Error x (fun st => ret (st, x)) else k)).
  Proof.
    intros Hk i. unfold nullPointer. destruct p.
    - rewrite bind_ret_l. apply Hk.
    - rewrite bind_assoc. unfold bind at 1. cbn [setMode modC modS].
      rewrite bind_assoc. unfold bind at 1.
      pose proof (@quiet_logError _ m env (set_ctl (set_mode Terminated (ctl i)) i)) as H.
      destruct (logError m env _) as [[[u i1] t1]| |]; auto. cbn.
      destruct H as (_ & C & W). rewrite C, !app_nil_r. cbn. auto.
  Qed.
  Lemma status_effect X (x : X) k i st y i' t :
    bind (getStatus m env k) (fun s => CALLk m OK s x (fun st => ret (st, x))) i = Done ((st, y), i', t) ->
    st = Discard /\ ctl i' = ctl i /\ logs_ok (ctl i) t.
  Proof.
    unfold getStatus. rewrite bind_assoc. unfold bind at 1.
    pose proof (@quiet_logError _ m env i) as H.
    destruct (logError m env i) as [[[u i1] t1]| |]; try discriminate. cbn. destruct H as (_ & C & W).
    intro E; inversion E; subst. rewrite ?app_nil_r. auto.
  Qed.

  Lemma exec2_effect fuel o s st out s' t :
    exec2 m szof fuel env o s = Done (st, out, s', t) ->
    effect2 o s st (ctl (sinst s')) /\ logs_within (ctl (sinst s)) (ctl (sinst s')) t.
  Proof.
    destruct o; cbn [exec2 effect2 settings2 next2]; intro E; cbv zeta; rewrite ?set_mode_same.
    - (* SetDebugLogging *) apply debug3.
      apply outI_gate2 in E as [(-> & C & _ & W)|(y & E & _ & _ & _)]; [left; auto|].
      right. eapply body_debug; eassumption.
    - byg ltac:(apply good_Setup2).
    - byg ltac:(apply good_modeswitch2).
    - destruct (good_outI _ _ (good_ExitInit2 L env) E) as [H W]. split; [|now apply logs_ok_within].
      unfold modeAfterInit2 in H. destruct (itype (ctl (sinst s))); exact H.
    - byg ltac:(apply good_modeswitch2).
    - byg ltac:(apply good_BEGIN2, good_reset, L).
    - byg ltac:(apply good_Get2).
    - byg ltac:(apply good_Set2).
    - byg ltac:(apply good_BEGIN2, good_getBoolean_loop, L).
    - byg ltac:(apply good_BEGIN2, good_setBoolean_loop, L).
    - heapop2 sof_get.
    - (* SetFMUstate *)
      apply outS_gate2 in E as [(-> & C & _ & W)|(y & E & _)].
      { split; [|now apply logs_ok_within]. destruct h; right; auto. }
      apply bind_Done in E as (r & s1 & t1 & t2 & E1 & E2 & ->). inversion E2; subst. rewrite app_nil_r.
      apply setFMUState_Done in E1 as [(-> & -> & H1 & H2 & W)|(k & i & -> & Hs & -> & _ & -> & C & _)].
      + rewrite H1. split; [|now apply logs_ok_within]. left. rewrite set_mode_same. auto.
      + rewrite C. split; [|apply logs_ok_within, logs_ok_nil]. left. exists i. auto.
    - heapop2 sof_free.
    - heapop2 sof_size.
    - heapop2 sof_ser.
    - heapop2 sof_des.
    - byg ltac:(apply good_BEGIN2, good_deriv_rows; intros; apply (l_partial L)).
    - byg ltac:(apply good_BEGIN2, (@good_failE _ m env _ (fun c => c))).
    - unfold fmi2GetRealOutputDerivatives in E. destruct (m_outputDerivative m).
      + byg ltac:(apply good_BEGIN2, good_outputDerivative_loop, L).
      + byg ltac:(apply good_BEGIN2, (@good_failE _ m env _ (fun c => c))).
    - byg ltac:(apply good_BEGIN2, (@good_failE _ m env _ (fun c => c))).
    - (* DoStep *)
      pose proof (fun st => @stepdone_fail (ctl (sinst s)) (fun x => x = OK \/ x = Discard) st) as Hfail.
      apply outI_gate2 in E as [(-> & C & _ & W)|(y & E & _ & _ & _)]; [apply Hfail; auto|].
      apply bind_Done in E as (c & i1 & t1 & t2 & E1 & E & ->). inversion E1; subst. cbn [app].
      destruct (negb (isClose ccp (nextCommunicationPoint (ctl (sinst s))))).
      { unfold bind at 1 in E. pose proof (@quiet_logError _ m env (sinst s)) as H.
        destruct (logError m env (sinst s)) as [[[u i1] t1]| |]; inversion E; subst.
        destruct H as (_ & C & W). rewrite !app_nil_r. apply Hfail; auto. cbn. now rewrite C. }
      destruct (nle h nzero).
      { apply DoStep_failed in E as (? & ? & ?). now apply Hfail. }
      cbv zeta in E.
      destruct (nlt (stopTime (ctl (sinst s))) (nadd ccp h) && _).
      { apply DoStep_failed in E as (? & ? & ?). now apply Hfail. }
      apply bind_Done in E as ([st1 fin] & i2 & t3 & t4 & E2 & E & ->).
      pose proof (doStep2_loop_effect L env fuel (nadd ccp h) (sinst s)) as H.
      rewrite E2 in H. destruct H as ((a & n & H) & W). cbn in H.
      destruct fin; inversion E; subst; cbn; rewrite ?app_nil_r; (split; [|now apply logs_ok_within]).
      + exists a, n, (nadd ccp h). destruct i2; cbn in H |- *.
        destruct H as [[Hs ->]|[-> ->]]; (split; [reflexivity|]); auto.
      + exists a, n, (nextCommunicationPoint (ctl (sinst s))).
        destruct H as [[Hs ->]|[-> ->]]; (split; [destruct (ctl (sinst s)); reflexivity|]); auto.
    - apply outI_gate2 in E as [(-> & C & _ & W)|(y & E & _ & _ & _)].
      { split; [left; right; auto|now apply logs_ok_within]. }
      apply status_effect in E as (-> & C & W). split; [right; auto|now apply logs_ok_within].
    - apply outI_gate2 in E as [(-> & C & _ & W)|(y & E & _ & _ & _)].
      { split; [left; right; auto|now apply logs_ok_within]. }
      destruct k; try (apply status_effect in E as (-> & C & W); split; [right; auto|now apply logs_ok_within]).
      destruct p; inversion E; subst. split; [left; left; auto|]. apply logs_ok_within, logs_ok_nil.
    - apply outI_gate2 in E as [(-> & C & _ & W)|(y & E & _ & _ & _)].
      { split; [left; right; auto|now apply logs_ok_within]. }
      destruct k; try (apply status_effect in E as (-> & C & W); split; [right; auto|now apply logs_ok_within]).
      destruct p; inversion E; subst. split; [left; left; auto|]. apply logs_ok_within, logs_ok_nil.
    - byg ltac:(apply good_modeswitch2).
    - byg ltac:(apply good_NewDiscrete, L).
    - byg ltac:(apply good_modeswitch2).
    - byg ltac:(apply good_BEGIN2, good_nullPointer, good_nullPointer, good_ret; reflexivity).
    - byg ltac:(apply good_SetTime2).
    - byg ltac:(apply good_BEGIN2, good_callS, (l_setStates L)).
    - byg ltac:(apply good_BEGIN2, good_callA, (l_derivs L)).
    - byg ltac:(apply good_BEGIN2, good_callA, (l_indicators L)).
    - byg ltac:(apply good_BEGIN2, good_callA, (l_states L)).
    - byg ltac:(apply good_BEGIN2, good_callA, (l_nominals L)).
  Qed.
End Effect.
