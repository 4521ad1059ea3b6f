(** Debug.v -- SetDebugLogging (C25). *)
From Coq Require Import List NArith ZArith Bool Arith Lia.
From Verif Require Import Base Instance ModelIface Core Fmi3 Fmi2 Api Logic SpecModes SpecDebug Gate Calls.
Import ListNotations.
Set Implicit Arguments.

Lemma byte_eqb_spec a b : byte_eqb a b = true <-> a = b.
Proof.
  unfold byte_eqb. rewrite N.eqb_eq. split; [|now intros ->]. intro H.
  assert (Byte.of_N (Byte.to_N a) = Byte.of_N (Byte.to_N b)) as E by now rewrite H.
  rewrite !Byte.of_to_N in E. now inversion E.
Qed.
Lemma bytes_eqb_spec a : forall b, bytes_eqb a b = true <-> a = b.
Proof.
  induction a as [|x a IH]; intros [|y b]; cbn; try (split; discriminate || congruence); try tauto.
  rewrite andb_true_iff, byte_eqb_spec, IH. split; [intros [-> ->]; auto|intro H; inversion H; auto].
Qed.
Lemma streq_spec a b : streq a b = true <-> cstr a = cstr b.
Proof. apply bytes_eqb_spec. Qed.

Section Debug.
  Context {F : Type} {NF : Num F} (m : Model F) (szof : N) (env : Env).
  Notation D := (md m).

  Definition flags (ev er : bool) (i : Inst F D) : Inst F D :=
    set_ctl (set_logErrors er (set_logEvents ev (ctl i))) i.

  Lemma named_ev c : streq c s_logEvents = true <-> is_named cat_events (Some c).
  Proof.
    rewrite streq_spec. change (cstr s_logEvents) with cat_events. unfold is_named.
    split; [intro H; exists c; auto|intros (s & E & H); inversion E; subst; auto].
  Qed.
  Lemma named_er c : streq c s_logStatusError = true <-> is_named cat_errors (Some c).
  Proof.
    rewrite streq_spec. change (cstr s_logStatusError) with cat_errors. unfold is_named.
    split; [intro H; exists c; auto|intros (s & E & H); inversion E; subst; auto].
  Qed.
  Lemma named_both c : is_named cat_events c -> is_named cat_errors c -> False.
  Proof. intros (a & -> & A) (b & E & B). inversion E; subst. rewrite A in B. discriminate. Qed.

  Lemma debug_loop_known on : forall l rest i,
    Forall known_category l ->
    exists ev er,
      setDebugLogging_loop m env on (l ++ rest) (length l) i = Done (OK, flags ev er i, []) /\
      switched cat_events on l (logEvents (ctl i)) ev /\ switched cat_errors on l (logErrors (ctl i)) er.
  Proof.
    induction l as [|c l IH]; intros rest i H.
    - exists (logEvents (ctl i)), (logErrors (ctl i)). cbn. split.
      { unfold flags. destruct i as [c u o]; destruct c; reflexivity. }
      unfold switched. repeat split; auto; intro H0; inversion H0.
    - inversion H as [|? ? Hc Hl]; subst. cbn [app length setDebugLogging_loop].
      destruct c as [c|]; [|destruct Hc as [(s & E & _)|(s & E & _)]; discriminate].
      destruct (streq c s_logEvents) eqn:E1.
      + apply named_ev in E1. rewrite bind_modC.
        destruct (IH rest (set_ctl (set_logEvents on (ctl i)) i) Hl) as (ev & er & E & [A1 A2] & [B1 B2]).
        exists ev, er. split; [exact E|]. cbn in A1, A2, B1, B2. split; split; intro X.
        * destruct (Exists_dec (is_named cat_events) l) as [Y|Y]; auto.
          intros x. destruct x as [x|]; [|right; intros (s & Z & _); discriminate].
          destruct (streq x s_logEvents) eqn:Z; [left; now apply named_ev|right].
          intro W. apply named_ev in W. congruence.
        * exfalso. apply X. now constructor 1.
        * inversion X; subst; auto. exfalso. eapply named_both; eauto.
        * apply B2. intro Y. apply X. now constructor 2.
      + destruct (streq c s_logStatusError) eqn:E2.
        2:{ exfalso. destruct Hc as [Hc|Hc]; [apply named_ev in Hc|apply named_er in Hc]; congruence. }
        apply named_er in E2. rewrite bind_modC.
        destruct (IH rest (set_ctl (set_logErrors on (ctl i)) i) Hl) as (ev & er & E & [A1 A2] & [B1 B2]).
        exists ev, er. split; [exact E|]. cbn in A1, A2, B1, B2. split; split; intro X.
        * inversion X; subst; auto. exfalso. eapply named_both; eauto.
        * apply A2. intro Y. apply X. now constructor 2.
        * destruct (Exists_dec (is_named cat_errors) l) as [Y|Y]; auto.
          intros x. destruct x as [x|]; [|right; intros (s & Z & _); discriminate].
          destruct (streq x s_logStatusError) eqn:Z; [left; now apply named_er|right].
          intro W. apply named_er in W. congruence.
        * exfalso. apply X. now constructor 1.
  Qed.

  Lemma debug_loop_unknown on : forall l bad rest k i,
    Forall known_category l -> ~ known_category bad ->
    exists ev er,
      setDebugLogging_loop m env on (l ++ bad :: rest) (S (length l + k)) i
        = Done (Error, flags ev er i, message m (flags ev er i)) /\
      switched cat_events on l (logEvents (ctl i)) ev /\ switched cat_errors on l (logErrors (ctl i)) er.
  Proof.
    intros l bad rest k i H Hb.
    destruct (@debug_loop_known on l (bad :: rest) i H) as (ev & er & E & S1 & S2).
    exists ev, er. split; auto. clear S1 S2. revert i E H.
    induction l as [|c l IH]; intros i E H.
    - cbn in E. assert (flags ev er i = i) as E1 by (unfold ret in E; congruence). rewrite E1. cbn [app length setDebugLogging_loop].
      assert (bind (logError m env) (fun _ : unit => ret Error) i = Done (Error, i, message m i)) as G.
      { rewrite bind_logError. cbn. now rewrite app_nil_r. }
      destruct bad as [c|]; auto.
      destruct (streq c s_logEvents) eqn:F1; [exfalso; apply Hb; left; now apply named_ev|].
      destruct (streq c s_logStatusError) eqn:F2; [exfalso; apply Hb; right; now apply named_er|]. auto.
    - inversion H as [|? ? Hc Hl]; subst. cbn [app length setDebugLogging_loop] in *.
      destruct c as [c|]; [|destruct Hc as [(s & Z & _)|(s & Z & _)]; discriminate].
      destruct (streq c s_logEvents) eqn:E1; [|destruct (streq c s_logStatusError) eqn:E2].
      + rewrite bind_modC in E |- *. etransitivity; [exact (IH _ E Hl)|reflexivity].
      + rewrite bind_modC in E |- *. etransitivity; [exact (IH _ E Hl)|reflexivity].
      + exfalso. destruct Hc as [Hc|Hc]; [apply named_ev in Hc|apply named_er in Hc]; congruence.
  Qed.

  (** What the checked body does. *)
  Definition debug_body on n cats : AF F D (Status * unit) :=
    bind (setDebugLogging m env on n cats) (fun s => CALLk m OK s tt (fun st => ret (st, tt))).

  Lemma debug_body_all on cats i :
    debug_body on 0 cats i = Done ((OK, tt), flags on on i, []).
  Proof. reflexivity. Qed.
  Lemma debug_body_known on l rest i :
    l <> [] -> Forall known_category l ->
    exists ev er, debug_body on (length l) (Some (l ++ rest)) i = Done ((OK, tt), flags ev er i, []) /\
      switched cat_events on l (logEvents (ctl i)) ev /\ switched cat_errors on l (logErrors (ctl i)) er.
  Proof.
    intros Hl H. destruct (@debug_loop_known on l rest i H) as (ev & er & E & S).
    exists ev, er. split; auto. unfold debug_body, setDebugLogging.
    destruct l as [|c l]; [congruence|]. change (Nat.ltb 0 (length (c :: l))) with true. cbv iota.
    unfold bind. rewrite E, CALLk_ok. reflexivity.
  Qed.
  Lemma debug_body_unknown on l bad rest k i :
    Forall known_category l -> ~ known_category bad ->
    exists ev er, debug_body on (S (length l + k)) (Some (l ++ bad :: rest)) i
        = Done ((Error, tt), set_ctl (set_mode Terminated (ctl (flags ev er i))) (flags ev er i),
                message m (flags ev er i)) /\
      switched cat_events on l (logEvents (ctl i)) ev /\ switched cat_errors on l (logErrors (ctl i)) er.
  Proof.
    intros H Hb. destruct (@debug_loop_unknown on l bad rest k i H Hb) as (ev & er & E & S).
    exists ev, er. split; auto. unfold debug_body, setDebugLogging.
    change (Nat.ltb 0 (Datatypes.S (length l + k))) with true. cbv iota.
    unfold bind. rewrite E, CALLk_err, app_nil_r. reflexivity.
  Qed.
  Lemma debug_body_null on k i :
    debug_body on (S k) None i = Done ((Error, tt), set_ctl (set_mode Terminated (ctl i)) i, message m i).
  Proof.
    unfold debug_body, setDebugLogging. change (Nat.ltb 0 (S k)) with true. cbv iota.
    unfold bind at 1. rewrite bind_logError. cbn. now rewrite !app_nil_r.
  Qed.

  Lemma any3 (i : Inst F D) : In (mode (ctl i)) modes3 -> N.land (bit3 (mode (ctl i))) MASK_AnyState <> 0%N.
  Proof.
    cbn. intro H. repeat (destruct H as [<-|H]; [vm_compute; discriminate|]). destruct H.
  Qed.
  Lemma all2 (i : Inst F D) (on : bool) n c : In (mode (ctl i)) (when2 (D:=D) (O2SetDebugLogging (F:=F) on n c)) ->
    N.land (bit2 (mode (ctl i))) MASK2_SetDebugLogging <> 0%N.
  Proof.
    cbn. intro H. repeat (destruct H as [<-|H]; [vm_compute; discriminate|]). destruct H.
  Qed.

  (** The system after a refused category. *)
  Definition refused (ev er : bool) (s : Sys F D) : Sys F D := with_mode Terminated (with_logging ev er s).

  Lemma debug_exec3 fuel on n cats s :
    In (mode_of s) modes3 ->
    exec3 m szof fuel env (O3SetDebugLogging on n cats) s
    = outI m (debug_body on n cats) (@none_out F m) s.
  Proof.
    intro H. cbn [exec3]. rewrite !outI_eq. unfold fmi3SetDebugLogging.
    rewrite BEGIN_pass; [reflexivity|now apply any3].
  Qed.
  Lemma debug_exec2 fuel on n cats s :
    In (mode_of s) (when2 (D:=D) (O2SetDebugLogging (F:=F) on n cats)) ->
    exec2 m szof fuel env (O2SetDebugLogging on n cats) s
    = outI m (debug_body on n cats) (@none_out F m) s.
  Proof.
    intro H. cbn [exec2]. rewrite !outI_eq. unfold fmi2SetDebugLogging.
    rewrite BEGIN2_pass; [reflexivity|]. eapply all2; exact H.
  Qed.

  Lemma debug_body_outcome on n cats s :
    debug_outcome on n cats s (outI m (debug_body on n cats) (@none_out F m) s).
  Proof.
    rewrite outI_eq. split; [|split; [|split]].
    - intros ->. reflexivity.
    - intros l rest -> Hn -> K.
      destruct (@debug_body_known on l rest (sinst s)) as (ev & er & E & S); auto.
      { destruct l; [exfalso; apply Hn; reflexivity|discriminate]. }
      rewrite E. exists ev, er. split; [reflexivity|exact S].
    - intros l bad rest Hn -> K B.
      destruct (@debug_body_unknown on l bad rest (n - S (length l)) (sinst s)) as (ev & er & E & S); auto.
      replace (Datatypes.S (length l + (n - Datatypes.S (length l)))) with n in E by lia.
      rewrite E. exists ev, er. split; [reflexivity|exact S].
    - intros Hn ->. destruct n; [congruence|]. rewrite debug_body_null. reflexivity.
  Qed.
End Debug.
