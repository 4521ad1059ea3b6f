(** Life3.v -- proofs for C71 and C72: what the statuses mean, and what an importer can count on. *)
From Coq Require Import Strings.String List Bool Arith Lia.
From Verif Require Import Base ImpLife SpecLife Life Life2.
Import ListNotations.
Open Scope string_scope.
Open Scope list_scope.
Set Implicit Arguments.

(** ** If a call returns *)
Definition wl {X} (m : M X) (w : World) (Q : X -> World -> Prop) : Prop := forall x w' t, m w = Done (x, w', t) -> Q x w'.
Lemma wl_ret X (x : X) w (Q : X -> World -> Prop) : Q x w -> wl (ret x) w Q.
Proof. intros H y w' t E. injection E as <- <- <-. exact H. Qed.
Lemma wl_ub X w (Q : X -> World -> Prop) : wl (ubM (X := X)) w Q.
Proof. intros y w' t E. discriminate E. Qed.
Lemma wl_bind X Y (m : M X) (k : X -> M Y) w Q : wl m w (fun x w' => wl (k x) w' Q) -> wl (bind m k) w Q.
Proof.
  intros H y w' t E. unfold bind in E. destruct (m w) as [[[x w1] t1]| |] eqn:Em; try discriminate.
  destruct (k x w1) as [[[z w2] t2]| |] eqn:Ek; try discriminate. injection E as <- <- <-. exact (H _ _ _ Em _ _ _ Ek).
Qed.
Lemma wl_bind_inv X Y (m : M X) (k : X -> M Y) w Q : wl (bind m k) w Q -> wl m w (fun x w' => wl (k x) w' Q).
Proof. intros H x w' t E y w'' t' E'. eapply H. unfold bind. rewrite E, E'. reflexivity. Qed.
Lemma wl_ret_inv X (x : X) w Q : wl (ret x) w Q -> Q x w.
Proof. intros H. eapply H. reflexivity. Qed.
Lemma wl_conseq X (m : M X) w (P Q : X -> World -> Prop) : wl m w P -> (forall x w', P x w' -> Q x w') -> wl m w Q.
Proof. intros H K x w' t E. apply K. exact (H _ _ _ E). Qed.
Lemma wl_true X (m : M X) w (Q : X -> World -> Prop) : (forall x w', Q x w') -> wl m w Q.
Proof. intros H x w' t _. apply H. Qed.
Lemma wl_look p w (Q : Block -> World -> Prop) : (forall a b, p = Some a -> blk w a = Some b -> Q b w) -> wl (look p) w Q.
Proof.
  intros H x w' t E. unfold look in E. destruct p as [a|]; [|discriminate]. destruct (blk w a) eqn:B; [|discriminate].
  injection E as <- <- <-. eauto.
Qed.
Lemma wl_write a b w (Q : unit -> World -> Prop) :
  (forall w', fresh w' = fresh w -> blk w' a = Some b -> (forall x, x <> a -> blk w' x = blk w x) -> Q tt w') -> wl (write a b) w Q.
Proof.
  intros H x w' t E. unfold write in E. destruct (blk w a); [|discriminate]. injection E as <- <- <-. apply H; simpl; unfold put; auto.
  - now rewrite Nat.eqb_refl.
  - intros x N. now rewrite (proj2 (Nat.eqb_neq x a) N).
Qed.
Lemma wl_request O s b w (Q : option nat -> World -> Prop) :
  (forall w', fresh w' = S (fresh w) -> (forall x, x <> fresh w -> blk w' x = blk w x) ->
     Q (if grants O s (fresh w) then Some (fresh w) else None) w') -> wl (request O s b) w Q.
Proof.
  intros H x w' t E. unfold request in E. destruct (grants O s (fresh w)); injection E as <- <- <-; apply H; auto.
  simpl. intros x N. unfold put. now rewrite (proj2 (Nat.eqb_neq x (fresh w)) N).
Qed.
Lemma wl_instance p w (Q : nat * Imp -> World -> Prop) :
  (forall a i, p = Some a -> blk w a = Some (BImp i) -> Q (a, i) w) -> wl (instance_at p) w Q.
Proof.
  intros H. unfold instance_at. destruct p as [a|]; [|apply wl_ub]. apply wl_bind, wl_look. intros a' b E B. injection E as <-.
  destruct b; try apply wl_ub. apply wl_ret. auto.
Qed.

(** ** The status of an instantiation *)
Lemma load_status O i t : forall rest got w,
  wl (load O i t got rest) w (fun s w' => fresh w' = fresh w /\ (forall x, x <> t -> blk w' x = blk w x) /\
    (s = OK <-> forall f, In f rest -> exports O (i_lib i) f = true)).
Proof.
  induction rest as [|f r IH]; intros got w; simpl.
  - apply wl_ret. repeat split; try contradiction; auto.
  - assert (D : wl (dlsym O (i_lib i) f) w (fun b w' => w' = w /\ b = exports O (i_lib i) f)).
    { unfold dlsym. destruct (i_lib i) as [h|]; [|apply wl_ret; auto].
      apply wl_bind, wl_look. intros a b _ _. destruct b; try apply wl_ub. apply wl_ret. auto. }
    apply wl_bind. eapply wl_conseq; [exact D|]. intros b w' [-> ->]. destruct (exports O (i_lib i) f) eqn:X.
    + apply wl_bind, wl_write. intros w1 F1 B1 E1. eapply wl_conseq; [apply IH|]. simpl. intros s w2 (F2 & E2 & H).
      split; [congruence|]. split; [intros x N; now rewrite E2, E1|]. rewrite H. split; intros K; [intros g [<-|G]; auto | auto].
    + destruct (i_logm i); [|apply wl_ub]. apply wl_ret. repeat split; auto; [discriminate|].
      intros K. rewrite K in X; [discriminate | now left].
Qed.

Lemma component_status O made nm acc loc w :
  wl (createModelInstance O made nm acc loc) w (fun c _ =>
    c <> None <-> acc = true /\ nm <> None /\ grants O SComp (fresh w) = true /\ grants O SCompName (S (fresh w)) = true).
Proof.
  unfold createModelInstance. destruct nm as [m|]; [|apply wl_ret; intuition congruence].
  destruct acc; [|apply wl_ret; intuition congruence].
  apply wl_bind, wl_request. intros w1 F1 X1. destruct (grants O SComp (fresh w)); [|apply wl_ret; intuition congruence].
  apply wl_bind, wl_request. intros w2 F2 X2. rewrite F1. apply wl_bind, wl_true. intros l w3. apply wl_bind, wl_true. intros [] w4.
  destruct (grants O SCompName (S (fresh w))); apply wl_ret; intuition congruence.
Qed.

Lemma instantiates_status O p f b acc loc s0 i w :
  blk w p = Some (BImp i) ->
  wl (instantiates O (Some p) f b acc loc s0) w (fun s _ =>
    s = OK <-> s0 = OK /\ acc = true /\ i_name i <> None /\ grants O SComp (fresh w) = true /\ grants O SCompName (S (fresh w)) = true).
Proof.
  intros P. unfold instantiates. apply wl_bind, wl_instance. intros a j E B. injection E as <-.
  assert (j = i) by congruence. subst j. simpl. apply wl_bind. unfold calls. apply wl_bind.
  assert (T : wl (table_at (if b then i_f2 i else i_f3 i)) w (fun _ w' => w' = w)).
  { unfold table_at. destruct (if b then i_f2 i else i_f3 i); [|apply wl_ub]. apply wl_bind, wl_look. intros a c _ _.
    destruct c; try apply wl_ub. now apply wl_ret. }
  eapply wl_conseq; [exact T|]. intros e w' ->. destruct (existsb (String.eqb f) (snd e)); [|apply wl_ub]. apply wl_ret.
  apply wl_bind. eapply wl_conseq; [apply component_status|]. intros c w1 H. apply wl_bind, wl_true. intros [] w2.
  apply wl_bind, wl_true. intros [] w3. apply wl_ret. destruct c as [c|].
  - assert (Some c <> None) as N by discriminate. apply H in N. tauto.
  - split; [discriminate|]. intros (_ & K). apply H in K. contradiction.
Qed.

Lemma prep_status O p b names i w :
  blk w p = Some (BImp i) -> p < fresh w ->
  wl (prep O (Some p) b names) w (fun s w' =>
    (s = OK <-> grants O STable (fresh w) = true /\ forall f, In f names -> exports O (i_lib i) f = true) /\
    fresh w' = S (fresh w) /\ exists j, blk w' p = Some (BImp j) /\ i_name j = i_name i).
Proof.
  intros P L. unfold prep. apply wl_bind, wl_instance. intros a j E B. injection E as <-. assert (j = i) by congruence. subst j. simpl.
  apply wl_bind, wl_request. intros w1 F1 X1. apply wl_bind, wl_write. intros w2 F2 B2 X2.
  assert (Nm : forall o, i_name ((if b then set_f2 else set_f3) i o) = i_name i) by (intros; destruct b; reflexivity).
  destruct (grants O STable (fresh w)).
  - eapply wl_conseq; [apply load_status|]. simpl. intros s w3 (F3 & X3 & H). split; [|split; [congruence|]].
    + rewrite H. intuition.
    + eexists. rewrite X3 by lia. split; [exact B2 | apply Nm].
  - apply wl_ret. split; [|split; [congruence|]].
    + intuition discriminate.
    + eexists. split; [exact B2 | apply Nm].
Qed.

Lemma instantiate_status O p k acc loc i w :
  blk w p = Some (BImp i) -> p < fresh w ->
  wl (instantiate O (Some p) k acc loc) w (fun s _ => s = OK <-> can O i k acc (fresh w)).
Proof.
  intros P L. unfold can.
  assert (St : forall s0 w1 j s, (s0 = OK <-> grants O STable (fresh w) = true /\ forall f, In f (needed k) -> exports O (i_lib i) f = true) ->
     fresh w1 = S (fresh w) -> i_name j = i_name i ->
     (s = OK <-> s0 = OK /\ acc = true /\ i_name j <> None /\ grants O SComp (fresh w1) = true /\ grants O SCompName (S (fresh w1)) = true) ->
     (s = OK <-> acc = true /\ i_name i <> None /\ (forall f, In f (needed k) -> exports O (i_lib i) f = true) /\
      grants O STable (fresh w) = true /\ grants O SComp (S (fresh w)) = true /\ grants O SCompName (S (S (fresh w))) = true)).
  { intros s0 w1 j s H F N K. rewrite K, H, F, N. tauto. }
  assert (Two : wl (prep O (Some p) true (symbols k)) w (fun s0 w1 =>
      wl (match s0 with OK => instantiates O (Some p) "fmi2Instantiate" true acc loc OK | _ => ret s0 end) w1 (fun s _ => s = OK <-> can O i k acc (fresh w))) ->
      wl (FMI2Instantiate O (Some p) k acc loc) w (fun s _ => s = OK <-> can O i k acc (fresh w))).
  { unfold prep, FMI2Instantiate. intros H. apply wl_bind. apply wl_bind_inv in H. eapply wl_conseq; [exact H|]. clear H.
    intros e w1 H. apply wl_bind. apply wl_bind_inv in H. eapply wl_conseq; [exact H|]. clear H.
    intros t w2 H. apply wl_bind. apply wl_bind_inv in H. eapply wl_conseq; [exact H|]. clear H.
    intros [] w3 H. destruct t as [a|]; [apply wl_bind; exact H | exact (wl_ret_inv H)]. }
  unfold instantiate. destruct k.
  all: try (apply Two; eapply wl_conseq; [apply prep_status; [exact P | exact L]|];
            intros s0 w1 (H & F & j & Bj & Nj); destruct s0;
            [eapply wl_conseq; [apply instantiates_status, Bj|]; intros s w2 K; apply (St OK w1 j s H F Nj K) |
             apply wl_ret; unfold can; split; [discriminate | intros (? & ? & ? & ? & ?); exfalso; assert (Q : True) by exact I;
               match type of H with ?x = OK <-> _ => assert (x = OK) by (apply H; auto); discriminate end] .. ]).
  - unfold FMI3InstantiateModelExchange. apply wl_bind. change (loadSymbols3 O (Some p)) with (prep O (Some p) false (symbols Me3)).
    eapply wl_conseq; [apply prep_status; [exact P | exact L]|]. intros s0 w1 (H & F & j & Bj & Nj).
    eapply wl_conseq; [apply instantiates_status, Bj|]. intros s w2 K. apply (St s0 w1 j s H F Nj K).
  - unfold FMI3InstantiateCoSimulation. apply wl_bind. change (loadSymbols3 O (Some p)) with (prep O (Some p) false (symbols Cs3)).
    eapply wl_conseq; [apply prep_status; [exact P | exact L]|]. intros s0 w1 (H & F & j & Bj & Nj). destruct s0;
      [eapply wl_conseq; [apply instantiates_status, Bj|]; intros s w2 K; apply (St OK w1 j s H F Nj K) |
       apply wl_ret; split; [discriminate | intros (? & ? & ? & ? & ?); exfalso;
               match type of H with ?x = OK <-> _ => assert (x = OK) by (apply H; auto); discriminate end] .. ].
  - unfold FMI3InstantiateScheduledExecution. apply wl_bind. change (loadSymbols3 O (Some p)) with (prep O (Some p) false (symbols Se3)).
    eapply wl_conseq; [apply prep_status; [exact P | exact L]|]. intros s0 w1 (H & F & j & Bj & Nj). destruct s0;
      [eapply wl_conseq; [apply instantiates_status, Bj|]; intros s w2 K; apply (St OK w1 j s H F Nj K) |
       apply wl_ret; split; [discriminate | intros (? & ? & ? & ? & ?); exfalso;
               match type of H with ?x = OK <-> _ => assert (x = OK) by (apply H; auto); discriminate end] .. ].
Qed.

(** ** Addresses of instances are old *)
Definition mono {X} (m : M X) : Prop := forall w x w' t, m w = Done (x, w', t) -> fresh w <= fresh w'.
Lemma mono_ret X (x : X) : mono (ret x). Proof. intros w y w' t E. injection E as <- <- <-. lia. Qed.
Lemma mono_ub X : mono (ubM (X := X)). Proof. intros w y w' t E. discriminate E. Qed.
Lemma mono_bind X Y (m : M X) (k : X -> M Y) : mono m -> (forall x, mono (k x)) -> mono (bind m k).
Proof.
  intros Hm Hk w y w' t E. unfold bind in E. destruct (m w) as [[[x w1] t1]| |] eqn:Em; try discriminate.
  destruct (k x w1) as [[[z w2] t2]| |] eqn:Ek; try discriminate. injection E as <- <- <-.
  pose proof (Hm _ _ _ _ Em). pose proof (Hk _ _ _ _ _ Ek). lia.
Qed.
Lemma mono_request O s b : mono (request O s b).
Proof. intros w x w' t E. unfold request in E. destruct (grants O s (fresh w)); injection E as <- <- <-; simpl; lia. Qed.
Lemma mono_look p : mono (look p).
Proof. intros w x w' t E. unfold look in E. destruct p; [|discriminate]. destruct (blk w n); [|discriminate]. injection E as <- <- <-. lia. Qed.
Lemma mono_drop a : mono (drop a).
Proof. intros w x w' t E. unfold drop in E. destruct (blk w a); [|discriminate]. injection E as <- <- <-. simpl. lia. Qed.
Lemma mono_write a b : mono (write a b).
Proof. intros w x w' t E. unfold write in E. destruct (blk w a); [|discriminate]. injection E as <- <- <-. simpl. lia. Qed.
Ltac monos :=
  repeat first
    [ apply mono_ret | apply mono_ub | apply mono_request | apply mono_look | apply mono_drop | apply mono_write
    | assumption | apply mono_bind; [|intros]
    | match goal with
      | |- mono (match ?x with _ => _ end) => destruct x
      | |- mono (if ?x then _ else _) => destruct x
      end ].
Ltac monos0 :=
  first
    [ apply mono_ret | apply mono_ub | apply mono_request | apply mono_look | apply mono_drop | apply mono_write
    | match goal with
      | |- mono (bind _ _) => apply mono_bind; [|intros]
      | |- mono (match ?x with _ => _ end) => destruct x
      | |- mono (if ?x then _ else _) => destruct x
      end ].
Lemma mono_load O i t : forall rest got, mono (load O i t got rest).
Proof. induction rest as [|f r IH]; intros got; simpl; unfold dlsym; monos; apply IH. Qed.
Lemma mono_instantiates O p f b a l s : mono (instantiates O p f b a l s).
Proof. unfold instantiates, instance_at, calls, table_at, createModelInstance, logs. monos. Qed.
Lemma mono_symbols3 O p : mono (loadSymbols3 O p).
Proof. unfold loadSymbols3, instance_at. generalize symbols3. intros L. repeat first [apply mono_load | progress monos0]. Qed.
Lemma mono_lexec O op : mono (lexec O op).
Proof.
  destruct op as [m f | p | p k a l | p k f | p k | p]; simpl; apply mono_bind; try (intros; apply mono_ret).
  - unfold FMICreateInstance. monos.
  - unfold FMILoadPlatformBinary, instance_at. monos.
  - assert (Two : mono (FMI2Instantiate O p k a l)).
    { unfold FMI2Instantiate, instance_at. generalize (symbols k). intros L. repeat first [apply mono_load | apply mono_instantiates | progress monos0]. }
    unfold instantiate. destruct k; try exact Two.
    + apply mono_bind; [apply mono_symbols3 | intros; apply mono_instantiates].
    + apply mono_bind; [apply mono_symbols3 | intros []; (apply mono_instantiates || apply mono_ret)].
    + apply mono_bind; [apply mono_symbols3 | intros []; (apply mono_instantiates || apply mono_ret)].
  - unfold wrapper, instance_at, calls, table_at, logs. monos.
  - unfold release, FMI2FreeInstance, FMI3FreeInstance, freeModelInstance, instance_at, calls, table_at, cfree. monos.
  - unfold FMIFreeInstance, dlclose, cfree, instance_at. monos.
Qed.

Lemma create_status O m f w :
  wl (FMICreateInstance O m f) w (fun p w' => match p with
    | None => grants O SInstance (fresh w) = false
    | Some a => a = fresh w /\ a < fresh w' /\ exists i, blk w' a = Some (BImp i) /\ (grants O SName (S (S (fresh w))) = true -> i_name i <> None)
    end).
Proof.
  unfold FMICreateInstance. apply wl_bind, wl_request. intros w1 F1 _. destruct (grants O SInstance (fresh w)); [|now apply wl_ret].
  apply wl_bind, wl_request. intros w2 F2 _. apply wl_bind, wl_request. intros w3 F3 _. apply wl_bind, wl_write. intros w4 F4 B4 _.
  apply wl_ret. split; [reflexivity|]. split; [lia|]. eexists. split; [exact B4|]. simpl. rewrite F2, F1. intros ->. discriminate.
Qed.

Lemma history_old O ops ph w : history O ops ph w -> forall a s, ph a = Some s -> a < fresh w.
Proof.
  intros H. induction H as [|ops ph w op out w' t H IH P E]; intros a s X; [discriminate|].
  pose proof (mono_lexec _ _ _ E) as Mo.
  assert (K : forall b z, ph b <> None -> at_phase ph b z a = Some s -> a < fresh w').
  { intros b z Nb. unfold at_phase. destruct (Nat.eqb_spec a b) as [->|N]; intros Y.
    - destruct (ph b) as [y|] eqn:B; [|contradiction]. specialize (IH _ _ B). lia.
    - specialize (IH _ _ Y). lia. }
  assert (Z : ph a = Some s -> a < fresh w') by (intros Y; specialize (IH _ _ Y); lia).
  destruct P as [f | b Pb | b k x l Pb | b k j Pb Ek | b k j f Pb Ek If | k | b Pb | ]; simpl in X; auto.
  - destruct out as [[b|] | |]; auto. unfold at_phase in X. destruct (Nat.eqb_spec a b) as [->|N]; [|auto].
    simpl in E. assert (W : wl (let* p := FMICreateInstance O true f in ret (LPointer p)) w (fun out w' => out = LPointer (Some b) -> b < fresh w')).
    { apply wl_bind. eapply wl_conseq; [apply create_status|]. intros p w1 Q. apply wl_ret. intros Y. injection Y as ->. apply Q. }
    exact (W _ _ _ E eq_refl).
  - destruct out as [|[]|]; auto; apply (K b Loaded); auto; congruence.
  - destruct out as [|[]|]; auto; first [apply (K b (Live k)); auto; congruence | apply (K b Over); auto; congruence].
  - destruct out; apply (K b Over); auto; congruence.
  - destruct out; apply (K b Gone); auto; destruct Pb as [-> | [-> | ->]]; discriminate.
Qed.

Lemma history_ok O ops ph w a k acc loc s w' t :
  history O ops ph w -> permitted ph (LInstantiate (Some a) k acc loc) ->
  lexec O (LInstantiate (Some a) k acc loc) w = Done (LStatus s, w', t) ->
  exists i, blk w a = Some (BImp i) /\ (s = OK <-> can O i k acc (fresh w)).
Proof.
  intros H P E. inversion P as [| |a0 k0 x0 l0 X| | | | |]; subst.
  assert (I : exists i, blk w a = Some (BImp i)).
  { simpl in E. assert (W : wl (instantiate O (Some a) k acc loc) w (fun _ _ => exists i, blk w a = Some (BImp i))).
    { unfold instantiate, FMI2Instantiate, FMI3InstantiateModelExchange, FMI3InstantiateCoSimulation, FMI3InstantiateScheduledExecution, loadSymbols3.
      destruct k; [apply wl_bind | apply wl_bind | apply wl_bind, wl_bind ..]; apply wl_instance; intros b i Eb B; injection Eb as <-;
        intros x1 w1 t1 _; eauto; intros x2 w2 t2 _; eauto. }
    unfold bind in E. destruct (instantiate O (Some a) k acc loc w) as [[[r w1] t1]| |] eqn:E1; try discriminate. exact (W _ _ _ E1). }
  destruct I as (i & B). exists i. split; [exact B|].
  simpl in E. unfold bind in E. destruct (instantiate O (Some a) k acc loc w) as [[[r w1] t1]| |] eqn:E1; try discriminate.
  simpl in E. injection E as <- <- <-. exact (@instantiate_status O a k acc loc i w B (history_old H a X) _ _ _ E1).
Qed.

Lemma history_live O ops ph w a k :
  buffers O -> names O -> (forall op, In op ops -> is_exchange3 op -> complete O Me3) ->
  history O ops ph w -> ph a = Some (Live k) -> usable k a w.
Proof.
  intros HB HN HM H X. destruct (history_inv HB HN HM H) as (sub & V). pose proof (v_part V a) as S. rewrite X in S.
  destruct S as (U & i & c & n & l & t & L & Ov & Ec & Bc & Bn & Bl & Ft & Bt & Ir & It & Ho & Hl & ->).
  pose proof (o_imp Ov) as Bi. pose proof (o_lib Ov) as Bh. destruct (i_lib i) as [h|] eqn:El; [|contradiction].
  exists i, h, c, n, l, t, (symbols k). simpl in *. repeat split; auto; try (apply (v_in V a); assumption). rewrite needed_symbols. auto.
Qed.

(** ** The status of a program *)
Lemma tearDown_status k t g w : wl (tearDown k t g) w (fun s _ =>
  s = match g_S g with None => g_status g | Some _ => if below (g_status g) Error then smax (g_status g) t else g_status g end).
Proof.
  unfold tearDown. apply wl_bind.
  assert (H : wl (match g_S g with
            | None => ret (g_status g)
            | Some _ =>
                let* s := (if below (g_status g) Error
                           then let* ts := terminate k (g_S g) t in ret (smax (g_status g) ts)
                           else ret (g_status g)) in
                (if below s Fatal then release k (g_S g) else ret tt) ;;;
                FMIFreeInstance (g_S g) ;;;
                ret s
            end) w (fun s _ => s = match g_S g with None => g_status g | Some _ => if below (g_status g) Error then smax (g_status g) t else g_status g end)).
  { destruct (g_S g) as [p|]; [|now apply wl_ret]. apply wl_bind. eapply wl_conseq with (P := fun s _ => s = if below (g_status g) Error then smax (g_status g) t else g_status g).
    - destruct (below (g_status g) Error); [|now apply wl_ret]. apply wl_bind. unfold terminate. apply wl_bind, wl_true. intros e w1.
      apply wl_bind, wl_true. intros [] w2. apply wl_ret. now apply wl_ret.
    - intros s w1 ->. apply wl_bind, wl_true. intros [] w2. apply wl_bind, wl_true. intros [] w3. now apply wl_ret. }
  eapply wl_conseq; [exact H|]. intros s w1 ->. apply wl_bind, wl_true. intros [] w2. apply wl_bind, wl_true. intros [] w3. now apply wl_ret.
Qed.

Lemma fmiload_status O p i w :
  blk w p = Some (BImp i) -> p < fresh w ->
  wl (FMILoadPlatformBinary O (Some p)) w (fun s w' => (s = if grants O SLibrary (fresh w) then OK else Error) /\ p < fresh w' /\
    exists j, blk w' p = Some (BImp j) /\ i_name j = i_name i).
Proof.
  intros B L. unfold FMILoadPlatformBinary. apply wl_bind, wl_instance. intros a j E Bj. injection E as <-. assert (j = i) by congruence. subst j.
  apply wl_bind, wl_request. intros w1 F1 X1. apply wl_bind, wl_write. intros w2 F2 B2 X2. apply wl_ret. split; [now destruct (grants O SLibrary (fresh w))|].
  split; [simpl in *; lia|]. eexists. split; [exact B2 | reflexivity].
Qed.

Lemma instantiate_codes O p k acc loc w :
  wl (instantiate O (Some p) k acc loc) w (fun s _ => s = OK \/ s = Error \/ s = Fatal).
Proof.
  assert (L : forall i t rest got w, wl (load O i t got rest) w (fun s _ => s = OK \/ s = Error \/ s = Fatal)).
  { intros i t. induction rest as [|f r IH]; intros got w1; simpl; [apply wl_ret; auto|]. apply wl_bind, wl_true. intros b w2.
    destruct b; [apply wl_bind, wl_true; intros [] w3; apply IH|]. destruct (i_logm i); [apply wl_ret; auto | apply wl_ub]. }
  assert (L3 : forall w, wl (loadSymbols3 O (Some p)) w (fun s _ => s = OK \/ s = Error \/ s = Fatal)).
  { intros w1. unfold loadSymbols3. apply wl_bind, wl_true. intros e w2. apply wl_bind, wl_true. intros t w3. apply wl_bind, wl_true. intros [] w4.
    destruct t; [apply L | apply wl_ret; auto]. }
  assert (G : forall f b s0 w, s0 = OK \/ s0 = Error \/ s0 = Fatal -> wl (instantiates O (Some p) f b acc loc s0) w (fun s _ => s = OK \/ s = Error \/ s = Fatal)).
  { intros f b s0 w1 H. unfold instantiates. apply wl_bind, wl_true. intros e w2. apply wl_bind, wl_true. intros [] w3. apply wl_bind, wl_true. intros c w4.
    apply wl_bind, wl_true. intros [] w5. apply wl_bind, wl_true. intros [] w6. apply wl_ret. destruct c; auto. }
  assert (Two : wl (FMI2Instantiate O (Some p) k acc loc) w (fun s _ => s = OK \/ s = Error \/ s = Fatal)).
  { unfold FMI2Instantiate. apply wl_bind, wl_true. intros e w2. apply wl_bind, wl_true. intros t w3. apply wl_bind, wl_true. intros [] w4.
    destruct t; [|apply wl_ret; auto]. apply wl_bind. eapply wl_conseq; [apply L|]. intros s w5 H. destruct s; try (apply wl_ret; exact H). apply G; auto. }
  unfold instantiate. destruct k; try exact Two.
  - unfold FMI3InstantiateModelExchange. apply wl_bind. eapply wl_conseq; [apply L3|]. intros s w5 H. now apply G.
  - unfold FMI3InstantiateCoSimulation. apply wl_bind. eapply wl_conseq; [apply L3|]. intros s w5 H. destruct s; try (apply wl_ret; auto). apply G; auto.
  - unfold FMI3InstantiateScheduledExecution. apply wl_bind. eapply wl_conseq; [apply L3|]. intros s w5 H. destruct s; try (apply wl_ret; auto). apply G; auto.
Qed.

Lemma program_status O k out acc loc body t :
  wl (program O k out acc loc body t) nothing (fun s _ =>
    (acc = true /\ (exists h, forall f, In f (needed k) -> exports O h f = true) /\ s = total body t) \/
    ((s = Error \/ s = Fatal) /\ ~ (acc = true /\ (forall site n, grants O site n = true) /\ forall h f, In f (needed k) -> exports O h f = true))).
Proof.
  assert (Fin : forall o l p s0 w (N : ~ (acc = true /\ (forall site n, grants O site n = true) /\ forall h f, In f (needed k) -> exports O h f = true)), s0 = Error \/ s0 = Fatal ->
     wl (tearDown k t (mkG s0 o p l)) w (fun s _ =>
    (acc = true /\ (exists h, forall f, In f (needed k) -> exports O h f = true) /\ s = total body t) \/
    ((s = Error \/ s = Fatal) /\ ~ (acc = true /\ (forall site n, grants O site n = true) /\ forall h f, In f (needed k) -> exports O h f = true)))).
  { intros o l p s0 w N H. eapply wl_conseq; [apply tearDown_status|]. simpl. intros s w1 ->. right. split; [|exact N]. destruct p; [|exact H]. destruct H as [-> | ->]; auto. }
  assert (Body : forall o l w,
     wl (let* p := FMICreateInstance O true true in
      match p with
      | None => ret (mkG Error o None l)
      | Some _ => let* s := FMILoadPlatformBinary O p in ret (mkG s o p l)
      end) w (fun g1 w' =>
    wl (match g_status g1 with
        | OK => let* s := instantiate O (g_S g1) k acc loc in
                tearDown k t (mkG (match s with OK => body | _ => s end) (g_out g1) (g_S g1) (g_log g1))
        | _ => tearDown k t g1
        end) w' (fun s _ =>
    (acc = true /\ (exists h, forall f, In f (needed k) -> exports O h f = true) /\ s = total body t) \/
    ((s = Error \/ s = Fatal) /\ ~ (acc = true /\ (forall site n, grants O site n = true) /\ forall h f, In f (needed k) -> exports O h f = true))))).
  { intros o l w. apply wl_bind. eapply wl_conseq; [apply create_status|]. intros [p|] w1; cbv beta iota.
    2:{ intros G. apply wl_ret. simpl. apply Fin; [|auto]. intros (_ & K & _). congruence. }
    intros (-> & Lp & i & Bi & Ni). apply wl_bind. eapply wl_conseq; [apply (@fmiload_status O _ _ _ Bi Lp)|]. cbv beta.
    intros s w2 (-> & L2 & j & Bj & Nj). apply wl_ret. simpl. destruct (grants O SLibrary (fresh w1)) eqn:G; simpl.
    2:{ apply Fin; [|auto]. intros (_ & K & _). congruence. }
    apply wl_bind. intros s w3 tr E. pose proof (@instantiate_status O _ k acc loc _ _ Bj L2 _ _ _ E) as Hs. pose proof (@instantiate_codes O _ k acc loc _ _ _ _ E) as Hc. cbv beta in Hs, Hc.
    assert (Ns : s <> OK -> ~ (acc = true /\ (forall site n, grants O site n = true) /\ forall h f, In f (needed k) -> exports O h f = true)).
    { intros N (A & K & X). apply N, Hs. unfold can. rewrite Nj. repeat split; auto. }
    destruct s; try (destruct Hc as [?|[?|?]]; discriminate); try (apply Fin; [apply Ns; discriminate | auto]).
    destruct (proj1 Hs eq_refl) as (A & _ & X & _). eapply wl_conseq; [apply tearDown_status|]. simpl. intros s w4 ->. left.
    split; [exact A|]. split; [exists (i_lib j); exact X | destruct body, t; reflexivity]. }
  unfold program. apply wl_bind. unfold setUp. apply wl_bind. destruct out.
  - apply wl_request. intros w1 F1 _. destruct (grants O SFile (fresh nothing)) eqn:G.
    2:{ apply wl_ret. simpl. apply Fin; [|auto]. intros (_ & K & _). congruence. }
    apply wl_bind, wl_request. intros w2 F2 _. destruct (grants O SFile (fresh w1)) eqn:G1; [apply Body|].
    apply wl_ret. simpl. apply Fin; [|auto]. intros (_ & K & _). congruence.
  - apply wl_ret. apply wl_bind, wl_request. intros w2 F2 _. destruct (grants O SFile (fresh nothing)) eqn:G1; [apply Body|].
    apply wl_ret. simpl. apply Fin; [|auto]. intros (_ & K & _). congruence.
Qed.

Lemma program_reports O k out acc loc body t s w tr :
  program O k out acc loc body t nothing = Done (s, w, tr) ->
  acc = true /\ (exists h, forall f, In f (needed k) -> exports O h f = true) /\ s = total body t \/ s = Error \/ s = Fatal.
Proof. intros E. destruct (@program_status _ _ _ _ _ _ _ _ _ _ E) as [H | [H _]]; auto. Qed.

Lemma program_success O k out loc body t :
  (forall site n, grants O site n = true) -> (forall h f, In f (needed k) -> exports O h f = true) ->
  exists w tr, program O k out true loc body t nothing = Done (total body t, w, tr).
Proof.
  intros G X. destruct (@program_ends O k out true loc body t) as (s & w & tr & E & _).
  - intro; apply G.
  - intro; apply G.
  - intro; apply G.
  - left. split; [intro; apply G | exact X].
  - exists w, tr. rewrite E. destruct (@program_status _ _ _ _ _ _ _ _ _ _ E) as [(_ & _ & ->) | [_ N]]; [reflexivity|]. elim N. auto.
Qed.

(** ** Examples by computation *)
Definition phase_eqb (p q : Phase) : bool :=
  match p, q with
  | Live a, Live b => match a, b with Me2, Me2 | Cs2, Cs2 | Me3, Me3 | Cs3, Cs3 | Se3, Se3 => true | _, _ => false end
  | _, _ => false
  end.
Lemma replay_phase O ops a s :
  match replay O ops none_yet nothing [] with
  | Some (ph, w, _) => match ph a with Some q => phase_eqb q s | None => false end
  | None => false
  end = true -> exists ph w, history O (rev ops) ph w /\ ph a = Some s.
Proof.
  intros H. destruct (replay O ops none_yet nothing []) as [[[ph w] l]|] eqn:E; [|discriminate].
  destruct (@replay_ok O ops [] _ _ _ _ _ _ (no_calls O) (fun _ _ => eq_refl) E) as [Hh _]. rewrite app_nil_r in Hh.
  exists ph, w. split; [exact Hh|]. destruct (ph a) as [q|]; [|discriminate].
  destruct q as [| |j| |], s as [| |k| |]; try discriminate. destruct j, k; try discriminate; reflexivity.
Qed.
Lemma replay_status O ops op s :
  match replay O ops none_yet nothing [] with
  | Some (ph, w, _) => permits ph op && match lexec O op w with Done (LStatus r, _, _) => Nat.eqb (status_num r) (status_num s) | _ => false end
  | None => false
  end = true -> exists ph w, history O (rev ops) ph w /\ permitted ph op /\ exists w' t, lexec O op w = Done (LStatus s, w', t).
Proof.
  intros H. destruct (replay O ops none_yet nothing []) as [[[ph w] l]|] eqn:E; [|discriminate].
  apply andb_prop in H as [G B]. apply permits_ok in G.
  destruct (@replay_ok O ops [] _ _ _ _ _ _ (no_calls O) (fun _ _ => eq_refl) E) as [Hh _]. rewrite app_nil_r in Hh.
  exists ph, w. split; [exact Hh|]. split; [exact G|]. destruct (lexec O op w) as [[[[|r|] w'] t]| |]; try discriminate.
  exists w', t. destruct r, s; (reflexivity || discriminate).
Qed.

(** ** examples/import_shared_library.c *)
Lemma import_ends O acc :
  exists r w t, import_shared_library O acc nothing = Done (r, w, t) /\
    (r = true <-> grants O SLibrary 0 = true /\ exports O (Some 0) "fmi3InstantiateModelExchange" = true /\ exports O (Some 0) "fmi3FreeInstance" = true /\
       acc = true /\ grants O SComp 1 = true /\ grants O SCompName 2 = true) /\
    (r = true -> clean w).
Proof.
  unfold import_shared_library, bind, request, createModelInstance, freeModelInstance, dlclose, dlsym, cfree, look, drop, write, ret, ubM, nothing, clean, put.
  cbn [fresh blk].
  destruct (grants O SLibrary 0) eqn:G1; cbn.
  2:{ do 3 eexists. split; [reflexivity|]. split; [|discriminate]. split; [discriminate | intros (H & _); discriminate]. }
  destruct (exports O (Some 0) "fmi3InstantiateModelExchange") eqn:X1; cbn.
  2:{ do 3 eexists. split; [reflexivity|]. split; [|discriminate]. split; [discriminate | intros (_ & H & _); discriminate]. }
  destruct (exports O (Some 0) "fmi3FreeInstance") eqn:X2; cbn.
  2:{ do 3 eexists. split; [reflexivity|]. split; [|discriminate]. split; [discriminate | intros (_ & _ & H & _); discriminate]. }
  destruct acc; cbn.
  2:{ do 3 eexists. split; [reflexivity|]. split; [|discriminate]. split; [discriminate | intros (_ & _ & _ & H & _); discriminate]. }
  unfold bind, request; cbn.
  destruct (grants O SComp 1) eqn:G2; cbn.
  2:{ do 3 eexists. split; [reflexivity|]. split; [|discriminate]. split; [discriminate | intros (_ & _ & _ & _ & H & _); discriminate]. }
  destruct (grants O SCompName 2) eqn:G3; cbn.
  2:{ do 3 eexists. split; [reflexivity|]. split; [|discriminate]. split; [discriminate | intros (_ & _ & _ & _ & _ & H); discriminate]. }
  do 3 eexists. split; [reflexivity|]. split; [tauto|]. intros _ a. cbn. destruct a as [|[|[|a]]]; reflexivity.
Qed.

Lemma import_left O acc w t :
  import_shared_library O acc nothing = Done (false, w, t) ->
  (blk w 0 = if grants O SLibrary 0 then Some BLibrary else None) /\
  (blk w 1 <> None <-> grants O SLibrary 0 = true /\ exports O (Some 0) "fmi3InstantiateModelExchange" = true /\
     exports O (Some 0) "fmi3FreeInstance" = true /\ acc = true /\ grants O SComp 1 = true) /\
  (forall a, 2 <= a -> blk w a = None).
Proof.
  unfold import_shared_library, bind, request, createModelInstance, freeModelInstance, dlclose, dlsym, cfree, look, drop, write, ret, ubM, nothing, clean, put.
  cbn [fresh blk].
  destruct (grants O SLibrary 0) eqn:G1; cbn; [|intros E; injection E as <- _; cbn; repeat split; try discriminate; try congruence; intros; intuition discriminate].
  destruct (exports O (Some 0) "fmi3InstantiateModelExchange") eqn:X1; cbn.
  2:{ intros E; injection E as <- _; cbn; repeat split; try congruence; try (intuition discriminate). intros [|a] H; [inversion H | reflexivity]. }
  destruct (exports O (Some 0) "fmi3FreeInstance") eqn:X2; cbn.
  2:{ intros E; injection E as <- _; cbn; repeat split; try congruence; try (intuition discriminate). intros [|a] H; [inversion H | reflexivity]. }
  destruct acc; cbn.
  2:{ intros E; injection E as <- _; cbn; repeat split; try congruence; try (intuition discriminate). intros [|a] H; [inversion H | reflexivity]. }
  unfold bind, request; cbn.
  destruct (grants O SComp 1) eqn:G2; cbn.
  2:{ intros E; injection E as <- _; cbn; repeat split; try congruence; try (intuition discriminate). intros [|a] H; [inversion H | reflexivity]. }
  destruct (grants O SCompName 2) eqn:G3; cbn.
  - discriminate.
  - intros E; injection E as <- _; cbn; repeat split; try congruence. intros [|[|a]] H; [inversion H | apply le_S_n in H; inversion H | reflexivity].
Qed.

(** ** examples/import_static_library.c *)
Lemma static_ends O acc :
  exists w t, import_static_library O acc nothing = Done (acc && grants O SComp 0 && grants O SCompName 1, w, t) /\
    (clean w <-> ~ (acc = true /\ grants O SComp 0 = true /\ grants O SCompName 1 = false)).
Proof.
  unfold import_static_library, bind, request, createModelInstance, freeModelInstance, cfree, look, drop, write, ret, ubM, nothing, clean, put.
  cbn [fresh blk]. destruct acc; cbn.
  2:{ do 2 eexists. split; [reflexivity|]. split; [intuition discriminate|reflexivity]. }
  unfold bind, request; cbn.
  destruct (grants O SComp 0) eqn:G2; cbn.
  2:{ do 2 eexists. split; [reflexivity|]. split; [intuition discriminate|reflexivity]. }
  destruct (grants O SCompName 1) eqn:G3; cbn.
  - do 2 eexists. split; [reflexivity|]. split; [intuition discriminate|]. intros _ a. cbn. destruct a as [|[|a]]; reflexivity.
  - do 2 eexists. split; [reflexivity|]. split; [|intros H; exfalso; apply H; auto]. intros H _. specialize (H 0). discriminate H.
Qed.
