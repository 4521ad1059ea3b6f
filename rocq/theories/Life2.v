(** Life2.v -- proofs for C71 and C72: many instances, and the example programs. *)
From Coq Require Import Strings.String List Bool Arith Lia.
From Verif Require Import Base ImpLife SpecLife Life.
Import ListNotations.
Open Scope string_scope.
Open Scope list_scope.
Set Implicit Arguments.

(** ** A call on a part of the world does the same in the whole world and leaves the rest alone. *)
Definition split (w w1 : World) (g : nat -> option Block) : Prop :=
  fresh w = fresh w1 /\
  (forall a, blk w a = match blk w1 a with Some b => Some b | None => g a end) /\
  (forall a, blk w1 a <> None -> g a = None) /\ (forall a, fresh w <= a -> g a = None).
Definition frame {X} (m : M X) : Prop :=
  forall w1 x w1' t, m w1 = Done (x, w1', t) -> forall w g, split w w1 g ->
  exists w', m w = Done (x, w', t) /\ split w' w1' g.

Lemma frame_ret X (x : X) : frame (ret x).
Proof. intros w1 y w1' t E w g S. injection E as <- <- <-. exists w. split; [reflexivity | exact S]. Qed.
Lemma frame_ub X : frame (ubM (X := X)).
Proof. intros w1 y w1' t E. discriminate E. Qed.
Lemma frame_bind X Y (m : M X) (k : X -> M Y) : frame m -> (forall x, frame (k x)) -> frame (bind m k).
Proof.
  intros Fm Fk w1 y w1' t E w g S. unfold bind in E. destruct (m w1) as [[[x w2] t1]| |] eqn:Em; try discriminate.
  destruct (k x w2) as [[[z w3] t2]| |] eqn:Ek; try discriminate. injection E as <- <- <-.
  destruct (Fm _ _ _ _ Em _ _ S) as (w' & Em' & S'). destruct (Fk _ _ _ _ _ Ek _ _ S') as (w'' & Ek' & S'').
  exists w''. split; [|exact S'']. unfold bind. now rewrite Em', Ek'.
Qed.
Lemma frame_request O s b : frame (request O s b).
Proof.
  intros w1 x w1' t E w g (F & V & D & N). unfold request in *. rewrite F. destruct (grants O s (fresh w1)); injection E as <- <- <-; eexists;
    (split; [reflexivity|]).
  - assert (G : g (fresh w1) = None) by (apply N; lia). split; [simpl; congruence|]. simpl. unfold put. split; [|split].
    + intros a. destruct (Nat.eqb a (fresh w1)) eqn:X; [reflexivity | apply V].
    + intros a. destruct (Nat.eqb_spec a (fresh w1)); [now subst | apply D].
    + intros a L. apply N. lia.
  - split; [simpl; congruence|]. simpl. split; [exact V|]. split; [exact D|]. intros a L. apply N. lia.
Qed.
Lemma frame_look p : frame (look p).
Proof.
  intros w1 x w1' t E w g S. pose proof S as (F & V & D & N). unfold look in *. destruct p as [a|]; [|discriminate].
  destruct (blk w1 a) as [b|] eqn:B; [|discriminate]. injection E as <- <- <-. exists w. rewrite V, B. split; [reflexivity | exact S].
Qed.
Lemma frame_drop a : frame (drop a).
Proof.
  intros w1 x w1' t E w g (F & V & D & N). unfold drop in *. destruct (blk w1 a) as [b|] eqn:B; [|discriminate].
  injection E as <- <- <-. rewrite V, B. eexists. split; [reflexivity|].
  assert (G : g a = None) by (apply D; congruence). split; [exact F|]. simpl. unfold put. split; [|split].
  - intros y. destruct (Nat.eqb_spec y a); [now subst | apply V].
  - intros y. destruct (Nat.eqb_spec y a); [now subst | apply D].
  - exact N.
Qed.
Lemma frame_write a b : frame (write a b).
Proof.
  intros w1 x w1' t E w g (F & V & D & N). unfold write in *. destruct (blk w1 a) as [b0|] eqn:B; [|discriminate].
  injection E as <- <- <-. rewrite V, B. eexists. split; [reflexivity|].
  assert (G : g a = None) by (apply D; congruence). split; [exact F|]. simpl. unfold put. split; [|split].
  - intros y. destruct (Nat.eqb_spec y a); [reflexivity | apply V].
  - intros y. destruct (Nat.eqb_spec y a); [now subst | apply D].
  - exact N.
Qed.

Ltac framed :=
  repeat first
    [ apply frame_ret | apply frame_ub | apply frame_request | apply frame_look | apply frame_drop | apply frame_write
    | assumption | apply frame_bind; [|intros]
    | match goal with
      | |- frame (match ?x with _ => _ end) => destruct x
      | |- frame (if ?x then _ else _) => destruct x
      end ].

Lemma frame_cfree p : frame (cfree p). Proof. unfold cfree. framed. Qed.
Lemma frame_dlclose p : frame (dlclose p). Proof. unfold dlclose. framed. Qed.
Lemma frame_instance p : frame (instance_at p). Proof. unfold instance_at. framed. Qed.
Lemma frame_calls p f : frame (calls p f). Proof. unfold calls, table_at. framed. Qed.
Lemma frame_load O i t : forall rest got, frame (load O i t got rest).
Proof.
  induction rest as [|f r IH]; intros got; simpl; [framed|]. apply frame_bind; [unfold dlsym; framed|].
  intros [|]; [|destruct (i_logm i); framed]. apply frame_bind; [framed|]. intros _. apply IH.
Qed.
Lemma frame_component O f n a l : frame (createModelInstance O f n a l). Proof. unfold createModelInstance. framed. Qed.
Lemma frame_instantiates O p f b a l s : frame (instantiates O p f b a l s).
Proof.
  unfold instantiates. apply frame_bind; [apply frame_instance|]. intros e. apply frame_bind; [apply frame_calls|]. intros _.
  apply frame_bind; [apply frame_component|]. intros c. apply frame_bind; [framed|]. intros _. apply frame_bind; [unfold logs; framed|]. intros _. apply frame_ret.
Qed.
Lemma frame_symbols3 O p : frame (loadSymbols3 O p).
Proof.
  unfold loadSymbols3. apply frame_bind; [apply frame_instance|]. intros e. apply frame_bind; [framed|]. intros t.
  apply frame_bind; [framed|]. intros _. destruct t; [apply frame_load | framed].
Qed.
Lemma frame_free p : frame (FMIFreeInstance p).
Proof.
  unfold FMIFreeInstance. destruct p; [|framed]. apply frame_bind; [apply frame_instance|]. intros e.
  apply frame_bind; [apply frame_dlclose|]. intros _.
  repeat (apply frame_bind; [apply frame_cfree|]; intros _). apply frame_cfree.
Qed.
Lemma frame_component_free c : frame (freeModelInstance c).
Proof.
  unfold freeModelInstance. destruct c; [|framed]. apply frame_bind; [framed|]. intros []; try apply frame_ub.
  repeat (apply frame_bind; [apply frame_cfree|]; intros _). apply frame_cfree.
Qed.
Lemma frame_release k p : frame (release k p).
Proof.
  unfold release, FMI2FreeInstance, FMI3FreeInstance. destruct (two k), p; try (framed; fail);
    (apply frame_bind; [apply frame_instance|]); intros e; (apply frame_bind; [apply frame_calls|]); intros _.
  - apply frame_component_free.
  - apply frame_bind; [apply frame_component_free|]. intros _. apply frame_write.
Qed.
Lemma frame_instantiate O p k a l : frame (instantiate O p k a l).
Proof.
  assert (Two : frame (FMI2Instantiate O p k a l)).
  { unfold FMI2Instantiate. apply frame_bind; [apply frame_instance|]. intros e. apply frame_bind; [framed|]. intros t.
    apply frame_bind; [framed|]. intros _. destruct t; [|framed]. apply frame_bind; [apply frame_load|].
    intros []; try apply frame_ret. apply frame_instantiates. }
  unfold instantiate. destruct k; try exact Two; apply frame_bind; try apply frame_symbols3; intros s;
    try apply frame_instantiates; destruct s; try apply frame_ret; apply frame_instantiates.
Qed.
Lemma frame_lexec O op : frame (lexec O op).
Proof.
  destruct op; simpl; (apply frame_bind; [|intros; apply frame_ret]).
  - unfold FMICreateInstance. framed.
  - unfold FMILoadPlatformBinary. apply frame_bind; [apply frame_instance|]. intros e. framed.
  - apply frame_instantiate.
  - unfold wrapper. apply frame_bind; [apply frame_instance|]. intros e. apply frame_bind; [apply frame_calls|]. intros _. unfold logs. framed.
  - apply frame_release.
  - apply frame_free.
Qed.

(** ** Many instances *)

(** [sub p]: the part of the world that belongs to the instance [p]. *)
Record Inv (ph : Phases) (w : World) (sub : nat -> nat -> option Block) : Prop := {
  v_part : forall p, match ph p with
                     | Some s => shape s p (mkW (sub p) (fresh w))
                     | None => forall a, sub p a = None
                     end;
  v_all : forall a b, blk w a = Some b -> exists p, sub p a = Some b;
  v_in : forall p a b, sub p a = Some b -> blk w a = Some b;
  v_one : forall p q a, sub p a <> None -> sub q a <> None -> p = q;
  v_new : forall p, fresh w <= p -> ph p = None;
  v_unborn : unborn w }.

Lemma shape_later s p f n m : n <= m -> shape s p (mkW f n) -> shape s p (mkW f m).
Proof.
  intros L (U & H). split; [intros a X; apply U; simpl in *; lia|].
  assert (OV : forall i, over i p (mkW f n) -> over i p (mkW f m)) by (intros i [? ? ? ? ? ? ? ?]; split; assumption).
  destruct s.
  - destruct H as (i & Ov & R). exists i. auto.
  - destruct H as (i & Ov & R). exists i. auto.
  - destruct H as (i & c & n0 & l & t & L0 & Ov & R). exists i, c, n0, l, t, L0. auto.
  - destruct H as (i & Ov & R). exists i. auto.
  - exact H.
Qed.

(** One call on the part of [p] gives the new part of [p]. *)
Lemma step_inv O op ph w sub p s' (out0 : LOut -> Prop) :
  Inv ph w sub ->
  wp (lexec O op) (mkW (sub p) (fresh w)) (fun out w' => fresh w <= fresh w' /\ out0 out /\
      match s' out with
      | Some s => (forall q, q <> p -> after ph op out q = ph q) /\ after ph op out p = Some s /\ p < fresh w' /\ shape s p w'
      | None => (forall q, q <> p -> after ph op out q = ph q) /\ after ph op out p = None /\ forall a, blk w' a = None
      end) ->
  match lexec O op w with
  | Done (out, w', _) => out0 out /\ exists sub', Inv (after ph op out) w' sub'
  | _ => False
  end.
Proof.
  intros V H. unfold wp in H. destruct (lexec O op (mkW (sub p) (fresh w))) as [[[out w1'] t]| |] eqn:E; try contradiction.
  destruct H as (Fl & Ho & H).
  assert (S : split w (mkW (sub p) (fresh w)) (fun a => match sub p a with Some _ => None | None => blk w a end)).
  { split; [reflexivity|]. simpl. split; [|split].
    - intros a. destruct (sub p a) eqn:X; [exact (v_in V _ _ X) | reflexivity].
    - intros a N. destruct (sub p a); [reflexivity | contradiction].
    - intros a L. destruct (sub p a); [reflexivity|]. now apply (v_unborn V). }
  edestruct (frame_lexec O op) as (w' & E' & (F' & W' & D' & N')); [exact E | exact S |]. rewrite E'. split; [exact Ho|].
  set (g := fun a => match sub p a with Some _ => None | None => blk w a end) in *.
  set (sub' := fun q => if Nat.eqb q p then blk w1' else sub q).
  assert (GX : forall q a b, q <> p -> sub q a = Some b -> g a = Some b).
  { intros q a b N X. unfold g. destruct (sub p a) eqn:Y; [|exact (v_in V _ _ X)].
    elim N. apply (v_one V q p a); congruence. }
  assert (Rest : forall phn, (forall q, q <> p -> phn q = ph q) ->
     match phn p with Some s => shape s p w1' | None => forall a, blk w1' a = None end ->
     (fresh w' <= p -> phn p = None) -> unborn w1' -> exists sub', Inv phn w' sub').
  { intros phn Eq Hp Hnew U1. exists sub'. split.
    - intros q. unfold sub'. destruct (Nat.eqb_spec q p) as [->|Nq].
      + destruct (phn p); [|exact Hp]. apply (shape_later (n := fresh w1')); [lia|]. destruct w1'; exact Hp.
      + rewrite Eq by assumption. pose proof (v_part V q) as Hq. destruct (ph q); [|exact Hq].
        apply (shape_later (n := fresh w)); [lia | exact Hq].
    - intros a b X. rewrite W' in X. destruct (blk w1' a) as [c|] eqn:Y.
      + exists p. unfold sub'. rewrite Nat.eqb_refl. congruence.
      + unfold g in X. destruct (sub p a) eqn:Z; [discriminate|]. destruct (v_all V _ X) as (q & Q). exists q.
        unfold sub'. destruct (Nat.eqb_spec q p); [congruence | exact Q].
    - intros q a b. unfold sub'. rewrite W'. destruct (Nat.eqb_spec q p); intros X; [now rewrite X|].
      pose proof (GX _ _ _ n X) as G. destruct (blk w1' a) eqn:Y; [|exact G]. rewrite D' in G by congruence. discriminate.
    - intros q r a. unfold sub'. destruct (Nat.eqb_spec q p), (Nat.eqb_spec r p); subst; auto.
      + intros X Y. exfalso. destruct (sub r a) eqn:Z; [|now apply Y]. pose proof (GX _ _ _ n Z). rewrite D' in H0 by assumption. discriminate.
      + intros X Y. exfalso. destruct (sub q a) eqn:Z; [|now apply X]. pose proof (GX _ _ _ n Z). rewrite D' in H0 by assumption. discriminate.
      + apply (v_one V).
    - intros q L. destruct (Nat.eq_dec q p) as [->|Nq]; [now apply Hnew|]. rewrite Eq by assumption. apply (v_new V). lia.
    - intros a L. rewrite W', N' by assumption. rewrite U1; [reflexivity | lia]. }
  destruct (s' out) as [s|].
  - destruct H as (Eq & Ep & Lp & Sh). apply Rest.
    + exact Eq.
    + rewrite Ep. exact Sh.
    + lia.
    + apply Sh.
  - destruct H as (Eq & Ep & Cl). apply Rest; auto.
    + rewrite Ep. exact Cl.
    + intros a _. apply Cl.
Qed.

Lemma clean_sub ph w sub : Inv ph w sub -> all_gone ph -> clean w.
Proof.
  intros V G a. destruct (blk w a) as [b|] eqn:X; [exfalso | reflexivity]. destruct (v_all V _ X) as (p & P).
  pose proof (v_part V p) as H. destruct (G p) as [E|E]; rewrite E in H.
  - rewrite H in P. discriminate.
  - destruct H as [_ H]. specialize (H a). simpl in H. congruence.
Qed.

Ltac other := intros q Nq; simpl; unfold at_phase; now rewrite (proj2 (Nat.eqb_neq q _) Nq).
Ltac here := simpl; unfold at_phase; now rewrite Nat.eqb_refl.

Lemma wrapper_spec p k j f w :
  shape (Live j) p w -> two k = two j -> In f (offered j) -> wp (wrapper k (Some p) f) w (fun _ w' => w' = w).
Proof.
  intros (U & i & c & n & l & t & L & Ov & Ec & Bc & Bn & Bl & Ft & Bt & Ir & _ & Ho & _ & ->) Ek If.
  unfold offered in If. apply filter_In in If as [If Nr]. rewrite needed_symbols in If.
  assert (Nu : unformatted f = false).
  { unfold unformatted. destruct (String.eqb_spec f "fmi2SetDebugLogging"); [subst; discriminate|].
    destruct (String.eqb_spec f "fmi3SetDebugLogging"); [subst; discriminate | reflexivity]. }
  destruct (o_buf Ov) as (b & Eb & Bb). pose proof (o_imp Ov) as Bp.
  unfold wrapper. apply wp_bind. unfold instance_at. apply wp_bind. eapply wp_look; [exact Bp|]. apply wp_ret. cbn [fst snd].
  rewrite Ek. apply wp_bind. rewrite Ft. unfold calls. apply wp_bind. unfold table_at. apply wp_bind. eapply wp_look; [exact Bt|].
  apply wp_ret. cbn [snd]. rewrite (proj2 (existsb_exists _ _)) by (exists f; split; [exact If | apply String.eqb_refl]).
  apply wp_ret. apply wp_bind. rewrite Ec. eapply wp_look; [exact Bc|]. rewrite Nu, andb_false_r. unfold logs.
  destruct (i_logf i); [|now apply wp_ret]. rewrite Eb. apply wp_bind. eapply wp_look; [exact Bb|]. now apply wp_ret.
Qed.

Lemma step_ok O op ph w sub :
  buffers O -> names O -> (is_exchange3 op -> complete O Me3) -> Inv ph w sub -> permitted ph op ->
  match lexec O op w with Done (out, w', _) => True /\ exists sub', Inv (after ph op out) w' sub' | _ => False end.
Proof.
  intros HB HN Hme V P.
  assert (old : forall p s, ph p = Some s -> p < fresh w).
    { intros p s X. destruct (Nat.lt_ge_cases p (fresh w)) as [|L]; [assumption|]. now rewrite (v_new V) in X. }
    assert (part : forall p s, ph p = Some s -> shape s p (mkW (sub p) (fresh w))).
    { intros p s X. pose proof (v_part V p) as H. now rewrite X in H. }
    destruct P as [f | a X | a k x l X | a k j X Ek | a k j f X Ek If | k | a X | ].
    - apply (@step_inv O _ ph w sub (fresh w) (fun out => match out with LPointer (Some _) => Some Created | _ => None end) (fun _ => True) V).
      assert (E : ph (fresh w) = None) by (apply (v_new V); lia). pose proof (v_part V (fresh w)) as H. rewrite E in H.
      simpl. apply wp_bind. eapply wp_conseq; [apply create_spec; [exact HB | intro a; apply H]|].
      simpl. intros r0 w' [(-> & C & F) | (-> & F & S)]; apply wp_ret; (split; [exact F|]); (split; [exact I|]).
      + auto.
      + split; [other|]. split; [here|]. split; [|exact S]. destruct S as (U & i & Ov & _).
        pose proof (live_fresh _ U (o_imp Ov)). exact H0.
    - apply (@step_inv O _ ph w sub a (fun out => match out with LStatus OK => Some Loaded | _ => Some Created end) (fun _ => True) V).
      simpl. apply wp_bind. eapply wp_conseq; [apply load_spec, part, X|]. simpl.
      pose proof (old _ _ X) as La.
      intros r0 w' (F & [(-> & S) | (-> & S & _)]); apply wp_ret; (split; [exact F|]); (split; [exact I|]).
      + split; [other|]. split; [here|]. split; [lia | exact S].
      + split; [reflexivity|]. split; [exact X|]. split; [lia | exact S].
    - apply (@step_inv O _ ph w sub a (fun out => match out with LStatus OK => Some (Live k) | _ => Some Over end) (fun _ => True) V).
      simpl. apply wp_bind. eapply wp_conseq.
      { apply instantiate_spec; [exact HN | apply part, X |]. intros ->. apply Hme. red; eauto. }
      simpl. pose proof (old _ _ X) as La.
      intros r0 w' (F & [(-> & S) | (N & S & _)]); apply wp_ret; (split; [exact F|]); (split; [exact I|]).
      + split; [other|]. split; [here|]. split; [lia | exact S].
      + destruct r0; try contradiction; (split; [other|]; split; [here|]; split; [lia | exact S]).
    - apply (@step_inv O _ ph w sub a (fun out => Some Over) (fun _ => True) V).
      simpl. apply wp_bind. eapply wp_conseq; [eapply release_spec; [apply part, X | exact Ek]|]. simpl.
      pose proof (old _ _ X) as La. intros r0 w' (F & S). apply wp_ret. split; [lia|]. split; [exact I|].
      split; [other|]. split; [here|]. split; [lia | exact S].
    - apply (@step_inv O _ ph w sub a (fun out => Some (Live j)) (fun _ => True) V).
      simpl. apply wp_bind. eapply wp_conseq; [eapply wrapper_spec; [apply part, X | exact Ek | exact If]|]. simpl.
      pose proof (old _ _ X) as La. intros r0 w' ->. apply wp_ret. split; [apply le_n|]. split; [exact I|].
      split; [reflexivity|]. split; [exact X|]. split; [exact La | apply part, X].
    - simpl. unfold release. destruct (two k); simpl; (split; [exact I | exists sub; exact V]).
    - apply (@step_inv O _ ph w sub a (fun out => Some Gone) (fun _ => True) V).
      assert (exists s, ph a = Some s /\ (s = Created \/ s = Loaded \/ s = Over)) as (s & Xs & Hs).
      { destruct X as [X|[X|X]]; eauto 6. }
      simpl. apply wp_bind. eapply wp_conseq; [eapply free_spec; [exact Hs | apply part, Xs]|]. simpl.
      pose proof (old _ _ Xs) as La. intros r0 w' (F & C). apply wp_ret. split; [lia|]. split; [exact I|].
      split; [other|]. split; [here|]. split; [lia|]. split; [|exact C]. intros b _. apply C.
    - simpl. split; [exact I | exists sub; exact V].
Qed.

Lemma history_inv O ops ph w :
  buffers O -> names O -> (forall op, In op ops -> is_exchange3 op -> complete O Me3) ->
  history O ops ph w -> exists sub, Inv ph w sub.
Proof.
  intros HB HN HM H. induction H as [|ops ph w op out w' t H IH P E].
  - exists (fun _ _ => None). split; simpl; try discriminate; auto.
    + intros p q a X. contradiction.
    + intros a _. reflexivity.
  - destruct IH as (sub & V); [intros op' I; apply HM; now right|].
    pose proof (step_ok HB HN (HM op (or_introl eq_refl)) V P) as K. rewrite E in K. apply K.
Qed.

Lemma history_defined O ops ph w op :
  buffers O -> names O -> (forall o, In o (op :: ops) -> is_exchange3 o -> complete O Me3) ->
  history O ops ph w -> permitted ph op -> exists out w' t, lexec O op w = Done (out, w', t).
Proof.
  intros HB HN HM H P. destruct (history_inv HB HN (fun o I => HM o (or_intror I)) H) as (sub & V).
  pose proof (step_ok HB HN (HM op (or_introl eq_refl)) V P) as K.
  destruct (lexec O op w) as [[[out w'] t]| |]; try contradiction. eauto.
Qed.

Lemma history_clean O ops ph w :
  buffers O -> names O -> (forall op, In op ops -> is_exchange3 op -> complete O Me3) ->
  history O ops ph w -> all_gone ph -> clean w.
Proof. intros HB HN HM H. destruct (history_inv HB HN HM H) as (sub & V). exact (clean_sub V). Qed.

(** ** The example programs *)
Lemma wp_frame X (m : M X) w w1 g (Q : X -> World -> Prop) :
  frame m -> split w w1 g -> wp m w1 Q -> wp m w (fun x w' => exists w1', split w' w1' g /\ Q x w1').
Proof.
  intros F S H. unfold wp in *. destruct (m w1) as [[[x w1'] t]| |] eqn:E; try contradiction.
  destruct (F _ _ _ _ E _ _ S) as (w' & E' & S'). rewrite E'. eauto.
Qed.

Lemma frame_terminate k p t : frame (terminate k p t).
Proof.
  unfold terminate. apply frame_bind; [apply frame_instance|]. intros e. apply frame_bind; [apply frame_calls|]. intros _. apply frame_ret.
Qed.
Lemma frame_fmiload O p : frame (FMILoadPlatformBinary O p).
Proof. unfold FMILoadPlatformBinary. apply frame_bind; [apply frame_instance|]. intros e. framed. Qed.
Lemma frame_create O m f : frame (FMICreateInstance O m f).
Proof. unfold FMICreateInstance. framed. Qed.

Lemma terminate_spec k p t w : shape (Live k) p w -> wp (terminate k (Some p) t) w (fun r w' => r = t /\ w' = w).
Proof.
  intros (U & i & c & n & l & ta & L & Ov & Ec & Bc & Bn & Bl & Ft & Bt & Ir & It & Ho & _). unfold terminate.
  apply wp_bind. eapply wp_instance; [apply Ov|]. simpl. rewrite Ft. apply wp_bind.
  eapply wp_calls; [exact Bt | destruct (two k); exact It |]. now apply wp_ret.
Qed.

Lemma release_ready k p w :
  shape Over p w -> ready k p w -> wp (release k (Some p)) w (fun _ w' => shape Over p w').
Proof.
  intros (U & i & Ov & Ho) (j & t & L & Bj & Fj & Bt & Ir & Cj).
  assert (j = i) by (rewrite (o_imp Ov) in Bj; congruence). subst j.
  unfold release. unfold field in Fj. destruct (two k).
  - unfold FMI2FreeInstance. apply wp_bind. eapply wp_instance; [apply Ov|]. simpl. rewrite Fj, Cj.
    apply wp_bind. eapply wp_calls; [exact Bt | exact Ir |]. apply wp_ret. split; [exact U | eauto].
  - unfold FMI3FreeInstance. apply wp_bind. eapply wp_instance; [apply Ov|]. simpl. rewrite Fj, Cj.
    apply wp_bind. eapply wp_calls; [exact Bt | exact Ir |]. apply wp_bind, wp_ret.
    eapply wp_write; [apply Ov|]. intros w2 F2 B2 X2.
    split; [eapply unborn_write; [exact U | exact (o_imp Ov) | exact F2 | exact X2]|].
    eexists. split.
    + eapply over_write; [exact Ov | exact B2 | exact X2 |..]; auto; try apply Ov.
    + intros x Hx. destruct (Nat.eq_dec x p); [left; assumption|]. rewrite X2 in Hx by assumption. exact (Ho _ Hx).
Qed.

(** Freeing an instance whose component was not released leaves the component. *)
Lemma free_live k p w : shape (Live k) p w -> wp (FMIFreeInstance (Some p)) w (fun _ w' => only_component w').
Proof.
  intros (U & i & c & n & l & t & L & Ov & Ec & Bc & Bn & Bl & Ft & Bt & Ir & It & Ho & _).
  set (mine := fun x => Nat.eqb x c || Nat.eqb x n || match l with Some q => Nat.eqb x q | None => false end).
  assert (MT : forall x, mine x = true <-> x = c \/ x = n \/ l = Some x).
  { intros x. unfold mine. rewrite !orb_true_iff, !Nat.eqb_eq. destruct l as [q|]; [rewrite Nat.eqb_eq|];
      intuition (try congruence). }
  set (w1 := mkW (fun x => if mine x then None else blk w x) (fresh w)).
  set (g := fun x => if mine x then blk w x else None).
  assert (S : split w w1 g).
  { split; [reflexivity|]. unfold w1, g. simpl. split; [|split].
    - intros a. destruct (mine a); [reflexivity|]. destruct (blk w a); reflexivity.
    - intros a. destruct (mine a); [contradiction | reflexivity].
    - intros a La. rewrite U by assumption. now destruct (mine a). }
  assert (K : forall x b, (match b with BComp _ _ _ | BCName | BCLocation => False | _ => True end) -> blk w x = Some b -> blk w1 x = Some b).
  { intros x b Nb X. unfold w1. simpl. destruct (mine x) eqn:E; [|exact X]. apply MT in E.
    destruct E as [-> | [-> | ->]]; simpl in *; [rewrite Bc in X | rewrite Bn in X | rewrite Bl in X]; injection X as <-; contradiction. }
  assert (S1 : shape Over p w1).
  { split; [intros a La; unfold w1; simpl; rewrite U by exact La; now destruct (mine a)|].
    exists i. split.
    - destruct Ov as [H1 H2 (bb & H3 & H3') H4 H5 H6 H7 H8]. split; auto.
      + exists bb. split; [exact H3 | now apply K].
      + eapply opt_carry; [exact H4|]. intros x. now apply K.
      + eapply opt_carry; [exact H5|]. intros x. now apply K.
      + eapply tbl_carry; [exact H6|]. intros x q Q. exists q. now apply K.
      + eapply tbl_carry; [exact H7|]. intros x q Q. exists q. now apply K.
    - intros x. unfold w1. simpl. destruct (mine x) eqn:E; [contradiction|]. intros Nx.
      destruct (Ho _ Nx) as [H|H]; [exact H|]. apply MT in H. congruence. }
  eapply wp_conseq; [eapply wp_frame; [apply frame_free | exact S | apply (@free_spec p w1 Over); auto]|].
  simpl. intros _ w' (w1' & (F' & V' & D' & N') & _ & C).
  exists c, (maker k), n, l. split.
  - rewrite V', C. unfold g. rewrite (proj2 (MT c)) by auto. exact Bc.
  - intros a. rewrite V', C. unfold g. destruct (mine a) eqn:E; [|contradiction]. intros _. now apply MT.
Qed.

(** The two files. *)
Definition files (o l : option nat) (g : nat -> option Block) : Prop :=
  (forall a, o = Some a -> g a = Some BFile) /\ (forall a, l = Some a -> g a = Some BFile) /\
  (forall a, o = Some a -> l <> Some a) /\ (forall a, g a <> None -> o = Some a \/ l = Some a).

Lemma close_spec o l g w w1 :
  files o l g -> split w w1 g ->
  forall s : Status, wp (fclose o ;;; fclose l ;;; ret s) w (fun r w' => r = s /\ forall a, blk w' a = blk w1 a).
Proof.
  intros (Ho & Hl & Hd & Ha) (F & V & D & N) s.
  assert (G : forall x w0 (Q : unit -> World -> Prop), (forall a, x = Some a -> blk w0 a = Some BFile) ->
     (forall w', (forall a, x = Some a -> blk w' a = None) -> (forall a, x <> Some a -> blk w' a = blk w0 a) -> Q tt w') -> wp (fclose x) w0 Q).
  { intros [a|] w0 Q HA HQ.
    - eapply wp_fclose; [apply HA; reflexivity|]. intros w' _ Na X. apply HQ.
      + intros b E. injection E as <-. exact Na.
      + intros b E. apply X. congruence.
    - apply wp_ret, HQ; [discriminate | reflexivity]. }
  assert (DG : forall a, g a <> None -> blk w1 a = None).
  { intros a Na. destruct (blk w1 a) eqn:X; [|reflexivity]. elim Na. apply D. congruence. }
  apply wp_bind, G.
  { intros a E. rewrite V. rewrite DG by (rewrite (Ho _ E); discriminate). exact (Ho _ E). }
  intros w2 N2 X2. apply wp_bind, G.
  { intros a E. rewrite X2 by (intros E'; exact (Hd _ E' E)). rewrite V. rewrite DG by (rewrite (Hl _ E); discriminate). exact (Hl _ E). }
  intros w3 N3 X3. apply wp_ret. split; [reflexivity|]. intros a.
  assert (dec : forall x : option nat, x = Some a \/ x <> Some a).
  { intros [b|]; [|right; discriminate]. destruct (Nat.eq_dec b a); [left | right]; congruence. }
  destruct (dec l) as [E|E].
  - rewrite N3 by exact E. symmetry. apply DG. rewrite (Hl _ E). discriminate.
  - rewrite X3 by exact E. destruct (dec o) as [E'|E'].
    + rewrite N2 by exact E'. symmetry. apply DG. rewrite (Ho _ E'). discriminate.
    + rewrite X2, V by exact E'. destruct (blk w1 a); [reflexivity|].
      destruct (g a) eqn:X; [|reflexivity]. destruct (Ha a) as [Y|Y]; congruence.
Qed.

Definition left_over (s : Status) (w : World) : Prop :=
  (below s Fatal = true -> clean w) /\ (below s Fatal = false -> clean w \/ only_component w).

Lemma left_over_ext s w w' : (forall a, blk w' a = blk w a) -> left_over s w -> left_over s w'.
Proof.
  intros E [H1 H2]. split.
  - intros B a. rewrite E. now apply H1.
  - intros B. destruct (H2 B) as [C | (c & f & n & l & X & Y)]; [left; intro a; rewrite E; apply C | right].
    exists c, f, n, l. rewrite E. split; [exact X|]. intros a. rewrite E. apply Y.
Qed.

(** The part of tearDown that is about the instance. *)
Definition ends (k : Kind) (t s0 : Status) (p : option nat) : M Status :=
  let* s := (if below s0 Error then let* ts := terminate k p t in ret (smax s0 ts) else ret s0) in
  (if below s Fatal then release k p else ret tt) ;;;
  FMIFreeInstance p ;;;
  ret s.

Lemma frame_ends k t s0 p : frame (ends k t s0 p).
Proof.
  unfold ends. apply frame_bind.
  - destruct (below s0 Error); [|apply frame_ret]. apply frame_bind; [apply frame_terminate|]. intros. apply frame_ret.
  - intros s. apply frame_bind; [destruct (below s Fatal); [apply frame_release | apply frame_ret]|]. intros _.
    apply frame_bind; [apply frame_free|]. intros _. apply frame_ret.
Qed.

Lemma ends_live k t s0 p w : shape (Live k) p w -> wp (ends k t s0 (Some p)) w left_over.
Proof.
  intros S. unfold ends. apply wp_bind.
  assert (H : wp (if below s0 Error then let* ts := terminate k (Some p) t in ret (smax s0 ts) else ret s0) w (fun _ w' => w' = w)).
  { destruct (below s0 Error); [|now apply wp_ret]. apply wp_bind. eapply wp_conseq; [apply terminate_spec, S|].
    intros r w' [_ ->]. now apply wp_ret. }
  eapply wp_conseq; [exact H|]. intros s w' ->. apply wp_bind. destruct (below s Fatal) eqn:B.
  - eapply wp_conseq; [eapply release_spec; [exact S | reflexivity]|]. simpl. intros _ w2 [_ S2].
    apply wp_bind. eapply wp_conseq; [apply (@free_spec p w2 Over); auto|]. simpl. intros _ w3 [_ C]. apply wp_ret.
    split; [auto | congruence].
  - apply wp_ret. apply wp_bind. eapply wp_conseq; [apply (free_live S)|]. simpl. intros _ w3 C. apply wp_ret.
    split; [congruence | auto].
Qed.

Lemma ends_over k t s0 p w :
  shape Over p w -> s0 = Fatal \/ s0 = Error /\ ready k p w -> wp (ends k t s0 (Some p)) w left_over.
Proof.
  intros S H. unfold ends. apply wp_bind.
  destruct H as [-> | [-> R]]; simpl; apply wp_ret; simpl; apply wp_bind.
  - apply wp_ret, wp_bind. eapply wp_conseq; [apply (@free_spec p w Over); auto|]. simpl. intros _ w3 [_ C]. apply wp_ret. split; auto.
  - eapply wp_conseq; [apply (release_ready S R)|]. simpl. intros _ w2 S2.
    apply wp_bind. eapply wp_conseq; [apply (@free_spec p w2 Over); auto|]. simpl. intros _ w3 [_ C]. apply wp_ret. split; auto.
Qed.

Lemma tearDown_none k t s o l w :
  (forall s : Status, wp (fclose o ;;; fclose l ;;; ret s) w (fun r w' => r = s /\ clean w')) ->
  wp (tearDown k t (mkG s o None l)) w left_over.
Proof.
  intros H. unfold tearDown. simpl. apply wp_bind, wp_ret. eapply wp_conseq; [apply H|]. intros r w' [-> C]. split; auto.
Qed.

Lemma tearDown_some k t s0 o l p g w w1 :
  files o l g -> split w w1 g -> wp (ends k t s0 (Some p)) w1 left_over ->
  wp (tearDown k t (mkG s0 o (Some p) l)) w left_over.
Proof.
  intros Hf Hs He. unfold tearDown. simpl. apply wp_bind.
  change (wp (ends k t s0 (Some p)) w (fun s w' => wp (fclose o ;;; fclose l ;;; ret s) w' left_over)).
  eapply wp_conseq; [eapply wp_frame; [apply frame_ends | exact Hs | exact He]|]. simpl.
  intros s w' (w1' & S' & Lo). eapply wp_conseq; [eapply close_spec; [exact Hf | exact S']|].
  intros r w2 [-> E]. eapply left_over_ext; [exact E | exact Lo].
Qed.

Lemma tame_exchange O k : tame O k -> k = Me3 -> complete O Me3.
Proof. intros [H|H] ->; [exact H | contradiction]. Qed.

(** From the opened files on. *)
Lemma program_body O k acc loc body t o l g w (out : bool) :
  buffers O -> names O -> (forall n, grants O SLibrary n = true) -> tame O k ->
  files o l g -> split w (mkW (fun _ => None) (fresh w)) g ->
  wp (let* p := FMICreateInstance O true true in
      match p with
      | None => ret (mkG Error o None l)
      | Some _ => let* s := FMILoadPlatformBinary O p in ret (mkG s o p l)
      end) w (fun g1 w' =>
    wp (match g_status g1 with
        | OK => let* s := instantiate O (g_S g1) k acc loc in
                tearDown k t (mkG (match s with OK => body | _ => s end) (g_out g1) (g_S g1) (g_log g1))
        | _ => tearDown k t g1
        end) w' left_over).
Proof.
  intros HB HN HL HT Hf Hs. apply wp_bind.
  eapply wp_conseq; [eapply wp_frame; [apply frame_create | exact Hs |]|].
  { apply create_spec; [exact HB | intro a; reflexivity]. }
  simpl. intros p w2 (w2' & S2 & [(-> & C & _) | (-> & _ & Sh)]).
  - apply wp_ret. simpl. apply tearDown_none. intros s. eapply wp_conseq; [eapply close_spec; [exact Hf | exact S2]|].
    intros r w' [-> E]. split; [reflexivity|]. intro a. rewrite E. apply C.
  - apply wp_bind. eapply wp_conseq; [eapply wp_frame; [apply frame_fmiload | exact S2 | apply load_spec, Sh]|].
    simpl. intros s w3 (w3' & S3 & _ & [(-> & Sh3) | (_ & _ & N)]); [|contradiction]. apply wp_ret. simpl.
    apply wp_bind. eapply wp_conseq.
    { eapply wp_frame; [apply frame_instantiate | exact S3 |]. apply instantiate_spec; [exact HN | exact Sh3 | exact (tame_exchange HT)]. }
    simpl. intros s w4 (w4' & S4 & _ & [(-> & Sh4) | (Ns & Sh4 & R)]).
    + eapply tearDown_some; [exact Hf | exact S4 | apply ends_live, Sh4].
    + eapply tearDown_some; [exact Hf | exact S4 |].
      assert (E : match s with OK => body | _ => s end = s) by (destruct s; (contradiction || reflexivity)). rewrite E.
      apply ends_over; [exact Sh4 | exact (R HT)].
Qed.

Lemma program_spec O k out acc loc body t :
  buffers O -> names O -> (forall n, grants O SLibrary n = true) -> tame O k ->
  wp (program O k out acc loc body t) nothing left_over.
Proof.
  intros HB HN HL HT.
  assert (U0 : unborn nothing) by (intros a _; reflexivity).
  unfold program. apply wp_bind. unfold setUp. destruct out.
  - apply wp_bind, wp_request; auto.
    + intros w1 F1 _ N1 B1 X1 U1. apply wp_bind, wp_request; auto.
      * intros w2 F2 _ N2 B2 X2 U2.
        apply (@program_body O k acc loc body t (Some (fresh nothing)) (Some (fresh w1)) (blk w2) w2 true); auto.
        -- split; [|split; [|split]].
           ++ intros a E. injection E as <-. rewrite X2; [exact B1|]. rewrite F1. simpl. lia.
           ++ intros a E. injection E as <-. exact B2.
           ++ intros a E. injection E as <-. rewrite F1. discriminate.
           ++ intros a. destruct (Nat.eq_dec a (fresh w1)); [subst; auto|]. rewrite X2 by assumption.
              destruct (Nat.eq_dec a (fresh nothing)); [subst; auto|]. rewrite X1 by assumption. contradiction.
        -- split; [reflexivity|]. simpl. split; [reflexivity|]. split; [contradiction | exact U2].
      * intros w2 F2 _ X2 U2. apply wp_ret. simpl. apply tearDown_none. intros s. apply wp_bind.
        eapply wp_fclose; [rewrite X2; exact B1|]. intros w3 _ N3 X3. apply wp_bind, wp_ret, wp_ret. split; [reflexivity|].
        intro a. destruct (Nat.eq_dec a (fresh nothing)); [subst; exact N3|]. rewrite X3, X2, X1 by assumption. reflexivity.
    + intros w1 F1 _ X1 U1. apply wp_ret. simpl. apply tearDown_none. intros s. apply wp_bind, wp_ret, wp_bind, wp_ret, wp_ret.
      split; [reflexivity|]. intro a. now rewrite X1.
  - apply wp_bind, wp_ret. apply wp_bind, wp_request; auto.
    + intros w2 F2 _ N2 B2 X2 U2.
      apply (@program_body O k acc loc body t None (Some (fresh nothing)) (blk w2) w2 false); auto.
      * split; [|split; [|split]]; try discriminate.
        -- intros a E. injection E as <-. exact B2.
        -- intros a. destruct (Nat.eq_dec a (fresh nothing)); [subst; auto|]. rewrite X2 by assumption. contradiction.
      * split; [reflexivity|]. simpl. split; [reflexivity|]. split; [contradiction | exact U2].
    + intros w1 F1 _ X1 U1. apply wp_ret. simpl. apply tearDown_none. intros s. apply wp_bind, wp_ret, wp_bind, wp_ret, wp_ret.
      split; [reflexivity|]. intro a. now rewrite X1.
Qed.

Lemma program_ends O k out acc loc body t :
  buffers O -> names O -> (forall n, grants O SLibrary n = true) -> tame O k ->
  exists s w tr, program O k out acc loc body t nothing = Done (s, w, tr) /\
    (clean w \/ only_component w) /\ (s <> Fatal -> s <> Pending -> clean w).
Proof.
  intros HB HN HL HT. pose proof (@program_spec O k out acc loc body t HB HN HL HT) as H. unfold wp in H.
  destruct (program O k out acc loc body t nothing) as [[[s w] tr]| |]; try contradiction.
  exists s, w, tr. split; [reflexivity|]. destruct H as [H1 H2]. split.
  - destruct (below s Fatal) eqn:B; [left; auto | auto].
  - intros Nf Np. apply H1. destruct s; (reflexivity || contradiction).
Qed.

(** ** Computing the examples *)
Definition permits (ph : Phases) (op : LOp) : bool :=
  match op with
  | LCreate m _ => m
  | LLoad (Some a) => match ph a with Some Created => true | _ => false end
  | LInstantiate (Some a) _ _ _ => match ph a with Some Loaded => true | _ => false end
  | LRelease (Some a) k => match ph a with Some (Live j) => Bool.eqb (two k) (two j) | _ => false end
  | LCall (Some a) k f => match ph a with Some (Live j) => Bool.eqb (two k) (two j) && named (offered j) f | _ => false end
  | LFree (Some a) => match ph a with Some Created | Some Loaded | Some Over => true | _ => false end
  | LRelease None _ | LFree None => true
  | _ => false
  end.
Lemma permits_ok ph op : permits ph op = true -> permitted ph op.
Proof.
  destruct op as [[|] f|[a|]|[a|] k x l|[a|] k f|[a|] k|[a|]]; simpl; try discriminate; intros H; try constructor.
  - destruct (ph a) as [[]|]; congruence.
  - destruct (ph a) as [[]|]; congruence.
  - destruct (ph a) as [[]|] eqn:E; try discriminate. apply andb_prop in H as [H1 H2]. apply eqb_prop in H1.
    unfold named in H2. apply existsb_exists in H2 as (g & I & Eg). apply String.eqb_eq in Eg. subst g. econstructor; eassumption.
  - destruct (ph a) as [[]|] eqn:E; try discriminate. apply eqb_prop in H. econstructor; eassumption.
  - destruct (ph a) as [[]|]; try discriminate; auto.
Qed.
Definition touched (op : LOp) (out : LOut) (l : list nat) : list nat :=
  match op, out with
  | LCreate _ _, LPointer (Some a) => a :: l
  | LLoad (Some a), _ | LInstantiate (Some a) _ _ _, _ | LRelease (Some a) _, _ | LFree (Some a), _ => a :: l
  | _, _ => l
  end.
Fixpoint replay (O : Oracle) (ops : list LOp) (ph : Phases) (w : World) (l : list nat) : option (Phases * World * list nat) :=
  match ops with
  | [] => Some (ph, w, l)
  | op :: r =>
      if permits ph op then
        match lexec O op w with
        | Done (out, w', _) => replay O r (after ph op out) w' (touched op out l)
        | _ => None
        end
      else None
  end.
Lemma replay_ok O : forall ops past ph0 w0 l0 ph w l,
  history O past ph0 w0 -> (forall a, ~ In a l0 -> ph0 a = None) -> replay O ops ph0 w0 l0 = Some (ph, w, l) ->
  history O (rev ops ++ past) ph w /\ (forall a, ~ In a l -> ph a = None).
Proof.
  induction ops as [|op r IH]; simpl; intros past ph0 w0 l0 ph w l H S E.
  - injection E as <- <- <-. auto.
  - destruct (permits ph0 op) eqn:P; [|discriminate]. destruct (lexec O op w0) as [[[out w'] t]| |] eqn:X; try discriminate.
    rewrite <- app_assoc. simpl. eapply IH; [| |exact E].
    + eapply one_more; [exact H | now apply permits_ok | exact X].
    + intros a Na.
      assert (N0 : ph0 a = None).
      { apply S. intros I. apply Na. destruct op as [m f|[b|]|[b|] k x y|[b|] k f|[b|] k|[b|]], out as [[c|]|s|]; simpl; auto. }
      assert (AT : forall b s, b <> a -> at_phase ph0 b s a = None).
      { intros b s N. unfold at_phase. now rewrite (proj2 (Nat.eqb_neq a b)) by auto. }
      destruct op as [m f|[b|]|[b|] k x y|[b|] k f|[b|] k|[b|]], out as [[c|]|[]|]; simpl in *; auto; apply AT; intuition.
Qed.

Definition is_gone (o : option Phase) : bool := match o with None | Some Gone => true | _ => false end.
Definition is_some {A} (o : option A) : bool := match o with Some _ => true | None => false end.
Lemma replay_history O ops : is_some (replay O ops none_yet nothing []) = true -> exists ph w, history O (rev ops) ph w.
Proof.
  intros H. destruct (replay O ops none_yet nothing []) as [[[ph w] l]|] eqn:E; [|discriminate]. exists ph, w.
  rewrite <- (app_nil_r (rev ops)). refine (proj1 (@replay_ok O ops [] _ _ _ _ _ _ (no_calls O) (fun _ _ => eq_refl) E)).
Qed.
Lemma replay_gone O ops (a : nat) :
  match replay O ops none_yet nothing [] with
  | Some (ph, w, l) => forallb (fun x => is_gone (ph x)) l && is_some (blk w a)
  | None => false
  end = true -> exists ph w, history O (rev ops) ph w /\ all_gone ph /\ ~ clean w.
Proof.
  intros H. destruct (replay O ops none_yet nothing []) as [[[ph w] l]|] eqn:E; [|discriminate].
  apply andb_prop in H as [G B].
  destruct (@replay_ok O ops [] _ _ _ _ _ _ (no_calls O) (fun _ _ => eq_refl) E) as [Hh S]. rewrite app_nil_r in Hh.
  exists ph, w. split; [exact Hh|]. split.
  - intros x. destruct (in_dec Nat.eq_dec x l) as [I|N]; [|left; now apply S].
    rewrite forallb_forall in G. specialize (G x I). destruct (ph x) as [[]|]; try discriminate; auto.
  - intros C. rewrite (C a) in B. discriminate.
Qed.
Lemma replay_ub O ops op :
  match replay O ops none_yet nothing [] with
  | Some (ph, w, _) => permits ph op && match lexec O op w with UB => true | _ => false end
  | None => false
  end = true -> exists ph w, history O (rev ops) ph w /\ permitted ph op /\ lexec O op w = UB.
Proof.
  intros H. destruct (replay O ops none_yet nothing []) as [[[ph w] l]|] eqn:E; [|discriminate].
  apply andb_prop in H as [G B]. apply permits_ok in G.
  destruct (@replay_ok O ops [] _ _ _ _ _ _ (no_calls O) (fun _ _ => eq_refl) E) as [Hh _]. rewrite app_nil_r in Hh.
  exists ph, w. split; [exact Hh|]. split; [exact G|]. destruct (lexec O op w); (reflexivity || discriminate).
Qed.
Lemma runs_left O ops (a : nat) :
  match runs O ops nothing with Done w => is_some (blk w a) | _ => false end = true ->
  exists w, runs O ops nothing = Done w /\ ~ clean w.
Proof.
  intros H. destruct (runs O ops nothing) as [w| |]; try discriminate. exists w. split; [reflexivity|].
  intros C. rewrite (C a) in H. discriminate.
Qed.
Lemma program_clean O k out acc loc body t s :
  match program O k out acc loc body t nothing with
  | Done (s', w, _) => Nat.eqb (status_num s') (status_num s)
  | _ => false
  end = true -> exists w tr, program O k out acc loc body t nothing = Done (s, w, tr).
Proof.
  intros H. destruct (program O k out acc loc body t nothing) as [[[s' w] tr]| |]; try discriminate.
  exists w, tr. destruct s, s'; (reflexivity || discriminate).
Qed.
Lemma program_left O k out acc loc body t (a : nat) :
  match program O k out acc loc body t nothing with
  | Done (_, w, _) => is_some (blk w a)
  | _ => false
  end = true -> exists s w tr, program O k out acc loc body t nothing = Done (s, w, tr) /\ ~ clean w.
Proof.
  intros H. destruct (program O k out acc loc body t nothing) as [[[s w] tr]| |]; try discriminate.
  exists s, w, tr. split; [reflexivity|]. intros C. rewrite (C a) in H. discriminate.
Qed.
