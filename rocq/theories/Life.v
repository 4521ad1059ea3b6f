(** Life.v -- proofs for C71 and C72. *)
From Coq Require Import Strings.String List Bool Arith Lia.
From Verif Require Import Base ImpLife SpecLife.
Import ListNotations.
Open Scope string_scope.
Open Scope list_scope.
Set Implicit Arguments.

Lemma needed_symbols k : needed k = symbols k.
Proof. destruct k; reflexivity. Qed.

(** ** Weakest preconditions *)
Definition wp {X} (m : M X) (w : World) (Q : X -> World -> Prop) : Prop :=
  match m w with Done (x, w', _) => Q x w' | _ => False end.

Lemma wp_ret X (x : X) w (Q : X -> World -> Prop) : Q x w -> wp (ret x) w Q.
Proof. exact (fun H => H). Qed.
Lemma wp_bind X Y (m : M X) (k : X -> M Y) w Q :
  wp m w (fun x w' => wp (k x) w' Q) -> wp (bind m k) w Q.
Proof.
  unfold wp, bind. destruct (m w) as [[[x w'] t]| |]; auto.
  destruct (k x w') as [[[y w''] t']| |]; auto.
Qed.
Lemma wp_conseq X (m : M X) w (P Q : X -> World -> Prop) :
  wp m w P -> (forall x w', P x w' -> Q x w') -> wp m w Q.
Proof. unfold wp. destruct (m w) as [[[x w'] t]| |]; auto. Qed.

Lemma wp_look a b w (Q : Block -> World -> Prop) : blk w a = Some b -> Q b w -> wp (look (Some a)) w Q.
Proof. unfold wp, look. intros ->. auto. Qed.
Lemma wp_write a b b0 w (Q : unit -> World -> Prop) :
  blk w a = Some b0 ->
  (forall w', fresh w' = fresh w -> blk w' a = Some b -> (forall x, x <> a -> blk w' x = blk w x) -> Q tt w') ->
  wp (write a b) w Q.
Proof.
  unfold wp, write. intros -> H. apply H; simpl; auto.
  - unfold put. now rewrite Nat.eqb_refl.
  - intros x N. unfold put. now rewrite (proj2 (Nat.eqb_neq x a) N).
Qed.
Lemma wp_drop a b0 w (Q : unit -> World -> Prop) :
  blk w a = Some b0 ->
  (forall w', fresh w' = fresh w -> blk w' a = None -> (forall x, x <> a -> blk w' x = blk w x) -> Q tt w') ->
  wp (drop a) w Q.
Proof.
  unfold wp, drop. intros -> H. apply H; simpl; auto.
  - unfold put. now rewrite Nat.eqb_refl.
  - intros x N. unfold put. now rewrite (proj2 (Nat.eqb_neq x a) N).
Qed.
Lemma wp_cfree a b0 w (Q : unit -> World -> Prop) :
  blk w a = Some b0 -> heap_block b0 = true ->
  (forall w', fresh w' = fresh w -> blk w' a = None -> (forall x, x <> a -> blk w' x = blk w x) -> Q tt w') ->
  wp (cfree (Some a)) w Q.
Proof.
  intros H K F. unfold cfree. apply wp_bind; eapply wp_look; [exact H|]. rewrite K. now apply (wp_drop _ _ H).
Qed.
Lemma wp_dlclose a w (Q : unit -> World -> Prop) :
  blk w a = Some BLibrary ->
  (forall w', fresh w' = fresh w -> blk w' a = None -> (forall x, x <> a -> blk w' x = blk w x) -> Q tt w') ->
  wp (dlclose (Some a)) w Q.
Proof. intros H F. unfold dlclose. apply wp_bind; eapply wp_look; [exact H|]. now apply (wp_drop _ _ H). Qed.
Lemma wp_fclose a w (Q : unit -> World -> Prop) :
  blk w a = Some BFile ->
  (forall w', fresh w' = fresh w -> blk w' a = None -> (forall x, x <> a -> blk w' x = blk w x) -> Q tt w') ->
  wp (fclose (Some a)) w Q.
Proof. intros H F. unfold fclose. apply wp_bind; eapply wp_look; [exact H|]. now apply (wp_drop _ _ H). Qed.
Lemma wp_instance a i w (Q : nat * Imp -> World -> Prop) : blk w a = Some (BImp i) -> Q (a, i) w -> wp (instance_at (Some a)) w Q.
Proof. intros H K. unfold instance_at. apply wp_bind; eapply wp_look; [exact H|]. exact K. Qed.
Lemma wp_calls a l f w (Q : unit -> World -> Prop) :
  blk w a = Some (BTable l) -> In f l -> Q tt w -> wp (calls (Some a) f) w Q.
Proof.
  intros H I K. unfold calls, table_at. apply wp_bind, wp_bind; eapply wp_look; [exact H|]. apply wp_ret. simpl.
  replace (existsb (String.eqb f) l) with true; [exact K|].
  symmetry. apply existsb_exists. exists f. split; [exact I | apply String.eqb_refl].
Qed.

Definition unborn (w : World) : Prop := forall a, fresh w <= a -> blk w a = None.

Lemma wp_request O s b w (Q : option nat -> World -> Prop) :
  unborn w ->
  (forall w', fresh w' = S (fresh w) -> (grants O s (fresh w) = true) ->
     blk w (fresh w) = None -> blk w' (fresh w) = Some b -> (forall x, x <> fresh w -> blk w' x = blk w x) -> unborn w' -> Q (Some (fresh w)) w') ->
  (forall w', fresh w' = S (fresh w) -> (grants O s (fresh w) = false) ->
     (forall x, blk w' x = blk w x) -> unborn w' -> Q None w') ->
  wp (request O s b) w Q.
Proof.
  intros U H1 H2. unfold wp, request. destruct (grants O s (fresh w)) eqn:G.
  - apply H1; simpl; auto.
    + unfold put. now rewrite Nat.eqb_refl.
    + intros x N. unfold put. now rewrite (proj2 (Nat.eqb_neq x _) N).
    + intros x N. simpl in *. unfold put. rewrite (proj2 (Nat.eqb_neq x _)) by lia. apply U. lia.
  - apply H2; simpl; auto. intros x N. simpl in *. apply U. lia.
Qed.

(** ** The pieces of an instance *)
Definition opt_at (w : World) (o : option nat) (b : Block) : Prop :=
  match o with Some x => blk w x = Some b | None => True end.
Definition tbl (w : World) (o : option nat) : Prop :=
  match o with Some x => exists l, blk w x = Some (BTable l) | None => True end.
Definition release_name (b : bool) : string := if b then "fmi2FreeInstance" else "fmi3FreeInstance".
Definition terminate_name (b : bool) : string := if b then "fmi2Terminate" else "fmi3Terminate".

Record over (i : Imp) (p : nat) (w : World) : Prop := {
  o_imp : blk w p = Some (BImp i);
  o_logm : i_logm i = true;
  o_buf : exists b, i_buf i = Some b /\ blk w b = Some BBuffer;
  o_name : opt_at w (i_name i) BName;
  o_lib : opt_at w (i_lib i) BLibrary;
  o_f2 : tbl w (i_f2 i);
  o_f3 : tbl w (i_f3 i);
  o_one : i_f2 i = None \/ i_f3 i = None }.
Definition holds (i : Imp) (p x : nat) : Prop :=
  x = p \/ i_lib i = Some x \/ i_buf i = Some x \/ i_name i = Some x \/ i_f2 i = Some x \/ i_f3 i = Some x.
Definition shape (s : Phase) (p : nat) (w : World) : Prop :=
  unborn w /\
  match s with
  | Gone => clean w
  | Created => exists i, over i p w /\ (forall x, blk w x <> None -> holds i p x) /\ i_f2 i = None /\ i_f3 i = None /\ i_lib i = None
  | Loaded => exists i, over i p w /\ (forall x, blk w x <> None -> holds i p x) /\ i_f2 i = None /\ i_f3 i = None /\ i_lib i <> None
  | Over => exists i, over i p w /\ (forall x, blk w x <> None -> holds i p x)
  | Live k => exists i c n l t L, over i p w /\
      i_comp i = Some c /\ blk w c = Some (BComp (maker k) (Some n) l) /\ blk w n = Some BCName /\ opt_at w l BCLocation /\
      (if two k then i_f2 i else i_f3 i) = Some t /\ blk w t = Some (BTable L) /\
      In (release_name (two k)) L /\ In (terminate_name (two k)) L /\
      (forall x, blk w x <> None -> holds i p x \/ x = c \/ x = n \/ l = Some x) /\ i_lib i <> None /\ L = symbols k
  end.

(** Facts about a world carry over to one that differs at other places only. *)
Ltac carry :=
  repeat match goal with
  | H : forall x, x <> ?a -> blk ?w' x = blk ?w x, K : blk ?w ?y = Some ?b |- _ =>
      lazymatch goal with
      | _ : blk w' y = Some _ |- _ => fail
      | _ => assert (blk w' y = Some b) by (rewrite H; [exact K | intro; subst; congruence])
      end
  | H : forall x, blk ?w' x = blk ?w x, K : blk ?w ?y = Some ?b |- _ =>
      lazymatch goal with
      | _ : blk w' y = Some _ |- _ => fail
      | _ => assert (blk w' y = Some b) by (rewrite H; exact K)
      end
  end.

Lemma live_fresh w a b : unborn w -> blk w a = Some b -> a < fresh w.
Proof. intros U H. destruct (Nat.lt_ge_cases a (fresh w)); [assumption|]. rewrite U in H by assumption. discriminate. Qed.

Lemma unborn_write w w' a b0 :
  unborn w -> blk w a = Some b0 -> fresh w' = fresh w -> (forall x, x <> a -> blk w' x = blk w x) -> unborn w'.
Proof.
  intros U H F E x L. rewrite E; [apply U; lia|]. intros ->. pose proof (live_fresh _ U H). lia.
Qed.

(** *** FMICreateInstance *)
Lemma create_spec O f w :
  buffers O -> clean w ->
  wp (FMICreateInstance O true f) w
     (fun r w' => r = None /\ clean w' /\ fresh w <= fresh w' \/ r = Some (fresh w) /\ fresh w <= fresh w' /\ shape Created (fresh w) w').
Proof.
  intros B C. assert (U : unborn w) by (intros a _; apply C).
  unfold FMICreateInstance. apply wp_bind, wp_request; auto.
  - intros w1 F1 _ N1 B1 E1 U1. apply wp_bind, wp_request; auto.
    + intros w2 F2 _ N2 B2 E2 U2. carry.
      apply wp_bind, wp_request; auto.
      * intros w3 F3 _ N3 B3 E3 U3. carry. apply wp_bind. eapply wp_write; [eassumption|].
        intros w4 F4 B4 E4. carry. apply wp_ret. right. split; [reflexivity|]. split; [lia|].
        split; [eapply unborn_write with (a := fresh w); [exact U3|eassumption|exact F4|exact E4]|].
        exists (mkImp None (Some (fresh w1)) (Some (fresh w2)) None None None true f). split; [|split].
        -- split; simpl; first [assumption | reflexivity | exact I | (left; reflexivity) | idtac]. eexists; split; [reflexivity|eassumption].
        -- intros x Hx. unfold holds. simpl.
           destruct (Nat.eq_dec x (fresh w)); [auto|]. rewrite E4 in Hx by assumption.
           destruct (Nat.eq_dec x (fresh w2)); [subst; auto 10|]. rewrite E3 in Hx by assumption.
           destruct (Nat.eq_dec x (fresh w1)); [subst; auto|]. rewrite E2 in Hx by assumption.
           rewrite E1 in Hx by assumption. now rewrite C in Hx.
        -- auto.
      * intros w3 F3 _ E3 U3. carry. apply wp_bind. eapply wp_write; [eassumption|].
        intros w4 F4 B4 E4. carry. apply wp_ret. right. split; [reflexivity|]. split; [lia|].
        split; [eapply unborn_write with (a := fresh w); [exact U3|eassumption|exact F4|exact E4]|].
        exists (mkImp None (Some (fresh w1)) None None None None true f). split; [|split].
        -- split; simpl; first [assumption | reflexivity | exact I | (left; reflexivity) | idtac]. eexists; split; [reflexivity|eassumption].
        -- intros x Hx. unfold holds. simpl.
           destruct (Nat.eq_dec x (fresh w)); [auto|]. rewrite E4 in Hx by assumption.
           rewrite E3 in Hx.
           destruct (Nat.eq_dec x (fresh w1)); [subst; auto|]. rewrite E2 in Hx by assumption.
           rewrite E1 in Hx by assumption. now rewrite C in Hx.
        -- auto.
    + intros w2 F2 G. now rewrite B in G.
  - intros w1 F1 _ E1 U1. apply wp_ret. left. split; [reflexivity|]. split; [|lia]. intro a. rewrite E1. apply C.
Qed.

(** *** FMILoadPlatformBinary *)
Lemma opt_carry w w' o b : opt_at w o b -> (forall x, blk w x = Some b -> blk w' x = Some b) -> opt_at w' o b.
Proof. destruct o; simpl; auto. Qed.
Lemma tbl_carry w w' o : tbl w o -> (forall x l, blk w x = Some (BTable l) -> exists l', blk w' x = Some (BTable l')) -> tbl w' o.
Proof. destruct o; simpl; auto. intros [l H] K. eauto. Qed.

(** Writing the instance itself, nothing else changes. *)
Lemma over_write i j p w w' :
  over i p w -> blk w' p = Some (BImp j) -> (forall x, x <> p -> blk w' x = blk w x) ->
  i_logm j = i_logm i -> i_buf j = i_buf i -> i_name j = i_name i -> opt_at w (i_lib j) BLibrary ->
  tbl w (i_f2 j) -> tbl w (i_f3 j) -> (i_f2 j = None \/ i_f3 j = None) -> over j p w'.
Proof.
  intros [H1 H2 (b & H3 & H3') H4 H5 H6 H7 H8] W E Em Eb En Hl Ht2 Ht3 Ho.
  assert (K : forall x c, (match c with BImp _ => False | _ => True end) -> blk w x = Some c -> blk w' x = Some c).
  { intros x c N X. rewrite E; [exact X|]. intros ->. rewrite H1 in X. injection X as <-. exact N. }
  split; auto.
  - congruence.
  - exists b. split; [congruence|]. now apply K.
  - rewrite En. eapply opt_carry; [exact H4|]. intros x. now apply K.
  - eapply opt_carry; [exact Hl|]. intros x. now apply K.
  - eapply tbl_carry; [exact Ht2|]. intros x l X. exists l. now apply K.
  - eapply tbl_carry; [exact Ht3|]. intros x l X. exists l. now apply K.
Qed.

Lemma over_keep i p w w' :
  over i p w -> (forall x b, blk w x = Some b -> blk w' x = Some b) -> over i p w'.
Proof.
  intros [H1 H2 (b & H3 & H3') H4 H5 H6 H7 H8] K. split; auto.
  - eauto.
  - eapply opt_carry; [exact H4|]; auto.
  - eapply opt_carry; [exact H5|]; auto.
  - eapply tbl_carry; [exact H6|]; eauto.
  - eapply tbl_carry; [exact H7|]; eauto.
Qed.

Lemma load_spec O p w :
  shape Created p w ->
  wp (FMILoadPlatformBinary O (Some p)) w
     (fun r w' => fresh w <= fresh w' /\ (r = OK /\ shape Loaded p w' \/ r = Error /\ shape Created p w' /\ ~ (forall n, grants O SLibrary n = true))).
Proof.
  intros (U & i & Ov & Ho & E2 & E3 & El). unfold FMILoadPlatformBinary.
  apply wp_bind. eapply wp_instance; [apply Ov|]. simpl. apply wp_bind, wp_request; auto.
  - intros w1 F1 _ N1 B1 X1 U1.
    assert (Ov1 : over i p w1). { eapply over_keep; [exact Ov|]. intros x b X. rewrite X1; [exact X|]. intros ->. congruence. }
    apply wp_bind. eapply wp_write; [apply Ov1|]. intros w2 F2 B2 X2. apply wp_ret. split; [lia|]. left. split; [reflexivity|].
    split; [eapply unborn_write; [exact U1|exact (o_imp Ov1)|exact F2|exact X2]|].
    exists (set_lib i (Some (fresh w))). split; [|split; [|split; [exact E2|split; [exact E3|discriminate]]]].
    + eapply over_write; [exact Ov1|exact B2|exact X2|..]; auto; try apply Ov1.
    + intros x Hx. unfold holds. simpl. destruct (Nat.eq_dec x p); [auto|]. rewrite X2 in Hx by assumption.
      destruct (Nat.eq_dec x (fresh w)); [subst; auto|]. rewrite X1 in Hx by assumption.
      apply Ho in Hx. unfold holds in Hx. rewrite El in Hx. intuition (try discriminate).
  - intros w1 F1 G1 X1 U1.
    assert (Ov1 : over i p w1). { eapply over_keep; [exact Ov|]. intros x b X. now rewrite X1. }
    apply wp_bind. eapply wp_write; [apply Ov1|]. intros w2 F2 B2 X2. apply wp_ret. split; [lia|]. right. split; [reflexivity|]. split; [|intros K; now rewrite K in G1].
    split; [eapply unborn_write; [exact U1|exact (o_imp Ov1)|exact F2|exact X2]|].
    exists (set_lib i None). split; [|split; [|auto]].
    + eapply over_write; [exact Ov1|exact B2|exact X2|..]; auto; try apply Ov1. exact I.
    + intros x Hx. unfold holds. simpl. destruct (Nat.eq_dec x p); [auto|]. rewrite X2 in Hx by assumption.
      rewrite X1 in Hx. apply Ho in Hx. unfold holds in Hx. rewrite El in Hx. intuition (try discriminate).
Qed.

(** *** FMIFreeInstance *)
Lemma free_spec p w s :
  s = Created \/ s = Loaded \/ s = Over -> shape s p w ->
  wp (FMIFreeInstance (Some p)) w (fun _ w' => fresh w' = fresh w /\ clean w').
Proof.
  intros Hs (U & H).
  assert (exists i, over i p w /\ (forall x, blk w x <> None -> holds i p x)) as (i & Ov & Ho).
  { destruct Hs as [-> | [-> | ->]]; destruct H as (i & Ov & Ho & _) || destruct H as (i & Ov & Ho); eauto. }
  clear H Hs. unfold FMIFreeInstance. apply wp_bind; eapply wp_instance; [apply Ov|]. simpl.
  destruct Ov as [H1 H2 (b & H3 & H3') H4 H5 H6 H7 H8]. unfold holds in Ho. rewrite H3 in *.
  assert (G : forall o (w0 : World) (Q : unit -> World -> Prop) bl, heap_block bl = true -> opt_at w0 o bl ->
     (forall w', fresh w' = fresh w0 -> (forall x, o = Some x -> blk w' x = None) -> (forall x, o <> Some x -> blk w' x = blk w0 x) -> Q tt w') ->
     wp (cfree o) w0 Q).
  { intros [a|] w0 Q bl HB HA HQ.
    - eapply wp_cfree; [exact HA | exact HB |]. intros w' F N E. apply HQ; [exact F | intros x X; injection X as <-; exact N | intros x X; apply E; congruence].
    - apply wp_ret, HQ; auto. discriminate. }
  assert (GL : forall o (w0 : World) (Q : unit -> World -> Prop), opt_at w0 o BLibrary ->
     (forall w', fresh w' = fresh w0 -> (forall x, o = Some x -> blk w' x = None) -> (forall x, o <> Some x -> blk w' x = blk w0 x) -> Q tt w') ->
     wp (dlclose o) w0 Q).
  { intros [a|] w0 Q HA HQ.
    - eapply wp_dlclose; [exact HA |]. intros w' F N E. apply HQ; [exact F | intros x X; injection X as <-; exact N | intros x X; apply E; congruence].
    - apply wp_ret, HQ; auto. discriminate. }
  assert (T : forall o w0, tbl w0 o -> exists l, opt_at w0 o (BTable l)).
  { intros [a|] w0 HT; [exact HT | exists []; exact I]. }
  (* libraries and blocks of other kinds stay *)
  assert (D : forall o (w0 w1 : World) bl x c, opt_at w0 o bl -> (forall x, o <> Some x -> blk w1 x = blk w0 x) ->
     blk w0 x = Some c -> c <> bl -> blk w1 x = Some c).
  { intros o w0 w1 bl x c HO HE HX HN. rewrite HE; [exact HX|]. intros ->. simpl in HO. congruence. }
  destruct (T _ _ H6) as (l2 & H6'). destruct (T _ _ H7) as (l3 & H7').
  apply wp_bind, GL; auto. intros w1 F1 N1 E1.
  assert (A1 : forall x c, c <> BLibrary -> blk w x = Some c -> blk w1 x = Some c) by (intros x c N X; exact (D (i_lib i) w w1 BLibrary x c H5 E1 X N)).
  apply wp_bind. eapply (G (Some b) w1 _ BBuffer); [reflexivity | apply A1; [discriminate | exact H3'] |].
  intros w2 F2 N2 E2.
  assert (A2 : forall x c, c <> BLibrary -> c <> BBuffer -> blk w x = Some c -> blk w2 x = Some c).
  { intros x c Na Nb X. apply (D (Some b) w1 w2 BBuffer x c); [|exact E2|exact (A1 _ _ Na X)|exact Nb]. simpl. apply A1; [discriminate | exact H3']. }
  apply wp_bind. eapply (G (i_name i) w2 _ BName); [reflexivity | |].
  { eapply opt_carry; [exact H4|]. intros x X. apply A2; auto; discriminate. }
  intros w3 F3 N3 E3.
  assert (A3 : forall x c, c <> BLibrary -> c <> BBuffer -> c <> BName -> blk w x = Some c -> blk w3 x = Some c).
  { intros x c Na Nb Nc X. apply (D (i_name i) w2 w3 BName x c); [|exact E3|exact (A2 _ _ Na Nb X)|exact Nc].
    eapply opt_carry; [exact H4|]. intros z Z. apply A2; auto; discriminate. }
  apply wp_bind. eapply (G (i_f2 i) w3 _ (BTable l2)); [reflexivity | |].
  { eapply opt_carry; [exact H6'|]. intros x X. apply A3; auto; discriminate. }
  intros w4 F4 N4 E4.
  apply wp_bind. eapply (G (i_f3 i) w4 _ (BTable l3)); [reflexivity | |].
  { destruct H8 as [X | X]; rewrite X in *; [|exact I].
    eapply opt_carry; [exact H7'|]. intros x Y. rewrite E4 by discriminate. apply A3; auto; discriminate. }
  intros w5 F5 N5 E5.
  assert (P5 : blk w5 p = Some (BImp i)).
  { assert (P3 : blk w3 p = Some (BImp i)) by (apply A3; auto; discriminate).
    assert (P4 : blk w4 p = Some (BImp i)).
    { rewrite E4; [exact P3|]. intros X. rewrite X in H6'. simpl in H6'. congruence. }
    rewrite E5; [exact P4|]. intros X. rewrite X in H7'. simpl in H7'. congruence. }
  eapply (G (Some p) w5 _ (BImp i)); [reflexivity | exact P5 |]. intros w6 F6 N6 E6. split; [congruence|].
  intro x. destruct (blk w6 x) as [c|] eqn:X; [exfalso | reflexivity].
  assert (S6 : Some p <> Some x) by (intros Y; rewrite (N6 _ Y) in X; discriminate). rewrite E6 in X by assumption.
  assert (S5 : i_f3 i <> Some x) by (intros Y; rewrite (N5 _ Y) in X; discriminate). rewrite E5 in X by assumption.
  assert (S4 : i_f2 i <> Some x) by (intros Y; rewrite (N4 _ Y) in X; discriminate). rewrite E4 in X by assumption.
  assert (S3 : i_name i <> Some x) by (intros Y; rewrite (N3 _ Y) in X; discriminate). rewrite E3 in X by assumption.
  assert (S2 : Some b <> Some x) by (intros Y; rewrite (N2 _ Y) in X; discriminate). rewrite E2 in X by assumption.
  assert (S1 : i_lib i <> Some x) by (intros Y; rewrite (N1 _ Y) in X; discriminate). rewrite E1 in X by assumption.
  assert (HX : blk w x <> None) by congruence. apply Ho in HX. intuition congruence.
Qed.

(** *** Loading the functions *)
Lemma symbols_spec O i t : forall rest got w,
  i_logm i = true -> blk w t = Some (BTable got) -> opt_at w (i_lib i) BLibrary ->
  wp (load O i t got rest) w (fun s w' =>
    fresh w' = fresh w /\ (forall x, x <> t -> blk w' x = blk w x) /\
    (exists L, blk w' t = Some (BTable L) /\ (s = OK -> L = got ++ rest)) /\ (s = OK \/ s = Fatal) /\
    ((forall f, In f rest -> exports O (i_lib i) f = true) -> s = OK)).
Proof.
  induction rest as [|f r IH]; intros got w Hm Ht Hl; simpl.
  - apply wp_ret. repeat split; auto. exists got. split; [exact Ht|]. intros _. now rewrite app_nil_r.
  - apply wp_bind.
    assert (D : wp (dlsym O (i_lib i) f) w (fun b w' => w' = w /\ b = exports O (i_lib i) f)).
    { unfold dlsym. destruct (i_lib i) as [h|]; [|apply wp_ret; auto].
      apply wp_bind. eapply wp_look; [exact Hl|]. apply wp_ret. auto. }
    eapply wp_conseq; [exact D|]. intros b w' [-> ->]. destruct (exports O (i_lib i) f) eqn:X.
    + apply wp_bind. eapply wp_write; [exact Ht|]. intros w1 F1 B1 E1.
      eapply wp_conseq.
      { apply IH; [exact Hm | exact B1 |]. destruct (i_lib i) as [h|]; [|exact I]. simpl in *. rewrite E1; [exact Hl|].
        intros ->. congruence. }
      simpl. intros s w2 (F2 & E2 & (L & BL & HL) & Hs & HC). repeat split.
      * congruence.
      * intros x N. rewrite E2, E1; auto.
      * exists L. split; [exact BL|]. intros S. rewrite HL by exact S. now rewrite <- app_assoc.
      * exact Hs.
      * intros K. apply HC. intros g G. apply K. now right.
    + rewrite Hm. apply wp_ret. repeat split; auto.
      * exists got. split; [exact Ht|]. discriminate.
      * intros K. specialize (K f (or_introl eq_refl)). congruence.
Qed.

Definition prep (O : Oracle) (p : option nat) (b : bool) (names : list string) : M Status :=
  let* e := instance_at p in
  let* t := request O STable (BTable []) in
  write (fst e) (BImp ((if b then set_f2 else set_f3) (snd e) t)) ;;;
  match t with None => ret Error | Some a => load O (snd e) a [] names end.

Definition field (b : bool) (i : Imp) : option nat := if b then i_f2 i else i_f3 i.

Lemma wp_bind_inv X Y (m : M X) (k : X -> M Y) w Q :
  wp (bind m k) w Q -> wp m w (fun x w' => wp (k x) w' Q).
Proof.
  unfold wp, bind. destruct (m w) as [[[x w'] t]| |]; auto.
  destruct (k x w') as [[[y w''] t']| |]; auto.
Qed.

Lemma fmi2_prep O p k acc loc w Q :
  wp (prep O p true (symbols k)) w (fun s w' =>
    wp (match s with OK => instantiates O p "fmi2Instantiate" true acc loc OK | _ => ret s end) w' Q) ->
  wp (FMI2Instantiate O p k acc loc) w Q.
Proof.
  unfold prep, FMI2Instantiate. intros H. apply wp_bind. apply wp_bind_inv in H. eapply wp_conseq; [exact H|]. clear H.
  intros e w1 H. apply wp_bind. apply wp_bind_inv in H. eapply wp_conseq; [exact H|]. clear H.
  intros t w2 H. apply wp_bind. apply wp_bind_inv in H. eapply wp_conseq; [exact H|]. clear H.
  intros [] w3 H. destruct t as [a|]; [|exact H]. apply wp_bind. exact H.
Qed.

Lemma prep_spec O p b names i w :
  unborn w -> over i p w -> (forall x, blk w x <> None -> holds i p x) -> i_f2 i = None -> i_f3 i = None ->
  wp (prep O (Some p) b names) w (fun s w' =>
    unborn w' /\ fresh w <= fresh w' /\
    (exists j, over j p w' /\ (forall x, blk w' x <> None -> holds j p x) /\ i_lib j = i_lib i /\
      (field b j = None /\ s = Error /\ ~ (forall n, grants O STable n = true) \/
       exists t L, field b j = Some t /\ blk w' t = Some (BTable L) /\ (s = OK \/ s = Fatal) /\ (s = OK -> L = names))) /\
    ((forall n, grants O STable n = true) -> (forall h f, In f names -> exports O h f = true) -> s = OK)).
Proof.
  intros U Ov Ho E2 E3. unfold prep. apply wp_bind. eapply wp_instance; [apply Ov|]. simpl. apply wp_bind, wp_request; auto.
  - intros w1 F1 _ N1 B1 X1 U1.
    assert (Ov1 : over i p w1). { eapply over_keep; [exact Ov|]. intros x c X. rewrite X1; [exact X|]. intros ->. congruence. }
    assert (Hne : p <> fresh w) by (intros ->; rewrite (o_imp Ov) in N1; discriminate).
    apply wp_bind. eapply wp_write; [apply Ov1|]. intros w2 F2 B2 X2.
    assert (Bt : blk w2 (fresh w) = Some (BTable [])) by (rewrite X2; auto).
    set (j := (if b then set_f2 else set_f3) i (Some (fresh w))) in *.
    assert (Ov2 : over j p w2).
    { eapply over_write; [exact Ov1 | exact B2 | exact X2 |..]; unfold j; destruct b; simpl; auto; try apply Ov1;
        first [exists []; exact B1 | rewrite E2; exact I | rewrite E3; exact I | idtac]. }
    assert (U2 : unborn w2) by (eapply unborn_write; [exact U1 | exact (o_imp Ov1) | exact F2 | exact X2]).
    eapply wp_conseq.
    { apply symbols_spec; [apply Ov | exact Bt |]. pose proof (o_lib Ov2) as L. unfold j in L. destruct b; exact L. }
    simpl. intros s w3 (F3 & X3 & (L & BL & HL) & Hs & HC). split; [|split; [lia|split]].
    + eapply unborn_write; [exact U2 | exact Bt | exact F3 | exact X3].
    + exists j. split; [|split; [|split; [unfold j; destruct b; reflexivity|]]].
      * destruct Ov2 as [H1 H2 (bb & H3 & H3') H4 H5 H6 H7 H8].
        assert (K : forall x c, (match c with BTable _ => False | _ => True end) -> blk w2 x = Some c -> blk w3 x = Some c).
        { intros x c N X. rewrite X3; [exact X|]. intros ->. rewrite Bt in X. injection X as <-. exact N. }
        assert (KT : forall o, tbl w2 o -> tbl w3 o).
        { intros o T. eapply tbl_carry; [exact T|]. intros x l X. destruct (Nat.eq_dec x (fresh w)); [subst; eauto|].
          rewrite X3 by assumption. eauto. }
        split; auto.
        -- exists bb. split; [exact H3 | now apply K].
        -- eapply opt_carry; [exact H4|]. intros x. now apply K.
        -- eapply opt_carry; [exact H5|]. intros x. now apply K.
      * intros x Hx. destruct (Nat.eq_dec x (fresh w)) as [->|N3].
        { unfold holds, j. destruct b; simpl; auto 10. }
        rewrite X3 in Hx by assumption. destruct (Nat.eq_dec x p); [left; assumption|]. rewrite X2 in Hx by assumption.
        rewrite X1 in Hx by assumption. apply Ho in Hx. unfold holds in *. unfold j. rewrite E2, E3 in Hx.
        destruct b; simpl; intuition (try discriminate).
      * right. exists (fresh w), L. unfold j. split; [destruct b; reflexivity|]. auto.
    + intros _ K. apply HC. intros f. apply K.
  - intros w1 F1 G X1 U1.
    assert (Ov1 : over i p w1). { eapply over_keep; [exact Ov|]. intros x c X. now rewrite X1. }
    apply wp_bind. eapply wp_write; [apply Ov1|]. intros w2 F2 B2 X2. apply wp_ret. split; [|split; [lia|split]].
    + eapply unborn_write; [exact U1 | exact (o_imp Ov1) | exact F2 | exact X2].
    + exists ((if b then set_f2 else set_f3) i None). split; [|split; [|split; [destruct b; reflexivity|]]].
      * eapply over_write; [exact Ov1 | exact B2 | exact X2 |..]; destruct b; simpl; auto; try apply Ov1.
      * intros x Hx. destruct (Nat.eq_dec x p); [left; assumption|]. rewrite X2 in Hx by assumption. rewrite X1 in Hx.
        apply Ho in Hx. unfold holds in *. destruct b; simpl; intuition congruence.
      * left. split; [destruct b; reflexivity|]. split; [reflexivity|]. intros K. now rewrite K in G.
    + intros K. now rewrite K in G.
Qed.

(** *** createModelInstance *)
Lemma component_spec O made nm acc loc w :
  names O -> unborn w ->
  wp (createModelInstance O made nm acc loc) w (fun c w' => unborn w' /\ fresh w <= fresh w' /\
    (c = None /\ (forall x, blk w' x = blk w x) \/
     exists a n l, c = Some a /\ blk w' a = Some (BComp made (Some n) l) /\ blk w' n = Some BCName /\ opt_at w' l BCLocation /\
       (forall x b, blk w x = Some b -> blk w' x = Some b) /\
       (forall x, blk w' x <> None -> blk w x <> None \/ x = a \/ x = n \/ l = Some x))).
Proof.
  intros Nm U. unfold createModelInstance.
  destruct nm as [m|]; [|apply wp_ret; auto 6]. destruct acc; [|apply wp_ret; auto 6].
  apply wp_bind, wp_request; auto.
  2:{ intros w1 F1 _ X1 U1. apply wp_ret. split; [exact U1|]. split; [lia|]. auto. }
  intros w1 F1 _ N1 B1 X1 U1. apply wp_bind, wp_request; auto.
  2:{ intros w2 F2 G. now rewrite Nm in G. }
  intros w2 F2 _ N2 B2 X2 U2. carry.
  assert (Base : forall (l : option nat) w3, fresh w2 <= fresh w3 -> unborn w3 -> opt_at w3 l BCLocation ->
            (forall x b, blk w2 x = Some b -> blk w3 x = Some b) ->
            (forall x, blk w3 x <> None -> blk w2 x <> None \/ l = Some x) ->
            wp (write (fresh w) (BComp made (Some (fresh w1)) l) ;;; ret (Some (fresh w))) w3
              (fun c w' => unborn w' /\ fresh w <= fresh w' /\
    (c = None /\ (forall x, blk w' x = blk w x) \/
     exists a n l, c = Some a /\ blk w' a = Some (BComp made (Some n) l) /\ blk w' n = Some BCName /\ opt_at w' l BCLocation /\
       (forall x b, blk w x = Some b -> blk w' x = Some b) /\
       (forall x, blk w' x <> None -> blk w x <> None \/ x = a \/ x = n \/ l = Some x)))).
  { intros l w3 F3 U3 O3 K3 R3. apply wp_bind. eapply wp_write; [apply K3; eassumption|]. intros w4 F4 B4 X4. apply wp_ret.
    assert (C3 : blk w3 (fresh w) = Some (BComp made None None)) by auto.
    assert (D3 : blk w3 (fresh w1) = Some BCName) by auto.
    split; [eapply unborn_write; [exact U3 | exact C3 | exact F4 | exact X4]|]. split; [lia|]. right.
    exists (fresh w), (fresh w1), l. split; [reflexivity|]. split; [exact B4|]. split; [|split; [|split]].
    - rewrite X4; [exact D3|]. intros E. rewrite E in D3. congruence.
    - eapply opt_carry; [exact O3|]. intros x X. rewrite X4; [exact X|]. intros ->. congruence.
    - intros x b X. rewrite X4; [apply K3; rewrite X2, X1; auto|]; intros ->; try congruence.
      pose proof (live_fresh _ U X). lia.
    - intros x X. destruct (Nat.eq_dec x (fresh w)); [auto|]. rewrite X4 in X by assumption. apply R3 in X. destruct X as [X|X]; [|auto].
      destruct (Nat.eq_dec x (fresh w1)); [auto|]. rewrite X2, X1 in X by assumption. auto. }
  destruct loc.
  - apply wp_bind, wp_request; auto.
    + intros w3 F3 _ N3 B3 X3 U3. apply Base; [lia | exact U3 | exact B3 | |].
      * intros x b X. rewrite X3; [exact X|]. intros ->. congruence.
      * intros x X. destruct (Nat.eq_dec x (fresh w2)); [subst; auto|]. rewrite X3 in X by assumption. auto.
    + intros w3 F3 _ X3 U3. apply Base; [lia | exact U3 | exact I | |].
      * intros x b X. now rewrite X3.
      * intros x X. rewrite X3 in X. auto.
  - apply wp_bind, wp_ret. apply Base; [lia | exact U2 | exact I | auto | auto].
Qed.

Lemma instantiates_spec O p k f acc loc s i t L w :
  names O -> unborn w -> over i p w -> (forall x, blk w x <> None -> holds i p x) ->
  field (two k) i = Some t -> blk w t = Some (BTable L) -> In f L -> In (release_name (two k)) L -> In (terminate_name (two k)) L ->
  i_lib i <> None -> L = symbols k -> f = maker k ->
  wp (instantiates O (Some p) f (two k) acc loc s) w (fun r w' => fresh w <= fresh w' /\
    (r = Error /\ shape Over p w' /\ (exists j, blk w' p = Some (BImp j) /\ field (two k) j = Some t /\ blk w' t = Some (BTable L) /\ i_comp j = None) \/
     r = s /\ shape (Live k) p w')).
Proof.
  intros Nm U Ov Ho Hf Ht If Ir It Hlib HL ->. unfold instantiates. apply wp_bind. eapply wp_instance; [apply Ov|]. simpl.
  change (if two k then i_f2 i else i_f3 i) with (field (two k) i). rewrite Hf.
  apply wp_bind. eapply wp_calls; [exact Ht | exact If |].
  apply wp_bind. eapply wp_conseq; [apply component_spec; assumption|]. intros c w1 (U1 & F1 & H). simpl.
  destruct H as [(-> & X1) | (a & n & l & -> & Ba & Bn & Bl & K1 & R1)].
  - assert (Ov1 : over i p w1) by (eapply over_keep; [exact Ov|]; intros x b X; now rewrite X1).
    apply wp_bind. eapply wp_write; [apply Ov1|]. intros w2 F2 B2 X2.
    assert (Ov2 : over (set_comp i None) p w2) by (eapply over_write; [exact Ov1 | exact B2 | exact X2 |..]; auto; try apply Ov1).
    apply wp_bind.
    assert (LG : wp (logs i) w2 (fun _ w' => w' = w2)).
    { unfold logs. destruct (i_logf i); [|now apply wp_ret]. destruct (o_buf Ov2) as (b & Eb & Bb). simpl in Eb. rewrite Eb.
      apply wp_bind. eapply wp_look; [exact Bb|]. now apply wp_ret. }
    eapply wp_conseq; [exact LG|]. intros [] w' ->. apply wp_ret. split; [lia|]. left. split; [reflexivity|]. split.
    + split; [eapply unborn_write; [exact U1 | exact (o_imp Ov1) | exact F2 | exact X2]|].
      eexists. split; [exact Ov2|]. intros x Hx. destruct (Nat.eq_dec x p); [left; assumption|].
      rewrite X2 in Hx by assumption. rewrite X1 in Hx. exact (Ho _ Hx).
    + eexists. split; [exact B2|]. split; [|split; [|reflexivity]].
      * destruct (two k); exact Hf.
      * rewrite X2; [now rewrite X1|]. intros ->. rewrite (o_imp Ov) in Ht. discriminate.
  - assert (Ov1 : over i p w1) by (eapply over_keep; [exact Ov | exact K1]).
    apply wp_bind. eapply wp_write; [apply Ov1|]. intros w2 F2 B2 X2.
    assert (Ov2 : over (set_comp i (Some a)) p w2) by (eapply over_write; [exact Ov1 | exact B2 | exact X2 |..]; auto; try apply Ov1).
    apply wp_bind.
    assert (LG : wp (logs i) w2 (fun _ w' => w' = w2)).
    { unfold logs. destruct (i_logf i); [|now apply wp_ret]. destruct (o_buf Ov2) as (b & Eb & Bb). simpl in Eb. rewrite Eb.
      apply wp_bind. eapply wp_look; [exact Bb|]. now apply wp_ret. }
    eapply wp_conseq; [exact LG|]. intros [] w' ->. apply wp_ret. split; [lia|]. right. split; [reflexivity|].
    assert (P1 : blk w1 p = Some (BImp i)) by apply Ov1.
    assert (K2 : forall x b, (match b with BImp _ => False | _ => True end) -> blk w1 x = Some b -> blk w2 x = Some b).
    { intros x b N X. rewrite X2; [exact X|]. intros ->. rewrite P1 in X. injection X as <-. exact N. }
    split; [eapply unborn_write; [exact U1 | exact (o_imp Ov1) | exact F2 | exact X2]|].
    exists (set_comp i (Some a)), a, n, l, t, L. split; [exact Ov2|]. split; [reflexivity|].
    split; [now apply K2|]. split; [now apply K2|]. split; [eapply opt_carry; [exact Bl|]; intros x; now apply K2|].
    split; [destruct (two k); exact Hf|]. split; [apply K2, K1; [exact I | exact Ht]|]. split; [exact Ir|]. split; [exact It|].
    split; [|split; [exact Hlib | exact HL]].
    intros x Hx. destruct (Nat.eq_dec x p); [left; left; assumption|]. rewrite X2 in Hx by assumption.
    apply R1 in Hx. destruct Hx as [Hx|Hx]; [left; exact (Ho _ Hx) | right; exact Hx].
Qed.

(** The table leads to the function that releases, and there is no component. *)
Definition ready (k : Kind) (p : nat) (w : World) : Prop :=
  exists i t L, blk w p = Some (BImp i) /\ field (two k) i = Some t /\ blk w t = Some (BTable L) /\ In (release_name (two k)) L /\ i_comp i = None.
Definition has (l : list string) (f : string) : bool := existsb (String.eqb f) l.
Lemma has_in l f : has l f = true -> In f l.
Proof. unfold has. intros H. apply existsb_exists in H as (g & I & E). apply String.eqb_eq in E. now subst. Qed.
Lemma in_symbols k : In (release_name (two k)) (symbols k) /\ In (terminate_name (two k)) (symbols k).
Proof. destruct k; split; apply has_in; vm_compute; reflexivity. Qed.

Lemma instantiate_spec O p k acc loc w :
  names O -> shape Loaded p w -> (k = Me3 -> complete O Me3) ->
  wp (instantiate O (Some p) k acc loc) w (fun r w' => fresh w <= fresh w' /\
    (r = OK /\ shape (Live k) p w' \/ r <> OK /\ shape Over p w' /\ (tame O k -> r = Fatal \/ r = Error /\ ready k p w'))).
Proof.
  intros Nm (U & i & Ov & Ho & E2 & E3 & Hlib) Hme.
  pose proof (in_symbols k) as (Sr & St).
  pose proof (fun b names => prep_spec O b names U Ov Ho E2 E3) as P.
  assert (Step : forall f s w1 j t, unborn w1 -> fresh w <= fresh w1 -> over j p w1 -> (forall x, blk w1 x <> None -> holds j p x) ->
     field (two k) j = Some t -> blk w1 t = Some (BTable (symbols k)) -> has (symbols k) f = true -> i_lib j <> None -> f = maker k -> s = OK ->
     wp (instantiates O (Some p) f (two k) acc loc s) w1 (fun r w' => fresh w <= fresh w' /\
    (r = OK /\ shape (Live k) p w' \/ r <> OK /\ shape Over p w' /\ (tame O k -> r = Fatal \/ r = Error /\ ready k p w')))).
  { intros f s w1 j t U1 F1 Oj Hj Fj Tj If Lj Ef ->. eapply wp_conseq.
    { apply (@instantiates_spec O p k f acc loc OK j t (symbols k) w1); auto. now apply has_in. }
    intros r w2 (F2 & [(-> & S2 & (j2 & B2 & Fj2 & T2 & C2)) | (-> & S2)]); (split; [lia|]).
    - right. split; [discriminate|]. split; [exact S2|]. intros _. right. split; [reflexivity|].
      exists j2, t, (symbols k). auto.
    - left. auto. }
  assert (Stop : forall r w1, unborn w1 -> fresh w <= fresh w1 -> (exists j, over j p w1 /\ (forall x, blk w1 x <> None -> holds j p x)) ->
     r <> OK -> (tame O k -> r = Fatal) ->
     wp (ret r) w1 (fun r w' => fresh w <= fresh w' /\
    (r = OK /\ shape (Live k) p w' \/ r <> OK /\ shape Over p w' /\ (tame O k -> r = Fatal \/ r = Error /\ ready k p w')))).
  { intros r w1 U1 F1 H N T. apply wp_ret. split; [exact F1|]. right. split; [exact N|]. split; [split; assumption|]. auto. }
  assert (Two : two k = true -> wp (FMI2Instantiate O (Some p) k acc loc) w (fun r w' => fresh w <= fresh w' /\
    (r = OK /\ shape (Live k) p w' \/ r <> OK /\ shape Over p w' /\ (tame O k -> r = Fatal \/ r = Error /\ ready k p w')))).
  { intros Tk. apply fmi2_prep. eapply wp_conseq; [apply P|].
    intros s w1 (U1 & F1 & (j & Oj & Hj & Lj & D) & C). rewrite Tk in *.
    destruct D as [(Fj & -> & Ng) | (t & L & Fj & Tj & Hs & HL)].
    - apply Stop; eauto; [discriminate|]. intros [[T _] | T]; [now elim Ng|]. destruct k; try discriminate Tk; now elim Ng.
    - destruct Hs as [-> | ->].
      + rewrite HL in Tj by reflexivity. eapply Step; eauto; try congruence; destruct k; try discriminate Tk; vm_compute; reflexivity.
      + apply Stop; eauto. discriminate. }
  assert (Three : two k = false -> symbols k = symbols3) by (destruct k; (discriminate || reflexivity)).
  unfold instantiate. destruct k; try (apply Two; reflexivity); clear Two.
  - (* Me3 *)
    unfold FMI3InstantiateModelExchange. apply wp_bind.
    change (loadSymbols3 O (Some p)) with (prep O (Some p) false (symbols Me3)).
    eapply wp_conseq; [apply P|]. intros s w1 (U1 & F1 & (j & Oj & Hj & Lj & D) & C).
    destruct (Hme eq_refl) as [Hg Hx].
    destruct D as [(Fj & -> & Ng) | (t & L & Fj & Tj & Hs & HL)]; [now elim Ng|].
    assert (s = OK) by (apply C; assumption). subst s. rewrite HL in Tj by reflexivity. eapply Step; eauto; try congruence.
  - unfold FMI3InstantiateCoSimulation. apply wp_bind.
    change (loadSymbols3 O (Some p)) with (prep O (Some p) false (symbols Cs3)).
    eapply wp_conseq; [apply P|]. intros s w1 (U1 & F1 & (j & Oj & Hj & Lj & D) & C).
    destruct D as [(Fj & -> & Ng) | (t & L & Fj & Tj & Hs & HL)].
    + apply Stop; eauto. discriminate.
    + destruct Hs as [-> | ->].
      * rewrite HL in Tj by reflexivity. eapply Step; eauto; try congruence.
      * apply Stop; eauto. discriminate.
  - unfold FMI3InstantiateScheduledExecution. apply wp_bind.
    change (loadSymbols3 O (Some p)) with (prep O (Some p) false (symbols Se3)).
    eapply wp_conseq; [apply P|]. intros s w1 (U1 & F1 & (j & Oj & Hj & Lj & D) & C).
    destruct D as [(Fj & -> & Ng) | (t & L & Fj & Tj & Hs & HL)].
    + apply Stop; eauto; [discriminate|]. intros [[T _] | []]. now elim Ng.
    + destruct Hs as [-> | ->].
      * rewrite HL in Tj by reflexivity. eapply Step; eauto; try congruence.
      * apply Stop; eauto; [discriminate|]. intros [[T X] | []]. discriminate (C T X).
Qed.

(** *** fmi2FreeInstance, fmi3FreeInstance *)
Lemma release_spec p k j w :
  shape (Live j) p w -> two k = two j ->
  wp (release k (Some p)) w (fun _ w' => fresh w' = fresh w /\ shape Over p w').
Proof.
  intros (U & i & c & n & l & t & L & Ov & Ec & Bc & Bn & Bl & Ft & Bt & Ir & _ & Ho & _) Ek.
  assert (FR : wp (freeModelInstance (Some c)) w (fun _ w' => fresh w' = fresh w /\
     (forall x, x = c \/ x = n \/ l = Some x -> blk w' x = None) /\ (forall x, x <> c -> x <> n -> l <> Some x -> blk w' x = blk w x))).
  { unfold freeModelInstance. apply wp_bind. eapply wp_look; [exact Bc|].
    apply wp_bind. eapply wp_cfree; [exact Bn | reflexivity |]. intros w1 F1 N1 X1.
    assert (Bc1 : blk w1 c = Some (BComp (maker j) (Some n) l)) by (rewrite X1; [exact Bc | intros ->; congruence]).
    destruct l as [q|].
    - simpl in Bl. assert (Bq : blk w1 q = Some BCLocation) by (rewrite X1; [exact Bl | intros ->; congruence]).
      apply wp_bind. eapply wp_cfree; [exact Bq | reflexivity |]. intros w2 F2 N2 X2.
      assert (Bc2 : blk w2 c = Some (BComp (maker j) (Some n) (Some q))) by (rewrite X2; [exact Bc1 | intros ->; congruence]).
      eapply wp_cfree; [exact Bc2 | reflexivity |]. intros w3 F3 N3 X3. split; [congruence|]. split.
      + intros x Hx. destruct (Nat.eq_dec x c); [subst; exact N3|]. rewrite X3 by assumption.
        destruct (Nat.eq_dec x q); [subst; exact N2|]. rewrite X2 by assumption.
        destruct Hx as [->|[->|Hx]]; [contradiction | exact N1 | congruence].
      + intros x Nc Nn Nl. rewrite X3, X2, X1; congruence.
    - apply wp_bind, wp_ret. eapply wp_cfree; [exact Bc1 | reflexivity |]. intros w3 F3 N3 X3. split; [congruence|]. split.
      + intros x Hx. destruct (Nat.eq_dec x c); [subst; exact N3|]. rewrite X3 by assumption.
        destruct Hx as [->|[->|Hx]]; [contradiction | exact N1 | discriminate].
      + intros x Nc Nn _. rewrite X3, X1; congruence. }
  assert (After : forall w', fresh w' = fresh w -> (forall x, x = c \/ x = n \/ l = Some x -> blk w' x = None) ->
     (forall x, x <> c -> x <> n -> l <> Some x -> blk w' x = blk w x) ->
     unborn w' /\ over i p w' /\ (forall x, blk w' x <> None -> holds i p x)).
  { intros w' F N X.
    assert (K : forall x b, (match b with BComp _ _ _ | BCName | BCLocation => False | _ => True end) -> blk w x = Some b -> blk w' x = Some b).
    { intros x b Nb Xb. rewrite X; [exact Xb|..].
      - intros ->. rewrite Bc in Xb. injection Xb as <-. exact Nb.
      - intros ->. rewrite Bn in Xb. injection Xb as <-. exact Nb.
      - intros ->. simpl in Bl. rewrite Bl in Xb. injection Xb as <-. exact Nb. }
    split; [|split].
    - intros x Lx. destruct (blk w' x) as [b|] eqn:Xb; [|reflexivity]. exfalso.
      assert (Nx : blk w' x <> None) by congruence.
      assert (x <> c /\ x <> n /\ l <> Some x) as (N1 & N2 & N3).
      { repeat split; intros E; apply Nx, N; auto. }
      rewrite X in Nx by assumption. apply Nx, U. lia.
    - destruct Ov as [H1 H2 (bb & H3 & H3') H4 H5 H6 H7 H8]. split; auto.
      + exists bb. split; [exact H3 | now apply K].
      + eapply opt_carry; [exact H4|]. intros x. now apply K.
      + eapply opt_carry; [exact H5|]. intros x. now apply K.
      + eapply tbl_carry; [exact H6|]. intros x q Q. exists q. now apply K.
      + eapply tbl_carry; [exact H7|]. intros x q Q. exists q. now apply K.
    - intros x Nx.
      assert (x <> c /\ x <> n /\ l <> Some x) as (N1 & N2 & N3).
      { repeat split; intros E; apply Nx, N; auto. }
      rewrite X in Nx by assumption. destruct (Ho _ Nx) as [H|[H|[H|H]]]; [exact H | contradiction | contradiction | contradiction]. }
  unfold release. rewrite Ek in *. destruct (two j).
  - unfold FMI2FreeInstance. apply wp_bind. eapply wp_instance; [apply Ov|]. simpl. rewrite Ft, Ec.
    apply wp_bind. eapply wp_calls; [exact Bt | exact Ir |].
    eapply wp_conseq; [exact FR|]. intros _ w' (F & N & X). split; [exact F|].
    destruct (After w' F N X) as (U' & O' & H'). split; [exact U' | eauto].
  - unfold FMI3FreeInstance. apply wp_bind. eapply wp_instance; [apply Ov|]. simpl. rewrite Ft, Ec.
    apply wp_bind. eapply wp_calls; [exact Bt | exact Ir |].
    apply wp_bind. eapply wp_conseq; [exact FR|]. intros _ w' (F & N & X).
    destruct (After w' F N X) as (U' & O' & H'). eapply wp_write; [apply O'|]. intros w2 F2 B2 X2.
    split; [congruence|]. split; [eapply unborn_write; [exact U' | exact (o_imp O') | exact F2 | exact X2]|].
    eexists. split.
    + eapply over_write; [exact O' | exact B2 | exact X2 |..]; auto; try apply O'.
    + intros x Hx. destruct (Nat.eq_dec x p); [left; assumption|]. rewrite X2 in Hx by assumption. exact (H' _ Hx).
Qed.
