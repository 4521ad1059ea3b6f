(** Paths.v -- proofs about FMIPlatformBinaryPath (C67). *)
From Coq Require Import Strings.String List NArith ZArith Bool Arith Lia.
From Coq.Init Require Import Byte.
From Verif Require Import Base Instance ImpBuffer SpecImporter ImpPath SpecPath.
Import ListNotations.
Open Scope list_scope.
Set Implicit Arguments.

Lemma eqb_dec (x y : byte) : Byte.eqb x y = true <-> x = y.
Proof. split; [apply Byte.byte_dec_bl|apply Byte.byte_dec_lb]. Qed.
Lemma plain_app a b : plain (a ++ b) <-> plain a /\ plain b.
Proof. unfold plain. rewrite in_app_iff. tauto. Qed.
Lemma c_string_text t B : plain t -> c_string (map Some t ++ Some x00 :: B) = Some t.
Proof.
  induction t as [|c t IH]; intro P; [reflexivity|]. cbn [map app c_string]. rewrite IH by (intro H; apply P; right; exact H).
  destruct c; try reflexivity. exfalso. apply P. left. reflexivity.
Qed.
Lemma plain_firstn n t : plain t -> plain (firstn n t).
Proof. intros P H. apply P. rewrite <- (firstn_skipn n t). apply in_or_app. left. exact H. Qed.

(** ** The place *)
Lemma within_fun s b a x y : within s b a x -> within s b a y -> x = y.
Proof.
  intros H K. inversion H as [a1 c1 S1 E1 F1|a1 c1 S1 E1 F1]; inversion K as [a2 c2 S2 E2 F2|a2 c2 S2 E2 F2]; subst;
    match goal with E : _ ++ [_] = _ ++ [_] |- _ => apply app_inj_tail in E; destruct E; subst end; auto; contradiction.
Qed.
Definition last_of (a : bytes) : option byte := hd_error (rev a).
Lemma last_app a c : last_of (a ++ [c]) = Some c.
Proof. unfold last_of. rewrite rev_app_distr. reflexivity. Qed.
Lemma split_last (a : bytes) : a <> [] -> exists b c, a = b ++ [c].
Proof. intro H. destruct (@exists_last _ a H) as (b & c & E). eauto. Qed.
Lemma separates_dec s b : separates s b \/ ~ separates s b.
Proof. unfold separates. destruct (Byte.byte_eq_dec b (sep s)) as [->|N]; [left; left; reflexivity|]. destruct s; [|right; intros [E|(E & _)]; [exact (N E)|discriminate E]..].
  destruct (Byte.byte_eq_dec b x2f) as [->|M]; [left; right; auto|right; intros [E|(_ & E)]; [exact (N E)|exact (M E)]]. Qed.
Lemma within_total s b a : a <> [] -> exists p, within s b a p.
Proof. intro H. destruct (split_last H) as (x & c & ->). destruct (separates_dec s c) as [S|S]; eexists; [apply within_slash|apply within_plain]; exact S. Qed.
Lemma within_inner s b a c d : ~ separates s c -> within s b (a ++ [c]) d -> d = a ++ [c; sep s] ++ b.
Proof. intros S H. apply (within_fun H). apply within_plain. exact S. Qed.

Lemma folder_last s a v : exists x c, folder s a v = x ++ [c] /\ ~ separates s c.
Proof.
  assert (H : folder s a v <> []) by (destruct v, s, a; discriminate). destruct (split_last H) as (x & c & E). exists x, c. split; [exact E|].
  assert (L : last_of (folder s a v) = Some c) by (rewrite E; apply last_app).
  destruct v, s, a; vm_compute in L; injection L as <-; (intros [K|(_ & K)]; discriminate K).
Qed.
Lemma binaries_last s : exists x c, list_byte_of_string "binaries" = x ++ [c] /\ ~ separates s c.
Proof. exists (list_byte_of_string "binarie"), x73. split; [reflexivity|]. destruct s; (intros [K|(_ & K)]; discriminate K). Qed.

(** The rest of the path below a directory. *)
Definition below (s : System) (a : Architecture) (v : MajorVersion) (id : bytes) : bytes :=
  list_byte_of_string "binaries" ++ [sep s] ++ folder s a v ++ [sep s] ++ library s id.
Lemma location_below s a v dir id path : location s a v dir id path <-> within s (below s a v id) dir path.
Proof.
  destruct (binaries_last s) as (x & c & Ex & Sc). destruct (folder_last s a v) as (y & d & Ey & Sd).
  assert (Step : forall b u w z, ~ separates s z -> within s b ((u ++ w) ++ [z]) (u ++ (w ++ [z; sep s] ++ b))).
  { intros b u w z Sz. replace (u ++ w ++ [z; sep s] ++ b) with ((u ++ w) ++ [z; sep s] ++ b) by (rewrite <- app_assoc; reflexivity). apply within_plain. exact Sz. }
  assert (Eb : below s a v id = (x ++ [c]) ++ [sep s] ++ (y ++ [d]) ++ [sep s] ++ library s id) by (unfold below; rewrite Ex, Ey; reflexivity).
  split.
  - intros (p & q & P & Q & R). rewrite Ex in P. rewrite Ey in Q. rewrite Eb.
    inversion P as [e z S E F|e z S E F]; subst.
    + assert (q = ((e ++ [z]) ++ x) ++ [c; sep s] ++ y ++ [d]) as ->.
      { apply within_inner with (1 := Sc). repeat rewrite <- app_assoc in Q. repeat rewrite <- app_assoc. exact Q. }
      assert (path = (((e ++ [z]) ++ x) ++ [c; sep s] ++ y) ++ [d; sep s] ++ library s id) as ->.
      { apply within_inner with (1 := Sd). repeat rewrite <- app_assoc in R. repeat rewrite <- app_assoc. exact R. }
      replace ((((e ++ [z]) ++ x) ++ [c; sep s] ++ y) ++ [d; sep s] ++ library s id)
        with (e ++ [z] ++ ((x ++ [c]) ++ [sep s] ++ (y ++ [d]) ++ [sep s] ++ library s id)); [apply within_slash; exact S|].
      rewrite <- !app_assoc. reflexivity.
    + assert (q = ((e ++ [z; sep s]) ++ x) ++ [c; sep s] ++ y ++ [d]) as ->.
      { apply within_inner with (1 := Sc). repeat rewrite <- app_assoc in Q. repeat rewrite <- app_assoc. exact Q. }
      assert (path = (((e ++ [z; sep s]) ++ x) ++ [c; sep s] ++ y) ++ [d; sep s] ++ library s id) as ->.
      { apply within_inner with (1 := Sd). repeat rewrite <- app_assoc in R. repeat rewrite <- app_assoc. exact R. }
      replace ((((e ++ [z; sep s]) ++ x) ++ [c; sep s] ++ y) ++ [d; sep s] ++ library s id)
        with (e ++ [z; sep s] ++ ((x ++ [c]) ++ [sep s] ++ (y ++ [d]) ++ [sep s] ++ library s id)); [apply within_plain; exact S|].
      rewrite <- !app_assoc. reflexivity.
  - intro H. assert (Hd : dir <> []) by (inversion H; destruct a0; discriminate).
    destruct (within_total s (list_byte_of_string "binaries") Hd) as (p & P).
    assert (Hp : p <> []) by (inversion P; destruct a0; discriminate). destruct (within_total s (folder s a v) Hp) as (q & Q).
    assert (Hq : q <> []) by (inversion Q; destruct a0; discriminate). destruct (within_total s (library s id) Hq) as (r & R).
    enough (path = r) as -> by (exists p, q; auto). apply (within_fun H).
    clear H. revert P Q R. rewrite Ex, Ey, Eb. intros P Q R.
    inversion P as [e z S E F|e z S E F]; subst.
    + assert (q = ((e ++ [z]) ++ x) ++ [c; sep s] ++ y ++ [d]) as ->.
      { apply within_inner with (1 := Sc). repeat rewrite <- app_assoc in Q. repeat rewrite <- app_assoc. exact Q. }
      assert (r = (((e ++ [z]) ++ x) ++ [c; sep s] ++ y) ++ [d; sep s] ++ library s id) as ->.
      { apply within_inner with (1 := Sd). repeat rewrite <- app_assoc in R. repeat rewrite <- app_assoc. exact R. }
      replace ((((e ++ [z]) ++ x) ++ [c; sep s] ++ y) ++ [d; sep s] ++ library s id)
        with (e ++ [z] ++ ((x ++ [c]) ++ [sep s] ++ (y ++ [d]) ++ [sep s] ++ library s id)); [apply within_slash; exact S|].
      rewrite <- !app_assoc. reflexivity.
    + assert (q = ((e ++ [z; sep s]) ++ x) ++ [c; sep s] ++ y ++ [d]) as ->.
      { apply within_inner with (1 := Sc). repeat rewrite <- app_assoc in Q. repeat rewrite <- app_assoc. exact Q. }
      assert (r = (((e ++ [z; sep s]) ++ x) ++ [c; sep s] ++ y) ++ [d; sep s] ++ library s id) as ->.
      { apply within_inner with (1 := Sd). repeat rewrite <- app_assoc in R. repeat rewrite <- app_assoc. exact R. }
      replace ((((e ++ [z; sep s]) ++ x) ++ [c; sep s] ++ y) ++ [d; sep s] ++ library s id)
        with (e ++ [z; sep s] ++ ((x ++ [c]) ++ [sep s] ++ (y ++ [d]) ++ [sep s] ++ library s id)); [apply within_plain; exact S|].
      rewrite <- !app_assoc. reflexivity.
Qed.
Lemma location_total s a v dir id : dir <> [] -> exists path, location s a v dir id path.
Proof. intro H. destruct (within_total s (below s a v id) H) as (p & P). exists p. apply location_below. exact P. Qed.

(** ** The code *)
Lemma code_below s a v id :
  str "binaries" ++ FMI_FILE_SEPARATOR s ++ match v with Major3 => FMI_PLATFORM_TUPLE s a | _ => FMI_PLATFORM s a end ++ FMI_FILE_SEPARATOR s ++
    id ++ FMI_SHARED_LIBRARY_EXTENSION s = below s a v id.
Proof. unfold below, library. destruct s, a, v; reflexivity. Qed.
Lemma below_plain s a v id : plain id -> plain (below s a v id).
Proof.
  intro P. unfold below, library. rewrite !plain_app. repeat split; try exact P.
  - intro H. vm_compute in H. intuition discriminate.
  - destruct s; intro H; vm_compute in H; intuition discriminate.
  - destruct s, a, v; intro H; vm_compute in H; intuition discriminate.
  - destruct s; intro H; vm_compute in H; intuition discriminate.
  - destruct s; intro H; vm_compute in H; intuition discriminate.
Qed.
Lemma snprint_0 cs n t : n <= length cs -> plain t ->
  exists b, snprint cs 0 n t = Done b /\ length b = length cs /\ skipn n b = skipn n cs /\ (0 < n -> c_string b = Some (firstn (n - 1) t)).
Proof.
  intros L P. destruct n as [|n]; [exists cs; repeat split; lia|]. cbn [snprint]. unfold store.
  assert (Lt : length (firstn n t ++ [x00]) <= S n) by (rewrite app_length, firstn_length; cbn [length]; lia).
  destruct (Nat.leb_spec (0 + length (firstn n t ++ [x00])) (length cs)) as [Le|Gt]; [|lia].
  eexists. split; [reflexivity|]. cbn [firstn app Nat.add]. split; [rewrite app_length, map_length, skipn_length; lia|]. split.
  - rewrite skipn_app, map_length, skipn_all2 by (rewrite map_length; exact Lt). cbn [app]. rewrite <- (firstn_skipn (length (firstn n t ++ [x00])) cs) at 2.
    rewrite skipn_app. rewrite (@skipn_all2 _ (S n) (firstn _ cs)) by (rewrite firstn_length; lia). cbn [app]. f_equal. rewrite firstn_length. lia.
  - intros _. rewrite map_app, <- app_assoc. cbn [map app]. replace (S n - 1) with n by lia. apply c_string_text. apply plain_firstn. exact P.
Qed.

Theorem binary_path s a v dir id buf size path : location s a v dir id path -> (s = Windows \/ last_of dir <> Some x5c) ->
  plain dir -> plain id -> size <= length buf ->
  exists b, FMIPlatformBinaryPath s a dir id v buf size = Done (if Nat.ltb (length path) size then OK else Error, b) /\
    length b = length buf /\ skipn size b = skipn size buf /\ (0 < size -> c_string b = Some (firstn (size - 1) path)).
Proof.
  intros Hl Hw Pd Pi Hs. apply location_below in Hl.
  assert (Text : exists l t, rev dir = l :: t /\ path = dir ++ (if negb (Byte.eqb l x2f) && negb (Byte.eqb l x5c) then FMI_FILE_SEPARATOR s else []) ++ below s a v id).
  { inversion Hl as [e z S E F|e z S E F]; subst; rewrite rev_app_distr; cbn [rev app]; exists z; eexists; (split; [reflexivity|]).
    - rewrite last_app in Hw. rewrite <- app_assoc. f_equal. cbn [app]. f_equal.
      assert (Q : negb (Byte.eqb z x2f) && negb (Byte.eqb z x5c) = false); [|rewrite Q; reflexivity].
      destruct S as [->|(-> & ->)]; [destruct s; reflexivity|reflexivity].
    - rewrite last_app in Hw. rewrite <- app_assoc. f_equal. cbn [app]. f_equal.
      assert (Q : negb (Byte.eqb z x2f) && negb (Byte.eqb z x5c) = true); [|rewrite Q; destruct s; reflexivity].
      unfold separates in S. apply andb_true_iff. split; apply negb_true_iff; destruct (Byte.eqb z _) eqn:Ez; try reflexivity; apply eqb_dec in Ez; subst z; exfalso; apply S; destruct s; cbn; auto; destruct Hw as [Hw|Hw]; try discriminate Hw; exfalso; apply Hw; reflexivity. }
  destruct Text as (l & t & Er & Ep). unfold FMIPlatformBinaryPath. rewrite Er. cbv zeta.
  match goal with |- context [snprint buf 0 size ?t] => replace t with path by (rewrite Ep; do 2 f_equal; symmetry; exact (code_below s a v id)) end.
  assert (Pp : plain path).
  { rewrite Ep, !plain_app. repeat split; [exact Pd| |apply below_plain; exact Pi]. destruct (negb _ && negb _); [|intros []]. destruct s; intro H; vm_compute in H; intuition discriminate. }
  destruct (@snprint_0 buf size path Hs Pp) as (b & E & R). rewrite E. exists b. split; [|exact R]. cbn [rbind]. do 2 f_equal. rewrite Nat.ltb_antisym. destruct (Nat.leb size (length path)); reflexivity.
Qed.

(** ** Different FMUs have different places *)
Lemma split_at (c : byte) x y x' y' : x ++ c :: y = x' ++ c :: y' -> ~ In c y -> ~ In c y' -> x = x' /\ y = y'.
Proof.
  revert x'. induction x as [|b x IH]; intros [|b' x'] E H H'; cbn [app] in E.
  - injection E as E. auto.
  - injection E as -> E. exfalso. apply H. rewrite E. apply in_or_app. right. left. reflexivity.
  - injection E as -> E. exfalso. apply H'. rewrite <- E. apply in_or_app. right. left. reflexivity.
  - injection E as -> E. destruct (IH x' E H H') as (-> & ->). auto.
Qed.
Theorem location_injective s a v dir dir' id id' path : location s a v dir id path -> location s a v dir' id' path ->
  ~ In (sep s) id -> ~ In (sep s) id' -> (forall c, last_of dir = Some c -> ~ separates s c) -> (forall c, last_of dir' = Some c -> ~ separates s c) ->
  dir = dir' /\ id = id'.
Proof.
  intros H H' N N' D D'. apply location_below in H. apply location_below in H'.
  assert (G : forall d i, within s (below s a v i) d path -> (forall c, last_of d = Some c -> ~ separates s c) -> path = ((d ++ [sep s] ++ list_byte_of_string "binaries" ++ [sep s] ++ folder s a v) ++ sep s :: i) ++
    list_byte_of_string match s with Windows => ".dll" | Darwin => ".dylib" | Linux => ".so" end%string).
  { intros d i W Dd. inversion W as [e z S E F|e z S E F]; subst.
    - exfalso. apply (Dd z); [apply last_app|exact S].
    - unfold below, library. rewrite <- !app_assoc. reflexivity. }
  pose proof (eq_trans (eq_sym (G _ _ H D)) (G _ _ H' D')) as E. apply app_inv_tail in E.
  destruct (split_at _ _ _ _ _ E N N') as (E1 & ->). split; [|reflexivity]. apply app_inv_tail in E1. exact E1.
Qed.
Theorem binary_path_injective s a v dir dir' id id' buf buf' size size' b b' :
  FMIPlatformBinaryPath s a dir id v buf size = Done (OK, b) -> FMIPlatformBinaryPath s a dir' id' v buf' size' = Done (OK, b') ->
  size <= length buf -> size' <= length buf' -> plain dir -> plain id -> plain dir' -> plain id' -> c_string b = c_string b' ->
  ~ In (sep s) id -> ~ In (sep s) id' -> (forall c, last_of dir = Some c -> c <> x2f /\ c <> x5c) -> (forall c, last_of dir' = Some c -> c <> x2f /\ c <> x5c) ->
  dir = dir' /\ id = id'.
Proof.
  intros H H' L L' P1 P2 P3 P4 E N N' D D'.
  assert (G : forall d i c z x, FMIPlatformBinaryPath s a d i v c z = Done (OK, x) -> z <= length c -> plain d -> plain i ->
    (forall c, last_of d = Some c -> c <> x2f /\ c <> x5c) -> exists path, location s a v d i path /\ c_string x = Some path).
  { intros d i c z x Hx Lc Pd Pi Dd. assert (Nd : d <> []) by (intros ->; discriminate Hx).
    destruct (location_total s a v i Nd) as (path & Hl). exists path. split; [exact Hl|].
    destruct (@binary_path s a v d i c z path Hl) as (y & Ey & _ & _ & Cy); auto. { right. intro K. apply Dd in K. destruct K as (_ & K). apply K. reflexivity. }
    rewrite Hx in Ey. destruct (Nat.ltb_spec (length path) z) as [Lt|Ge]; [|discriminate Ey]. injection Ey as <-. rewrite Cy by lia. f_equal. apply firstn_all2. lia. }
  destruct (G _ _ _ _ _ H L P1 P2 D) as (p & Lp & Ep). destruct (G _ _ _ _ _ H' L' P3 P4 D') as (p' & Lp' & Ep').
  assert (p = p') as <- by congruence.
  assert (K : forall c, c <> x2f /\ c <> x5c -> ~ separates s c). { intros c (A & B) [->|(-> & ->)]; [destruct s; cbn in *; congruence|congruence]. }
  apply (location_injective Lp Lp' N N'); intros c Hc; apply K; auto.
Qed.
