(** Importer.v -- proofs about the importer's log buffer and its path to URI conversion. *)

From Coq Require Import List NArith ZArith Bool Arith Lia.
From Coq.Init Require Import Byte.
From Verif Require Import Base Instance ImpBuffer ImpUri SpecImporter FmuResource.
Import ListNotations.
Set Implicit Arguments.

(** ** Writing into the buffer *)

Lemma store_at (A B : list cell) (t : bytes) :
  length t <= length B ->
  store (A ++ B) (length A) t = Done (A ++ map Some t ++ skipn (length t) B).
Proof.
  intros L. unfold store. rewrite app_length.
  replace (Nat.leb _ _) with true by (symmetry; apply Nat.leb_le; lia).
  rewrite firstn_app, firstn_all, Nat.sub_diag, firstn_O, app_nil_r, skipn_app.
  rewrite skipn_all2 by lia. cbn [app]. do 3 f_equal. f_equal. lia.
Qed.

Lemma snprint_at (A B : list cell) (t : bytes) :
  length t < length B ->
  snprint (A ++ B) (length A) (length B) t
  = Done (A ++ map Some t ++ Some x00 :: skipn (S (length t)) B).
Proof.
  intros L. unfold snprint. destruct B as [|b B]; cbn [length] in *; [lia|].
  rewrite firstn_all2 by lia. rewrite store_at by (rewrite app_length; cbn; lia).
  rewrite map_app, app_length, Nat.add_1_r, <- app_assoc. reflexivity.
Qed.

Lemma snprint_cut (A B : list cell) (t : bytes) :
  length B <= length t ->
  exists B', length B' = length B /\
             snprint (A ++ B) (length A) (length B) t = Done (A ++ B').
Proof.
  intros L. unfold snprint. destruct B as [|b B]; [exists []; auto|].
  cbn [length] in *.
  assert (L1 : length (firstn (length B) t ++ [x00]) = S (length B))
    by (rewrite app_length, firstn_length; cbn; lia).
  rewrite store_at by (cbn [length]; lia).
  eexists. split; [|reflexivity].
  rewrite app_length, map_length, skipn_length, L1. cbn [length]. lia.
Qed.

(** ** The invariant *)

Definition holds (b : LBuf) (T : bytes) : Prop :=
  exists B, lb_cells b = map Some T ++ Some x00 :: B /\ lb_pos b = length T.

Lemma holds_string b T : plain T -> holds b T -> c_string (lb_cells b) = Some T.
Proof.
  intros Pt (B & E & _). rewrite E. clear E. revert Pt. induction T as [|x T IH]; intros Pt.
  - reflexivity.
  - cbn [map app c_string]. rewrite IH by (intros H; apply Pt; right; exact H).
    destruct x; try reflexivity. exfalso. apply Pt. left. reflexivity.
Qed.

Lemma grow_done size need : 1 <= size ->
  forall fuel, need <= fuel ->
  exists j, grow fuel size need = Done (size * 2 ^ j) /\ need <= size * 2 ^ j.
Proof.
  intros L fuel. revert size L. induction fuel as [|k IH]; intros size L Lf; cbn [grow].
  - replace (Nat.ltb size need) with false by (symmetry; apply Nat.ltb_ge; lia).
    exists 0. rewrite Nat.mul_1_r. split; [reflexivity|lia].
  - destruct (Nat.ltb size need) eqn:C.
    + apply Nat.ltb_lt in C.
      assert (G : forall d s, 1 <= s -> need <= s + d -> d <= k ->
                exists j, grow k s need = Done (s * 2 ^ j) /\ need <= s * 2 ^ j).
      { clear - IH. intros d s Ls Ld Lk.
        assert (X : forall d k s, 1 <= s -> need <= s + d -> d <= k ->
                exists j, grow k s need = Done (s * 2 ^ j) /\ need <= s * 2 ^ j).
        { clear. intros d. induction d as [d IHd] using lt_wf_ind. intros k s Ls Ld Lk.
          destruct k as [|k]; cbn [grow].
          - replace (Nat.ltb s need) with false by (symmetry; apply Nat.ltb_ge; lia).
            exists 0. rewrite Nat.mul_1_r. split; [reflexivity|lia].
          - destruct (Nat.ltb s need) eqn:C.
            + apply Nat.ltb_lt in C.
              destruct (@IHd (d - 1) ltac:(lia) k (s * 2) ltac:(lia) ltac:(lia) ltac:(lia))
                as (j & E & L).
              exists (S j). rewrite Nat.pow_succ_r'. rewrite E.
              replace (s * (2 * 2 ^ j)) with (s * 2 * 2 ^ j) by ring. auto.
            + apply Nat.ltb_ge in C. exists 0. rewrite Nat.mul_1_r. split; [reflexivity|lia]. }
        exact (X d k s Ls Ld Lk). }
      destruct (@G (need - size * 2) (size * 2) ltac:(lia) ltac:(lia) ltac:(lia)) as (j & E & Lj).
      exists (S j). rewrite Nat.pow_succ_r'. rewrite E.
      replace (size * (2 * 2 ^ j)) with (size * 2 * 2 ^ j) by ring. auto.
    + apply Nat.ltb_ge in C. exists 0. rewrite Nat.mul_1_r. split; [reflexivity|lia].
Qed.

Lemma size_grows s j : buffer_size s -> buffer_size (s * 2 ^ j).
Proof.
  intros (i & ->). exists (i + j). rewrite Nat.pow_add_r. ring.
Qed.
Lemma size_pos s : buffer_size s -> 1 <= s.
Proof.
  intros (i & ->). assert (2 ^ i <> 0) by (apply Nat.pow_nonzero; lia).
  assert (N.to_nat 1024 <> 0) by lia. nia.
Qed.

Lemma holds_remaining b T : holds b T -> remaining b = Done (lb_size b - length T) /\ length T < lb_size b.
Proof.
  intros (B & E & P). unfold remaining, lb_size. rewrite P, E.
  rewrite app_length, map_length. cbn [length].
  replace (Nat.leb _ _) with true by (symmetry; apply Nat.leb_le; lia). split; [reflexivity|lia].
Qed.

(** The cells of a buffer that holds [T], split behind [T]. *)
Lemma holds_split b T : holds b T ->
  exists B, lb_cells b = map Some T ++ B /\ length B = lb_size b - length T /\ lb_pos b = length T
            /\ length (map (@Some byte) T) = length T /\ 0 < length B.
Proof.
  intros (B & E & P). exists (Some x00 :: B). unfold lb_size. rewrite E, app_length, map_length.
  cbn [length]. repeat split; auto; lia.
Qed.

(** ** One string *)

Lemma append_holds b T t fuel :
  holds b T -> buffer_size (lb_size b) -> ~ buffer_size (length T + length t) ->
  length T + length t <= fuel ->
  exists b', lb_append fuel b t = Done b' /\ holds b' (T ++ t) /\ buffer_size (lb_size b').
Proof.
  intros H S N Lf. destruct (holds_split H) as (B & E & L & P & LT & L0).
  destruct (holds_remaining H) as (R & LR). unfold lb_append. rewrite R. cbn [rbind].
  rewrite E, P, <- L, <- LT. destruct (Nat.ltb (length t) (length B)) eqn:C.
  - apply Nat.ltb_lt in C. rewrite snprint_at by exact C. cbn [rbind].
    eexists. split; [reflexivity|]. unfold holds. cbn [lb_cells lb_pos]. split.
    + eexists. rewrite map_app, <- app_assoc. split; [reflexivity|]. rewrite app_length. lia.
    + replace (lb_size _) with (lb_size b); [exact S|]. unfold lb_size. rewrite E. cbn [lb_cells].
      rewrite !app_length, map_length, !map_length. cbn [length]. rewrite skipn_length. lia.
  - apply Nat.ltb_ge in C. destruct (snprint_cut (map Some T) B t C) as (B1 & L1 & E1).
    rewrite E1. cbn [rbind].
    assert (Sz : length (map Some T ++ B1) = lb_size b).
    { unfold lb_size. rewrite E, !app_length, L1. reflexivity. }
    rewrite Sz.
    destruct (@grow_done (lb_size b) (length (map (@Some byte) T) + length t) (size_pos S) fuel)
      as (j & Eg & Lg); [lia|].
    rewrite Eg. cbn [rbind].
    assert (Sj := size_grows j S). set (n := lb_size b * 2 ^ j) in *.
    assert (Ln : length T + length t < n).
    { destruct (Nat.eq_dec (length T + length t) n) as [Q|Q]; [|lia]. exfalso. apply N.
      rewrite Q. exact Sj. }
    unfold enlarge. rewrite Sz, <- app_assoc.
    replace (n - length (map (@Some byte) T)) with (length (B1 ++ repeat (@None byte) (n - lb_size b)))
      by (rewrite app_length, repeat_length; lia).
    rewrite snprint_at by (rewrite app_length, repeat_length; lia). cbn [rbind].
    eexists. split; [reflexivity|]. unfold holds. cbn [lb_cells lb_pos]. split.
    + eexists. rewrite map_app, <- app_assoc. split; [reflexivity|]. rewrite app_length. lia.
    + replace (lb_size _) with n; [exact Sj|].
      match goal with |- _ = lb_size (mkLB ?c ?p) => change (lb_size (mkLB c p)) with (length c) end.
      rewrite !app_length, !map_length. cbn [length].
      rewrite skipn_length, app_length, repeat_length. lia.
Qed.

(** ** One array *)

Lemma digits_hex2 v : hex2 v = [digit (Byte.to_N v / 16); digit (Byte.to_N v mod 16)].
Proof. destruct v; reflexivity. Qed.

Lemma elem_length_text e : elem_length e = length (elem_text e).
Proof.
  destruct e as [t|v]; [reflexivity|]. cbn [elem_length elem_text app length].
  f_equal. f_equal. induction v as [|x v IH]; [reflexivity|].
  cbn [flat_map length app Nat.mul]. rewrite <- IH. reflexivity.
Qed.

Lemma print_hex_at v : forall (A B : list cell),
  length v * 2 < length B ->
  exists r, print_hex (A ++ Some x00 :: tl B) (length A) (length B) v
  = Done (A ++ map Some (flat_map (fun b => [digit (Byte.to_N b / 16); digit (Byte.to_N b mod 16)]) v)
            ++ Some x00 :: r)
  /\ length r + 1 + length v * 2 = length B.
Proof.
  induction v as [|x v IH]; intros A B L; cbn [print_hex flat_map app map].
  - exists (tl B). split; [reflexivity|]. destruct B; cbn [tl length] in *; lia.
  - cbn [length Nat.mul] in L. destruct B as [|b0 B]; [cbn in L; lia|].
    cbn [tl]. cbn [length] in *.
    change (S (length B)) with (length (Some x00 :: B)) at 1.
    rewrite digits_hex2.
    rewrite snprint_at by (cbn [length]; lia). cbn [rbind length map].
    specialize (IH (A ++ [Some (digit (Byte.to_N x / 16)); Some (digit (Byte.to_N x mod 16))])
                   (skipn 1 B)).
    rewrite app_length in IH. cbn [length] in IH.
    destruct B as [|b1 B]; [cbn in L; lia|]. cbn [skipn length] in *.
    destruct (IH ltac:(lia)) as (r & Er & Lr).
    exists r. split; [|lia].
    replace (S (S (length B)) - 2) with (length B) by lia.
    rewrite <- app_assoc in Er. cbn [app] in Er.
    cbn [app]. transitivity (print_hex
      (A ++ Some (digit (Byte.to_N x / 16)) :: Some (digit (Byte.to_N x mod 16)) :: Some x00 :: tl B)
      (length A + 2) (length B) v); [destruct B; reflexivity|].
    rewrite Er. rewrite <- app_assoc. reflexivity.
Qed.

Lemma print_elem_at (A B : list cell) e :
  length (elem_text e) < length B ->
  exists r, print_elem (A ++ B) (length A) (length B) e
            = Done (A ++ map Some (elem_text e) ++ Some x00 :: r)
            /\ length r + 1 + length (elem_text e) = length B.
Proof.
  intros L. destruct e as [t|v].
  - cbn [print_elem elem_text] in *. exists (skipn (S (length t)) B).
    rewrite snprint_at by exact L. split; [reflexivity|]. rewrite skipn_length. lia.
  - assert (Q := elem_length_text (EBinary v)). cbn [elem_length] in Q.
    cbn [print_elem]. rewrite <- Q in L.
    replace (Nat.ltb _ _) with true by (symmetry; apply Nat.ltb_lt; lia).
    rewrite snprint_at by (cbn [length]; lia). cbn [rbind map length].
    destruct (@print_hex_at v (A ++ [Some x30; Some x78]) (skipn 2 B)) as (r & Er & Lr).
    { rewrite skipn_length. lia. }
    exists r. rewrite app_length in Er. cbn [length] in Er.
    rewrite <- app_assoc in Er. cbn [app] in Er.
    replace (length (skipn 2 B)) with (length B - 2) in Er by (rewrite skipn_length; lia).
    replace (tl (skipn 2 B)) with (skipn 3 B) in Er
      by (destruct B as [|? [|? [|? B]]]; reflexivity).
    cbn [app]. rewrite Er. split.
    + f_equal. rewrite <- app_assoc. reflexivity.
    + rewrite skipn_length in Lr. lia.
Qed.

(** Printing an element that does not fit leaves the text before it alone. *)
Lemma print_elem_cut (A B : list cell) e :
  length B <= length (elem_text e) ->
  exists B', print_elem (A ++ B) (length A) (length B) e = Done (A ++ B') /\ length B' = length B.
Proof.
  intros L. destruct e as [t|v].
  - destruct (snprint_cut A B t L) as (B1 & L1 & E). exists B1. auto.
  - assert (Q := elem_length_text (EBinary v)). cbn [elem_length] in Q.
    cbn [print_elem]. rewrite <- Q in L.
    replace (Nat.ltb _ _) with false by (symmetry; apply Nat.ltb_ge; lia).
    exists B. auto.
Qed.

Lemma print_elem_any (A B : list cell) e :
  exists B', print_elem (A ++ B) (length A) (length B) e = Done (A ++ B') /\ length B' = length B.
Proof.
  destruct (Nat.le_gt_cases (length B) (length (elem_text e))) as [L|L].
  - apply print_elem_cut. exact L.
  - destruct (print_elem_at A B e L) as (r & E & Lr). eexists. split; [exact E|].
    rewrite app_length, map_length. cbn [length]. lia.
Qed.

(** What the loop needs between two passes. *)
Definition begun (b : LBuf) (T : bytes) : Prop :=
  exists B, lb_cells b = map Some T ++ B /\ lb_pos b = length T /\ length T < lb_size b.
Lemma holds_begun b T : holds b T -> begun b T.
Proof.
  intros H. destruct (holds_remaining H) as (_ & L). destruct H as (B & E & P).
  eexists. eauto.
Qed.

(** A pass that accepts the element. *)
Lemma array_accept k b T e l :
  begun b T -> length T + length (elem_text e) + 3 < lb_size b ->
  exists b', holds b' (T ++ elem_text e ++ (match l with [] => [] | _ => [x2c; x20] end)) /\
             lb_size b' = lb_size b /\
             lb_array (S k) b (e :: l)
             = match l with [] => Done b' | _ => lb_array k b' l end.
Proof.
  intros (B & E & P & L0) L.
  assert (LB : length B = lb_size b - length T)
    by (unfold lb_size; rewrite E, app_length, map_length; lia).
  assert (LT : length (map (@Some byte) T) = length T) by apply map_length.
  cbn [lb_array]. unfold remaining. rewrite P.
  replace (Nat.leb _ _) with true by (symmetry; apply Nat.leb_le; lia). cbn [rbind].
  rewrite E, <- LB, <- LT.
  destruct (@print_elem_at (map Some T) B e ltac:(lia)) as (r & Ep & Lr).
  rewrite Ep. cbn [rbind]. rewrite elem_length_text.
  replace (Nat.ltb _ _) with true by (symmetry; apply Nat.ltb_lt; lia).
  destruct l as [|e' l].
  - eexists. split; [|split; [|reflexivity]].
    + exists r. cbn [lb_cells lb_pos]. rewrite app_nil_r, map_app, <- app_assoc, app_length.
      split; [reflexivity|lia].
    + unfold lb_size. cbn [lb_cells]. rewrite E, !app_length, !map_length. cbn [length]. lia.
  - rewrite (app_assoc (map Some T) (map Some (elem_text e))), <- map_app.
    replace (length (map Some T) + length (elem_text e))
      with (length (map (@Some byte) (T ++ elem_text e))) by (rewrite !map_length, app_length; lia).
    replace (length (map Some (T ++ elem_text e) ++ Some x00 :: r) -
             length (map (@Some byte) (T ++ elem_text e))) with (length (Some x00 :: r))
      by (rewrite app_length; lia).
    rewrite snprint_at by (cbn [length]; lia). cbn [rbind].
    eexists. split; [|split; [|reflexivity]].
    + exists (skipn 3 (Some x00 :: r)). cbn [lb_cells lb_pos].
      rewrite !map_app, !app_length, map_length, <- !app_assoc. cbn [length].
      rewrite map_length. split; [reflexivity|lia].
    + unfold lb_size. cbn [lb_cells length]. rewrite E, !app_length, !map_length.
      cbn [length skipn]. rewrite app_length. destruct r as [|? [|? r]]; cbn [skipn length] in *; lia.
Qed.

(** A pass that only enlarges the buffer. *)
Lemma array_enlarge k b T e l :
  begun b T -> buffer_size (lb_size b) ->
  lb_size b <= length T + length (elem_text e) + 3 ->
  length T + length (elem_text e) + 3 <= S k ->
  exists b' j, begun b' T /\ lb_size b' = lb_size b * 2 ^ j /\
             length T + length (elem_text e) + 3 <= lb_size b' /\
             lb_array (S k) b (e :: l) = lb_array k b' (e :: l).
Proof.
  intros (B & E & P & L0) S L Lf.
  assert (LB : length B = lb_size b - length T)
    by (unfold lb_size; rewrite E, app_length, map_length; lia).
  assert (LT : length (map (@Some byte) T) = length T) by apply map_length.
  cbn [lb_array]. unfold remaining. rewrite P.
  replace (Nat.leb _ _) with true by (symmetry; apply Nat.leb_le; lia). cbn [rbind].
  rewrite E, <- LB, <- LT.
  destruct (print_elem_any (map Some T) B e) as (B1 & Ep & L1).
  rewrite Ep. cbn [rbind]. rewrite elem_length_text.
  replace (Nat.ltb _ _) with false by (symmetry; apply Nat.ltb_ge; lia).
  assert (Sz : length (map Some T ++ B1) = lb_size b).
  { unfold lb_size. rewrite E, !app_length, L1. reflexivity. }
  rewrite Sz.
  destruct (@grow_done (lb_size b) (length (map (@Some byte) T) + (length (elem_text e) + 3))
              (size_pos S) (Datatypes.S k)) as (j & Eg & Lg); [lia|].
  rewrite Eg. cbn [rbind].
  exists (mkLB (enlarge (map Some T ++ B1) (lb_size b * 2 ^ j)) (length (map (@Some byte) T))), j.
  assert (2 ^ j <> 0) by (apply Nat.pow_nonzero; lia).
  assert (Sn : lb_size (mkLB (enlarge (map Some T ++ B1) (lb_size b * 2 ^ j)) (length (map (@Some byte) T)))
               = lb_size b * 2 ^ j).
  { unfold lb_size at 1. cbn [lb_cells]. unfold enlarge. rewrite app_length, repeat_length, Sz.
    assert (lb_size b <= lb_size b * 2 ^ j) by nia. lia. }
  split; [|split; [exact Sn|split; [rewrite Sn; lia|reflexivity]]].
  unfold begun. rewrite Sn. cbn [lb_cells lb_pos]. unfold enlarge. rewrite <- app_assoc.
  eexists. split; [reflexivity|]. split; [exact LT|]. nia.
Qed.

Lemma joined_cons e l :
  joined (e :: l) = elem_text e ++ match l with [] => [] | _ => [x2c; x20] ++ joined l end.
Proof. destruct l; cbn [joined]; [rewrite app_nil_r|]; reflexivity. Qed.

Lemma array_holds l : forall b T fuel,
  holds b T -> buffer_size (lb_size b) -> lengths_avoid_list (length T) l ->
  length T + length (joined l) + 3 + 2 * length l <= fuel ->
  exists b', lb_array fuel b l = Done b' /\ holds b' (T ++ joined l) /\ buffer_size (lb_size b').
Proof.
  induction l as [|e l IH]; intros b T fuel H S N Lf.
  - exists b. cbn [joined]. rewrite app_nil_r. destruct fuel; repeat split; auto.
  - cbn [lengths_avoid_list] in N. destruct N as (N1 & N2).
    rewrite joined_cons, app_length in Lf. cbn [length] in Lf.
    assert (G : forall k b1, begun b1 T -> buffer_size (lb_size b1) ->
              length T + length (elem_text e) + 3 < lb_size b1 -> fuel <= k + 2 ->
              exists b', lb_array (Datatypes.S k) b1 (e :: l) = Done b' /\ holds b' (T ++ joined (e :: l)) /\
                         buffer_size (lb_size b')).
    { intros k b1 H1 S1 L1 Lk. destruct (@array_accept k b1 T e l H1 L1) as (b2 & H2 & S2 & E2).
      rewrite E2. destruct l as [|e' l].
      - exists b2. rewrite app_nil_r in H2. rewrite S2. auto.
      - assert (Q : length (T ++ elem_text e ++ [x2c; x20]) = length T + length (elem_text e) + 2)
          by (rewrite !app_length; cbn [length]; lia).
        destruct (IH b2 (T ++ elem_text e ++ [x2c; x20]) k H2) as (b3 & E3 & H3 & S3).
        + rewrite S2. exact S1.
        + rewrite Q. exact N2.
        + rewrite Q. rewrite app_length in Lf. cbn [length] in *. lia.
        + exists b3. split; [exact E3|]. split; [|exact S3].
          rewrite joined_cons. rewrite !app_assoc in *. exact H3. }
    destruct fuel as [|k]; [lia|].
    destruct (Nat.le_gt_cases (lb_size b) (length T + length (elem_text e) + 3)) as [L|L].
    + destruct (@array_enlarge k b T e l (holds_begun H) S L ltac:(lia))
        as (b1 & j & H1 & S1 & L1 & E1).
      rewrite E1. assert (Sj := size_grows j S). rewrite <- S1 in Sj.
      destruct k as [|k]; [lia|].
      apply G; auto; [|lia].
      destruct (Nat.eq_dec (length T + length (elem_text e) + 3) (lb_size b1)) as [Q|Q]; [|lia].
      exfalso. apply N1. rewrite Q. exact Sj.
    + apply G; auto; [|lia]. exact (holds_begun H).
Qed.

(** An element that ends exactly three characters before the end of a buffer: for ever. *)
Lemma array_stuck b T e l :
  begun b T -> buffer_size (lb_size b) -> lb_size b = length T + length (elem_text e) + 3 ->
  forall fuel, lb_array fuel b (e :: l) = NoFuel.
Proof.
  intros H S L fuel. revert b H S L. induction fuel as [|k IH]; intros b H S L; [reflexivity|].
  destruct H as (B & E & P & L0).
  assert (LB : length B = lb_size b - length T)
    by (unfold lb_size; rewrite E, app_length, map_length; lia).
  assert (LT : length (map (@Some byte) T) = length T) by apply map_length.
  cbn [lb_array]. unfold remaining. rewrite P.
  replace (Nat.leb _ _) with true by (symmetry; apply Nat.leb_le; lia). cbn [rbind].
  rewrite E, <- LB, <- LT.
  destruct (print_elem_any (map Some T) B e) as (B1 & Ep & L1).
  rewrite Ep. cbn [rbind]. rewrite elem_length_text.
  replace (Nat.ltb _ _) with false by (symmetry; apply Nat.ltb_ge; lia).
  assert (Sz : length (map Some T ++ B1) = lb_size b).
  { unfold lb_size. rewrite E, !app_length, L1. reflexivity. }
  rewrite Sz. cbn [grow].
  replace (Nat.ltb _ _) with false by (symmetry; apply Nat.ltb_ge; lia). cbn [rbind].
  unfold enlarge. rewrite Sz, Nat.sub_diag, app_nil_r.
  assert (Sz' : lb_size (mkLB (map Some T ++ B1) (length (map (@Some byte) T))) = lb_size b)
    by exact Sz.
  apply IH; rewrite ?Sz'; auto.
  exists B1. rewrite Sz'. auto.
Qed.

(** ** Any sequence of calls *)

Lemma create_holds : holds lb_create [] /\ buffer_size (lb_size lb_create).
Proof.
  split.
  - exists (repeat (Some x00) (N.to_nat 1023)). split; reflexivity.
  - exists 0. unfold lb_size, lb_create. cbn [lb_cells]. rewrite repeat_length. cbn [Nat.pow]. lia.
Qed.

Lemma clear_holds b T : holds b T -> holds (lb_clear b) [] /\ lb_size (lb_clear b) = lb_size b.
Proof.
  intros (B & E & _). unfold lb_clear, lb_size, holds. rewrite E. destruct T; cbn; eauto.
Qed.

Lemma run_holds ops : forall b T,
  holds b T -> buffer_size (lb_size b) -> lengths_avoid (length T) ops ->
  exists fuel0, forall fuel, fuel0 <= fuel ->
  exists b', lb_run fuel ops b = Done b' /\ holds b' (message_text T ops) /\ buffer_size (lb_size b').
Proof.
  induction ops as [|o ops IH]; intros b T H S N.
  - exists 0. intros fuel _. exists b. repeat split; auto.
  - destruct o as [|t|l]; cbn [lengths_avoid message_text] in *.
    + destruct (clear_holds H) as (H1 & S1). rewrite <- S1 in S.
      destruct (IH (lb_clear b) [] H1 S N) as (f0 & G). exists f0. intros fuel Lf.
      cbn [lb_run lb_op rbind]. apply G. exact Lf.
    + destruct N as (N1 & N2).
      destruct (@append_holds b T t (length T + length t) H S N1 (le_n _)) as (b1 & E1 & H1 & S1).
      rewrite <- app_length in N2. destruct (IH b1 (T ++ t) H1 S1 N2) as (f0 & G).
      exists (f0 + (length T + length t)). intros fuel Lf.
      destruct (@append_holds b T t fuel H S N1 ltac:(lia)) as (b2 & E2 & H2 & S2).
      assert (Q : b2 = b1).
      { revert E1 E2. unfold lb_append. destruct (remaining b) as [n| |]; cbn [rbind]; try discriminate.
        destruct (snprint _ _ _ _) as [cs| |]; cbn [rbind]; try discriminate.
        destruct (Nat.ltb _ _); [congruence|].
        assert (Gm : forall f s need r, grow f s need = Done r -> forall f', f <= f' -> grow f' s need = Done r).
        { clear. induction f as [|f IHf]; intros s need r Eg f' Lf'; cbn [grow] in *.
          - destruct f'; cbn [grow]; destruct (Nat.ltb s need); congruence.
          - destruct f' as [|f']; [lia|]. cbn [grow]. destruct (Nat.ltb s need); [|exact Eg].
            apply (IHf _ _ _ Eg). lia. }
        destruct (grow (length T + length t) _ _) as [n1| |] eqn:Eg; cbn [rbind]; try discriminate.
        rewrite (@Gm _ _ _ _ Eg fuel) by lia. cbn [rbind]. congruence. }
      subst b2. cbn [lb_run lb_op]. rewrite E2. cbn [rbind]. apply G. lia.
    + destruct N as (N1 & N2).
      set (need := length T + length (joined l) + 3 + 2 * length l).
      destruct (@array_holds l b T need H S N1 (le_n _)) as (b1 & E1 & H1 & S1).
      rewrite <- app_length in N2. destruct (IH b1 (T ++ joined l) H1 S1 N2) as (f0 & G).
      exists (f0 + need). intros fuel Lf.
      destruct (@array_holds l b T fuel H S N1 ltac:(unfold need in *; lia)) as (b2 & E2 & H2 & S2).
      assert (Q : b2 = b1).
      { assert (Gm : forall f s nd r, grow f s nd = Done r -> forall f', f <= f' -> grow f' s nd = Done r).
        { clear. induction f as [|f IHf]; intros s nd r Eg f' Lf'; cbn [grow] in *.
          - destruct f'; cbn [grow]; destruct (Nat.ltb s nd); congruence.
          - destruct f' as [|f']; [lia|]. cbn [grow]. destruct (Nat.ltb s nd); [|exact Eg].
            apply (IHf _ _ _ Eg). lia. }
        assert (Am : forall f b l r, lb_array f b l = Done r -> forall f', f <= f' -> lb_array f' b l = Done r).
        { clear - Gm. induction f as [|f IHf]; intros b l r Ea f' Lf'.
          - destruct l; cbn [lb_array] in Ea; [|discriminate]. destruct f'; exact Ea.
          - destruct f' as [|f']; [lia|]. destruct l as [|e l]; [exact Ea|]. cbn [lb_array] in *.
            destruct (remaining b) as [n| |]; cbn [rbind] in *; try discriminate.
            destruct (print_elem _ _ _ _) as [cs| |]; cbn [rbind] in *; try discriminate.
            destruct (Nat.ltb _ n).
            + destruct l; [exact Ea|]. destruct (snprint _ _ _ _); cbn [rbind] in *; try discriminate.
              apply (IHf _ _ _ Ea). lia.
            + destruct (grow (Datatypes.S f) _ _) as [n1| |] eqn:Eg; cbn [rbind] in *; try discriminate.
              rewrite (@Gm _ _ _ _ Eg (Datatypes.S f')) by lia. cbn [rbind].
              apply (IHf _ _ _ Ea). lia. }
        rewrite (@Am _ _ _ _ E1 fuel) in E2 by lia. congruence. }
      subst b2. cbn [lb_run lb_op]. rewrite E2. cbn [rbind]. apply G. lia.
Qed.

Lemma digit_plain n : (n < 16)%N -> digit n <> x00.
Proof.
  intros L. assert (G : forallb (fun k => negb (Byte.eqb (digit (N.of_nat k)) x00)) (seq 0 16) = true)
    by reflexivity.
  rewrite forallb_forall in G.
  assert (X := G (N.to_nat n) (proj2 (in_seq 16 0 (N.to_nat n)) ltac:(lia))).
  rewrite N2Nat.id in X. intros E. rewrite E in X. discriminate X.
Qed.
Lemma elem_text_plain e : elem_plain e -> plain (elem_text e).
Proof.
  destruct e as [t|v]; cbn [elem_plain elem_text]; [auto|]. intros _ H.
  apply in_app_or in H. destruct H as [H|H].
  - cbn in H. repeat (destruct H as [H|H]; [discriminate|]). exact H.
  - apply in_flat_map in H. destruct H as (b & _ & H). cbn in H.
    assert (Lb : (Byte.to_N b < 256)%N) by (pose proof (Byte.to_N_bounded b); lia).
    destruct H as [H|[H|H]]; [| |exact H]; revert H; apply digit_plain.
    + apply N.div_lt_upper_bound; lia.
    + apply N.mod_lt. lia.
Qed.
Lemma plain_app t u : plain t -> plain u -> plain (t ++ u).
Proof. intros H1 H2 H. apply in_app_or in H. destruct H; auto. Qed.
Lemma joined_plain l : Forall elem_plain l -> plain (joined l).
Proof.
  induction 1 as [|e l He _ IH]; [intros H; exact H|]. rewrite joined_cons.
  apply plain_app; [apply elem_text_plain; exact He|]. destruct l; [intros H; exact H|].
  apply plain_app; [|exact IH]. intros H. cbn in H. repeat (destruct H as [H|H]; [discriminate|]). exact H.
Qed.
Lemma text_plain ops : forall T, plain T -> Forall op_plain ops -> plain (message_text T ops).
Proof.
  induction ops as [|o ops IH]; intros T HT H; [exact HT|]. inversion H as [|? ? Ho Hops]; subst.
  destruct o as [|t|l]; cbn [message_text].
  - apply IH; [intros X; exact X|exact Hops].
  - apply IH; [apply plain_app; assumption|exact Hops].
  - apply IH; [apply plain_app; [assumption|apply joined_plain; exact Ho]|exact Hops].
Qed.

Lemma log_text ops :
  Forall op_plain ops -> lengths_avoid 0 ops ->
  exists fuel0, forall fuel, fuel0 <= fuel ->
  exists b, lb_run fuel ops lb_create = Done b /\ c_string (lb_cells b) = Some (message_text [] ops).
Proof.
  intros Hp Ha. destruct create_holds as (H & S).
  destruct (run_holds ops H S Ha) as (f0 & G). exists f0. intros fuel Lf.
  destruct (G fuel Lf) as (b & E & Hb & _). exists b. split; [exact E|].
  apply holds_string; [|exact Hb]. apply text_plain; [intros X; exact X|exact Hp].
Qed.

(** Never out of bounds: whatever the lengths, the calls stay inside the allocation. *)

Definition inside (b : LBuf) : Prop := lb_pos b <= lb_size b /\ 1 <= lb_size b.

Lemma snprint_inside cs p n t :
  p + n <= length cs -> exists cs', snprint cs p n t = Done cs' /\ length cs' = length cs.
Proof.
  intros L. unfold snprint. destruct n as [|n]; [eauto|].
  unfold store. rewrite app_length, firstn_length. cbn [length].
  replace (Nat.leb _ _) with true by (symmetry; apply Nat.leb_le; lia).
  eexists. split; [reflexivity|].
  rewrite !app_length, map_length, firstn_length, skipn_length, app_length, firstn_length.
  cbn [length]. lia.
Qed.
Lemma print_hex_inside v : forall cs s n, s + n <= length cs -> length v * 2 <= n ->
  exists cs', print_hex cs s n v = Done cs' /\ length cs' = length cs.
Proof.
  induction v as [|x v IH]; intros cs s n L Lv; [cbn; eauto|].
  cbn [print_hex length Nat.mul] in *.
  destruct (@snprint_inside cs s n (hex2 x) L) as (cs1 & E1 & L1). rewrite E1. cbn [rbind].
  destruct (IH cs1 (s + 2) (n - 2)) as (cs2 & E2 & L2); [lia|lia|].
  exists cs2. split; [exact E2|lia].
Qed.
Lemma print_elem_inside cs s n e : s + n <= length cs ->
  exists cs', print_elem cs s n e = Done cs' /\ length cs' = length cs.
Proof.
  intros L. destruct e as [t|v]; cbn [print_elem]; [apply snprint_inside; exact L|].
  destruct (Nat.ltb _ n) eqn:C; [|eauto]. apply Nat.ltb_lt in C.
  destruct (@snprint_inside cs s n [x30; x78] L) as (cs1 & E1 & L1). rewrite E1. cbn [rbind].
  destruct (@print_hex_inside v cs1 (s + 2) (n - 2)) as (cs2 & E2 & L2); [lia|lia|].
  exists cs2. split; [exact E2|lia].
Qed.
Lemma remaining_inside b : inside b -> remaining b = Done (lb_size b - lb_pos b).
Proof.
  intros (L & _). unfold remaining.
  replace (Nat.leb _ _) with true by (symmetry; apply Nat.leb_le; lia). reflexivity.
Qed.
Lemma grow_safe fuel : forall s need, grow fuel s need = NoFuel \/
  exists r, grow fuel s need = Done r /\ s <= r /\ need <= r.
Proof.
  induction fuel as [|k IH]; intros s need; cbn [grow]; destruct (Nat.ltb s need) eqn:C.
  - auto.
  - apply Nat.ltb_ge in C. right. eauto.
  - destruct (IH (s * 2) need) as [E|(r & E & L1 & L2)]; [auto|]. right. exists r. split; [exact E|lia].
  - apply Nat.ltb_ge in C. right. eauto.
Qed.

Lemma append_safe fuel b t : inside b ->
  lb_append fuel b t = NoFuel \/ exists b', lb_append fuel b t = Done b' /\ inside b'.
Proof.
  intros H. assert (R := remaining_inside H). destruct H as (L & L1). unfold lb_append. rewrite R.
  cbn [rbind].
  destruct (@snprint_inside (lb_cells b) (lb_pos b) (lb_size b - lb_pos b) t) as (cs & E & Lc);
    [unfold lb_size in *; lia|].
  rewrite E. cbn [rbind]. fold (lb_size b) in Lc. destruct (Nat.ltb _ _) eqn:C.
  - apply Nat.ltb_lt in C. right. eexists. split; [reflexivity|].
    unfold inside, lb_size at 1 2. cbn [lb_cells lb_pos]. lia.
  - destruct (grow_safe fuel (length cs) (lb_pos b + length t)) as [G|(r & G & G1 & G2)];
      rewrite G; cbn [rbind]; [auto|].
    assert (Le : length (enlarge cs r) = r) by (unfold enlarge; rewrite app_length, repeat_length; lia).
    destruct (@snprint_inside (enlarge cs r) (lb_pos b) (r - lb_pos b) t) as (cs2 & E2 & L2); [lia|].
    rewrite E2. cbn [rbind]. right. eexists. split; [reflexivity|].
    unfold inside, lb_size. cbn [lb_cells lb_pos]. lia.
Qed.
Lemma array_safe fuel : forall b l, inside b ->
  lb_array fuel b l = NoFuel \/ exists b', lb_array fuel b l = Done b' /\ inside b'.
Proof.
  induction fuel as [|k IH]; intros b l H; (destruct l as [|e l]; [right; exists b; auto|]);
    [left; reflexivity|].
  assert (R := remaining_inside H). destruct H as (L & L1). cbn [lb_array]. rewrite R. cbn [rbind].
  destruct (@print_elem_inside (lb_cells b) (lb_pos b) (lb_size b - lb_pos b) e) as (cs & E & Lc);
    [unfold lb_size in *; lia|].
  rewrite E. cbn [rbind]. fold (lb_size b) in Lc. destruct (Nat.ltb _ _) eqn:C.
  - apply Nat.ltb_lt in C. destruct l as [|e' l].
    + right. eexists. split; [reflexivity|]. unfold inside, lb_size at 1 2. cbn [lb_cells lb_pos]. lia.
    + destruct (@snprint_inside cs (lb_pos b + elem_length e) (length cs - (lb_pos b + elem_length e))
                  [x2c; x20]) as (cs1 & E1 & Lc1); [lia|].
      rewrite E1. cbn [rbind]. apply IH. unfold inside, lb_size. cbn [lb_cells lb_pos].
      unfold lb_size in *. lia.
  - destruct (grow_safe (S k) (length cs) (lb_pos b + (elem_length e + 3))) as [G|(r & G & G1 & G2)];
      rewrite G; cbn [rbind]; [auto|].
    assert (Le : length (enlarge cs r) = r) by (unfold enlarge; rewrite app_length, repeat_length; lia).
    apply IH. unfold inside, lb_size. cbn [lb_cells lb_pos]. lia.
Qed.
Lemma run_safe fuel ops : forall b, inside b ->
  lb_run fuel ops b = NoFuel \/ exists b', lb_run fuel ops b = Done b' /\ inside b'.
Proof.
  induction ops as [|o ops IH]; intros b H; [right; exists b; auto|]. cbn [lb_run].
  assert (G : lb_op fuel o b = NoFuel \/ exists b', lb_op fuel o b = Done b' /\ inside b').
  { destruct o as [|t|l]; cbn [lb_op].
    - right. eexists. split; [reflexivity|]. destruct H as (L & L1).
      unfold inside, lb_clear, lb_size in *. cbn [lb_cells lb_pos].
      destruct (lb_cells b); cbn [length] in *; lia.
    - apply append_safe. exact H.
    - apply array_safe. exact H. }
  destruct G as [E|(b' & E & Hb)]; rewrite E; cbn [rbind]; [auto|]. apply IH. exact Hb.
Qed.
Lemma log_safe fuel ops : lb_run fuel ops lb_create <> UB.
Proof.
  assert (H : inside lb_create).
  { unfold inside, lb_size, lb_create. cbn [lb_cells lb_pos]. rewrite repeat_length. lia. }
  destruct (run_safe fuel ops H) as [E|(b & E & _)]; rewrite E; discriminate.
Qed.

(** ** Paths *)

Lemma legal_chars b : encode b = negb (unreserved b || delimiter b).
Proof. destruct b; reflexivity. Qed.

Lemma encoded_eq signed b : narrow signed b ->
  encoded b = if encode b then x25 :: print_2X signed b else [b].
Proof.
  intros [->|H].
  - destruct b; reflexivity.
  - destruct signed; [|destruct b; reflexivity].
    destruct b; try reflexivity; cbn in H; exfalso; revert H; apply N.le_ngt; discriminate.
Qed.
Lemma encoded_length b : length (encoded b) = 1 \/ length (encoded b) = 3.
Proof. unfold encoded. destruct (unreserved b || delimiter b); auto. Qed.
Lemma encoded_three b : encode b = true -> length (encoded b) = 3.
Proof. rewrite legal_chars. unfold encoded. destruct (unreserved b || delimiter b); [discriminate|reflexivity]. Qed.
Lemma encoded_plain b : b <> x00 -> plain (encoded b).
Proof. intros N H. destruct b; cbn in H; intuition (try discriminate). Qed.

Lemma store_T (T : bytes) (B : list cell) (t : bytes) :
  length t <= length B ->
  store (map Some T ++ B) (length T) t = Done (map Some T ++ map Some t ++ skipn (length t) B).
Proof. intros L. rewrite <- (store_at (map Some T) B t L), map_length. reflexivity. Qed.

Lemma uri_loop_spec signed path : forall (T : bytes) (B : list cell) (uriLength : nat),
  Forall (narrow signed) path -> length T + length B = uriLength -> 0 < length B ->
  exists st u, uri_loop signed (map Some T ++ B) uriLength (length T) path = Done (st, u) /\
    length u = uriLength /\
    (length (flat_map encoded path) + 4 <= length B -> st = OK) /\
    (st = Error \/
     st = OK /\ exists B', u = map Some (T ++ flat_map encoded path) ++ Some x00 :: B').
Proof.
  induction path as [|c path IH]; intros T B n Hn L L0; cbn [uri_loop].
  - rewrite store_T by (cbn; lia). cbn [rbind length].
    exists OK, (map Some T ++ map Some [x00] ++ skipn 1 B). split; [reflexivity|].
    split; [|split; [reflexivity|]].
    + rewrite !app_length, !map_length, skipn_length. cbn [length]. lia.
    + right. split; [reflexivity|]. exists (skipn 1 B). cbn [flat_map]. rewrite app_nil_r. reflexivity.
  - inversion Hn as [|? ? Hc Hp]; subst. cbn [flat_map]. rewrite app_length.
    assert (Le := encoded_length c). assert (Le' := encoded_three c).
    destruct (Nat.ltb _ (length T + 4)) eqn:C.
    + apply Nat.ltb_lt in C. exists Error, (map Some T ++ B). split; [reflexivity|].
      split; [rewrite app_length, map_length; reflexivity|]. split; [lia|auto].
    + apply Nat.ltb_ge in C. rewrite (encoded_eq Hc) in Le. rewrite (encoded_eq Hc).
      destruct (encode c) eqn:Ec; rewrite ?Ec in Le; cbn [length] in Le.
      * assert (L2 : length (print_2X signed c) = 2).
        { rewrite (encoded_eq Hc), Ec in Le'. cbn [length] in Le'. injection (Le' eq_refl). auto. }
        rewrite store_T by (cbn [length]; rewrite app_length, L2; cbn [length]; lia).
        cbn [rbind]. rewrite app_comm_cons.
        replace (length ((x25 :: print_2X signed c) ++ [x00])) with 4
          by (rewrite app_length; cbn [length]; lia).
        destruct (@IH (T ++ x25 :: print_2X signed c) (Some x00 :: skipn 4 B) (length T + length B) Hp)
          as (st & u & E & Lu & Ok & Cs).
        -- rewrite app_length. cbn [length]. rewrite skipn_length. lia.
        -- cbn [length]. lia.
        -- exists st, u. split.
           ++ rewrite <- E. rewrite !map_app, app_length, <- !app_assoc. cbn [length]. rewrite L2.
              reflexivity.
           ++ split; [exact Lu|]. split.
              ** intros H. apply Ok. cbn [length] in *. rewrite skipn_length. lia.
              ** destruct Cs as [->|(-> & B' & ->)]; [auto|]. right. split; [reflexivity|].
                 exists B'. rewrite <- app_assoc. reflexivity.
      * rewrite store_T by (cbn [length]; lia). cbn [rbind length].
        destruct (@IH (T ++ [c]) (skipn 1 B) (length T + length B) Hp) as (st & u & E & Lu & Ok & Cs).
        -- rewrite app_length, skipn_length. cbn [length]. lia.
        -- rewrite skipn_length. lia.
        -- exists st, u. split.
           ++ rewrite <- E. rewrite map_app, app_length, <- app_assoc. reflexivity.
           ++ split; [exact Lu|]. split.
              ** intros H. apply Ok. cbn [length] in *. rewrite skipn_length. lia.
              ** destruct Cs as [->|(-> & B' & ->)]; [auto|]. right. split; [reflexivity|].
                 exists B'. rewrite <- app_assoc. reflexivity.
Qed.

Lemma path_uri signed path uri :
  Forall (narrow signed) path -> plain path ->
  exists st u, FMIPathToURI signed path uri (length uri) = Done (st, u) /\
    length u = length uri /\
    (length (uri_of path) + 4 <= length uri -> st = OK) /\
    (st = Error /\ (length path + 8 <= length uri -> length uri < length (uri_of path) + 4) \/
     st = OK /\ c_string u = Some (uri_of path)).
Proof.
  intros Hn Hp. unfold FMIPathToURI, uri_of. rewrite !app_length.
  assert (Lf : length path <= length (flat_map encoded path)).
  { clear. induction path as [|c path IH]; [cbn; lia|]. cbn [flat_map length]. rewrite app_length.
    destruct (encoded_length c); lia. }
  change (length file_scheme) with 7.
  destruct (Nat.ltb (length uri) (length path + 8)) eqn:C.
  - apply Nat.ltb_lt in C. exists Error, uri. split; [reflexivity|]. split; [reflexivity|].
    split; [lia|]. left. split; [reflexivity|lia].
  - apply Nat.ltb_ge in C.
    change (store uri 0) with (store ([] ++ uri) (length (@nil (option byte)))).
    rewrite store_at by (cbn [length]; lia). cbn [rbind app length].
    destruct (@uri_loop_spec signed path file_scheme (Some x00 :: skipn 8 uri) (length uri) Hn)
      as (st & u & E & Lu & Ok & Cs).
    + cbn [length file_scheme]. rewrite skipn_length. lia.
    + cbn [length]. lia.
    + exists st, u. split; [exact E|]. split; [exact Lu|]. cbn [length] in Ok.
      rewrite skipn_length in Ok.
      assert (Ok' : 7 + length (flat_map encoded path) + 4 <= length uri -> st = OK).
      { intros H. destruct (Nat.eq_dec (length uri) 8) as [Q|Q]; apply Ok; lia. }
      split; [exact Ok'|].
      destruct Cs as [->|(-> & B' & ->)].
      * left. split; [reflexivity|]. intros _.
        destruct (Nat.le_gt_cases (7 + length (flat_map encoded path) + 4) (length uri)) as [H|H];
          [specialize (Ok' H); discriminate|exact H].
      * right. split; [reflexivity|].
        apply (@holds_string (mkLB (map Some (file_scheme ++ flat_map encoded path) ++ Some x00 :: B')
                                   (length (file_scheme ++ flat_map encoded path)))).
        -- apply plain_app; [intros H; cbn in H; repeat (destruct H as [H|H]; [discriminate|]); exact H|].
           intros H. apply in_flat_map in H. destruct H as (c & Hc & H). revert H. apply encoded_plain.
           intros ->. exact (Hp Hc).
        -- exists B'. split; reflexivity.
Qed.

(** Decoding *)
Lemma decode_encoded path : percent_decode (flat_map encoded path) = path.
Proof.
  assert (G : forall c s, percent_decode (encoded c ++ s) = c :: percent_decode s).
  { intros c s. destruct c; try reflexivity;
      (destruct s as [|h [|l s]]; reflexivity). }
  induction path as [|c path IH]; [reflexivity|]. cbn [flat_map]. rewrite G, IH. reflexivity.
Qed.
Lemma encode_inj p q : uri_of p = uri_of q -> p = q.
Proof.
  unfold uri_of. intros H. apply app_inv_head in H.
  rewrite <- (decode_encoded p), <- (decode_encoded q), H. reflexivity.
Qed.

(** Characters *)
Lemma uri_chars_encoded c s : (16 <= Byte.to_N c)%N ->
  uri_chars (fun b => unreserved b || delimiter b) (encoded c ++ s)
  = uri_chars (fun b => unreserved b || delimiter b) s.
Proof.
  intros H. destruct c; try reflexivity; cbn in H; exfalso; revert H; apply N.lt_nge; reflexivity.
Qed.
Lemma uri_chars_path p : Forall (fun b => (16 <= Byte.to_N b)%N) p ->
  uri_chars (fun b => unreserved b || delimiter b) (uri_of p) = true.
Proof.
  intros H. unfold uri_of.
  transitivity (uri_chars (fun b => unreserved b || delimiter b) (flat_map encoded p)); [reflexivity|].
  induction H as [|c p Hc _ IH]; [reflexivity|]. cbn [flat_map]. rewrite uri_chars_encoded by exact Hc.
  exact IH.
Qed.

(** The FMI 2 build of Resource opens the file behind the URI. *)
Lemma cstr_plain t : plain t -> cstr t = t.
Proof.
  induction t as [|x t IH]; intros H; [reflexivity|]. cbn [cstr].
  assert (Hx : x <> x00) by (intros ->; apply H; left; reflexivity).
  assert (Ht : cstr t = t) by (apply IH; intros X; apply H; right; exact X).
  destruct x; try (rewrite Ht; reflexivity). contradiction.
Qed.

(** *** The same about the function itself *)
Lemma uri_result signed path uri u : Forall (narrow signed) path -> plain path ->
  FMIPathToURI signed path uri (length uri) = Done (OK, u) -> c_string u = Some (uri_of path).
Proof.
  intros Hn Pp E. destruct (path_uri (signed := signed) uri Hn Pp) as (st & v & E1 & _ & _ & C).
  rewrite E in E1. inversion E1; subst st v. destruct C as [(X & _)|(_ & X)]; [discriminate|exact X].
Qed.
Lemma uri_injective signed p q b c u v :
  Forall (narrow signed) p -> plain p -> Forall (narrow signed) q -> plain q ->
  FMIPathToURI signed p b (length b) = Done (OK, u) -> FMIPathToURI signed q c (length c) = Done (OK, v) ->
  c_string u = c_string v -> p = q.
Proof.
  intros N1 P1 N2 P2 E1 E2 C. rewrite (uri_result _ N1 P1 E1), (uri_result _ N2 P2 E2) in C.
  apply encode_inj. congruence.
Qed.
Lemma uri_characters signed path uri u loc :
  Forall (narrow signed) path -> Forall (fun b => (16 <= Byte.to_N b)%N) path ->
  FMIPathToURI signed path uri (length uri) = Done (OK, u) -> c_string u = Some loc ->
  uri_chars (fun b => unreserved b || delimiter b) loc = true.
Proof.
  intros Hn H16 E C.
  assert (Pp : plain path).
  { intros I. rewrite Forall_forall in H16. specialize (H16 _ I). vm_compute in H16. contradiction. }
  rewrite (uri_result _ Hn Pp E) in C. injection C as <-. apply uri_chars_path. exact H16.
Qed.

(** The two ways in which the log buffer goes wrong *)
Lemma log_endless t : length t = N.to_nat 1021 -> forall fuel,
  lb_run fuel [LArray [EText t]] lb_create = NoFuel.
Proof.
  intros L fuel. unfold lb_run. cbn [lb_op].
  rewrite (@array_stuck lb_create [] (EText t) []); [reflexivity| | |].
  - apply holds_begun. apply create_holds.
  - apply create_holds.
  - unfold lb_size, lb_create. cbn [lb_cells elem_text]. rewrite repeat_length. cbn [length]. lia.
Qed.
