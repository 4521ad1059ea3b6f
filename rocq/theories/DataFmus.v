(** DataFmus.v -- what the variables of each FMU are worth after an assignment. *)
From Coq Require Import List NArith ZArith Bool Arith Lia Eqdep_dec.
From Verif Require Import Base Instance ModelIface Core Fmi3 Fmi2 Api Logic Calls Fmus SpecModes Gate
  Sim SimSys SimSys2 SimMade SimSS SimFT SpecVars Vars VarsFmus.
From Verif Require Import FmuBouncingBall FmuDahlquist FmuStair FmuVanDerPol FmuRoberts
  FmuClocks FmuResource FmuStateSpace FmuFeedthrough.
Import ListNotations.
Set Implicit Arguments.

Section Data.
  Context {F : Type} {NF : Num F}.

  Definition vars_all (v : Version) (f : FMU) : VarLaws (model_of (F := F) v f) :=
    match f with
    | BouncingBall => bb_laws
    | Clocks => cl_laws
    | Dahlquist => da_laws
    | Feedthrough => ft_laws (isFMI2 v)
    | Resource => re_laws (isFMI2 v)
    | Roberts => ro_laws
    | Stair => st_laws
    | StateSpace => ss_laws
    | VanDerPol => vp_laws
    end.
  Notation wf v f i := (vl_wf (vars_all v f) (data (mut i))).

  Lemma wf_of lg vals v f (u u' : Mut F (md (model_of v f))) : mutR (rel (F := F) lg false vals v f) u u' -> vl_wf (vars_all v f) (data u).
  Proof.
    intros [? ? ? ? ? ? ? ? H]. destruct f; try exact I; cbn in H.
    - destruct H as (_ & A & B). split; assumption.
    - apply H.
  Qed.
  Lemma wf_reach v f szof s : reach3 (model_of v f) szof s -> wf v f (sinst s).
  Proof. intro R. pose proof (rel_diag True True v f R) as [[_ H] _]. exact (wf_of _ _ _ _ (ir_mut H)). Qed.
  Lemma wf_reach2 v f szof s : reach2 (model_of v f) szof s -> wf v f (sinst s).
  Proof. intro R. pose proof (rel_diag2 True True v f R) as [[_ H] _]. exact (wf_of _ _ _ _ (ir_mut H)). Qed.

  (** ** The sizes of the variables. *)
  Ltac cases vr := repeat match goal with |- context [N.eqb vr ?n] => destruct (N.eqb_spec vr n); [subst vr|] end.
  Ltac unval := unfold bb_value || unfold da_value || unfold vp_value || unfold st_value || unfold ro_value || unfold cl_value || unfold ft_value || unfold re_value.
  Ltac varsplit vr :=
    try unval;
    try unfold bb_var; try unfold da_var; try unfold vp_var; try unfold st_var; try unfold ro_var; try unfold cl_var;
    try unfold ft_var; try unfold re_var; try unfold ss_var; cases vr.
  Definition dimension (d : SSData F) (vr : N) : nat :=
    if N.eqb vr 1 then ss_m d else if N.eqb vr 2 then ss_n d else ss_r d.
  Definition dimensions (f : FMU) (v : Version) : md (model_of (F := F) v f) -> list N -> nat :=
    match f with
    | StateSpace => fun d dims => fold_right (fun vr k => dimension d vr * k) 1 dims
    | _ => fun _ _ => 1
    end.
  Ltac inl := cbn; repeat (first [left; reflexivity | right]).
  Definition typed (v : Version) (t : VType) : Prop := v = FMI2 -> In t [TFloat64; TInt32; TBoolean; TString].
  Lemma size_some v f t vr d k : typed v t -> vl_size (vars_all v f) t vr d = Some k ->
    exists dims, In (vr, t, dims) (variables v f) /\ k = dimensions f v d dims /\ (f <> StateSpace -> dims = []).
  Proof.
    intro T. destruct f; cbn [vars_all]; unfold dimensions.
    1, 2, 3, 5, 6, 7, 9:
      (cbn -[N.eqb]; unfold sc_size; cbn -[N.eqb]; destruct t; try discriminate;
       varsplit vr; intro E; cbn in E; try discriminate; injection E as <-; exists []; (split; [inl|split; auto])).
    - destruct v; cbn -[N.eqb]; unfold sc_size; cbn -[N.eqb]; (destruct t; try discriminate; try (exfalso; destruct (T eq_refl) as [X|[X|[X|[X|[]]]]]; discriminate);
       varsplit vr; intro E; cbn in E; try discriminate; injection E as <-; exists []; (split; [inl|split; auto])).
    - change (vl_size ss_laws t vr d) with (ss_size t vr d). unfold ss_size. destruct t; try discriminate;
        varsplit vr; intro E; try discriminate; injection E as <-; cbn [md model_of StateSpace_model] in *;
        (match goal with |- exists dims, In (?n, _, _) _ /\ _ => let y := eval cbv in (find (fun x => match x with (a, _, _) => N.eqb a n end) (variables v StateSpace)) in match y with
           | Some (_, _, ?ds) => exists ds end end; split; [inl|split; [unfold dimension; cbn; try lia|congruence]]).
  Qed.
  Lemma size_declared v f t vr d : vl_size (vars_all v f) t vr d = None -> ~ declared v f t vr.
  Proof.
    intros E (dims & H). revert E.
    destruct f; cbn [vars_all]; try (cbn -[N.eqb]; unfold sc_size; cbn -[N.eqb]).
    4: destruct v.
    all: cbn in H; repeat (destruct H as [H|H]; [injection H as <- <- <-; cbv; discriminate|]); destruct H.
  Qed.

  (** ** What an assignment does to the values. *)
  Lemma sub1_paste1 T (l v w : list T) : paste1 l v = Some w -> sub1 (length l) w = Some l.
  Proof.
    unfold paste1, sub1. destruct (Nat.leb_spec (length l) (length v)); [|discriminate]. intro E. injection E as <-.
    rewrite app_length, (proj2 (Nat.leb_le _ _)) by lia. now rewrite firstn_app, firstn_all, Nat.sub_diag, firstn_O, app_nil_r.
  Qed.
  Lemma sub2_paste2 T rows cols : forall (l : list T) a b, length l = rows * cols -> paste2 rows cols l a = Some b ->
    option_map (@concat T) (sub2 rows cols b) = Some l.
  Proof.
    induction rows as [|rows IH]; intros l a b L E; cbn in *.
    - destruct l; [reflexivity|discriminate].
    - destruct a as [|r a]; [discriminate|]. destruct (paste1 (firstn cols l) r) as [x|] eqn:E1; [|discriminate].
      destruct (paste2 rows cols (skipn cols l) a) as [y|] eqn:E2; [|discriminate]. injection E as <-.
      apply sub1_paste1 in E1. rewrite firstn_length_le in E1 by lia. rewrite E1.
      apply IH in E2; [|rewrite skipn_length; lia]. destruct (sub2 rows cols y); [|discriminate]. injection E2 as E2.
      cbn. rewrite E2. now rewrite firstn_skipn.
  Qed.
  Definition overwritten (v : Version) (f : FMU) (vr : N) : md (model_of (F := F) v f) -> Prop :=
    match f return md (model_of v f) -> Prop with
    | Feedthrough => fun _ => vr = 28%N
    | Roberts => fun d => vr = 6%N /\ ro_dae d = false
    | StateSpace => fun d => vr = 5%N /\ ss_m d <> ss_n d
    | _ => fun _ => False
    end.
  Ltac unassign A := unfold bb_assign in A || unfold da_assign in A || unfold vp_assign in A || unfold st_assign in A || unfold ro_assign in A || unfold cl_assign in A || unfold ft_assign in A.
  Lemma assign_read v f t vr vs d d' e c : vl_wf (vars_all v f) d -> vl_size (vars_all v f) t vr d = Some (length vs) ->
    vl_assign (vars_all v f) t vr vs d = Some d' -> ~ overwritten v f vr d ->
    vl_value (vars_all v f) t vr c (vl_recalc (vars_all v f) e c d') = Some (map (as_read t) vs).
  Proof.
    intros W Hs A X. destruct f; cbn [vars_all] in *; unfold overwritten in X.
    8: { change (vl_assign ss_laws t vr vs d) with (ss_assign t vr vs d) in A. change (vl_size ss_laws t vr d) with (ss_size t vr d) in Hs.
         change (vl_value ss_laws t vr c (vl_recalc ss_laws e c d')) with (ss_value t vr c (ss_recalc d')).
         change (shape d) in W. cbn [md model_of StateSpace_model] in *. 
         destruct t; try discriminate.
         - cbn [as_read]. rewrite map_id.
           assert (W' : shape d').
           { clear -A W. unfold ss_assign in A. destruct W. destruct (ss_var vr) as [[]|]; try discriminate;
               (match type of A with option_map _ ?p = _ => destruct p eqn:Ep; [|discriminate] end; injection A as <-;
                constructor; cbn; auto; eauto using paste2_mat', row_paste1). }
           destruct (ss_recalc_eq W') as (dx & y & _ & _ & _ & _ & ->). unfold ss_assign in A. unfold ss_value. unfold ss_size in Hs.
           destruct (ss_var vr) as [[]|] eqn:Ev; try discriminate;
             match type of A with option_map _ ?p = _ => destruct p eqn:Ep; [|discriminate] end; injection A as <-; cbn; injection Hs as Hs;
             try (rewrite Hs; eapply sub1_paste1; eassumption);
             try (eapply sub2_paste2; [|eassumption]; cbn [val] in *; lia).
           assert (Hv : vr = 5%N) by (revert Ev; clear; unfold ss_var; cases vr; intro; discriminate || reflexivity).
           assert (Hm : ss_m d = ss_n d) by (destruct (Nat.eq_dec (ss_m d) (ss_n d)); [assumption|tauto]).
           rewrite Hm in *. eapply sub2_paste2; [|eassumption]. cbn [val] in *; lia.
         - unfold ss_assign in A. destruct vs as [|x [|]]; try discriminate. destruct (N.ltb_spec (N.of_nat SS_MAX) x); [discriminate|].
           assert (W' : shape d').
           { clear -A W H. destruct W. pose proof (n_bound x (proj2 (N.ltb_ge _ _) H)).
             destruct (ss_var vr) as [[]|]; try discriminate; injection A as <-; constructor; cbn; auto. }
           destruct (ss_recalc_eq W') as (dx & y & _ & _ & _ & _ & ->). unfold ss_value.
           destruct (ss_var vr) as [[]|]; try discriminate; injection A as <-; cbn; now rewrite N2Nat.id. }
    all: cbn [vl_assign vl_value vl_recalc bb_laws da_laws vp_laws st_laws ro_laws cl_laws ft_laws re_laws scalar_laws] in *;
      unfold sc_assign, sc_value in *; destruct vs as [|x [|]]; try discriminate;
      unassign A; destruct t; try discriminate; unval.
    all: try (match type of A with match ?w with _ => _ end = _ => destruct w as [[]|] eqn:Ev end; try discriminate; injection A as <-; reflexivity).
    all: match type of A with match ?w with _ => _ end = _ => destruct w as [[]|] eqn:Ev end; try discriminate; try (injection A as <-; reflexivity).
    - destruct v; cbn [isFMI2 negb] in *; [|discriminate]. injection A as <-. reflexivity.
    - destruct v; cbn [isFMI2 negb] in *; [discriminate|]. injection A as <-. reflexivity.
    - exfalso. apply X. revert Ev. clear. unfold ft_var. cases vr; intro; discriminate || reflexivity.
    - destruct x as [b|]; [|discriminate]. destruct (Nat.leb STRING_MAX_LEN (strlen b)); [discriminate|]. injection A as <-. reflexivity.
    - injection A as <-. cbn. unfold ro_calc, ro_alg. cbn. destruct (ro_dae d); reflexivity.
    - injection A as <-. cbn. unfold ro_calc, ro_alg. cbn. destruct (ro_dae d); reflexivity.
    - injection A as <-. cbn. unfold ro_calc, ro_alg. cbn. destruct (ro_dae d) eqn:Ed; [reflexivity|]. exfalso. apply X. split; [|reflexivity].
      revert Ev. clear. unfold ro_var. cases vr; intro; discriminate || reflexivity.
    - injection A as <-. cbn. unfold ro_calc, ro_alg. cbn. destruct x; reflexivity.
  Qed.
  Lemma assign_other v f t vr vs d d' t2 vr2 e c : vl_wf (vars_all v f) d -> vl_wf (vars_all v f) d' ->
    vl_assign (vars_all v f) t vr vs d = Some d' -> t <> TUInt64 \/ f <> StateSpace ->
    vr2 <> vr -> ~ In vr (depends f vr2) ->
    vl_value (vars_all v f) t2 vr2 c (vl_recalc (vars_all v f) e c d') = vl_value (vars_all v f) t2 vr2 c (vl_recalc (vars_all v f) e c d).
  Proof.
    intros W W' A T Hv Hd. destruct f; cbn [vars_all] in *.
    8: { change (vl_assign ss_laws t vr vs d) with (ss_assign t vr vs d) in A. change (shape d) in W. change (shape d') in W'. 
         change (ss_value t2 vr2 c (ss_recalc d') = ss_value t2 vr2 c (ss_recalc d)). cbn [md model_of StateSpace_model] in *.
         destruct t; try discriminate; [|destruct T; congruence].
         destruct (ss_recalc_eq W') as (dx' & y' & L1' & L2' & E1' & E2' & ->). destruct (ss_recalc_eq W) as (dx & y & L1 & L2 & E1 & E2 & ->).
         unfold ss_assign in A.
         destruct (ss_var vr) as [[]|] eqn:Ev; try discriminate;
           (match type of A with option_map _ ?p = _ => destruct p eqn:Ep; [|discriminate] end; injection A as <-;
            assert (Hn : vr = match ss_var vr with Some SSA => 4 | Some SSB => 5 | Some SSC => 6 | Some SSD => 7 | Some SSx0 => 8 | Some SSu => 9 | Some SSx => 11 | _ => 0 end%N)
              by (revert Ev; clear; unfold ss_var; cases vr; intro; discriminate || reflexivity); rewrite Ev in Hn; subst vr;
            cbn in E1', E2', L1', L2'; unfold ss_value; destruct t2; try reflexivity;
            destruct (ss_var vr2) as [[]|] eqn:Ev2; try reflexivity;
            (assert (Hn : vr2 = match ss_var vr2 with Some SSA => 4 | Some SSB => 5 | Some SSC => 6 | Some SSD => 7 | Some SSx0 => 8 | Some SSu => 9 | Some SSy => 10 | Some SSx => 11 | Some SSder_x => 12 | _ => 0 end%N)
              by (revert Ev2; clear; unfold ss_var; cases vr2; intro; discriminate || reflexivity); rewrite Ev2 in Hn; subst vr2);
            try (exfalso; apply Hv; reflexivity); try (exfalso; apply Hd; cbn; tauto);
            cbn; try (replace y' with y by congruence); try (replace dx' with dx by congruence); reflexivity). }
    all: cbn [vl_assign vl_value vl_recalc bb_laws da_laws vp_laws st_laws ro_laws cl_laws ft_laws re_laws scalar_laws] in *;
      unfold sc_assign, sc_value in *; destruct vs as [|x [|]]; try discriminate;
      unassign A; destruct t; try discriminate; unval.
    all: match type of A with match ?w with _ => _ end = _ => destruct w as [[]|] eqn:Ev end; try discriminate;
      try match type of A with
          | context [isFMI2 ?w] => destruct w; cbn [isFMI2 negb] in A; try discriminate
          | context [strlen] => destruct x as [b|]; [|discriminate]; destruct (Nat.leb STRING_MAX_LEN (strlen b)); [discriminate|]
          end;
      injection A as <-; cbn [md model_of Roberts_model] in *.
    all: destruct t2; try reflexivity;
      match goal with |- option_map _ (match ?w with _ => _ end) = _ => destruct w as [[]|] eqn:Ev2 end; try reflexivity;
      try (unfold ro_calc, ro_alg; cbn; destruct (ro_dae d) eqn:Ed; cbn; rewrite ?Ed; reflexivity);
      try (exfalso; clear -Ev Ev2 Hv Hd; revert Ev Ev2; varsplit vr; intro Ev; try discriminate; varsplit vr2; intro; try discriminate; first [apply Hv; reflexivity | apply Hd; cbn; tauto]).
    all: unfold ro_calc, ro_alg; cbn; destruct x, (ro_dae d); reflexivity.
  Qed.
End Data.
