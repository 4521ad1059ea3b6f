(** FTKeep.v -- an input or parameter of Feedthrough keeps its value until it is assigned or the instance is
    reset or restored (for C35). *)
From Coq Require Import List NArith ZArith Bool Arith Lia.
From Verif Require Import Base Instance ModelIface Core Fmi3 Fmi2 Api Logic Calls Fmus SpecModes Histories Keeps KeepRules VarsFmus FmuFeedthrough.
Import ListNotations.
Set Implicit Arguments.

Section FTKeep.
  Context {F : Type} {NF : Num F}.
  Definition ft_vr (w : FTVar) : N :=
    match w with
    | FTtime => 0 | FTf32c_in => 1 | FTf32c_out => 2 | FTf32d_in => 3 | FTf32d_out => 4 | FTf64_fixed => 5 | FTf64_tunable => 6
    | FTf64c_in => 7 | FTf64c_out => 8 | FTf64d_in => 9 | FTf64d_out => 10 | FTi8_in => 11 | FTi8_out => 12 | FTu8_in => 13
    | FTu8_out => 14 | FTi16_in => 15 | FTi16_out => 16 | FTu16_in => 17 | FTu16_out => 18 | FTi32_in => 19 | FTi32_out => 20
    | FTu32_in => 21 | FTu32_out => 22 | FTi64_in => 23 | FTi64_out => 24 | FTu64_in => 25 | FTu64_out => 26 | FTbool_in => 27
    | FTbool_out => 28 | FTstr_in => 29 | FTstr_out => 30 | FTbin_in => 31 | FTbin_out => 32 | FTenum_in => 33 | FTenum_out => 34
    end%N.
  Lemma ft_var_vr vr w : ft_var vr = Some w -> vr = ft_vr w.
  Proof.
    unfold ft_var. repeat match goal with |- (if N.eqb vr ?k then _ else _) = _ -> _ => destruct (N.eqb_spec vr k); [intro H; injection H as <-; assumption|] end.
    discriminate.
  Qed.
  Definition ft_input (w : FTVar) : bool :=
    match w with
    | FTf32c_in | FTf32d_in | FTf64_fixed | FTf64_tunable | FTf64c_in | FTf64d_in | FTi8_in | FTu8_in | FTi16_in | FTu16_in
    | FTi32_in | FTu32_in | FTi64_in | FTu64_in | FTbool_in | FTstr_in | FTbin_in | FTenum_in => true
    | _ => false
    end.
  Definition ft_same (w : FTVar) (d d' : FTData F) : Prop :=
    (forall fmi2 t c, ft_value fmi2 t (ft_vr w) c d' = ft_value fmi2 t (ft_vr w) c d) /\
    (w = FTbin_in -> ft_bin_in d' = ft_bin_in d).
  Definition ft_kept (w : FTVar) (u u' : Mut F (FTData F)) : Prop := ft_same w (data u) (data u').
  Lemma ft_kept_refl w u : ft_kept w u u.
  Proof. split; auto. Qed.
  Lemma ft_kept_trans w a b c : ft_kept w a b -> ft_kept w b c -> ft_kept w a c.
  Proof.
    intros (A & A') (B & B'). split; [intros; rewrite B; apply A|]. intro H. rewrite (B' H). exact (A' H).
  Qed.
  Lemma ft_kept_data w u u' : data u' = data u -> ft_kept w u u'.
  Proof. unfold ft_kept. intros ->. apply ft_kept_refl. Qed.

  Lemma ft_keeps fmi2 w : ft_input w = true ->
    @KeepLaws F NF (Feedthrough_model fmi2) (ft_kept w) False (fun _ vr => vr <> ft_vr w) (fun vr => vr <> ft_vr w).
  Proof.
    intro I.
    assert (Rr := ft_kept_refl w). assert (Rt := @ft_kept_trans w).
    assert (Rd : forall f : Mut F (FTData F) -> Mut F (FTData F), (forall u, data (f u) = data u) -> forall u, ft_kept w u (f u)).
    { intros f H u. apply ft_kept_data, H. }
    assert (Rc : keepM (ft_kept w) (ft_calculateValues (F := F))).
    { unfold ft_calculateValues. kms Rr Rt; try (apply ft_kept_data; reflexivity).
      unfold ft_kept. cbn [data set_data]. destruct w; try discriminate; (split; [intros ? t ?; destruct t; reflexivity|reflexivity || discriminate]). }
    constructor; try exact Rr; try exact Rt;
      cbn [m_setStartValues m_calculateValues m_get m_set m_getBinary m_setBinary m_activateClock m_getClock m_getInterval m_activateModelPartition
           m_getContinuousStates m_getNominals m_setContinuousStates m_getDerivatives m_getEventIndicators m_getOutputDerivative m_getPartialDerivative
           m_eventUpdateF Feedthrough_model md]; try (intros; kms Rr Rt; fail).
    - intros b u. now apply ft_kept_data.
    - intros [].
    - intros t vr b n i. destruct t; unfold ft_getFloat32, ft_getFloat64, ft_getInt8, ft_getUInt8, ft_getInt16, ft_getUInt16, ft_getInt32, ft_getUInt32, ft_getInt64, ft_getUInt64, ft_getBoolean, ft_getString; unfold nnGet; destruct b; kms Rr Rt.
    - intros t vr b n i Hv. cbv beta in Hv.
      assert (Hw : forall w', ft_var vr = Some w' -> w' <> w) by (intros w' E ->; apply ft_var_vr in E; congruence).
      destruct t; unfold ft_setFloat32, ft_setFloat64, ft_setInt8, ft_setUInt8, ft_setInt16, ft_setUInt16, ft_setInt32, ft_setUInt32, ft_setInt64, ft_setUInt64, ft_setBoolean, ft_setString;
        destruct (ft_var vr) as [w'|]; try (specialize (Hw w' eq_refl); destruct w'); kms Rr Rt; try (apply ft_kept_data; reflexivity);
        unfold ft_kept; cbn [data set_data]; destruct w; try discriminate; try (now contradiction Hw);
        (split; [intros ? t ?; destruct t; reflexivity|reflexivity || discriminate]).
    - intros vr z b n i Hv. cbv beta in Hv.
      assert (Hw : forall w', ft_var vr = Some w' -> w' <> w) by (intros w' E ->; apply ft_var_vr in E; congruence).
      unfold ft_setBinary. destruct (ft_var vr) as [w'|]; try (specialize (Hw w' eq_refl); destruct w'); kms Rr Rt; try (apply ft_kept_data; reflexivity);
        unfold ft_kept; cbn [data set_data]; destruct w; try discriminate; try (now contradiction Hw);
        (split; [intros ? t ?; destruct t; reflexivity|reflexivity || discriminate]).
    - unfold ft_eventUpdate. kms Rr Rt; apply ft_kept_data; reflexivity.
  Qed.
End FTKeep.
