(** Wrapper.v -- proofs about the wrapper functions of the importer (C44). *)
From Coq Require Import List NArith ZArith Bool Arith.
From Verif Require Import Base Instance ModelIface Core Fmi3 Fmi2 Api Fmus LawsFmus SpecModes Reach SpecHist Histories Modes Instances
  ImpWrap SpecWrap.
Import ListNotations.
Set Implicit Arguments.

Section Tracks.
  Context {F : Type} {NF : Num F} (f : FMU) (szof : N) (fuel : nat).

  Section Three.
    Notation m := (model_of (F := F) FMI3 f).
    Notation D := (md m).

    Definition follows (w : Wrap) (s : Sys F D) : Prop :=
      mode_named (w_state w) = Some (mode_of s) /\ w_type w = itype (ctl (sinst s)) /\
      (itype (ctl (sinst s)) = CoSimulation -> w_eventMode w = eventModeUsed (ctl (sinst s))).

    Lemma eventMode_kept env o s out s' t : reach3 m szof s -> unfollowed3 m o = false ->
      exec3 m szof fuel env o s = Done (OK, out, s', t) ->
      eventModeUsed (ctl (sinst s')) = eventModeUsed (ctl (sinst s)).
    Proof.
      intros R U E. pose proof (@settings_3 F NF f szof fuel env o s OK out s' t R E) as H.
      destruct o; cbn [effect3 settings3 unfollowed3] in *; cbv zeta in *; try discriminate;
        repeat match goal with H : exists _, _ |- _ => destruct H as [? H] end;
        repeat match goal with
               | H : _ /\ _ |- _ => destruct H
               | H : _ \/ _ |- _ => destruct H
               end; try discriminate;
        match goal with
        | H : ctl (sinst s') = _ |- _ => rewrite H; destruct (ctl (sinst s)); reflexivity
        end.
    Qed.
    Lemma follows_step env o w s st out w' s' t : reach3 m szof s -> unfollowed3 m o = false ->
      follows w s -> wrap3 m szof fuel env o w s = Done (st, out, w', s', t) -> st = OK ->
      exec3 m szof fuel env o s = Done (st, out, s', t) /\ follows w' s'.
    Proof.
      intros R U (Hs & Ht & He) E ->. unfold wrap3 in E.
      destruct (before3 o w) as [w1|] eqn:B; [|discriminate].
      destruct (exec3 m szof fuel env o s) as [[[[st1 out1] s1] t1]| |] eqn:X; try discriminate.
      assert (Q : st1 = OK /\ out1 = out /\ s1 = s' /\ t1 = t) by (inversion E; auto).
      destruct Q as (-> & -> & -> & ->). split; [reflexivity|].
      destruct (proj2 (@mode_graph3 F NF f szof s R) _ _ _ _ _ _ _ X) as (_ & G). destruct (G eq_refl) as (Nx & _).
      assert (Id : itype (ctl (sinst s')) = itype (ctl (sinst s))).
      { pose proof (@exec3_identity F NF m szof (model_laws FMI3 f) fuel env o s OK out s' t
          (reach3_modes (model_laws FMI3 f) R) X) as [I _]. unfold identity in I. congruence. }
      assert (Ev := @eventMode_kept env o s out s' t R U X).
      assert (W : follows w1 s').
      { unfold follows. rewrite Nx, Id, Ev. unfold mode_of, next3 in *. clear G X E.
        destruct o; cbn [before3 unfollowed3] in *; try discriminate;
          try (injection B as <-; cbn [w_state w_type w_eventMode set_w_state mode_named]; auto; fail).
        - injection B as <-. cbn [w_state w_type w_eventMode set_w_state]. split; [|auto].
          rewrite Ht. destruct (itype (ctl (sinst s))); cbn [mode_named]; try reflexivity.
          rewrite (He eq_refl). destruct (eventModeUsed (ctl (sinst s))); reflexivity.
        - injection B as <-. cbn [w_state w_type w_eventMode set_w_state]. split; [|auto].
          destruct (w_state w); cbn [mode_named] in *; try discriminate; injection Hs as <-; reflexivity.
        - destruct (w_state w); cbn [mode_named] in *; try discriminate; injection Hs as <-;
            injection B as <-; cbn [w_state w_type w_eventMode set_w_state mode_named]; (split; [|auto]);
            try reflexivity; rewrite Ht; destruct (itype (ctl (sinst s))); reflexivity. }
      assert (Q : w' = if notes3 o then note_status OK w1 else w1) by (inversion E; auto).
      rewrite Q. destruct (notes3 o); exact W.
    Qed.

    Lemma wrapped_follows w s : wrapped3 m w s -> reach3 m szof s /\ follows w s.
    Proof.
      intros H.
      assert (G : forall ty ev r t, @instantiated F m ty ev r = Done (OK, Some (w, s), t) ->
                exists i, r = Done (Some i, t) /\ s = mkSys i [] /\ w = w_new ty ev).
      { intros ty ev r t E. unfold instantiated in E. destruct r as [[[i|] t1]| |]; try discriminate.
        exists i. inversion E. auto. }
      destruct H as [(env & n & t & r & b & e & l & tr & H)
                    |[(env & n & t & r & b & ev & er & e & l & iu & tr & H)
                     |(env & n & t & r & b & e & l & cu & lo & ul & tr & H)]];
        apply G in H as (i & Ei & -> & ->); (split; [apply reach3_new|]).
      - left. do 8 eexists. exact Ei.
      - unfold follows, mode_of, w_new. cbn [w_state w_type w_eventMode mode_named sinst].
        unfold fmi3InstantiateModelExchange in Ei.
        destruct (m_modelExchange m) in Ei; [|discriminate].
        apply create_ctl in Ei as [nm ->]. cbn. repeat split; try discriminate.
      - right; left. do 11 eexists. exact Ei.
      - unfold follows, mode_of, w_new. cbn [w_state w_type w_eventMode mode_named sinst].
        unfold fmi3InstantiateCoSimulation in Ei. destruct (negb (m_eventUpdate m) && ev); [discriminate|].
        destruct (createModelInstance _ _ _ _ _ _ _ _ _ _) as [[[j|] t1]| |] eqn:E; try discriminate.
        inversion Ei; subst; cbn. apply create_ctl in E as [nm ->]. auto.
      - right; right. do 11 eexists. exact Ei.
      - unfold follows, mode_of, w_new. cbn [w_state w_type w_eventMode mode_named sinst].
        unfold fmi3InstantiateScheduledExecution in Ei. destruct (m_scheduled m); [|discriminate].
        destruct (createModelInstance _ _ _ _ _ _ _ _ _ _) as [[[j|] t1]| |] eqn:E; try discriminate.
        inversion Ei; subst; cbn. apply create_ctl in E as [nm ->]. auto.
    Qed.

    Lemma follows_run l : forall w s obs w' s', reach3 m szof s -> follows w s ->
      (forall e o i, In (e, o) l -> image3 o = Some i -> saved3 m szof i) ->
      Forall (fun p => unfollowed3 m (snd p) = false) l ->
      wrun3 m szof fuel l w s = Done (obs, w', s') -> all_ok m obs ->
      run3 m szof fuel l s = Done (obs, s') /\ follows w' s'.
    Proof.
      induction l as [|[e o] l IH]; intros w s obs w' s' R Fo Im U E A.
      - cbn in E. inversion E; subst. split; [reflexivity|exact Fo].
      - unfold wrun3 in E. cbn [wrun] in E.
        destruct (wrap3 m szof fuel e o w s) as [[[[[st out] w1] s1] t]| |] eqn:E1; try discriminate.
        destruct (wrun m (wrap3 m szof fuel) l w1 s1) as [[[obs1 w2] s2]| |] eqn:E2; try discriminate.
        assert (Q : obs = (st, out, t) :: obs1 /\ w2 = w' /\ s2 = s') by (inversion E; auto).
        destruct Q as (-> & -> & ->). pose proof (Forall_inv A) as A1. pose proof (Forall_inv_tail A) as A2. cbn in A1.
        pose proof (Forall_inv U) as U1. pose proof (Forall_inv_tail U) as U2. cbn in U1.
        destruct (@follows_step e o w s st out w1 s1 t R U1 Fo E1 A1) as (X & Fo1).
        assert (R1 : reach3 m szof s1).
        { eapply reach3_call; [exact R| |exact X]. intros i. apply (Im e). left; reflexivity. }
        assert (Im1 : forall e0 o0 i, In (e0, o0) l -> image3 o0 = Some i -> saved3 m szof i).
        { intros e0 o0 i Hi. apply (Im e0). right; exact Hi. }
        destruct (IH w1 s1 obs1 w' s' R1 Fo1 Im1 U2 E2 A2) as (X2 & Fo2).
        split; [|exact Fo2]. unfold run3 in *. cbn [run]. rewrite X, X2. reflexivity.
    Qed.

    Lemma tracks3 w0 s0 l obs w s : wrapped3 m w0 s0 ->
      (forall e o i, In (e, o) l -> image3 o = Some i -> saved3 m szof i) ->
      Forall (fun p => unfollowed3 m (snd p) = false) l ->
      wrun3 m szof fuel l w0 s0 = Done (obs, w, s) -> all_ok m obs ->
      run3 m szof fuel l s0 = Done (obs, s) /\ mode_named (w_state w) = Some (mode_of s).
    Proof.
      intros Hw Im U E A. destruct (@wrapped_follows w0 s0 Hw) as (R & Fo).
      destruct (@follows_run l w0 s0 obs w s R Fo Im U E A) as (X & (Y & _)). auto.
    Qed.

    (** Every call but ExitConfigurationMode reaches the FMU. *)
    Lemma forwards3 l : forall w s obs s',
      Forall (fun p => snd p <> O3ExitConfigurationMode) l ->
      (run3 m szof fuel l s = Done (obs, s') <-> exists w', wrun3 m szof fuel l w s = Done (obs, w', s')).
    Proof.
      induction l as [|[e o] l IH]; intros w s obs s' N.
      - unfold run3, wrun3; cbn [run wrun]. split.
        + intros E. exists w. inversion E; auto.
        + intros (w' & E). inversion E; auto.
      - inversion N as [|? ? N1 N2]; subst. cbn in N1.
        unfold run3, wrun3 in *; cbn [run wrun]. unfold wrap3 at 1.
        destruct (before3 o w) as [w1|] eqn:B.
        2:{ exfalso. destruct o; cbn [before3] in B; try discriminate. apply N1. reflexivity. }
        destruct (exec3 m szof fuel e o s) as [[[[st out] s1] t]| |];
          [|split; [discriminate|intros (? & ?); discriminate]..].
        split.
        + destruct (run (exec3 m szof fuel) l s1) as [[obs1 s2]| |] eqn:E2; try discriminate.
          intros E. apply (IH (if notes3 o then note_status st w1 else w1) s1 obs1 s2 N2) in E2 as (w' & E2).
          rewrite E2. exists w'. inversion E; subst. reflexivity.
        + intros (w' & E).
          destruct (wrun m (wrap3 m szof fuel) l (if notes3 o then note_status st w1 else w1) s1)
            as [[[obs1 w2] s2]| |] eqn:E2; try discriminate.
          assert (X : exists w', wrun m (wrap3 m szof fuel) l (if notes3 o then note_status st w1 else w1) s1 = Done (obs1, w', s2)) by eauto.
          apply (IH _ _ _ _ N2) in X. rewrite X. inversion E; subst. reflexivity.
    Qed.
  End Three.

  Section Two.
    Notation m := (model_of (F := F) FMI2 f).
    Notation D := (md m).

    Definition follows2 (w : Wrap) (s : Sys F D) : Prop :=
      mode_named2 (w_state w) = Some (mode_of s) /\ w_type w = itype (ctl (sinst s)).

    Lemma follows2_step env o w s st out w' s' t : reach2 m szof s -> unfollowed2 m o = false ->
      follows2 w s -> wrap2 m szof fuel env o w s = Done (st, out, w', s', t) -> st = OK \/ st = Discard ->
      exec2 m szof fuel env o s = Done (st, out, s', t) /\ (st = OK -> follows2 w' s').
    Proof.
      intros R U (Hs & Ht) E _. unfold wrap2 in E.
      destruct (exec2 m szof fuel env o s) as [[[[st1 out1] s1] t1]| |] eqn:X; try discriminate.
      assert (Q : st1 = st /\ out1 = out /\ s1 = s' /\ t1 = t /\ w' = before2 o w) by (inversion E; auto).
      destruct Q as (-> & -> & -> & -> & ->). split; [reflexivity|]. intros ->.
      destruct (proj2 (@mode_graph2 F NF f szof s R) _ _ _ _ _ _ _ X) as (_ & G & _). destruct (G eq_refl) as (Nx & _).
      assert (Id : itype (ctl (sinst s')) = itype (ctl (sinst s))).
      { pose proof (@exec2_identity F NF m szof (model_laws FMI2 f) fuel env o s OK out s' t X) as [I _].
        unfold identity in I. congruence. }
      unfold follows2. rewrite Nx, Id. unfold mode_of, next2 in *.
      destruct o; cbn [before2 unfollowed2] in *; try discriminate; auto;
        cbn [w_state w_type w_eventMode set_w_state]; auto.
      rewrite Ht. split; [|reflexivity]. destruct (itype (ctl (sinst s))); reflexivity.
    Qed.
    Lemma wrapped2_follows w s : wrapped2 m w s -> reach2 m szof s /\ follows2 w s.
    Proof.
      intros (env & n & ty & t & r & e & b & tr & H). unfold FMI2Instantiate, instantiated in H.
      destruct (fmi2Instantiate m env n ty t r e true b) as [[[i|] t1]| |] eqn:Ei; try discriminate.
      inversion H; subst. split; [apply reach2_new; do 9 eexists; exact Ei|].
      unfold fmi2Instantiate in Ei. apply create_ctl in Ei as [nm Ec].
      unfold follows2, mode_of, w_new. cbn [sinst w_state w_type]. rewrite Ec. auto.
    Qed.
    Lemma forwards2 l : forall w s obs s',
      run2 m szof fuel l s = Done (obs, s') <-> exists w', wrun2 m szof fuel l w s = Done (obs, w', s').
    Proof.
      induction l as [|[e o] l IH]; intros w s obs s'; unfold run2, wrun2 in *; cbn [run wrun].
      - split.
        + intros E. exists w. inversion E; auto.
        + intros (w' & E). inversion E; auto.
      - unfold wrap2 at 1. destruct (exec2 m szof fuel e o s) as [[[[st out] s1] t]| |];
          [|split; [discriminate|intros (? & ?); discriminate]..].
        split.
        + destruct (run (exec2 m szof fuel) l s1) as [[obs1 s2]| |] eqn:E2; try discriminate.
          intros E. apply (IH (before2 o w) s1 obs1 s2) in E2 as (w' & E2).
          rewrite E2. exists w'. inversion E; subst. reflexivity.
        + intros (w' & E).
          destruct (wrun m (wrap2 m szof fuel) l (before2 o w) s1) as [[[obs1 w2] s2]| |] eqn:E2; try discriminate.
          assert (X : exists w', wrun m (wrap2 m szof fuel) l (before2 o w) s1 = Done (obs1, w', s2)) by eauto.
          apply IH in X. rewrite X. inversion E; subst. reflexivity.
    Qed.
    Lemma tracks2 w0 s0 l obs w s : wrapped2 m w0 s0 ->
      (forall e o i, In (e, o) l -> image2 o = Some i -> saved2 m szof i) ->
      Forall (fun p => unfollowed2 m (snd p) = false) l ->
      wrun2 m szof fuel l w0 s0 = Done (obs, w, s) -> all_ok m obs ->
      mode_named2 (w_state w) = Some (mode_of s).
    Proof.
      intros Hw. destruct (@wrapped2_follows w0 s0 Hw) as (R & Fo). clear Hw. revert w0 s0 obs w s R Fo.
      induction l as [|[e o] l IH]; intros w0 s0 obs w s R Fo Im U E A.
      - cbn in E. inversion E; subst. exact (proj1 Fo).
      - unfold wrun2 in E. cbn [wrun] in E.
        destruct (wrap2 m szof fuel e o w0 s0) as [[[[[st out] w1] s1] t]| |] eqn:E1; try discriminate.
        destruct (wrun m (wrap2 m szof fuel) l w1 s1) as [[[obs1 w2] s2]| |] eqn:E2; try discriminate.
        assert (Q : obs = (st, out, t) :: obs1 /\ w2 = w /\ s2 = s) by (inversion E; auto).
        destruct Q as (-> & -> & ->). pose proof (Forall_inv A) as A1. pose proof (Forall_inv_tail A) as A2. cbn in A1.
        pose proof (Forall_inv U) as U1. pose proof (Forall_inv_tail U) as U2. cbn in U1.
        destruct (@follows2_step e o w0 s0 st out w1 s1 t R U1 Fo E1 (or_introl A1)) as (X & Fo1).
        apply (IH w1 s1 obs1 w s); auto.
        + eapply reach2_call; [exact R| |exact X]. intros i. apply (Im e). left; reflexivity.
        + intros e0 o0 i Hi. apply (Im e0). right; exact Hi.
    Qed.
  End Two.
End Tracks.
