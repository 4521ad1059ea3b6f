(** SimMade.v -- new instances are related to themselves; the relations for the nine FMUs. *)
From Coq Require Import List NArith ZArith Bool Arith Lia.
From Verif Require Import Base Instance ModelIface Core Fmi3 Fmi2 Api Fmus Logic SpecModes Gate Effect Reach Calls
  LawsFmus Sim Sim3 SpecState SimSys Sim2 SimSys2 SimFmus SimFT SimSS.
From Verif Require Import FmuBouncingBall FmuDahlquist FmuStair FmuVanDerPol FmuRoberts
  FmuClocks FmuResource FmuStateSpace FmuFeedthrough.
Import ListNotations.
Set Implicit Arguments.

Notation yes := (fun _ : ModelState => True).

Section Made.
  Context {F : Type} {NF : Num F} (m : Model F) (P : Rel (md m)).
  Notation D := (md m).
  Hypothesis L : SimLaws m P.
  Hypothesis B0 : mutR P (F := F) (mkMut false false false false false nzero false false (md0 m))
                    (mkMut false false false false false nzero false false (md0 m)).

  Lemma ctlR_refl E (c : Ctl F) : r_loc P (resourceLocation c) -> ctlR P E c c.
  Proof. intro H. constructor; auto. apply modeR_refl. Qed.

  Lemma create_diag env lg iu e n t r lo ty i tr : r_env P env -> r_loc P (option_map cstr r) ->
    createModelInstance m env lg iu e n t r lo ty = Done (Some i, tr) ->
    instR m P True True i i /\ mode (ctl i) = Instantiated /\ resourceLocation (ctl i) = option_map cstr r.
  Proof.
    intros He Hl. unfold createModelInstance. destruct n as [n|]; [|discriminate].
    destruct (Nat.eqb (strlen n) 0); [discriminate|]. destruct t as [t|]; [|discriminate].
    destruct (Nat.eqb (strlen t) 0); [discriminate|]. destruct (negb (streq t (m_token m))); [discriminate|].
    set (b := blank m _ _ _ _ _ _ _).
    assert (R : instR m P True True b b).
    { constructor; cbn.
      - apply ctlR_refl. exact Hl.
      - exact B0.
      - constructor; auto; unfold sizesR; cbn; rewrite !repeat_length; repeat split; lia. }
    assert (K : orel P (fun _ _ i j => instR m P True True i j /\ mode (ctl i) = Instantiated /\ resourceLocation (ctl i) = option_map cstr r)
      ((call m env (m_setStartValues m) ;;; modM m (set_dirty true))%sw b)
      ((call m env (m_setStartValues m) ;;; modM m (set_dirty true))%sw b)).
    { eapply or_call with (E := True) (S := True); [exact He|apply (sl_start L)|exact R|].
      intros x y u u' _ R'. cbn. split; [|apply traceR_refl]. split; [|split; reflexivity].
      apply (instR_mut R'); apply mr_set_dirty; apply (ir_mut R'). }
    destruct ((call m env (m_setStartValues m) ;;; modM m (set_dirty true))%sw b) as [[[x j] tr']| |]; try discriminate.
    intro H; inversion H; subst. destruct K as [(K & K1 & K2) _]. auto.
  Qed.
  Lemma made_diag i : (forall e, r_env P e) -> (forall l, r_loc P l) -> made3 m i -> modeRel m P yes yes i i.
  Proof.
    intros He Hl H.
    assert (In Instantiated modes3) by (unfold modes3; cbn; tauto).
    assert (Kc : forall j c, instR m P True True j j /\ mode (ctl j) = Instantiated /\ resourceLocation (ctl j) = resourceLocation (ctl j) ->
              mode c = Instantiated -> modeRel m P yes yes (set_ctl c j) (set_ctl c j)).
    { intros j c [R _] M. split; [cbn; now rewrite M|]. eapply instR_ctl; [exact R|]. now apply ctlR_refl. }
    destruct H as [(env & n & t & r & b & e & l & tr & E)|[(env & n & t & r & b & ev & er & e & l & iu & tr & E)|
      (env & n & t & r & b & e & l & cu & lo & ul & tr & E)]].
    - unfold fmi3InstantiateModelExchange in E. destruct (m_modelExchange m); [|discriminate].
      pose proof (create_diag _ _ _ _ _ _ _ _ _ (He _) (Hl _) E) as (R & M & _). split; [now rewrite M|exact R].
    - unfold fmi3InstantiateCoSimulation in E.
      destruct (negb (m_eventUpdate m) && ev); [discriminate|].
      destruct (createModelInstance m env l iu e n t r b CoSimulation) as [[[j|] tr']| |] eqn:E1; try discriminate.
      pose proof (create_diag _ _ _ _ _ _ _ _ _ (He _) (Hl _) E1) as (R & M & _).
      inversion E; subst. apply Kc; [auto|reflexivity].
    - unfold fmi3InstantiateScheduledExecution in E. destruct (m_scheduled m); [|discriminate].
      destruct (createModelInstance m env l false e n t r b ScheduledExecution) as [[[j|] tr']| |] eqn:E1; try discriminate.
      pose proof (create_diag _ _ _ _ _ _ _ _ _ (He _) (Hl _) E1) as (R & M & _).
      inversion E; subst. apply Kc; [auto|reflexivity].
  Qed.
  Lemma made2_diag i : (forall e, r_env P e) -> (forall l, r_loc P l) -> made2 m i ->
    mode (ctl i) = Instantiated /\ instR m P True True i i.
  Proof.
    intros He Hl (env & n & ty & t & r & e & l & b & tr & E). unfold fmi2Instantiate in E. destruct l; [|discriminate].
    now pose proof (create_diag _ _ _ _ _ _ _ _ _ (He _) (Hl _) E) as (R & M & _).
  Qed.
End Made.

(** The relation of each FMU; [vals] is whether valuesOfContinuousStatesChanged counts. *)
Section Rels.
  Context {F : Type} {NF : Num F}.
  Definition rel (lg : Prop) (x : bool) (vals : Prop) (v : Version) (f : FMU) : Rel (md (model_of (F := F) v f)) :=
    match f return Rel (md (model_of v f)) with
    | BouncingBall => relBB lg x vals
    | Clocks => relCL lg x
    | Dahlquist => relDA lg x
    | Feedthrough => relFT lg x
    | Resource => relRE lg
    | Roberts => relRO lg x
    | Stair => relST lg x
    | StateSpace => relSS lg x
    | VanDerPol => relVP lg x
    end.
  Lemma sim_all lg x vals v f : SimLaws (model_of (F := F) v f) (rel lg x vals v f).
  Proof.
    destruct f; cbn [model_of rel].
    - apply sim_BB.
    - apply sim_CL.
    - apply sim_DA.
    - apply sim_FT.
    - apply sim_RE.
    - apply sim_RO.
    - apply sim_ST.
    - apply sim_SS.
    - apply sim_VP.
  Qed.
  Lemma rel_cross lg x vals v f : x = false \/ f <> Resource -> r_cross (rel lg x vals v f) = x.
  Proof. intros [->|H]; destruct f; reflexivity || now destruct H. Qed.
  Lemma rel_nocross lg vals v f : r_cross (rel lg false vals v f) = false.
  Proof. apply rel_cross. now left. Qed.
  Lemma rel_log lg x vals v f : r_log (rel lg x vals v f) = lg.
  Proof. destruct f; reflexivity. Qed.
  Lemma rel_env lg x vals v f e : r_env (rel lg x vals v f) e.
  Proof. destruct f; exact I. Qed.
  Lemma rel_loc lg x vals v f l : r_loc (rel lg x vals v f) l.
  Proof. destruct f; exact I. Qed.
  Lemma rel_blank lg x vals v f :
    mutR (rel lg x vals v f) (F := F) (mkMut false false false false false nzero false false (md0 (model_of v f)))
      (mkMut false false false false false nzero false false (md0 (model_of v f))).
  Proof.
    destruct f; constructor; cbn; auto.
    - split; [reflexivity|]. split; reflexivity.
    - auto 10.
    - constructor; cbn; auto; constructor; cbn; auto; try lia; try reflexivity;
      try (split; [reflexivity|]); try (repeat constructor).
  Qed.
  Lemma rel_made lg vals v f i : made3 (model_of (F := F) v f) i ->
    modeRel (model_of v f) (rel lg false vals v f) yes yes i i.
  Proof.
    apply made_diag; [apply sim_all|apply rel_blank|apply rel_env|apply rel_loc].
  Qed.
  Lemma rel_diag lg vals v f szof s : reach3 (model_of (F := F) v f) szof s ->
    sysR (model_of v f) (rel lg false vals v f) yes yes 0 0 s s.
  Proof.
    apply reach3_diag; [apply sim_all|apply rel_nocross|apply model_laws|apply rel_made|apply rel_env].
  Qed.
  Lemma rel_saved lg vals v f szof i : saved3 (model_of (F := F) v f) szof i ->
    modeRel (model_of v f) (rel lg false vals v f) yes yes i i.
  Proof.
    apply saved3_diag; [apply sim_all|apply rel_nocross|apply model_laws|apply rel_made|apply rel_env].
  Qed.

  (** Runs from related systems look the same. *)
  Lemma run3_same lg vals v f szof fuel n n' l s s' :
    sysR (model_of (F := F) v f) (rel lg false vals v f) yes yes n n' s s' ->
    (forall e o i, In (e, o) l -> image3 o = Some i -> saved3 (model_of v f) szof i) ->
    same_run lg n n' (run3 (model_of v f) szof fuel (rebases3 n l) s) (run3 (model_of v f) szof fuel (rebases3 n' l) s').
  Proof.
    intros R I.
    pose proof (@run3_sim _ _ (model_of v f) (rel lg false vals v f) szof yes yes (sim_all lg false vals v f)
      (rel_nocross lg vals v f) (model_laws v f) (fun _ _ => True)
      (fun _ _ _ _ _ _ => or_introl Logic.I) (fun _ _ _ _ _ _ => or_introl Logic.I) (fun _ _ => Logic.I) (fun _ _ => Logic.I)
      Logic.I Logic.I fuel n n' l s s' R) as K.
    rewrite rel_log in K. apply K.
    - apply along3_yes.
    - intros e o H. split; [apply rel_env|]. intros i Hi. eapply rel_saved. eapply I; eauto.
  Qed.
  (** The same for FMI 2. *)
  Lemma rel_made2 lg vals v f i : made2 (model_of (F := F) v f) i ->
    modeRel2 (model_of v f) (rel lg false vals v f) yes yes i i.
  Proof.
    intro H. destruct (made2_diag (sim_all lg false vals v f) (rel_blank lg false vals v f)
      (rel_env lg false vals v f) (rel_loc lg false vals v f) H) as [M R].
    split; [rewrite M; cbn; tauto|exact R].
  Qed.
  Lemma rel_diag2 lg vals v f szof s : reach2 (model_of (F := F) v f) szof s ->
    sysR2 (model_of v f) (rel lg false vals v f) yes yes 0 0 s s.
  Proof.
    apply reach2_diag; [apply sim_all|apply rel_nocross|apply model_laws|apply rel_made2|apply rel_env].
  Qed.
  Lemma rel_saved2 lg vals v f szof i : saved2 (model_of (F := F) v f) szof i ->
    modeRel2 (model_of v f) (rel lg false vals v f) yes yes i i.
  Proof.
    apply saved2_diag; [apply sim_all|apply rel_nocross|apply model_laws|apply rel_made2|apply rel_env].
  Qed.
  Lemma run2_same lg vals v f szof fuel n n' l s s' :
    sysR2 (model_of (F := F) v f) (rel lg false vals v f) yes yes n n' s s' ->
    (forall e o i, In (e, o) l -> image2 o = Some i -> saved2 (model_of v f) szof i) ->
    same_run lg n n' (run2 (model_of v f) szof fuel (rebases2 n l) s) (run2 (model_of v f) szof fuel (rebases2 n' l) s').
  Proof.
    intros R I.
    pose proof (@run2_sim _ _ (model_of v f) (rel lg false vals v f) szof yes yes (sim_all lg false vals v f)
      (rel_nocross lg vals v f) (model_laws v f) (fun _ _ => True)
      (fun _ _ _ _ _ _ => or_introl Logic.I) (fun _ _ _ _ _ _ => or_introl Logic.I) (fun _ _ => Logic.I) (fun _ _ => Logic.I)
      Logic.I Logic.I fuel n n' l s s' R) as K.
    rewrite rel_log in K. apply K.
    - apply along2_yes.
    - intros e o H. split; [apply rel_env|]. intros i Hi. eapply rel_saved2. eapply I; eauto.
  Qed.
End Rels.
