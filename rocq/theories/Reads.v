(** Reads.v -- reading calls can be left out of a history (C07). *)
From Coq Require Import List NArith ZArith Bool Arith Lia.
From Verif Require Import Base Instance ModelIface Core Fmi3 Fmi2 Api Fmus Logic SpecModes Gate Effect Reach Calls
  LawsFmus Sim Sim3 SpecState SimSys Sim2 SimSys2 SimRules SimFmus SimFT SimSS SimMade Saves Getters PureFmus.
From Verif Require Import FmuResource.
Import ListNotations.
Set Implicit Arguments.

(** The FMUs whose reading functions have no side effects, and whether this includes clocks. *)
Definition plain (f : FMU) : bool := match f with Roberts | Resource => false | _ => true end.
Definition plain_clocks (f : FMU) : bool := match f with Clocks => false | _ => true end.

Section Reads.
  Context {F : Type} {NF : Num F}.
  Lemma get_all lg x vals v f : plain f = true -> GetLaws (model_of (F := F) v f) (rel lg x vals v f).
  Proof.
    destruct f; cbn [plain model_of rel]; intro H; try discriminate H.
    - apply get_BB.
    - apply get_CL.
    - apply get_DA.
    - apply get_FT.
    - apply get_ST.
    - apply get_SS.
    - apply get_VP.
  Qed.
  Lemma clk_all lg x vals v f : plain f = true -> plain_clocks f = true ->
    ClockLaws (model_of (F := F) v f) (rel lg x vals v f).
  Proof.
    destruct f; cbn [plain plain_clocks model_of rel]; intros H K; try discriminate H; try discriminate K.
    - apply clk_BB.
    - apply clk_DA.
    - apply clk_FT.
    - apply clk_ST.
    - apply clk_SS.
    - apply clk_VP.
  Qed.

  Section Generic.
    Context (m : Model F) (P : Rel (md m)) (szof : N).
    Notation D := (md m).
    Hypothesis G : GetLaws m P.
    Hypothesis W : Laws m.
    Lemma settings_same (c : Ctl F) : set_mode (mode c) c = c.
    Proof. now destruct c. Qed.
    Lemma reads3_ctl ck fuel env (o : Op3 F D) s out s' t : reads3 ck o = true -> In (mode_of s) modes3 ->
      exec3 m szof fuel env o s = Done (OK, out, s', t) -> ctl (sinst s') = ctl (sinst s).
    Proof.
      intros R M E. destruct (exec3_effect szof env W fuel o s M E) as [H _].
      destruct o; cbn [reads3] in R; try discriminate; cbn [effect3 settings3 next3] in H; cbv zeta in H;
        try rewrite settings_same in H; intuition congruence.
    Qed.
    Lemma reads2_ctl fuel env (o : Op2 F D) s out s' t : reads2 o = true ->
      exec2 m szof fuel env o s = Done (OK, out, s', t) -> ctl (sinst s') = ctl (sinst s).
    Proof.
      intros R E. destruct (exec2_effect szof env W fuel o s E) as [H _].
      destruct o; cbn [reads2] in R; try discriminate; cbn [effect2 settings2 next2] in H; cbv zeta in H;
        try rewrite settings_same in H; intuition congruence.
    Qed.
    Lemma near_inst (i j : Inst F D) : instR m P True True i i -> near m P i j -> ctl j = ctl i -> instR m P True True i j.
    Proof.
      intros R (H1 & H2 & H3) C. constructor; rewrite ?C, ?H3; auto; apply R.
    Qed.
    Lemma heapR_same (s s' : Sys F D) : heapR m P yes yes 0 0 (heap s) (heap s) -> heap s' = heap s ->
      heapR m P yes yes 0 0 (heap s) (heap s').
    Proof. now intros H ->. Qed.
    Lemma reads3_sysR ck fuel env o s out s' t : r_env P env -> (ck = true -> ClockLaws m P) -> reads3 ck o = true ->
      sysR m P yes yes 0 0 s s -> exec3 m szof fuel env o s = Done (OK, out, s', t) ->
      sysR m P yes yes 0 0 s s'.
    Proof.
      intros He K R [[M Rs] Hh] E.
      pose proof (reads3_ctl _ _ _ _ _ R M E) as C.
      destruct (reads3_near szof G _ _ _ _ He K R (conj (cr_loc_ok (ir_ctl Rs)) (conj (ir_mut Rs) eq_refl)) E) as [N Hp].
      split; [|now rewrite Hp]. split; [exact M|]. now apply near_inst.
    Qed.
    Lemma reads2_sysR fuel env o s out s' t : r_env P env -> reads2 o = true ->
      sysR2 m P yes yes 0 0 s s -> exec2 m szof fuel env o s = Done (OK, out, s', t) ->
      sysR2 m P yes yes 0 0 s s'.
    Proof.
      intros He R [[M Rs] Hh] E.
      pose proof (reads2_ctl _ _ _ _ R E) as C.
      destruct (reads2_near szof G _ _ _ _ He R (conj (cr_loc_ok (ir_ctl Rs)) (conj (ir_mut Rs) eq_refl)) E) as [N Hp].
      split; [|now rewrite Hp]. split; [exact M|]. now apply near_inst.
    Qed.
  End Generic.

  Lemma C07_lemma3 f szof fuel env o s out s' t : plain f = true -> reach3 (model_of FMI3 f) szof s ->
    reads3 (plain_clocks f) o = true ->
    exec3 (model_of (F := F) FMI3 f) szof fuel env o s = Done (OK, out, s', t) ->
    forall fuel' l,
      (forall e o i, In (e, o) l -> image3 o = Some i -> saved3 (model_of FMI3 f) szof i) ->
      same_run True 0 0 (run3 (model_of FMI3 f) szof fuel' l s) (run3 (model_of FMI3 f) szof fuel' l s').
  Proof.
    intros Pf R Ro E fuel' l I.
    pose proof (rel_diag True True FMI3 f R) as Dg.
    pose proof (@reads3_sysR _ _ szof (get_all True false True FMI3 f Pf) (model_laws FMI3 f) _ _ _ _ _ _ _ _
      (rel_env True false True FMI3 f env) (clk_all True false True FMI3 f Pf) Ro Dg E) as R'.
    pose proof (run3_same True True FMI3 f fuel' l R' I) as K. now rewrite !rebases3_0 in K.
  Qed.
  Lemma C07_lemma2 f szof fuel env o s out s' t : plain f = true -> reach2 (model_of FMI2 f) szof s ->
    reads2 o = true ->
    exec2 (model_of (F := F) FMI2 f) szof fuel env o s = Done (OK, out, s', t) ->
    forall fuel' l,
      (forall e o i, In (e, o) l -> image2 o = Some i -> saved2 (model_of FMI2 f) szof i) ->
      same_run True 0 0 (run2 (model_of FMI2 f) szof fuel' l s) (run2 (model_of FMI2 f) szof fuel' l s').
  Proof.
    intros Pf R Ro E fuel' l I.
    pose proof (rel_diag2 True True FMI2 f R) as Dg.
    pose proof (@reads2_sysR _ _ szof (get_all True false True FMI2 f Pf) (model_laws FMI2 f) _ _ _ _ _ _ _
      (rel_env True false True FMI2 f env) Ro Dg E) as R'.
    pose proof (run2_same True True FMI2 f fuel' l R' I) as K. now rewrite !rebases2_0 in K.
  Qed.

  (** Calling twice gives the same answer. *)
  Lemma twice3 f szof fuel env o s out s' t : plain f = true -> reach3 (model_of FMI3 f) szof s ->
    reads3 (plain_clocks f) o = true ->
    exec3 (model_of (F := F) FMI3 f) szof fuel env o s = Done (OK, out, s', t) ->
    exists s2, exec3 (model_of (F := F) FMI3 f) szof fuel env o s' = Done (OK, out, s2, t).
  Proof.
    intros Pf R Ro E.
    assert (Im : image3 o = None) by (destruct o; try reflexivity; discriminate Ro).
    pose proof (C07_lemma3 _ _ _ _ Pf R Ro E fuel [(env, o)]) as K.
    unfold run3 in K. cbn [run] in K. rewrite E in K.
    destruct (exec3 _ szof fuel env o s') as [[[[st2 out2] s2] t2]| |] eqn:E2; cbn in K.
    - assert (H : obs_eq True 0 0 (OK, out, t) (st2, out2, t2)).
      { assert (X := fun H => K H). clear K. specialize (X ltac:(intros e o' i [H|[]] Hi; injection H as <- <-; congruence)).
        now inversion X. }
      destruct H as (-> & V & _ & T). specialize (T I). subst t2. exists s2.
      assert (Ov : forall a, (forall h, a <> OHandle h) -> (forall b, a <> OBlob b) -> view (F := F) (D := md (model_of FMI3 f)) 0 a = a)
        by (intros a A B; destruct a; try reflexivity; [exfalso; eapply A|exfalso; eapply B]; reflexivity).
      assert (Hh : heap3 (model_of FMI3 f) o = false \/ exists p, o = O3SerializedFMUStateSize p)
        by (destruct o; try discriminate Ro; cbn; eauto).
      assert (Oo : forall sa st a sb tb, exec3 (model_of FMI3 f) szof fuel env o sa = Done (st, a, sb, tb) ->
                   (forall h, a <> OHandle h) /\ (forall b, a <> OBlob b)).
      { intros sa st a sb tb Ea. destruct Hh as [Hh|[p ->]].
        - exact (@exec3_out _ _ _ _ fuel env o sa (st, a) sb tb Hh Ea).
        - cbn [exec3] in Ea. rewrite (outS_eq (m := model_of FMI3 f)) in Ea.
          destruct (fmi3SerializedFMUStateSize _ _ _ _ _) as [[[[? ?] ?] ?]| |]; inversion Ea; subst. split; discriminate. }
      destruct (Oo _ _ _ _ _ E) as [A1 A2], (Oo _ _ _ _ _ E2) as [B1 B2].
      rewrite !Ov in V by assumption. now subst.
    - exfalso. apply K. intros e o' i [H|[]] Hi; injection H as <- <-; congruence.
    - exfalso. apply K. intros e o' i [H|[]] Hi; injection H as <- <-; congruence.
  Qed.

  (** Resource with the same readable file at every call. *)
  Section Resource.
    Context (e0 : Env) (loc0 : option bytes) (szof : N).
    Notation m := (Resource_model (F := F) false).
    Notation P := (relREc True e0 loc0).
    Hypothesis Rd : re_readable false e0 loc0.
    Lemma made_REc i : made3 m i -> resourceLocation (ctl i) = loc0 -> modeRel m P yes yes i i.
    Proof.
      intros H Hl. destruct (rel_made True True FMI3 Resource H) as [M []]. split; [exact M|].
      constructor; auto.
      - now apply ctlR_refl.
      - constructor; cbn; auto.
    Qed.
    Lemma run_REc fuel l s s' : sysR m P yes yes 0 0 s s' -> Forall (fun p => fst p = e0 /\ image3 (snd p) = None) l ->
      same_run True 0 0 (run3 m szof fuel l s) (run3 m szof fuel l s') /\
      forall obs s2, run3 m szof fuel l s = Done (obs, s2) ->
        exists obs' s2', run3 m szof fuel l s' = Done (obs', s2') /\ sysR m P yes yes 0 0 s2 s2'.
    Proof.
      intros R Hl.
      assert (A : forall e o, In (e, o) l -> r_env P e /\ (forall i, image3 o = Some i -> modeRel m P yes yes i i)).
      { intros e o H. rewrite Forall_forall in Hl. destruct (Hl _ H) as [He Hi]. split; [exact He|]. cbn [snd] in Hi. intros i Ei. rewrite Hi in Ei. discriminate Ei. }
      pose proof (@run3_sim _ _ m P szof yes yes (sim_REc True Rd) eq_refl (model_laws FMI3 Resource) (fun _ _ => True)
        (fun _ _ _ _ _ _ => or_introl I) (fun _ _ _ _ _ _ => or_introl I) (fun _ _ => I) (fun _ _ => I) I I
        fuel 0 0 l s s' R (along3_yes m szof fuel 0 l s) A) as K.
      pose proof (@run3_simR _ _ m P szof yes yes (sim_REc True Rd) eq_refl (model_laws FMI3 Resource) (fun _ _ => True)
        (fun _ _ _ _ _ _ => or_introl I) (fun _ _ _ _ _ _ => or_introl I) (fun _ _ => I) (fun _ _ => I) I I
        fuel 0 0 l s s' R (along3_yes m szof fuel 0 l s) A) as K2.
      rewrite !rebases3_0 in K, K2. split; assumption.
    Qed.
    Lemma C07_lemma_resource i fuel l obs s o out s' t : made3 m i -> resourceLocation (ctl i) = loc0 ->
      Forall (fun p => fst p = e0 /\ image3 (snd p) = None) l ->
      run3 m szof fuel l (mkSys i []) = Done (obs, s) ->
      reads3 true o = true -> exec3 m szof fuel e0 o s = Done (OK, out, s', t) ->
      forall fuel' l', Forall (fun p => fst p = e0 /\ image3 (snd p) = None) l' ->
        same_run True 0 0 (run3 m szof fuel' l' s) (run3 m szof fuel' l' s').
    Proof.
      intros Hm Hl Fl R Ro E fuel' l' Fl'.
      assert (D0 : sysR m P yes yes 0 0 (mkSys i []) (mkSys i [])).
      { apply sysR_diag; [now apply made_REc|intros j []]. }
      destruct (run_REc fuel D0 Fl) as [_ K]. destruct (K _ _ R) as (obs' & s2 & R2 & Ds).
      rewrite R in R2. injection R2 as <- <-.
      apply run_REc; [|exact Fl'].
      exact (@reads3_sysR m P szof (get_REc True Rd) (model_laws FMI3 Resource) true fuel e0 o s out s' t eq_refl
               (fun _ => clk_REc True false e0 loc0) Ro Ds E).
    Qed.
  End Resource.
End Reads.

(** The lemmas as used by the property theorems. *)
Lemma reads3_pure (F : Type) (NF : Num F) (f : FMU) szof fuel env o s out s' t :
  f <> Roberts -> f <> Resource -> reach3 (model_of (F := F) FMI3 f) szof s ->
  reads3 (match f with Clocks => false | _ => true end) o = true ->
  exec3 (model_of FMI3 f) szof fuel env o s = Done (OK, out, s', t) ->
  forall fuel' l,
    (forall e o i, In (e, o) l -> image3 o = Some i -> saved3 (model_of FMI3 f) szof i) ->
    same_run True 0 0 (run3 (model_of FMI3 f) szof fuel' l s) (run3 (model_of FMI3 f) szof fuel' l s').
Proof.
  intros A B. apply C07_lemma3. destruct f; try reflexivity; congruence.
Qed.
Lemma reads2_pure (F : Type) (NF : Num F) (f : FMU) szof fuel env o s out s' t :
  f <> Roberts -> f <> Resource -> reach2 (model_of (F := F) FMI2 f) szof s ->
  reads2 o = true ->
  exec2 (model_of FMI2 f) szof fuel env o s = Done (OK, out, s', t) ->
  forall fuel' l,
    (forall e o i, In (e, o) l -> image2 o = Some i -> saved2 (model_of FMI2 f) szof i) ->
    same_run True 0 0 (run2 (model_of FMI2 f) szof fuel' l s) (run2 (model_of FMI2 f) szof fuel' l s').
Proof.
  intros A B. apply C07_lemma2. destruct f; try reflexivity; congruence.
Qed.
Lemma reads3_twice (F : Type) (NF : Num F) (f : FMU) szof fuel env o s out s' t :
  f <> Roberts -> f <> Resource -> reach3 (model_of (F := F) FMI3 f) szof s ->
  reads3 (match f with Clocks => false | _ => true end) o = true ->
  exec3 (model_of FMI3 f) szof fuel env o s = Done (OK, out, s', t) ->
  exists s2, exec3 (model_of FMI3 f) szof fuel env o s' = Done (OK, out, s2, t).
Proof.
  intros A B. apply twice3. destruct f; try reflexivity; congruence.
Qed.
Lemma reads3_resource (F : Type) (NF : Num F) e0 szof i loc path y fuel l obs s o out s' t :
  made3 (model_of (F := F) FMI3 Resource) i ->
  resourceLocation (ctl i) = Some loc -> path3 (cstr loc) = Some path -> env_file e0 path = Some y ->
  Forall (fun p => fst p = e0 /\ image3 (snd p) = None) l ->
  run3 (model_of FMI3 Resource) szof fuel l (mkSys i []) = Done (obs, s) ->
  reads3 true o = true -> exec3 (model_of FMI3 Resource) szof fuel e0 o s = Done (OK, out, s', t) ->
  forall fuel' l', Forall (fun p => fst p = e0 /\ image3 (snd p) = None) l' ->
    same_run True 0 0 (run3 (model_of FMI3 Resource) szof fuel' l' s) (run3 (model_of FMI3 Resource) szof fuel' l' s').
Proof.
  intros M L P E Fl R Ro X fuel' l' Fl'.
  assert (Rd : re_readable false e0 (Some loc)) by (exists loc, path, y; auto).
  exact (@C07_lemma_resource _ _ e0 (Some loc) szof Rd _ _ _ _ _ _ _ _ _ M L Fl R Ro X fuel' l' Fl').
Qed.
