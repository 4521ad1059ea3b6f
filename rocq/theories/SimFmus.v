(** SimFmus.v -- the relations of Sim.v for seven of the FMUs, and the proofs that their functions
    keep them.  [lg] and [x] are the parameters [r_log] and [r_cross]. *)
From Coq Require Import List NArith ZArith Bool Arith Lia.
From Verif Require Import Base Instance ModelIface Core Fmus Logic Calls Sim SimRules.
From Verif Require Import FmuBouncingBall FmuDahlquist FmuStair FmuVanDerPol FmuRoberts FmuClocks
  FmuResource FmuStateSpace FmuFeedthrough.
Import ListNotations.
Set Implicit Arguments.

Section BB.
  Context {F : Type} {NF : Num F} (lg : Prop) (x : bool) (vals : Prop).
  Definition relBB : Rel (BBData F) := mkRel lg x (fun _ => True) (fun _ => True) vals False (fun d d' => d' = d).

  Lemma sim_BB : SimLaws (BouncingBall_model (F:=F)) relBB.
  Proof.
    constructor; unfold BouncingBall_model; sl_all 2.
    destruct x0; cbv in H0; inversion H0. reflexivity.
  Qed.
End BB.

Section Others.
  Context {F : Type} {NF : Num F} (lg : Prop) (x : bool).
  Definition relDA : Rel (DAData F) :=
    mkRel lg x (fun _ => True) (fun _ => True) True False (fun d d' => da_x d' = da_x d /\ da_k d' = da_k d).
  Lemma sim_DA : SimLaws (Dahlquist_model (F:=F)) relDA.
  Proof.
    constructor; unfold Dahlquist_model; sl_all 1.
  Qed.
  Definition relST : Rel STData := mkRel lg x (fun _ => True) (fun _ => True) True False (fun d d' => d' = d).
  Lemma sim_ST : SimLaws (Stair_model (F:=F)) relST.
  Proof.
    constructor; unfold Stair_model; sl_all 0.
  Qed.
  Definition relVP : Rel (VPData F) :=
    mkRel lg x (fun _ => True) (fun _ => True) True False
      (fun d d' => vp_x0 d' = vp_x0 d /\ vp_x1 d' = vp_x1 d /\ vp_mu d' = vp_mu d).
  Lemma sim_VP : SimLaws (VanDerPol_model (F:=F)) relVP.
  Proof.
    constructor; unfold VanDerPol_model; sl_all 2.
    sm_fun; sm_go; [|sm_leaf]. unfold vp_partial. norm. reflexivity.
  Qed.
  Definition relCL : Rel (CLData F) := mkRel lg x (fun _ => True) (fun _ => True) True False (fun d d' => d' = d).
  Lemma sim_CL : SimLaws (Clocks_model (F:=F)) relCL.
  Proof.
    constructor; unfold Clocks_model; sl_all 2.
  Qed.

  (** Roberts: the derivatives and the residual are computed from the rest. *)
  Definition relRO : Rel (ROData F) :=
    mkRel lg x (fun _ => True) (fun _ => True) True True
      (fun d d' => ro_dae d' = ro_dae d /\ ro_y1 d' = ro_y1 d /\ ro_y2 d' = ro_y2 d /\ ro_y3 d' = ro_y3 d /\
                   ro_g1 d' = ro_g1 d /\ ro_g2 d' = ro_g2 d).
  Lemma ro_calc_rel (d d' : ROData F) :
    r_data relRO d d' -> r_data relRO (ro_calc d) (ro_calc d') /\
    ro_der_y1 (ro_calc d') = ro_der_y1 (ro_calc d) /\ ro_der_y2 (ro_calc d') = ro_der_y2 (ro_calc d) /\
    ro_r (ro_calc d') = ro_r (ro_calc d).
  Proof.
    destruct d, d'. cbn. intros (-> & -> & -> & -> & -> & ->).
    unfold ro_calc, ro_alg. cbn. destruct ro_dae; cbn; auto 12.
  Qed.
  Arguments ro_calc : simpl never.
  Ltac ro_all :=
    let M := fresh "M" in
    intros e c c' u u' He C M; pose proof (ro_calc_rel (mr_data M)) as R; destruct M; cbn in *;
    repeat match goal with H : _ /\ _ |- _ => destruct H end; sm_go; sm_leaf.
  Lemma sim_RO : SimLaws (Roberts_model (F:=F)) relRO.
  Proof.
    constructor; unfold Roberts_model; sl_all 2.
    all: try solve [ro_all].
    all: try solve [exfalso; match goal with M : mutR _ _ _ |- _ => pose proof (mr_dirty M I); congruence end].
    - intros e c c' u u' He C M; pose proof (ro_calc_rel (mr_data M)) as R; destruct M; cbn in *.
      repeat match goal with H : _ /\ _ |- _ => destruct H end; sm_go; [|sm_leaf].
      unfold ro_partial. norm. reflexivity.
    - destruct x0 as [|? [|? ?]]; cbv in H0; inversion H0. reflexivity.
  Qed.

  (** Resource: the file is read at every access, so y and dirty count as long as the
      environment may change... *)
  Definition relRE : Rel REData :=
    mkRel lg false (fun _ => True) (fun _ => True) True True (fun d d' => d' = d).
  Lemma sim_RE fmi2 : SimLaws (Resource_model (F:=F) fmi2) relRE.
  Proof.
    constructor; unfold Resource_model; sl_all 0.
    all: exfalso; match goal with M : mutR _ _ _ |- _ => pose proof (mr_dirty M I); congruence end.
  Qed.
  (** ... and do not count if the same readable file is found every time. *)
  Definition re_readable (fmi2 : bool) (e0 : Env) (loc0 : option bytes) : Prop :=
    exists l p v, loc0 = Some l /\ (if fmi2 then path2 (cstr l) else path3 (cstr l)) = Some p /\ env_file e0 p = Some v.
  Definition relREc (e0 : Env) (loc0 : option bytes) : Rel REData :=
    mkRel lg false (fun e => e = e0) (fun l => l = loc0) True False (fun _ _ => True).
  Ltac rec_all fmi2 R C :=
    destruct R as (l & p & v & -> & Hp & Hv); pose proof (cr_loc_ok C) as HL; cbn in HL;
    destruct fmi2; cbn in Hp; sm_go; try congruence; sm_leaf.
  Lemma re_calc_read fmi2 e (c : Ctl F) (u : Mut F REData) : re_readable fmi2 e (resourceLocation c) ->
    exists y, re_calculateValues fmi2 e c u = Done (OK, set_dirty false (set_data (mkRE y) u), []).
  Proof.
    intros (l & p & v & A & B & H). exists v. unfold re_calculateValues, mbind, mctl. rewrite bind_ret_l, A.
    assert (G : re_read p e c u = Done (OK, set_dirty false (set_data (mkRE v) u), [])).
    { unfold re_read, mbind, menv. rewrite bind_ret_l, H. reflexivity. }
    destruct fmi2; now rewrite B.
  Qed.
  Lemma sim_REc fmi2 e0 loc0 : re_readable fmi2 e0 loc0 -> SimLaws (Resource_model (F:=F) fmi2) (relREc e0 loc0).
  Proof.
    intro R. constructor; unfold Resource_model; sl_all 0.
    all: try solve [sm_fun; subst; rec_all fmi2 R C].
    - assert (R' : re_readable fmi2 e (resourceLocation c)) by (now rewrite (cr_loc_ok H0), H).
      destruct (re_calc_read c u R') as [y E]. exists (set_dirty false (set_data (mkRE y) u)). split; [exact E|].
      destruct H1. mut_side.
    - assert (R' : re_readable fmi2 e (resourceLocation c')) by (now rewrite (cr_loc H0 eq_refl), (cr_loc_ok H0), H).
      destruct (re_calc_read c' u' R') as [y E]. exists (set_dirty false (set_data (mkRE y) u')). split; [exact E|].
      destruct H1. mut_side.
  Qed.

End Others.
