(** PureFmus.v -- the reading functions of the nine FMUs change no value that counts (C07). *)
From Coq Require Import List NArith ZArith Bool Arith Lia.
From Verif Require Import Base Instance ModelIface Core Fmi3 Fmi2 Api Fmus Logic Calls Sim Sim3 SpecState SimRules SimFmus SimFT SimSS
  Getters.
From Verif Require Import FmuBouncingBall FmuDahlquist FmuStair FmuVanDerPol FmuRoberts
  FmuClocks FmuResource FmuStateSpace FmuFeedthrough.
Import ListNotations.
Set Implicit Arguments.

Ltac pm1 := match goal with
  | |- pureM _ (mbind _ _) => apply pm_bind; [|intro]
  | |- pureM _ (mret _) => apply pm_ret
  | |- pureM _ mctl => apply pm_ctl
  | |- pureM _ menv => apply pm_env
  | |- pureM _ mget => apply pm_get
  | |- pureM _ mdata => apply pm_data
  | |- pureM _ mub => apply pm_ub
  | |- pureM _ (mrd _ _) => apply pm_rd
  | |- pureM _ (mwr _ _ _) => apply pm_wr
  | |- pureM _ mlogError => apply pm_log
  | |- pureM _ (failGet _ _) => apply pm_failGet
  | |- pureM _ (failSet _) => apply pm_failSet
  | |- pureM _ (put1 _ _ _ _) => apply pm_put1
  | |- pureM _ (putl _ _ _) => apply pm_putl
  | |- pureM _ (writel _ _ _) => apply pm_writel
  | |- pureM _ (get_not_allowed _ _ _ _) => apply pm_failGet
  | |- pureM _ (if ?b then _ else _) => destruct b
  | |- pureM _ (match ?x with _ => _ end) => destruct x
  | |- pureM _ (let '(_, _) := ?x in _) => destruct x
  | |- pureM _ (nnGet _ _ _) => unfold nnGet
  | |- pureM _ (arrGet _ _ _ _) => unfold arrGet
  | |- pureM _ (getBinary_default _ _ _ _ _) => unfold getBinary_default
  | |- pureM _ (states_default _ _) => unfold states_default
  | |- pureM _ (indicators_default _ _) => unfold indicators_default
  | |- pureM _ (outputDerivative_absent _ _ _) => unfold outputDerivative_absent
  | |- pureM _ (partial_default _ _) => unfold partial_default
  | |- pureM _ (getClock_default _) => unfold getClock_default
  | |- pureM _ (getInterval_default _) => unfold getInterval_default
  | H : pureM ?P ?f |- pureM ?P ?f => exact H
  end.
Ltac pms := repeat (intros; pm1).

Section Pures.
  Context {F : Type} {NF : Num F} (lg : Prop) (x : bool).
  Ltac glaws :=
    constructor; cbn;
    [intros []|try assumption|let t := fresh "t" in intro t; destruct t| | | | | | | ]; pms.
  Lemma get_BB vals : GetLaws (BouncingBall_model (F := F)) (relBB lg x vals).
  Proof.
    assert (C : pureM (F := F) (relBB lg x vals) bb_calculateValues).
    { intros e c w u y v t He Hl [] E. inversion E; subst. constructor; cbn; auto. intros []. }
    unfold BouncingBall_model; glaws; unfold bb_getFloat64, bb_getContinuousStates, bb_getNominals, bb_getDerivatives,
      bb_getEventIndicators, bb_getOutputDerivative; pms.
  Qed.
  Lemma get_DA : GetLaws (Dahlquist_model (F := F)) (relDA lg x).
  Proof.
    assert (C : pureM (F := F) (relDA lg x) da_calculateValues).
    { intros e c w u y v t He Hl [] E. inversion E; subst. constructor; cbn; auto. intros []. }
    unfold Dahlquist_model; glaws; unfold da_getFloat64, da_getContinuousStates, da_getNominals, da_getDerivatives; pms.
  Qed.
  Lemma get_ST : GetLaws (Stair_model (F := F)) (relST lg x).
  Proof.
    assert (C : pureM (F := F) (relST lg x) st_calculateValues).
    { intros e c w u y v t He Hl [] E. inversion E; subst. constructor; cbn; auto. }
    unfold Stair_model; glaws; unfold st_getFloat64, st_getInt32; pms.
  Qed.
  Lemma get_VP : GetLaws (VanDerPol_model (F := F)) (relVP lg x).
  Proof.
    assert (C : pureM (F := F) (relVP lg x) vp_calculateValues).
    { intros e c w u y v t He Hl [] E. inversion E; subst. constructor; cbn; auto. intros []. }
    unfold VanDerPol_model; glaws; unfold vp_getFloat64, vp_getContinuousStates, vp_getNominals, vp_getDerivatives,
      vp_getPartialDerivative; pms.
  Qed.
  Lemma get_CL : GetLaws (Clocks_model (F := F)) (relCL lg x).
  Proof.
    assert (C : pureM (F := F) (relCL lg x) cl_calculateValues).
    { intros e c w u y v t He Hl [] E. inversion E; subst. constructor; cbn; auto. }
    unfold Clocks_model; glaws; unfold cl_getFloat64, cl_getInt32; pms.
  Qed.
  Lemma get_FT fmi2 : GetLaws (Feedthrough_model (F := F) fmi2) (relFT lg x).
  Proof.
    assert (C : pureM (F := F) (relFT lg x) ft_calculateValues).
    { intros e c w u y v t He Hl [] E. unfold ft_calculateValues, mbind, mdata in E. unfold bind at 1 in E.
      destruct (Nat.ltb _ _ && Nat.leb _ _); [|discriminate].
      inversion E; subst. destruct mr_data as (A & B & B'). constructor; cbn; auto; [intros []|].
      split; [|split; auto]. rewrite <- A. reflexivity. }
    unfold Feedthrough_model; glaws; unfold ft_getFloat32, ft_getFloat64, ft_getInt8, ft_getUInt8, ft_getInt16,
      ft_getUInt16, ft_getInt32, ft_getUInt32, ft_getInt64, ft_getUInt64, ft_getBoolean, ft_getString, ft_getBinary, ft_putBinary; pms.
  Qed.
  Lemma get_SS : GetLaws (StateSpace_model (F := F)) (relSS lg x).
  Proof.
    assert (C : pureM (F := F) (relSS lg x) ss_calculateValues).
    { intros e c w u y v t He Hl [] E. unfold ss_calculateValues, mbind, mdata in E. unfold bind at 1 in E.
      destruct (ss_calc (data u)) as [d|] eqn:Ed; [|discriminate].
      inversion E; subst. destruct mr_data. destruct (ss_calc_some s_sh') as (dx & yy & L1 & L2 & _ & _ & Ec).
      rewrite Ec in Ed. injection Ed as <-. constructor; cbn; auto; [intros []|].
      constructor; cbn; auto. destruct s_sh'. unfold row in *.
      constructor; cbn; auto; unfold row; rewrite app_length, skipn_length; lia. }
    unfold StateSpace_model; glaws; unfold ss_getFloat64, ss_getUInt64, ss_getContinuousStates, ss_getNominals,
      ss_getDerivatives, ss_out, putarr; pms.
  Qed.
  Lemma get_REc fmi2 e0 loc0 : re_readable fmi2 e0 loc0 -> GetLaws (Resource_model (F := F) fmi2) (relREc lg e0 loc0).
  Proof.
    intro R. assert (C : pureM (F := F) (relREc lg e0 loc0) (re_calculateValues fmi2)).
    { intros e c w u y v t He Hl [] E. cbn in He, Hl. subst e. rewrite <- Hl in R. destruct (re_calc_read c u R) as [y' E'].
      rewrite E' in E. inversion E; subst. constructor; cbn; auto; intros []. }
    unfold Resource_model; glaws; unfold re_getFloat64, re_getInt32; pms.
  Qed.

  Ltac klaws := constructor; cbn; pms.
  Lemma clk_BB vals : ClockLaws (BouncingBall_model (F := F)) (relBB lg x vals).
  Proof. unfold BouncingBall_model; klaws. Qed.
  Lemma clk_DA : ClockLaws (Dahlquist_model (F := F)) (relDA lg x).
  Proof. unfold Dahlquist_model; klaws. Qed.
  Lemma clk_ST : ClockLaws (Stair_model (F := F)) (relST lg x).
  Proof. unfold Stair_model; klaws. Qed.
  Lemma clk_VP : ClockLaws (VanDerPol_model (F := F)) (relVP lg x).
  Proof. unfold VanDerPol_model; klaws. Qed.
  Lemma clk_FT fmi2 : ClockLaws (Feedthrough_model (F := F) fmi2) (relFT lg x).
  Proof. unfold Feedthrough_model; klaws. Qed.
  Lemma clk_SS : ClockLaws (StateSpace_model (F := F)) (relSS lg x).
  Proof. unfold StateSpace_model; klaws. Qed.
  Lemma clk_REc fmi2 e0 loc0 : ClockLaws (Resource_model (F := F) fmi2) (relREc lg e0 loc0).
  Proof. unfold Resource_model; klaws. Qed.
End Pures.
