(** RunsBallReal.v -- the model exchange programs with events (C57, C64). *)
From Coq Require Import List NArith ZArith Bool Arith Lia Reals Lra.
From Verif Require Import Base Instance ModelIface Core Fmi3 Fmi2 Api Fmus NumR NumB64 SpecModes SpecSteps SpecCross SpecPrograms2 Programs Programs2
  StepReal Runs RunsReal RunsMe RunsEarly RunsTwo RunsTwoMe RunsBall BallB64.
From Verif Require Import SpecPrograms SpecBall.
Import ListNotations.
Set Implicit Arguments.

Section Any.
  Context {F : Type} {NF : Num F}.
  Lemma smooth_rows f N : f = Dahlquist \/ f = VanDerPol -> event_rows f (instant f) N = rows f (instant (F := F) f) (solution f) N.
  Proof.
    intro Hf. unfold event_rows, rows. generalize (seq 0 (Datatypes.S N)) as l. intro l. induction l as [|k l IH]; [reflexivity|].
    cbn [flat_map map]. rewrite IH. destruct Hf; subst f; destruct k; reflexivity.
  Qed.
  Theorem simulate_me_events f szof fuel env S (stop : F) path N n : recorded f = true -> nlt (F := F) nzero nzero = false -> divided f stop N -> spaced (F := F) f N ->
    (N.of_nat N < two64)%N -> Datatypes.S N < n ->
    exists s, simulate_me f szof fuel env S stop (states_of f) (indicators_of f) path n = Done (OK, event_rows f (instant f) N, Some s).
  Proof.
    intros Rc Hz Dv Sp Hb Hn. destruct f; try discriminate Rc.
    - now apply simulate_me_ball.
    - rewrite smooth_rows by auto. apply (@simulate_me_solution F NF Dahlquist); auto. lia.
    - rewrite smooth_rows by auto. apply (@simulate_me_solution F NF VanDerPol); auto. lia.
  Qed.
End Any.

Section Exact.
  Variable inf : R.
  Local Hint Extern 0 (Num R) => exact (NR inf) : typeclass_instances.
  Local Open Scope R_scope.

  (** The ball is above the ground, and it falls or rests. *)
  Definition above (x : list R) : Prop := match x with [h; v; g] => 0 < h /\ (g < 0 \/ g = 0 /\ v = 0) | _ => False end.
  (** Just after a bounce *)
  Definition rising (x : list R) : Prop := match x with [h; v; g] => 0 < h /\ 0 <= v | _ => False end.
  Lemma dblmin_pos : 0 < ndblmin (F := R).
  Proof. cbn [ndblmin NR NumR]. apply powerRZ_lt. lra. Qed.
  Lemma nlt_R a b : nlt (F := R) a b = true <-> a < b.
  Proof. cbn [nlt NR NumR]. unfold Rltb. destruct (Rlt_dec a b); split; auto; discriminate. Qed.
  Lemma nle_R a b : nle (F := R) a b = true <-> a <= b.
  Proof. cbn [nle NR NumR]. unfold Rleb. destruct (Rle_dec a b); split; auto; discriminate. Qed.
  Lemma ground_sign h v : nle (F := R) (ground h v) nzero = nle h nzero.
  Proof.
    unfold ground. destruct (nlt _ h && nle h nzero && nlt nzero v) eqn:E; [|reflexivity].
    rewrite !andb_true_iff in E. destruct E as ((_ & ->) & _). apply nle_R. rewrite zero_R. cbn. change (Pos.to_nat 10) with 10%nat. cbn [pow]. lra.
  Qed.
  Lemma lits : nlit (F := R) 1 (-3) = 1 / 1000 /\ nlit (F := R) 1 0 = 1 /\ nlit (F := R) 981 (-2) = 981 / 100 /\ nlit (F := R) 7 (-1) = 7 / 10 /\ nlit (F := R) 1 (-1) = 1 / 10.
  Proof. cbn. change (Pos.to_nat 3) with 3%nat. change (Pos.to_nat 2) with 2%nat. change (Pos.to_nat 1) with 1%nat. cbn [pow]. repeat split; lra. Qed.
  (** Above the ground a step bounces exactly if it ends at or below the ground. *)
  Lemma bounces_above h v g : 0 < h -> bounces (F := R) BouncingBall [h; v; g] = nle (h + 1 / 1000 * v) nzero.
  Proof.
    intro H. cbn [bounces]. rewrite (proj1 lits). unfold changes_sign. rewrite !ground_sign. rewrite (@ground_pos inf h v H).
    replace (nle h nzero) with false by (symmetry; rewrite zero_R; apply Rleb_false; lra). replace (nlt nzero h) with true by (symmetry; rewrite zero_R; apply nlt_R; lra). reflexivity.
  Qed.
  Lemma next_above x : above x -> above (next (F := R) BouncingBall x) /\ (bounces (F := R) BouncingBall x = true -> rising (next (F := R) BouncingBall x)).
  Proof.
    destruct x as [|h [|v [|g [|]]]]; try contradiction. intros (Hh & Hg).
    change (next (F := R) BouncingBall [h; v; g]) with (if bounces (F := R) BouncingBall [h; v; g] then bounced (F := R) (h + nlit 1 (-3) * v) (v + nlit 1 (-3) * g) g else [h + nlit 1 (-3) * v; v + nlit 1 (-3) * g; g]).
    rewrite (bounces_above v g Hh), (proj1 lits). destruct (nle (h + 1 / 1000 * v) nzero) eqn:E.
    - apply nle_R in E. rewrite zero_R in E. assert (Hv : v < 0) by lra. assert (G : g < 0) by (destruct Hg as [|(_ & ->)]; lra).
      unfold bounced. replace (nle _ nzero) with true by (symmetry; apply nle_R; rewrite zero_R; exact E).
      replace (nlt _ nzero) with true by (symmetry; apply nlt_R; rewrite zero_R; lra). cbn [andb].
      pose proof dblmin_pos as P. destruct (nlt _ (nlit 1 (-1))) eqn:W.
      + rewrite zero_R. cbn [above rising]. repeat split; auto; lra.
      + assert (Q : 1 / 10 <= nmul (nopp (v + 1 / 1000 * g)) (nlit 7 (-1))).
        { apply Rnot_lt_le. intro X. rewrite <- not_true_iff_false in W. apply W. apply nlt_R. rewrite (proj2 (proj2 (proj2 (proj2 lits)))). exact X. }
        cbn [above rising]. repeat split; auto; lra.
    - assert (H' : 0 < h + 1 / 1000 * v).
      { apply Rnot_le_lt. intro X. rewrite <- not_true_iff_false in E. apply E. apply nle_R. rewrite zero_R. exact X. }
      split; [|discriminate]. cbn [above]. split; [exact H'|]. destruct Hg as [|(-> & ->)]; [left; assumption|right; lra].
  Qed.
  Lemma always_above n : above (solution (F := R) BouncingBall n).
  Proof.
    induction n as [|n IH].
    - change (above [nlit (F := R) 1 0; nzero; - nlit (F := R) 981 (-2)]). rewrite zero_R, (proj1 (proj2 lits)), (proj1 (proj2 (proj2 lits))). cbn [above]. lra.
    - exact (proj1 (next_above _ IH)).
  Qed.
  Lemma spaced_R f N : recorded f = true -> spaced (F := R) f N.
  Proof.
    intros Rc k _ Bn. destruct f; try discriminate Rc; try (now destruct (solution (F := R) _ _) as [|? [|? [|]]]).
    pose proof (proj2 (next_above _ (always_above k)) Bn) as Ri. change (next (F := R) BouncingBall (solution BouncingBall k)) with (solution (F := R) BouncingBall (Datatypes.S k)) in Ri.
    destruct (solution (F := R) BouncingBall (Datatypes.S k)) as [|h [|v [|g [|]]]]; try contradiction. destruct Ri as (Hh & Hv).
    rewrite (bounces_above v g Hh). apply Rleb_false. rewrite zero_R. lra.
  Qed.
  Lemma instant_R f k : instant (F := R) f k = INR k * m_step (model_of (F := R) FMI3 f).
  Proof. destruct k; [cbn [instant]; rewrite zero_R; cbn [INR]; lra|apply (point_R inf)]. Qed.
  Lemma divided_R f stop N : recorded f = true -> let h := m_step (model_of (F := R) FMI3 f) in
    (N = 0%nat \/ INR (N - 1) * h < stop) -> stop <= INR N * h -> INR N * h < inf -> divided (F := R) f stop N.
  Proof.
    intros Rc h H1 H2 H3. pose proof (step_R inf f Rc) as Hh. fold h in Hh. unfold divided. split; [|split].
    - rewrite instant_R. apply nle_R. exact H2.
    - intros k Hk. rewrite instant_R. apply Rleb_false. fold h. destruct H1 as [->|H1]; [lia|].
      assert (INR k <= INR (N - 1)) by (apply le_INR; lia). nra.
    - intros k Hk. rewrite instant_R. apply Rleb_false. fold h. change (ninf (F := R)) with inf. assert (INR k <= INR N) by (apply le_INR; lia). nra.
  Qed.
  Theorem simulate_me_R f szof fuel env S path stop N n : let h := m_step (model_of (F := R) FMI3 f) in
    recorded f = true -> (N = 0%nat \/ INR (N - 1) * h < stop) -> stop <= INR N * h -> INR N * h < inf -> (N.of_nat N < two64)%N -> (Datatypes.S N < n)%nat ->
    exists s, simulate_me f szof fuel env S stop (states_of f) (indicators_of f) path n = Done (OK, event_rows f (instant f) N, Some s).
  Proof.
    intros h Rc H1 H2 H3 Hb Hn. apply simulate_me_events; auto; [rewrite zero_R; cbn [nlt NR NumR]; unfold Rltb; destruct (Rlt_dec 0 0); [lra|reflexivity]| |now apply spaced_R].
    now apply divided_R.
  Qed.
End Exact.

(** ** Binary64, and the FMI 2 program *)
Theorem simulate_me_B64 f szof fuel env S (stop : B64) path N n : recorded f = true -> divided f stop N -> (N.of_nat N < two64)%N -> Datatypes.S N < n ->
  exists s, simulate_me f szof fuel env S stop (states_of f) (indicators_of f) path n = Done (OK, event_rows f (instant f) N, Some s).
Proof. intros Rc Dv Hb Hn. apply simulate_me_events; auto. now apply spaced_B64. Qed.

Lemma recorded_observed f : recorded f = true -> observed f = true.
Proof. destruct f; auto. Qed.
Theorem me_events2_B64 f szof fuel env S (stop : B64) uri N n : recorded f = true -> divided f stop N -> (N.of_nat N < two64)%N -> Datatypes.S N < n ->
  exists rows2 s, simulate_me2 f szof fuel env S stop (states_of f) (indicators_of f) uri n = Done (OK, rows2, Some s) /\
    Forall2 (same_row f) rows2 (event_rows f (instant f) N).
Proof.
  intros Rc Dv Hb Hn. destruct (@simulate_me_B64 f szof fuel env S stop [] N n Rc Dv Hb Hn) as (s' & E).
  pose proof (@me_B64 f szof szof fuel env S stop (states_of f) (indicators_of f) uri [] n (@recorded_observed f Rc)) as W. rewrite E in W.
  destruct (simulate_me2 f szof fuel env S stop (states_of f) (indicators_of f) uri n) as [[[st rows2] [s|]]| |]; try contradiction.
  destruct W as (-> & _ & W). eauto.
Qed.
Theorem me_events2_R inf f szof fuel env S uri stop N n : let NF := NumR inf in let h := m_step (model_of (F := R) FMI3 f) in
  recorded f = true -> (N = 0 \/ (INR (N - 1) * h < stop)%R) -> (stop <= INR N * h)%R -> (INR N * h < inf)%R -> (N.of_nat N < two64)%N -> Datatypes.S N < n ->
  exists rows2 s, simulate_me2 (F := R) f szof fuel env S stop (states_of f) (indicators_of f) uri n = Done (OK, rows2, Some s) /\
    Forall2 (same_row f) rows2 (event_rows f (instant f) N).
Proof.
  intros NF h Rc H1 H2 H3 Hb Hn. destruct (@simulate_me_R inf f szof fuel env S [] stop N n Rc H1 H2 H3 Hb Hn) as (s' & E).
  pose proof (@me_R inf f szof szof fuel env S stop (states_of f) (indicators_of f) uri [] n (@recorded_observed f Rc)) as W.
  unfold NF in *. change (NumR inf) with (NR inf) in W. rewrite E in W. change (NumR inf) with (NR inf).
  destruct (simulate_me2 f szof fuel env S stop (states_of f) (indicators_of f) uri n) as [[[st rows2] [s|]]| |]; try contradiction.
  destruct W as (-> & _ & W). eauto.
Qed.
(** In exact arithmetic the ball stays above the ground. *)
Lemma above_ground inf n : let NF := NumR inf in (0 < nth 0 (solution (F := R) BouncingBall n) nzero)%R.
Proof.
  intro NF. pose proof (@always_above inf n) as A. unfold NF. change (NumR inf) with (NR inf).
  destruct (@solution R (NR inf) BouncingBall n) as [|h [|v [|g [|]]]]; try contradiction. apply A.
Qed.
