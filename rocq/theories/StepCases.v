(** StepCases.v -- DoStep with a NaN as step size never returns (for the refutation of C20). *)
From Coq Require Import List NArith ZArith Bool Arith SpecFloat.
From Verif Require Import Base Instance ModelIface Core Fmi3 Fmi2 Api Fmus NumB64 FmuDahlquist FmuFeedthrough SpecModes Samples Logic Calls Steps Solver SpecSteps.
Import ListNotations.
Set Implicit Arguments.

Definition nan64 : B64 := S754_nan.

(** An instance of Feedthrough without an event pending. *)
Definition idle (i : Inst B64 (md (m3' Feedthrough))) : Prop :=
  nx (sol i) = 0 /\ nz (sol i) = 0 /\ nextEventTimeDefined (mut i) = false /\ terminateSimulation (mut i) = false.

Lemma nan_not_reached c : pointReached (m3' Feedthrough) nan64 c = false.
Proof. unfold pointReached. cbn [nlt NumB64]. unfold SFltb, nan64. destruct (time c); reflexivity. Qed.
Lemma nan_pass i : idle i -> exists i' t, pass3 (m3' Feedthrough) env0 false OK i = Done ((OK, false, true), i', t) /\ idle i'.
Proof.
  destruct i as [c [u1 u2 u3 u4 u5 u6 u7 u8 u9] [z1 z2 z3 x1 x2 x3]]. unfold idle. cbn. intros (-> & -> & -> & ->).
  destruct c as [c1 c2 c3 c4 c5 c6 c7 c8 c9 c10 c11 c12 c13 c14 c15 c16 c17 c18 c19 c20]. destruct c9; do 2 eexists; (split; [cbv -[nadd nmul nofN NumB64 N.modulo N.add]; reflexivity|repeat split]).
Qed.
Lemma nan_loop : forall fuel i, idle i -> doStep_loop (m3' Feedthrough) env0 fuel nan64 false OK i = NoFuel.
Proof.
  induction fuel as [|fuel IH]; intros i I; [reflexivity|].
  rewrite loop3_eq, nan_not_reached. cbn [orb andb].
  destruct (nan_pass I) as (i' & t & E & I'). unfold bind. rewrite E. cbv beta iota. rewrite IH; auto.
Qed.
Definition nan_step3 : Op3 B64 (md (m3' Feedthrough)) := O3DoStep (lit 0) nan64 true true true true.
Lemma nan_never_returns fuel s : idle (sinst s) -> mode_of s = StepMode -> end_of s = lit 0 ->
  exec3 (m3' Feedthrough) szof0 fuel env0 nan_step3 s = NoFuel.
Proof.
  intros I M En. cbn [exec3 nan_step3]. rewrite outI_eq. unfold fmi3DoStep. rewrite BEGIN_pass.
  2:{ unfold mode_of in M. rewrite M. discriminate. }
  rewrite bind_getC. unfold end_of in En. rewrite En. change (isClose (lit 0) (lit 0)) with true. cbv beta iota zeta. cbn [negb].
  change (nle nan64 nzero) with false. cbv iota. change (nadd (lit 0) nan64) with nan64.
  assert (Q : nlt (stopTime (ctl (sinst s))) nan64 = false) by (cbn [nlt NumB64]; unfold SFltb; destruct (stopTime (ctl (sinst s))) as [[]|[]| |[] ? ?]; reflexivity).
  rewrite Q.
  cbn [andb negb orb].
  unfold bind at 1. rewrite nan_loop by exact I. reflexivity.
Qed.
