(** PropReset.v -- property C16: Reset. *)
From Coq Require Import List NArith ZArith Bool.
From Verif Require Import Base Instance ModelIface Core Fmi3 Fmi2 Api Fmus NumB64 SpecModes SpecHist SpecState SpecReset SpecCreate
  Reset Samples.
Import ListNotations.
Open Scope list_scope.
Set Implicit Arguments.

(** C16: Reset of a reachable instance succeeds, leads to Instantiated and keeps the saved
    states; and then every continuation [l] has the same statuses, outputs and callbacks (and the same messages, if
    the log categories are the same) as on a new instance [i0] created alike.  Exceptions, each shown to be one
    below: what Stair and StateSpace leave behind ([nothing_left]), and EnterStepMode
    called directly in Initialization Mode. *)
Theorem C16_reset_renews_partial :
  forall (F : Type) (NF : Num F) szof (f : FMU) s env fuel0, reach3 (model_of FMI3 f) szof s ->
    exists s', exec3 (model_of FMI3 f) szof fuel0 env O3Reset s = Done (OK, ONone, s', []) /\
      mode_of s' = Instantiated /\ heap s' = heap s /\
      forall i0 fuel l, made3 (model_of FMI3 f) i0 ->
        created_alike i0 s -> nothing_left FMI3 f (sinst s) i0 ->
        (has_solver (model_of FMI3 f) -> leaves_initialization (model_of FMI3 f) szof fuel l (mkSys i0 [])) ->
        (forall e o i, In (e, o) l -> image3 o = Some i -> saved3 (model_of FMI3 f) szof i) ->
        same_run (logging (mkSys i0 []) = logging s) 0 (length (heap s))
          (run3 (model_of FMI3 f) szof fuel l (mkSys i0 []))
          (run3 (model_of FMI3 f) szof fuel (rebases3 (length (heap s)) l) s').
Proof. exact @reset3. Qed.
(** FMI 2: the continuation starts with SetupExperiment (otherwise the old stop time is used, see below). *)
Theorem C16_reset_renews_fmi2_partial :
  forall (F : Type) (NF : Num F) szof (f : FMU) s env fuel0, reach2 (model_of FMI2 f) szof s ->
    exists s', exec2 (model_of FMI2 f) szof fuel0 env O2Reset s = Done (OK, ONone, s', []) /\
      mode_of s' = Instantiated /\ heap s' = heap s /\
      forall i0 fuel e0 start stopDefined stop l, made2 (model_of FMI2 f) i0 ->
        created_alike i0 s -> nothing_left FMI2 f (sinst s) i0 ->
        (forall e o i, In (e, o) l -> image2 o = Some i -> saved2 (model_of FMI2 f) szof i) ->
        same_run (logging (mkSys i0 []) = logging s) 0 (length (heap s))
          (run2 (model_of FMI2 f) szof fuel ((e0, O2SetupExperiment start stopDefined stop) :: l) (mkSys i0 []))
          (run2 (model_of FMI2 f) szof fuel (rebases2 (length (heap s)) ((e0, O2SetupExperiment start stopDefined stop) :: l)) s').
Proof. exact @reset2. Qed.

Definition setup3 f : list (Op3 B64 (md (m3' f))) := [O3EnterInitializationMode (lit 0) false (lit 0); O3ExitInitializationMode].
Definition step3 f (c h : Z) : Op3 B64 (md (m3' f)) := O3DoStep (lit c) (lit h) true true true true.
Definition read3 f vr n : Op3 B64 (md (m3' f)) := O3Get TFloat64 (Some [vr]) 1 (Some (repeat (lit 0) n)) n.
Definition setup2 f : list (Op2 B64 (md (m2' f))) := [O2SetupExperiment (lit 0) true (lit 5); O2EnterInitializationMode; O2ExitInitializationMode].
Definition step2 f (c h : Z) : Op2 B64 (md (m2' f)) := O2DoStep (lit c) (lit h).
Definition read2 f vr : Op2 B64 (md (m2' f)) := O2Get TFloat64 (Some [vr]) 1 (Some [lit 0]).
Definition in_env0 {A} (l : list A) : list (Env * A) := map (fun o => (env0, o)) l.

Definition tenth3 f (k : Z) : Op3 B64 (md (m3' f)) := O3DoStep (nlit k (-1)) (nlit 1 (-1)) true true true true.

(** a simulation of BouncingBall past a bounce, a changed variable and a saved state; then Reset and a new
    simulation with a save and a restore *)
Definition C16_history : list (Op3 B64 (md (m3' BouncingBall))) :=
  setup3 BouncingBall ++ map (tenth3 BouncingBall) [0; 1; 2; 3; 4]%Z ++
  [O3Set TFloat64 (Some [6%N]) 1 (Some [lit 0]) 1; O3GetFMUState true None].
Definition C16_after : list (Env * Op3 B64 (md (m3' BouncingBall))) :=
  in_env0 (setup3 BouncingBall ++ [tenth3 BouncingBall 0; O3GetFMUState true None; tenth3 BouncingBall 1; read3 BouncingBall 1%N 1;
    O3SetFMUState (Some 0); read3 BouncingBall 1%N 1]).
Example C16_applies : exists s, reach3 (m3' BouncingBall) szof0 s /\
  exists i0, made3 (m3' BouncingBall) i0 /\ created_alike i0 s /\ logging (mkSys i0 []) = logging s /\
    nothing_left FMI3 BouncingBall (sinst s) i0 /\ length (heap s) = 1 /\
    leaves_initialization (m3' BouncingBall) szof0 fuel0 C16_after (mkSys i0 []) /\ noimage3 (map snd C16_after) /\
    match run3 (m3' BouncingBall) szof0 fuel0 C16_after (mkSys i0 []) with
    | Done (obs, _) => map (fun x => fst (fst x)) obs = repeat OK 8 | _ => False end.
Proof.
  eexists. split.
  { apply (@sample3 _ (newCS false false BouncingBall) C16_history); [right; left; do 2 eexists; reflexivity|repeat constructor|vm_compute; reflexivity]. }
  eexists. split.
  { right. left. exists env0, name0, (Some (guid BouncingBall)), None, false, false, false, 0%N, true, false. eexists. vm_compute. reflexivity. }
  split; [repeat split; vm_compute; reflexivity|]. split; [vm_compute; reflexivity|]. split; [exact Logic.I|].
  split; [vm_compute; reflexivity|]. split; [|split; [repeat constructor|vm_compute; reflexivity]].
  vm_compute. repeat split; discriminate.
Qed.
Example C16_applies_fmi2 : exists s, reach2 (m2' Stair) szof0 s /\
  exists i0, made2 (m2' Stair) i0 /\ created_alike i0 s /\ logging (mkSys i0 []) = logging s /\
    nothing_left FMI2 Stair (sinst s) i0 /\ mode_of s = StepComplete.
Proof.
  eexists. split.
  { apply (@sample2 _ CoSimulation (setup2 Stair ++ [step2 Stair 0 4])); [repeat constructor|vm_compute; reflexivity]. }
  eexists. split.
  { exists env0, name0, CoSimulation, (Some (guid Stair)), None, 0%N, true, false. eexists. vm_compute. reflexivity. }
  split; [repeat split; vm_compute; reflexivity|]. split; [vm_compute; reflexivity|]. split; vm_compute; reflexivity.
Qed.

(** The exceptions.  Stair, once it wanted to terminate, terminates the next simulation after one step. *)
Theorem C16_stair_refuted : exists s s' i0 l, reach3 (m3' Stair) szof0 s /\
  exec3 (m3' Stair) szof0 fuel0 env0 O3Reset s = Done (OK, ONone, s', []) /\
  made3 (m3' Stair) i0 /\ created_alike i0 s /\ logging (mkSys i0 []) = logging s /\ noimage3 (map snd l) /\
  ~ same_run True 0 0 (run3 (m3' Stair) szof0 fuel0 l (mkSys i0 [])) (run3 (m3' Stair) szof0 fuel0 l s').
Proof.
  eexists. eexists. eexists. exists (in_env0 (setup3 Stair ++ [step3 Stair 0 5; read3 Stair 0%N 1])). split.
  { apply (@sample3 _ (newCS false false Stair) (setup3 Stair ++ [step3 Stair 0 10])); [right; left; do 2 eexists; reflexivity|repeat constructor|vm_compute; reflexivity]. }
  split; [vm_compute; reflexivity|]. split.
  { right. left. exists env0, name0, (Some (guid Stair)), None, false, false, false, 0%N, true, false. eexists. vm_compute. reflexivity. }
  split; [repeat split; vm_compute; reflexivity|]. split; [vm_compute; reflexivity|]. split; [repeat constructor|].
  intro H. apply same_seen in H. revert H. vm_compute. discriminate.
Qed.
(** StateSpace keeps x0. *)
Theorem C16_statespace_refuted : exists s s' i0 l, reach3 (m3' StateSpace) szof0 s /\
  exec3 (m3' StateSpace) szof0 fuel0 env0 O3Reset s = Done (OK, ONone, s', []) /\
  made3 (m3' StateSpace) i0 /\ created_alike i0 s /\ logging (mkSys i0 []) = logging s /\ noimage3 (map snd l) /\
  ~ same_run True 0 0 (run3 (m3' StateSpace) szof0 fuel0 l (mkSys i0 [])) (run3 (m3' StateSpace) szof0 fuel0 l s').
Proof.
  eexists. eexists. eexists. exists (in_env0 [read3 StateSpace 8%N 3]). split.
  { apply (@sample3 _ (newCS false false StateSpace) [O3Set (F := B64) (D := md (m3' StateSpace)) TFloat64 (Some [8%N]) 1 (Some [lit 7; lit 8; lit 9]) 3]); [right; left; do 2 eexists; reflexivity|repeat constructor|vm_compute; reflexivity]. }
  split; [vm_compute; reflexivity|]. split.
  { right. left. exists env0, name0, (Some (guid StateSpace)), None, false, false, false, 0%N, true, false. eexists. vm_compute. reflexivity. }
  split; [repeat split; vm_compute; reflexivity|]. split; [vm_compute; reflexivity|]. split; [repeat constructor|].
  intro H. apply same_seen in H. revert H. vm_compute. discriminate.
Qed.
(** EnterStepMode in Initialization Mode: a new instance then does not integrate at all, one that was reset does. *)
Theorem C16_enter_step_mode_refuted : exists s s' i0 l, reach3 (m3' BouncingBall) szof0 s /\
  exec3 (m3' BouncingBall) szof0 fuel0 env0 O3Reset s = Done (OK, ONone, s', []) /\
  made3 (m3' BouncingBall) i0 /\ created_alike i0 s /\ logging (mkSys i0 []) = logging s /\ noimage3 (map snd l) /\
  ~ same_run True 0 0 (run3 (m3' BouncingBall) szof0 fuel0 l (mkSys i0 [])) (run3 (m3' BouncingBall) szof0 fuel0 l s').
Proof.
  eexists. eexists. eexists.
  exists (in_env0 [O3EnterInitializationMode (lit 0) false (lit 0); O3EnterStepMode; tenth3 BouncingBall 0; read3 BouncingBall 1%N 1]). split.
  { apply (@sample3 _ (newCS false false BouncingBall) (setup3 BouncingBall)); [right; left; do 2 eexists; reflexivity|repeat constructor|vm_compute; reflexivity]. }
  split; [vm_compute; reflexivity|]. split.
  { right. left. exists env0, name0, (Some (guid BouncingBall)), None, false, false, false, 0%N, true, false. eexists. vm_compute. reflexivity. }
  split; [repeat split; vm_compute; reflexivity|]. split; [vm_compute; reflexivity|]. split; [repeat constructor|].
  intro H. apply same_seen in H. revert H. vm_compute. discriminate.
Qed.
(** FMI 2 without SetupExperiment: a new instance has stop time 0, one that was reset the old one. *)
Theorem C16_fmi2_setup_refuted : exists s s' i0 l, reach2 (m2' Dahlquist) szof0 s /\
  exec2 (m2' Dahlquist) szof0 fuel0 env0 O2Reset s = Done (OK, ONone, s', []) /\
  made2 (m2' Dahlquist) i0 /\ created_alike i0 s /\ logging (mkSys i0 []) = logging s /\ noimage2 (map snd l) /\
  ~ same_run True 0 0 (run2 (m2' Dahlquist) szof0 fuel0 l (mkSys i0 [])) (run2 (m2' Dahlquist) szof0 fuel0 l s').
Proof.
  eexists. eexists. eexists. exists (in_env0 [O2EnterInitializationMode; O2ExitInitializationMode; step2 Dahlquist 0 1]). split.
  { apply (@sample2 _ CoSimulation (setup2 Dahlquist)); [repeat constructor|vm_compute; reflexivity]. }
  split; [vm_compute; reflexivity|]. split.
  { exists env0, name0, CoSimulation, (Some (guid Dahlquist)), None, 0%N, true, false. eexists. vm_compute. reflexivity. }
  split; [repeat split; vm_compute; reflexivity|]. split; [vm_compute; reflexivity|]. split; [repeat constructor|].
  intro H. apply same_seen in H. revert H. vm_compute. discriminate.
Qed.

Definition PropReset_all := (@C16_reset_renews_partial, @C16_reset_renews_fmi2_partial, C16_stair_refuted, C16_statespace_refuted,
  C16_enter_step_mode_refuted, C16_fmi2_setup_refuted).
Print Assumptions PropReset_all.
