(** SamplesR.v -- instances over the real numbers that have just been initialised, to show beside the theorems
    that their hypotheses are met. *)
From Coq Require Import List NArith ZArith Bool Reals.
From Verif Require Import Base Instance ModelIface Core Fmi3 Fmi2 Api Fmus NumR Logic SpecModes SpecCreate SpecState Histories Samples.
Import ListNotations.
Set Implicit Arguments.
Local Open Scope R_scope.

Section R.
  Variable inf : R.
  Local Instance NR : Num R := NumR inf.
  Notation m3 f := (model_of (F := R) FMI3 f).
  Notation m2 f := (model_of (F := R) FMI2 f).
  (** co-simulation from 0 to 10 *)
  Definition startR3 f : list (Op3 R (md (m3 f))) := [O3EnterInitializationMode 0 true 10; O3ExitInitializationMode].
  Definition startR2 f : list (Op2 R (md (m2 f))) := [O2SetupExperiment 0 true 10; O2EnterInitializationMode; O2ExitInitializationMode].
  Definition readyR3 f : option (Sys R (md (m3 f))) :=
    match fmi3InstantiateCoSimulation (m3 f) env0 name0 (Some (guid f)) None false false false 0%N true false with
    | Done (Some i, _) => match run3 (m3 f) szof0 0 (map (fun o => (env0, o)) (startR3 f)) (mkSys i []) with Done (_, s) => Some s | _ => None end
    | _ => None end.
  Definition readyR2 f : option (Sys R (md (m2 f))) :=
    match fmi2Instantiate (m2 f) env0 name0 CoSimulation (Some (guid f)) None 0%N true false with
    | Done (Some i, _) => match run2 (m2 f) szof0 0 (map (fun o => (env0, o)) (startR2 f)) (mkSys i []) with Done (_, s) => Some s | _ => None end
    | _ => None end.
  Lemma readyR3_reach f s : readyR3 f = Some s -> reach3 (m3 f) szof0 s.
  Proof.
    unfold readyR3. destruct (fmi3InstantiateCoSimulation _ _ _ _ _ _ _ _ _ _ _) as [[[i|] tr]| |] eqn:N; try discriminate.
    destruct (run3 _ _ _ _ _) as [[obs s']| |] eqn:E; try discriminate. intro H. injection H as <-.
    eapply run3_reach; [| |exact E].
    - apply reach3_new. right. left. do 11 eexists. exact N.
    - intros e o j H I. apply in_map_iff in H as (o' & X & H). injection X; intros; subst. destruct H as [<-|[<-|[]]]; discriminate.
  Qed.
  Lemma readyR2_reach f s : readyR2 f = Some s -> reach2 (m2 f) szof0 s.
  Proof.
    unfold readyR2. destruct (fmi2Instantiate _ _ _ _ _ _ _ _ _) as [[[i|] tr]| |] eqn:N; try discriminate.
    destruct (run2 _ _ _ _ _) as [[obs s']| |] eqn:E; try discriminate. intro H. injection H as <-.
    eapply run2_reach; [| |exact E].
    - apply reach2_new. do 9 eexists. exact N.
    - intros e o j H I. apply in_map_iff in H as (o' & X & H). injection X; intros; subst. destruct H as [<-|[<-|[<-|[]]]]; discriminate.
  Qed.
  (** the calls [l] of a new co-simulation instance *)
  Definition afterR3 f (l : list (Op3 R (md (m3 f)))) : option (Sys R (md (m3 f))) :=
    match fmi3InstantiateCoSimulation (m3 f) env0 name0 (Some (guid f)) None false false false 0%N true false with
    | Done (Some i, _) => match run3 (m3 f) szof0 0 (map (fun o => (env0, o)) l) (mkSys i []) with Done (_, s) => Some s | _ => None end
    | _ => None end.
  Lemma afterR3_reach f l s : noimage3 l -> afterR3 f l = Some s -> reach3 (m3 f) szof0 s.
  Proof.
    intro Im. unfold afterR3. destruct (fmi3InstantiateCoSimulation _ _ _ _ _ _ _ _ _ _ _) as [[[i|] tr]| |] eqn:N; try discriminate.
    destruct (run3 _ _ _ _ _) as [[obs s']| |] eqn:E; try discriminate. intro H. injection H as <-.
    eapply run3_reach; [| |exact E].
    - apply reach3_new. right. left. do 11 eexists. exact N.
    - intros e o j H I. apply in_map_iff in H as (o' & X & H). injection X; intros; subst.
      unfold noimage3 in Im. rewrite Forall_forall in Im. rewrite (Im _ H) in I. discriminate.
  Qed.
End R.
Ltac rnorm := lazy -[Rleb Rltb Rplus Rmult Rminus Ropp IZR powerRZ Rinv Rtrunc].
