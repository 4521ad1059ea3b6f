(** Token.v -- proofs for C73. *)
From Coq Require Import List NArith ZArith Bool Strings.String.
From Verif Require Import Base Instance ModelIface Core Fmi3 Fmi2 Api Fmus NumB64 SpecModes SpecCreate Create Instances.
Import ListNotations.
Open Scope list_scope.
Set Implicit Arguments.

Definition twins (f g : FMU) : Prop := f = Stair /\ g = VanDerPol \/ f = VanDerPol /\ g = Stair.
Lemma other_token f g t : f <> g -> ~ twins f g -> is_token g t -> ~ is_token f t.
Proof.
  intros N T (t0 & -> & E) (t1 & E1 & E2). injection E1 as <-. rewrite E in E2. unfold twins in T.
  destruct f, g; try contradiction; try (vm_compute in E2; discriminate); apply T; auto.
Qed.

Section Token.
  Context {F : Type} {NF : Num F}.
  Lemma foreign f g t env name resource lo ev er environment logger inter :
    f <> g -> ~ twins f g -> is_token g t ->
    (exists tr, fmi3InstantiateModelExchange (F := F) (model_of FMI3 f) env name t resource lo environment logger = Done (None, tr)) /\
    (exists tr, fmi3InstantiateCoSimulation (F := F) (model_of FMI3 f) env name t resource lo ev er environment logger inter = Done (None, tr)) /\
    (forall cu lk ul, exists tr, fmi3InstantiateScheduledExecution (F := F) (model_of FMI3 f) env name t resource lo environment logger cu lk ul = Done (None, tr)) /\
    (forall ty, exists tr, fmi2Instantiate (F := F) (model_of FMI2 f) env name ty t resource environment logger lo = Done (None, tr)).
  Proof.
    intros N T I. pose proof (other_token N T I) as X. split; [|split; [|split]].
    - destruct (@instantiate_me F NF f env name t resource lo environment logger) as [_ H]. destruct H as (tr & E & _); [tauto|]. eauto.
    - destruct (@instantiate_cs F NF f env name t resource lo ev er environment logger inter) as [_ H]. destruct H as (tr & E & _); [tauto|]. eauto.
    - intros cu lk ul. destruct (@instantiate_se F NF f env name t resource lo environment logger cu lk ul) as [_ H]. destruct H as (tr & E & _); [tauto|]. eauto.
    - intros ty. destruct (@instantiate_2 F NF f env name ty t resource environment logger lo) as [_ H]. destruct H as (tr & E & _); [tauto|]. eauto.
  Qed.
End Token.
