(** Samples.v -- concrete instances over binary64, to show beside the theorems that their
    hypotheses are met.  Nothing here is used by a proof of a property. *)
From Coq Require Import List NArith ZArith Bool Strings.String.
From Verif Require Import Base Instance ModelIface Core Fmi3 Fmi2 Api Fmus NumB64 Logic SpecModes SpecCreate SpecState Histories.
Import ListNotations.
Open Scope list_scope.
Set Implicit Arguments.

Definition env0 : Env := {| env_file := fun _ => None |}.
Definition text (s : string) : bytes := String.list_byte_of_string s.
Definition name0 : option bytes := Some (text "instance").
Definition m3' (f : FMU) : Model B64 := model_of FMI3 f.
Definition m2' (f : FMU) : Model B64 := model_of FMI2 f.
Definition lit (z : Z) : B64 := nlit z 0.

(** Instances with a logger: model exchange, co-simulation (event mode, early return), scheduled
    execution, FMI 2.0 *)
Definition newME f := fmi3InstantiateModelExchange (m3' f) env0 name0 (Some (guid f)) None false 0%N true.
Definition newCS ev er f :=
  fmi3InstantiateCoSimulation (m3' f) env0 name0 (Some (guid f)) None false ev er 0%N true false.
Definition newSE f :=
  fmi3InstantiateScheduledExecution (m3' f) env0 name0 (Some (guid f)) None false 0%N true true true true.
Definition new2 ty f := fmi2Instantiate (m2' f) env0 name0 ty (Some (guid f)) None 0%N true false.

(** [s] is the system after creating an instance and the calls [l] (256 iterations of a DoStep loop). *)
Definition fuel0 : nat := 256.
Definition szof0 : N := 64.
Definition after3 (f : FMU) (new : res (option (Inst B64 (md (m3' f))) * list (Event B64))) (l : list (Op3 B64 (md (m3' f)))) (s : Sys B64 (md (m3' f))) : Prop :=
  exists i tr obs, new = Done (Some i, tr) /\
    run3 (m3' f) szof0 fuel0 (map (fun o => (env0, o)) l) (mkSys i []) = Done (obs, s).
Definition after2 (f : FMU) (new : res (option (Inst B64 (md (m2' f))) * list (Event B64))) (l : list (Op2 B64 (md (m2' f)))) (s : Sys B64 (md (m2' f))) : Prop :=
  exists i tr obs, new = Done (Some i, tr) /\
    run2 (m2' f) szof0 fuel0 (map (fun o => (env0, o)) l) (mkSys i []) = Done (obs, s).

Definition noimage3 {F D} (l : list (Op3 F D)) : Prop := Forall (fun o => image3 o = None) l.
Definition noimage2 {F D} (l : list (Op2 F D)) : Prop := Forall (fun o => image2 o = None) l.
Lemma after3_reach f new l s :
  new = newME f \/ (exists ev er, new = newCS ev er f) \/ new = newSE f -> noimage3 l ->
  @after3 f new l s -> reach3 (m3' f) szof0 s.
Proof.
  intros W I (i & tr & obs & N & R). eapply run3_reach; [| |exact R].
  - apply reach3_new. rewrite N in W. unfold newME, newCS, newSE in W.
    destruct W as [W|[(ev & er & W)|W]]; symmetry in W.
    + left. do 8 eexists. exact W.
    + right. left. do 11 eexists. exact W.
    + right. right. do 11 eexists. exact W.
  - intros e o j H E. apply in_map_iff in H as (o' & X & H). injection X; intros; subst.
    unfold noimage3 in I. rewrite Forall_forall in I. rewrite (I _ H) in E. discriminate.
Qed.
Lemma after2_reach f ty l s : noimage2 l -> @after2 f (new2 ty f) l s -> reach2 (m2' f) szof0 s.
Proof.
  intros I (i & tr & obs & N & R). eapply run2_reach; [| |exact R].
  - apply reach2_new. do 9 eexists. exact N.
  - intros e o j H E. apply in_map_iff in H as (o' & X & H). injection X; intros; subst.
    unfold noimage2 in I. rewrite Forall_forall in I. rewrite (I _ H) in E. discriminate.
Qed.

(** A reachable system is computed from a list of calls. *)
Lemma sample3 f new l s :
  (new = newME f \/ (exists ev er, new = newCS ev er f) \/ new = newSE f) -> noimage3 l ->
  match new with
  | Done (Some i, _) =>
      match run3 (m3' f) szof0 fuel0 (map (fun o => (env0, o)) l) (mkSys i []) with
      | Done (_, s') => Some s'
      | _ => None
      end
  | _ => None
  end = Some s -> reach3 (m3' f) szof0 s.
Proof.
  intros W I H. apply (@after3_reach f new l); auto.
  destruct new as [[[i|] tr]| |]; try discriminate.
  destruct (run3 _ _ _ _ _) as [[obs s']| |] eqn:R; try discriminate. injection H as ->.
  exists i, tr, obs. auto.
Qed.
Lemma sample2 f ty l s :
  noimage2 l ->
  match new2 ty f with
  | Done (Some i, _) =>
      match run2 (m2' f) szof0 fuel0 (map (fun o => (env0, o)) l) (mkSys i []) with
      | Done (_, s') => Some s'
      | _ => None
      end
  | _ => None
  end = Some s -> reach2 (m2' f) szof0 s.
Proof.
  intros I H. apply (@after2_reach f ty l); auto. unfold after2.
  destruct (new2 ty f) as [[[i|] tr]| |]; try discriminate.
  destruct (run2 _ _ _ _ _) as [[obs s']| |] eqn:R; try discriminate. injection H as ->.
  exists i, tr, obs. auto.
Qed.
Ltac case3 n l :=
  eexists; split;
  [apply (@sample3 _ n l); [auto; right; left; eexists; eexists; reflexivity|repeat constructor|vm_compute; reflexivity]
  |vm_compute].
Ltac case2 ty l :=
  eexists; split;
  [apply (@sample2 _ ty l); [repeat constructor|vm_compute; reflexivity]|vm_compute].

(** What can be told apart: the statuses and the Float64 values returned by a run *)
Definition vals_of {D} (o : Out B64 D) : option (list B64) :=
  match o with OVals TFloat64 b => b | _ => None end.
Definition seen {D} (r : res (list (Status * Out B64 D * list (Event B64)) * Sys B64 D)) : option (list (Status * option (list B64))) :=
  match r with Done (l, _) => Some (map (fun x => (fst (fst x), vals_of (snd (fst x)))) l) | _ => None end.
Lemma vals_view D n (o : Out B64 D) : vals_of (view n o) = vals_of o.
Proof. now destruct o. Qed.
Lemma same_seen D lg (a b : res (list (Status * Out B64 D * list (Event B64)) * Sys B64 D)) :
  same_run lg 0 0 a b -> seen a = seen b.
Proof.
  destruct a as [[l s]| |], b as [[l' s']| |]; cbn; try tauto. intro H. f_equal.
  induction H as [|[[st o] t] [[st' o'] t'] l l' H _ IH]; [reflexivity|]. cbn in *. rewrite IH. clear IH.
  destruct H as (-> & V & _). do 2 f_equal. rewrite <- (vals_view 0 o), <- V. apply vals_view.
Qed.
