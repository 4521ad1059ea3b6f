(** PropCross2.v -- property C23 for Resource: its FMI 2 and its FMI 3 build agree. *)
From Coq Require Import List NArith ZArith Bool.
From Coq.Init Require Import Byte.
From Verif Require Import Base Instance ModelIface Core Fmi3 Fmi2 Api Fmus NumB64 Samples SpecModes SpecCreate SpecCross SpecImporter FmuResource CrossRes.
Import ListNotations.
Set Implicit Arguments.

(** C23 for Resource, whose builds find their file in different ways: create the FMI 2 build with a file URI
    (file:/... or file:///..., percent-encoded) of the directory [dir] and the FMI 3 build with its path and a final /, and
    play the same script to both as in C23_versions_agree_partial.  If y.txt can be read whenever a call is made
    (its contents may change from call to call), then all calls answer alike, for every arithmetic.
    Missing: a file that is removed meanwhile (refuted below). *)
Theorem C23_resource_partial :
  forall (F : Type) (NF : Num F) szof szof' fuel e ty name token uri enc dir environment loggingOn (l : list (Env * Call F)),
    file_uri enc uri -> decodes enc dir -> plain uri -> plain dir -> length enc <= N.to_nat 4095 -> length dir <= N.to_nat 4089 ->
    ty <> ScheduledExecution -> forallb (fun p => portable Resource (snd p)) l = true ->
    (forall env c, In (env, c) l -> env_file env (dir ++ y_txt) <> None) ->
    born_alike (model_of FMI2 Resource) (model_of FMI3 Resource) szof szof' fuel l
      (new2 (model_of FMI2 Resource) e ty name token (Some uri) environment loggingOn)
      (new3 (model_of FMI3 Resource) e ty name token (Some (dir ++ [x2f])) environment loggingOn).
Proof. exact born_resource. Qed.

(** A case: the directory /r, as file:///%72; the file /r/y.txt holds an a, later a b. *)
Definition uri_r : bytes := [x66; x69; x6c; x65; x3a; x2f; x2f; x2f; x25; x37; x32].
Definition dir_r : bytes := [x2f; x72].
Definition holds (c : Z) : Env := {| env_file := fun p => if bytes_eqb p (dir_r ++ y_txt) then Some c else None |}.
Definition no_file : Env := {| env_file := fun _ => None |}.
Definition ready2 := new2 (m2' Resource) (holds 97) CoSimulation name0 (Some (m_token (m2' Resource))) (Some uri_r) 0%N true.
Definition ready3 := new3 (m3' Resource) (holds 97) CoSimulation name0 (Some (m_token (m3' Resource))) (Some (dir_r ++ [x2f])) 0%N true.
Definition reads : list (Env * Call B64) :=
  map (pair (holds 97)) [CInit (lit 0) true (lit 3); CExitInit; CGet TInt32 [1%N] [0%Z]; CStep (lit 0) (lit 1); CSave] ++
  map (pair (holds 98)) [CGet TFloat64 [0%N] [lit 0]; CCopy 0; CRestore 1; CGet TInt32 [1%N] [0%Z]; CStep (lit 1) (lit 1)].
Example C23_case_resource :
  file_uri [x2f; x25; x37; x32] uri_r /\ decodes [x2f; x25; x37; x32] dir_r /\ plain uri_r /\ plain dir_r /\
  forallb (fun p => portable Resource (snd p)) reads = true /\ (forall env c, In (env, c) reads -> env_file env (dir_r ++ y_txt) <> None) /\
  match ready2 with
  | Done (Some i, _) => played (m2' Resource) szof0 fuel0 [] false reads (fun s => mode_of s = StepComplete /\ re_y (data (mut (sinst s))) = 98%Z) (mkSys i [])
  | _ => False
  end.
Proof.
  split; [split; [reflexivity|left; reflexivity]|].
  split; [apply dec_char; [discriminate|]; apply dec_byte; [reflexivity..|apply dec_nil]|].
  split; [vm_compute; intuition discriminate|]. split; [vm_compute; intuition discriminate|]. split; [reflexivity|].
  split; [|vm_compute; intuition congruence].
  intros env c H. cbn in H. repeat (destruct H as [H|H]; [inversion H; subst; vm_compute; discriminate|]). destruct H.
Qed.

(** If the file is removed: asked for a Boolean variable, which it does not have, the FMI 3 build has read the file before it
    returns Error, the FMI 2 build has not.  Read afterwards, the output has a value in FMI 3 and is an Error in FMI 2. *)
Theorem C23_removed_file_refuted : exists l : list (Env * Call B64),
  match ready2 with
  | Done (Some i, _) => played (m2' Resource) szof0 fuel0 [] false l (fun _ => True) (mkSys i [])
  | _ => False
  end /\
  ~ born_alike (m2' Resource) (m3' Resource) szof0 szof0 fuel0 l ready2 ready3.
Proof.
  exists (map (pair (holds 97)) [CInit (lit 0) false (lit 0); CGetBoolean [1%N] [false]] ++ [(no_file, CGet TInt32 [1%N] [0%Z])]). split.
  - vm_compute. intuition congruence.
  - vm_compute. intros [_ H].
    do 2 (match type of H with ?A -> _ => assert (X : A) by (repeat split; auto 20); specialize (H X); clear X; destruct H as [_ H] end).
    match type of H with ?A -> _ => assert (X : A) by (repeat split; auto 20); specialize (H X); clear X; destruct H as [H _] end.
    destruct H as (_ & _ & _ & H & _). discriminate H.
Qed.

Definition PropCross2_all := (@C23_resource_partial, @C23_case_resource, @C23_removed_file_refuted).
Print Assumptions PropCross2_all.
