(** ImpResource.v -- the resource URI of the importer and the Resource FMU (proof of C41). *)

From Coq Require Import List NArith ZArith Bool Arith Lia.
From Coq.Init Require Import Byte.
From Verif Require Import Base Instance ModelIface Core Fmi3 Fmi2 Api Fmus SpecModes SpecCreate SpecState SpecVars
  SpecHist LawsFmus Reach Histories Instances Vars VarsFmus DataFmus Vars2 Data2 FmuResource SpecImporter Importer.
Import ListNotations.
Set Implicit Arguments.


Lemma path2_uri path :
  hd_error path = Some x2f -> plain path ->
  length (uri_of path) <= N.to_nat 4102 -> length path <= N.to_nat 4089 ->
  path2 (cstr (uri_of path)) = Some (path ++ y_txt).
Proof.
  intros Hh Hp Lu Lp. unfold uri_of in *. rewrite app_length in Lu.
  change (length file_scheme) with 7 in Lu.
  rewrite cstr_plain.
  2:{ apply plain_app; [intros H; cbn in H; repeat (destruct H as [H|H]; [discriminate|]); exact H|].
      intros H. apply in_flat_map in H. destruct H as (c & Hc & H). revert H. apply encoded_plain.
      intros ->. exact (Hp Hc). }
  assert (Hs : has_prefix s_scheme1 (file_scheme ++ flat_map encoded path) = true).
  { destruct path as [|c path]; [discriminate|]. injection Hh as ->. reflexivity. }
  unfold path2. rewrite Hs. change (skipn 7 (file_scheme ++ flat_map encoded path)) with (flat_map encoded path).
  rewrite firstn_all2 by (unfold MAX_PATH_LENGTH; lia).
  rewrite decode_encoded, (cstr_plain Hp).
  rewrite firstn_all2 by (unfold MAX_PATH_LENGTH; cbn [length s_slash_y]; lia). reflexivity.
Qed.

(** Any well-formed URI *)
Lemma hex_decoded h l b : is_hex h = true -> is_hex l = true -> Byte.to_N b = (16 * hex_value h + hex_value l)%N ->
  byte_of_Z (strtol16 [h; l]) = b.
Proof.
  intros Hh Hl Hb.
  assert (G : byte_of_Z (strtol16 [h; l]) =
              match Byte.of_N (16 * hex_value h + hex_value l) with Some b => b | None => x00 end).
  { destruct h; try discriminate; (destruct l; try discriminate; reflexivity). }
  rewrite G, <- Hb, Byte.of_to_N. reflexivity.
Qed.
Lemma decodes_percent s t : decodes s t -> percent_decode s = t.
Proof.
  induction 1 as [|b s t Hb _ IH|h l b s t Hh Hl Hb _ IH]; [reflexivity| |].
  - cbn [percent_decode]. destruct s as [|x [|y s]]; rewrite ?IH; try reflexivity.
    replace (byte_eqb b x25) with false; [reflexivity|]. destruct b; try reflexivity. contradiction.
  - cbn [percent_decode]. change (byte_eqb x25 x25) with true. cbv iota.
    rewrite (hex_decoded _ _ _ Hh Hl Hb), IH. reflexivity.
Qed.
Lemma path2_decodes s path uri : decodes s path -> file_uri s uri -> plain path ->
  length s <= N.to_nat 4095 -> length path <= N.to_nat 4089 ->
  path2 uri = Some (path ++ y_txt).
Proof.
  intros Hd (Hs & Hu) Hp Ls Lp. destruct s as [|c s]; [discriminate|]. injection Hs as ->.
  assert (K : match (if has_prefix s_scheme1 uri then Some (skipn 7 uri)
               else if has_prefix s_scheme2 uri then Some (skipn 5 uri) else None) with
              | Some p => p = x2f :: s | None => False end).
  { destruct Hu as [->|(-> & Hu)]; [reflexivity|]. cbn [tl] in Hu.
    destruct s as [|c s]; [reflexivity|]. destruct s as [|c2 s];
    destruct c; try reflexivity; exfalso; apply Hu; reflexivity. }
  unfold path2. destruct (if has_prefix s_scheme1 uri then _ else _) as [p|]; [|contradiction]. subst p.
  rewrite firstn_all2 by (unfold MAX_PATH_LENGTH; lia).
  rewrite (decodes_percent Hd), (cstr_plain Hp).
  rewrite firstn_all2 by (unfold MAX_PATH_LENGTH; cbn [length s_slash_y]; lia). reflexivity.
Qed.

Section Res.
  Context {F : Type} {NF : Num F} (szof : N).
  Notation m := (model_of (F := F) FMI2 Resource).

  Lemma reads_file env s loc p y : reach2 m szof s -> resourceLocation (ctl (sinst s)) = Some loc ->
    path2 (cstr loc) = Some p -> env_file env p = Some y ->
    In (mode_of s) (when2 (O2Get (F := F) (D := md m) TInt32 None 0 None)) ->
    get2 m szof env s TInt32 1 y.
  Proof.
    intros R Hl Hp He Hm. apply (@get_iff F NF szof Resource eq_refl); [exact R|].
    assert (O : re_out true env (ctl (sinst s)) = Some (OK, [])).
    { unfold re_out, re_file, re_path. rewrite Hl, Hp, He. reflexivity. }
    split.
    - split; [apply (readable2 (F := F) Resource); exact Hm|].
      destruct (dirty _); [exists []; exact O|]. intros _ X. change (re_out true env (ctl (sinst s)) = None) in X.
      rewrite O in X. discriminate.
    - unfold peek. change (option_map (fun x : Z => [x]) (re_value (F := F) TInt32 1 (ctl (sinst s)) (re_recalc true env (ctl (sinst s)) (data (mut (sinst s))))) = Some [y]).
      unfold re_recalc, re_file, re_path. rewrite Hl, Hp, He. reflexivity.
  Qed.

  Lemma resource_file env0 env name ty token environment logger loggingOn uri p i tr fuel l obs s y :
    path2 (cstr uri) = Some p ->
    fmi2Instantiate m env0 name ty token (Some uri) environment logger loggingOn = Done (Some i, tr) ->
    (forall e o j, In (e, o) l -> image2 o = Some j -> saved2 m szof j) ->
    run2 m szof fuel l (mkSys i []) = Done (obs, s) ->
    In (mode_of s) (when2 (O2Get (F := F) (D := md m) TInt32 None 0 None)) ->
    env_file env p = Some y ->
    get2 m szof env s TInt32 1 y.
  Proof.
    intros P2 Ei Im Er Hm He.
    assert (R0 : reach2 m szof (mkSys i [])) by (apply reach2_new; do 9 eexists; exact Ei).
    assert (R := @run2_reach F NF m szof fuel l _ _ _ R0 Im Er).
    destruct (@run2_identity _ _ _ szof (model_laws FMI2 Resource) _ _ _ _ _ Er) as [Id _].
    assert (L : resourceLocation (ctl i) = Some (cstr uri)).
    { unfold fmi2Instantiate in Ei. destruct logger; [|discriminate].
      apply create_ctl in Ei as [nm ->]. reflexivity. }
    assert (L' : resourceLocation (ctl (sinst s)) = Some (cstr uri)).
    { rewrite <- L. unfold identity in Id. cbn [sinst] in Id. injection Id. intros. assumption. }
    eapply reads_file; [exact R|exact L'| |exact He|exact Hm].
    etransitivity; [|exact P2]. f_equal.
    apply cstr_plain. clear. intros H. induction uri as [|b t IH]; cbn [cstr] in H; [exact H|].
    destruct (byte_eqb b x00) eqn:E; [exact H|]. destruct H as [->|H]; [discriminate|]. auto.
  Qed.

  Lemma resource_decoded env0 env name ty token environment logger loggingOn uri enc path i tr fuel l obs s y :
    file_uri enc uri -> decodes enc path -> plain uri -> plain path ->
    length enc <= N.to_nat 4095 -> length path <= N.to_nat 4089 ->
    fmi2Instantiate m env0 name ty token (Some uri) environment logger loggingOn = Done (Some i, tr) ->
    (forall e o j, In (e, o) l -> image2 o = Some j -> saved2 m szof j) ->
    run2 m szof fuel l (mkSys i []) = Done (obs, s) ->
    In (mode_of s) (when2 (O2Get (F := F) (D := md m) TInt32 None 0 None)) ->
    env_file env (path ++ y_txt) = Some y ->
    get2 m szof env s TInt32 1 y.
  Proof.
    intros Hu Hd Pu Pp Le Lp. apply resource_file. rewrite (cstr_plain Pu). eapply path2_decodes; eauto.
  Qed.
  Lemma resource_encoded env0 env name ty token environment logger loggingOn signed path uri u i tr fuel l obs s y :
    hd_error path = Some x2f -> plain path -> Forall (narrow signed) path ->
    length path <= N.to_nat 4089 ->
    ImpUri.FMIPathToURI signed path uri (length uri) = Done (OK, u) ->
    forall loc, c_string u = Some loc -> length loc <= N.to_nat 4102 ->
    fmi2Instantiate m env0 name ty token (Some loc) environment logger loggingOn = Done (Some i, tr) ->
    (forall e o j, In (e, o) l -> image2 o = Some j -> saved2 m szof j) ->
    run2 m szof fuel l (mkSys i []) = Done (obs, s) ->
    In (mode_of s) (when2 (O2Get (F := F) (D := md m) TInt32 None 0 None)) ->
    env_file env (path ++ y_txt) = Some y ->
    get2 m szof env s TInt32 1 y.
  Proof.
    intros Hh Pp Hn Lp Eu loc El Ll. apply resource_file.
    destruct (path_uri (signed := signed) uri Hn Pp) as (st & u1 & E1 & _ & _ & C).
    rewrite Eu in E1. inversion E1; subst st u1.
    destruct C as [(X & _)|(_ & X)]; [discriminate|]. rewrite X in El. injection El as <-.
    apply path2_uri; assumption.
  Qed.
End Res.
