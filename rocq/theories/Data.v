(** Data.v -- lemmas on reading and assigning variables (proofs of C08, C09, C11, C12, C29, C35). *)
From Coq Require Import List NArith ZArith Bool Arith Lia.
From Verif Require Import Base Instance ModelIface Core Fmi3 Fmi2 Api Logic Calls Fmus SpecModes Gate
  SpecVars Vars VarsFmus DataFmus.
From Verif Require Import FmuBouncingBall FmuDahlquist FmuStair FmuVanDerPol FmuRoberts
  FmuClocks FmuResource FmuStateSpace FmuFeedthrough.
Import ListNotations.
Set Implicit Arguments.

Section Data.
  Context {F : Type} {NF : Num F} (f : FMU) (szof : N).
  Notation m := (model_of (F := F) FMI3 f).
  Notation V := (vars_all FMI3 f).
  Notation reach s := (reach3 m szof s).

  Lemma typed3 t : typed FMI3 t.
  Proof. discriminate. Qed.
  Lemma mask_set_get md t : N.land (bit3 md) (MASK_Set t) <> 0%N -> N.land (bit3 md) (MASK_Get t) <> 0%N.
  Proof. destruct md, t; cbv; auto. Qed.
  Lemma mask_get_terminated t : N.land (bit3 Terminated) (MASK_Get t) <> 0%N.
  Proof. destruct t; cbv; discriminate. Qed.

  (** Reads after a call that left the same values. *)
  Lemma alike_reads env s s' : vl_wf V (data (mut (sinst s))) -> alike V env (sinst s) (sinst s') ->
    mode_of s' = mode_of s \/ mode_of s' = Terminated -> reads_same m szof env s s'.
  Proof.
    intros W A M t vr vs G. pose proof A as (_ & W' & _).
    apply (get1_iff V szof env s' t vr vs W').
    apply (get1_iff V szof env s t vr vs W) in G. destruct G as (R & P). split.
    - exact (alike_canread M A R).
    - rewrite <- P. now apply alike_peek.
  Qed.

  Lemma declared_peek env i t vr vs : peek V env i t vr = Some vs -> vl_size V t vr (vl_recalc V env (ctl i) (data (mut i))) = Some (length vs).
  Proof. unfold peek. apply vl_vsize. Qed.

  Lemma get_unknown env fuel s t vrs nvr buf n st out s' tr : reach s -> n <= length buf -> nvr <> 0 ->
    Exists (fun vr => ~ declared FMI3 f t vr) (firstn nvr vrs) ->
    exec3 m szof fuel env (O3Get t (Some vrs) nvr (Some buf) n) s = Done (st, out, s', tr) ->
    st = Error /\ reads_same m szof env s s'.
  Proof.
    intros R L Hn X E. pose proof (wf_reach _ _ R) as W. apply (get3_spec V) in E; [|exact W|exact L|exact Hn].
    destruct E as (A & _ & l' & _ & _ & _ & [(-> & _ & _ & _ & vss & Fq & _)|(-> & Mt)]).
    - exfalso. clear -Fq X. revert vss Fq. induction X as [vr l U|vr l X IH]; intros vss Fq; inversion Fq; subst; [|eauto].
      apply U. apply declared_peek in H1. destruct (@size_some _ _ FMI3 f _ _ _ _ (@typed3 _) H1) as (dims & K & _). exists dims. exact K.
    - split; [reflexivity|]. apply alike_reads; auto.
  Qed.

  Lemma assigns_sizes t vrs vs d d' : assigns V t vrs vs d d' ->
    exists ks, Forall2 (fun vr k => vl_size V t vr d = Some k) vrs ks /\ length vs = fold_right Nat.add 0 ks.
  Proof.
    induction 1 as [d|vr vs vrs ws d d1 d2 Hs Ha A (ks & Fk & L)]; [exists []; split; [constructor|reflexivity]|].
    exists (length vs :: ks). rewrite app_length. split; [|cbn; lia]. constructor; [exact Hs|].
    clear -Fk Ha. induction Fk; constructor; auto. now rewrite (vl_asize V _ _ _ _ x Ha) in H.
  Qed.
  Lemma mask_get_any md t t' : N.land (bit3 md) (MASK_Get t) <> 0%N -> N.land (bit3 md) (MASK_Get t') <> 0%N.
  Proof. destruct md, t, t'; cbv; auto. Qed.
  Lemma size_sized env s t vr k : reach s -> N.land (bit3 (mode_of s)) (MASK_Get t) <> 0%N ->
    vl_size V t vr (data (mut (sinst s))) = Some k -> sized m szof env FMI3 f s t vr k.
  Proof.
    intros R Hm Hs. pose proof (wf_reach _ _ R) as W. destruct (@size_some _ _ FMI3 f _ _ _ _ (@typed3 _) Hs) as (dims & Hi & Hk & Hd).
    assert (Q : f = StateSpace \/ f <> StateSpace) by (destruct f; auto; right; discriminate).
    destruct Q as [->|Q].
    - exists dims, (map (fun vr => N.of_nat (dimension (data (mut (sinst s))) vr)) dims). split; [exact Hi|].
      cbn [dimensions] in Hk. split.
      + assert (Fd : Forall (fun vr => In vr [1; 2; 3]%N) dims).
        { cbn in Hi. clear -Hi. repeat (destruct Hi as [Hi|Hi]; [apply (f_equal snd) in Hi; cbn in Hi; subst dims; repeat apply Forall_cons; try apply Forall_nil; cbn; auto|]). destruct Hi. }
        clear Hk Hi Hd Hs. induction Fd as [|x l Hx Hl IH]; cbn [map]; constructor; auto.
        apply (get1_iff ss_laws szof env s TUInt64 x _ W). split.
        * split; [eapply mask_get_any; exact Hm|]. destruct (dirty _); [exists []; reflexivity|intros _; discriminate].
        * unfold peek. change (vl_value ss_laws TUInt64 x (ctl (sinst s)) (vl_recalc ss_laws env (ctl (sinst s)) (data (mut (sinst s)))))
            with (ss_value TUInt64 x (ctl (sinst s)) (ss_recalc (data (mut (sinst s))))).
          destruct (ss_recalc_eq W) as (dx & y & _ & _ & _ & _ & ->).
          cbn in Hx. destruct Hx as [<-|[<-|[<-|[]]]]; reflexivity.
      + rewrite Hk. clear. induction dims as [|x l IH]; cbn [fold_right map]; [reflexivity|]. rewrite Nnat.Nat2N.id. congruence.
    - rewrite (Hd Q) in *. exists [], []. split; [exact Hi|]. split; [constructor|]. rewrite Hk. now destruct f.
  Qed.
  Lemma recalc_size env c t vr d : vl_wf V d -> vl_size V t vr (vl_recalc V env c d) = vl_size V t vr d.
  Proof. apply vl_rsize. Qed.
  Lemma sized_list env s t vrs ks : reach s -> N.land (bit3 (mode_of s)) (MASK_Get t) <> 0%N ->
    Forall2 (fun vr k => vl_size V t vr (data (mut (sinst s))) = Some k) vrs ks -> Forall2 (sized m szof env FMI3 f s t) vrs ks.
  Proof. intros R Hm. induction 1; constructor; auto. now apply size_sized. Qed.

  Lemma get_sizes env fuel s t vrs nvr buf n st out s' tr : reach s -> n <= length buf -> nvr <> 0 ->
    exec3 m szof fuel env (O3Get t (Some vrs) nvr (Some buf) n) s = Done (st, out, s', tr) ->
    exists buf', out = OVals t (Some buf') /\ length buf' = length buf /\ skipn n buf' = skipn n buf /\
    (st = OK -> exists ks vss, Forall2 (sized m szof env FMI3 f s t) (firstn nvr vrs) ks /\ n = fold_right Nat.add 0 ks /\
       Forall2 (get3 m szof env s t) (firstn nvr vrs) vss /\ map (@length _) vss = ks /\ firstn n buf' = concat vss).
  Proof.
    intros R L Hn E. pose proof (wf_reach _ _ R) as W. pose proof E as E0. apply (get3_spec V) in E; [|exact W|exact L|exact Hn].
    destruct E as (A & _ & l' & -> & L1 & L2 & K). exists l'. split; [reflexivity|]. split; [exact L1|]. split; [exact L2|].
    intros ->. destruct K as [(_ & _ & Hm & _ & vss & Fq & Ln & El)|(X & _)]; [|discriminate].
    exists (map (@length _) vss), vss.
    assert (Fs : Forall2 (fun vr k => vl_size V t vr (data (mut (sinst s))) = Some k) (firstn nvr vrs) (map (@length _) vss)).
    { clear -Fq W. induction Fq; cbn; constructor; auto. apply declared_peek in H. now rewrite recalc_size in H. }
    split; [now apply sized_list|]. split; [rewrite Ln; clear; induction vss; cbn; [reflexivity|]; rewrite app_length; lia|].
    split.
    - assert (C : canread V env t (sinst s)).
      { apply (@get3_canread _ _ _ V szof env) in E0; auto. }
      clear -C Fq W. induction Fq; constructor; auto. now apply (get1_iff V szof env s t _ _ W).
    - split; [reflexivity|]. rewrite El, Ln. now rewrite firstn_app, firstn_all, Nat.sub_diag, firstn_O, app_nil_r.
  Qed.

  Lemma set_sizes env fuel s t vrs nvr l n out s' tr : reach s -> nvr <> 0 ->
    exec3 m szof fuel env (O3Set t (Some vrs) nvr (Some l) n) s = Done (OK, out, s', tr) ->
    exists ks, Forall2 (sized m szof env FMI3 f s t) (firstn nvr vrs) ks /\ n = fold_right Nat.add 0 ks.
  Proof.
    intros R Hn E. pose proof (wf_reach _ _ R) as W. apply (set3_spec V) in E; [|exact W|exact Hn].
    destruct E as (_ & _ & _ & n' & vs & d & b & A & _ & _ & _ & _ & _ & _ & [(_ & _ & Hm & _ & _ & -> & L)|(X & _)]); [|discriminate].
    apply assigns_sizes in A as (ks & Fk & Lk). exists ks. split; [|congruence]. apply sized_list; auto. now apply mask_set_get.
  Qed.

  Lemma set_unknown env fuel s t vrs nvr l n st out s' tr : reach s -> nvr <> 0 ->
    Exists (fun vr => ~ declared FMI3 f t vr) (firstn nvr vrs) ->
    exec3 m szof fuel env (O3Set t (Some vrs) nvr (Some l) n) s = Done (st, out, s', tr) -> st = Error.
  Proof.
    intros R Hn X E. pose proof (wf_reach _ _ R) as W. apply (set3_spec V) in E; [|exact W|exact Hn].
    destruct E as (_ & _ & _ & n' & vs & d & b & A & _ & _ & _ & _ & _ & _ & [(_ & _ & Hm & _ & _ & -> & L)|(-> & _)]); [|reflexivity].
    exfalso. apply assigns_sizes in A as (ks & Fk & _). clear -Fk X. revert ks Fk.
    induction X as [vr l U|vr l X IH]; intros ks Fk; inversion Fk; subst; [|eauto].
    apply U. destruct (@size_some _ _ FMI3 f _ _ _ _ (@typed3 _) H1) as (dims & K & _). exists dims. exact K.
  Qed.
  Lemma set_unknown1 env fuel s t vr l n st out s' tr : reach s -> ~ declared FMI3 f t vr ->
    exec3 m szof fuel env (O3Set t (Some [vr]) 1 (Some l) n) s = Done (st, out, s', tr) ->
    st = Error /\ reads_same m szof env s s'.
  Proof.
    intros R U E. split.
    { apply set_unknown in E; auto. constructor. exact U. }
    pose proof (wf_reach _ _ R) as W. apply (set3_spec V) in E; [|exact W|auto].
    destruct E as (_ & _ & Hc & n' & vs & d & b & A & Um & Wd & _ & _ & _ & Bz & Q).
    assert (Hn : n' = 0).
    { destruct n' as [|n']; [reflexivity|]. exfalso. destruct n'; cbn [firstn] in A; inversion A; subst;
        apply U; match goal with H : vl_size _ _ _ _ = _ |- _ => destruct (@size_some _ _ FMI3 f _ _ _ _ (@typed3 _) H) as (dims & K & _) end; exists dims; exact K. }
    subst n'. cbn [firstn] in A. inversion A; subst. rewrite (Bz eq_refl) in Um. rewrite mut_same in Um.
    apply alike_reads; [exact W| |].
    - split; [exact Hc|]. rewrite Um. auto.
    - destruct Q as [(_ & _ & _ & _ & _ & X & _)|(_ & M & _)]; [discriminate|auto].
  Qed.

  (** A successful Set of one variable. *)
  Lemma set_one env fuel s t vr l n out s' tr : reach s ->
    exec3 m szof fuel env (O3Set t (Some [vr]) 1 (Some l) n) s = Done (OK, out, s', tr) ->
    exists d, vl_size V t vr (data (mut (sinst s))) = Some n /\ n <= length l /\ vl_assign V t vr (firstn n l) (data (mut (sinst s))) = Some d /\
      mut (sinst s') = set_dirty true (set_data d (mut (sinst s))) /\ vl_wf V d /\ ctl (sinst s') = ctl (sinst s) /\
      (exists tr, vl_out V env (ctl (sinst s)) = Some (OK, tr)) /\ N.land (bit3 (mode_of s)) (MASK_Get t) <> 0%N.
  Proof.
    intros R E. pose proof (wf_reach _ _ R) as W. apply (set3_spec V) in E; [|exact W|auto].
    destruct E as (_ & _ & _ & n' & vs & d & b & A & Um & Wd & Hf & _ & Ho & _ & [(_ & Hc & Hm & _ & -> & -> & L)|(X & _)]); [|discriminate].
    cbn [firstn] in A. inversion A as [|? vs0 ? ? ? d1 ? Hs Ha A' ]; subst. inversion A'; subst. rewrite app_nil_r in *. subst.
    exists d.
    assert (Hl : vs0 = firstn (length vs0) l) by (destruct vs0; [reflexivity|apply Hf; discriminate]).
    split; [exact Hs|]. rewrite <- Hl. split; [|split; [exact Ha|split; [exact Um|split; [exact Wd|split; [exact Hc|split; [auto|now apply mask_set_get]]]]]].
    rewrite Hl, firstn_length. lia.
  Qed.
  Lemma set_get env fuel s t vr l n out s' tr : reach s ->
    exec3 m szof fuel env (O3Set t (Some [vr]) 1 (Some l) n) s = Done (OK, out, s', tr) ->
    ~ overwritten FMI3 f vr (data (mut (sinst s))) ->
    n <= length l /\ get3 m szof env s' t vr (map (as_read t) (firstn n l)).
  Proof.
    intros R E X. pose proof (wf_reach _ _ R) as W. destruct (@set_one _ _ _ _ _ _ _ _ _ _ R E) as (d & Hs & Hn & Ha & Um & Wd & Hc & Ho & Hm).
    split; [exact Hn|]. apply (get1_iff V szof env s' t vr); [now rewrite Um|]. split.
    - split; [now rewrite Hc|]. rewrite Um, Hc. exact Ho.
    - unfold peek. rewrite Um, Hc. cbn [data set_dirty set_data]. apply assign_read with (d := data (mut (sinst s))); auto.
      rewrite firstn_length_le by exact Hn. exact Hs.
  Qed.
  Lemma set_other env fuel s t vr l n out s' tr t2 vr2 ws : reach s ->
    exec3 m szof fuel env (O3Set t (Some [vr]) 1 (Some l) n) s = Done (OK, out, s', tr) ->
    t <> TUInt64 \/ f <> StateSpace -> vr2 <> vr -> ~ In vr (depends f vr2) ->
    get3 m szof env s t2 vr2 ws -> get3 m szof env s' t2 vr2 ws.
  Proof.
    intros R E T Hv Hd G. pose proof (wf_reach _ _ R) as W. destruct (@set_one _ _ _ _ _ _ _ _ _ _ R E) as (d & Hs & Hn & Ha & Um & Wd & Hc & Ho & Hm).
    apply (get1_iff V szof env s t2 vr2 ws W) in G. destruct G as (C & P).
    apply (get1_iff V szof env s' t2 vr2); [now rewrite Um|]. split.
    - destruct C as (C1 & _). split; [now rewrite Hc|]. rewrite Um, Hc. exact Ho.
    - unfold peek in *. rewrite Um, Hc. cbn [data set_dirty set_data]. rewrite <- P. eapply assign_other; eauto.
  Qed.
End Data.
