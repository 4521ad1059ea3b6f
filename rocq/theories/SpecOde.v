(** SpecOde.v -- the equations of the FMUs and what a step of the fixed-step solver has to do
    (specification for C21, C22, C30-C32, C37, C45, C46): written from the readme files and the
    equations, not from the functions of the model. *)
From Coq Require Import List NArith ZArith Bool.
From Verif Require Import Base Instance ModelIface Core Fmi3 Api Fmus SpecModes SpecSteps
  FmuBouncingBall FmuDahlquist FmuStair FmuVanDerPol FmuRoberts FmuClocks FmuResource FmuStateSpace FmuFeedthrough.
Import ListNotations.
Set Implicit Arguments.

Section Equations.
  Context {F : Type} {NF : Num F}.
  Local Notation "a + b" := (nadd a b).
  Local Notation "a - b" := (nsub a b).
  Local Notation "a * b" := (nmul a b).
  Local Notation "- a" := (nopp a).

  (** The continuous states. *)
  Definition states (v : Version) (f : FMU) : md (model_of (F := F) v f) -> list F :=
    match f return md (model_of (F := F) v f) -> list F with
    | BouncingBall => fun d => [bb_h d; bb_v d]
    | Dahlquist => fun d => [da_x d]
    | VanDerPol => fun d => [vp_x0 d; vp_x1 d]
    | Roberts => fun d => [ro_y1 d; ro_y2 d]
    | StateSpace => fun d => firstn (ss_n d) (ss_x d)
    | _ => fun _ => []
    end.

  (** row . v, [n] terms, added to [acc] from the left *)
  Definition sumprod (n : nat) (row v : list F) (acc : F) : F :=
    fold_left (fun a j => a + nth j row nzero * nth j v nzero) (seq 0 n) acc.
  (** y3 of Robertson's problem: from the conservation law, unless y3 is an independent variable *)
  Definition ro_third (d : ROData F) : F := if ro_dae d then ro_y3 d else (nlit 1 0 - ro_y1 d) - ro_y2 d.
  (** The right-hand sides. *)
  Definition ders (v : Version) (f : FMU) : md (model_of (F := F) v f) -> list F :=
    match f return md (model_of (F := F) v f) -> list F with
    | BouncingBall => fun d => [bb_v d; bb_g d]
    | Dahlquist => fun d => [(- da_k d) * da_x d]
    | VanDerPol => fun d => [vp_x1 d; vp_mu d * ((nlit 1 0 - vp_x0 d * vp_x0 d) * vp_x1 d) - vp_x0 d]
    | Roberts => fun d =>
        let a := nlit 1 4 * ro_y2 d * ro_third d in
        [(- nlit 4 (-2)) * ro_y1 d + a; nlit 4 (-2) * ro_y1 d - a - nlit 3 7 * ro_y2 d * ro_y2 d]
    | StateSpace => fun d =>
        map (fun i => sumprod (ss_m d) (nth i (ss_B d) []) (ss_u d) (sumprod (ss_n d) (nth i (ss_A d) []) (ss_x d) nzero))
            (seq 0 (ss_n d))
    | _ => fun _ => []
    end.

  (** The event indicators. *)
  Definition indicators (v : Version) (f : FMU) : md (model_of (F := F) v f) -> list F :=
    match f return md (model_of (F := F) v f) -> list F with
    | BouncingBall => fun d =>
        [if nlt (- nlit 1 (-10)) (bb_h d) && nle (bb_h d) nzero && nlt nzero (bb_v d) then - nlit 1 (-10) else bb_h d]
    | Roberts => fun d => [ro_y1 d - nlit 1 (-4); ro_third d - nlit 1 (-2)]
    | _ => fun _ => []
    end.

  (** Everything else: the data without the states and the variables calculated from them. *)
  Definition frozen (v : Version) (f : FMU) : md (model_of (F := F) v f) -> md (model_of (F := F) v f) :=
    match f return md (model_of (F := F) v f) -> md (model_of (F := F) v f) with
    | BouncingBall => fun d => mkBB nzero nzero (bb_g d) (bb_e d)
    | Dahlquist => fun d => mkDA nzero nzero (da_k d)
    | VanDerPol => fun d => mkVP nzero nzero nzero nzero (vp_mu d)
    | Roberts => fun d => mkRO (ro_dae d) nzero nzero nzero nzero (if ro_dae d then ro_y3 d else nzero) nzero (ro_g1 d) (ro_g2 d)
    | StateSpace => fun d => mkSS (ss_m d) (ss_n d) (ss_r d) (ss_A d) (ss_B d) (ss_C d) (ss_D d) (ss_x0 d) (ss_u d) [] [] []
    | _ => fun d => d
    end.

  (** The FMUs that handle events. *)
  Definition handles_events (f : FMU) : bool :=
    match f with BouncingBall | Clocks | Feedthrough | Stair | StateSpace => true | _ => false end.

  (** x + h dx *)
  Definition euler_of (h : F) (x dx : list F) : list F := map (fun p => fst p + h * snd p) (combine x dx).
End Equations.

(** ** One step of the solver *)
Section SolverStep.
  Context {F : Type} {NF : Num F} (v : Version) (f : FMU).
  Notation m := (model_of (F := F) v f).
  Notation D := (md m).

  (** The indicator values the next ones are compared with. *)
  Definition stored (i : Inst F D) : list F := firstn (nz (sol i)) (prez (sol i)).
  (** The solver integrates the states (it does not in an instance that has not left Initialization Mode
      by ExitInitializationMode). *)
  Definition solving (i : Inst F D) : Prop := 0 < nx (sol i).
  Definition watching (i : Inst F D) : Prop := 0 < nz (sol i).

  Record solver_step (i i' : Inst F D) : Prop := mkSolverStep {
    sv_ctl : ctl i' = set_time (time (ctl i')) (set_nSteps (nSteps (ctl i')) (ctl i));
    sv_steps : nSteps (ctl i') = N.modulo (nSteps (ctl i) + 1) two64;
    sv_time : time (ctl i') = grid (m_step m) (startTime (ctl i)) (nSteps (ctl i'));
    sv_euler : solving i -> states v f (data (mut i')) = euler_of (m_step m) (states v f (data (mut i))) (ders v f (data (mut i)));
    sv_still : ~ solving i -> states v f (data (mut i')) = states v f (data (mut i));
    sv_frozen : frozen v f (data (mut i')) = frozen v f (data (mut i));
    sv_mut : mut i' = set_dirty (dirty (mut i')) (set_data (data (mut i')) (mut i));
    sv_nx : nx (sol i') = nx (sol i);
    sv_nz : nz (sol i') = nz (sol i);
    sv_stored : watching i -> stored i' = indicators v f (data (mut i'))
  }.

  (** from non-positive to positive or from positive to non-positive *)
  Definition flips (a b : F) : Prop :=
    nle a nzero = true /\ nlt nzero b = true \/ nlt nzero a = true /\ nle b nzero = true.
  (** the step from [i] to [i'] crosses zero; passes the time of the next time event *)
  Definition crossing (i i' : Inst F D) : Prop :=
    exists j a b, nth_error (stored i) j = Some a /\ nth_error (indicators v f (data (mut i'))) j = Some b /\ flips a b.
  Definition due (i i' : Inst F D) : Prop :=
    nextEventTimeDefined (mut i) = true /\ nle (nextEventTime (mut i)) (time (ctl i')) = true.
  Definition eventful (i i' : Inst F D) : Prop := handles_events f = true /\ (crossing i i' \/ due i i').

  (** The event handling inside DoStep: the FMU's event update, after which the indicators are stored. *)
  Definition updated (env : Env) (i i' : Inst F D) : Prop :=
    exists u t, m_eventUpdateF m env (ctl i) (mut i) = Done (OK, u, t) /\ ctl i' = ctl i /\
      (exists b d, mut i' = set_dirty b (set_data d u) /\ frozen v f d = frozen v f (data u) /\ states v f d = states v f (data u)) /\
      nx (sol i') = nx (sol i) /\ nz (sol i') = nz (sol i).
  Definition handled (env : Env) (i i' : Inst F D) : Prop :=
    updated env i i' /\ (0 < length (indicators v f (data (mut i'))) -> stored i' = indicators v f (data (mut i'))).

  (** In FMI 2.0 the indicators are not stored after the event update: the next step is compared with those
      before it. *)
  Definition handled2 (env : Env) (i i' : Inst F D) : Prop := updated env i i' /\ stored i' = stored i.

  (** [k] steps without an event; [k] steps, the events handled on the way *)
  Inductive quiet_steps : nat -> Inst F D -> Inst F D -> Prop :=
  | quiet_0 i : quiet_steps 0 i i
  | quiet_S k i i1 i' : solver_step i i1 -> ~ eventful i i1 -> quiet_steps k i1 i' -> quiet_steps (S k) i i'.
  Inductive steps_with (handle : Inst F D -> Inst F D -> Prop) : nat -> Inst F D -> Inst F D -> Prop :=
  | with_0 i : steps_with handle 0 i i
  | with_quiet k i i1 i' : solver_step i i1 -> ~ eventful i i1 -> steps_with handle k i1 i' -> steps_with handle (S k) i i'
  | with_event k i i1 i2 i' : solver_step i i1 -> eventful i i1 -> handle i1 i2 -> steps_with handle k i2 i' -> steps_with handle (S k) i i'.
End SolverStep.

(** The solver integrates all states and watches all indicators; the stored indicators are those of now. *)
Definition set_up {F} {NF : Num F} v f (i : Inst F (md (model_of (F := F) v f))) : Prop :=
  nx (sol i) = length (states v f (data (mut i))) /\ nz (sol i) = length (indicators v f (data (mut i))).
Definition current {F} {NF : Num F} v f (i : Inst F (md (model_of (F := F) v f))) : Prop :=
  stored v f i = indicators v f (data (mut i)).

(** The calls that configure the solver, run it, or restore its state. *)
Definition solves3 {F D} (o : Op3 F D) : Prop :=
  match o with O3ExitInitializationMode | O3ExitConfigurationMode | O3SetFMUState _ | O3DoStep _ _ _ _ _ _ => True | _ => False end.
Definition solves2 {F D} (o : Op2 F D) : Prop :=
  match o with O2ExitInitializationMode | O2SetFMUstate _ | O2DoStep _ _ => True | _ => False end.
