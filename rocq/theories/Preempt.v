(** Preempt.v -- the three model partitions of Clocks as interruptible tasks (Clocks/model.c 23-117).

    Here a partition is the list of its accesses to the shared ModelData, one load or one
    store at a time, between which another partition can run.  Tasks are scheduled on one
    processor with the priorities of Clocks/FMI3.xml 11-13 (inClock1 highest, then inClock2,
    then inClock3); a task is interrupted by one of higher priority only, and not while the
    importer's preemption lock is held (fmi3LockPreemptionCallback).  Line numbers refer to
    Clocks/model.c unless stated otherwise. *)
From Coq Require Import List NArith ZArith Bool Arith.
From Verif Require Import Base Instance ModelIface FmuClocks ImpBuffer.
Import ListNotations.
Set Implicit Arguments.

(** The int members of ModelData (Clocks/config.h 43-54). *)
Inductive Cell := Ct1 | Ct2 | Ct3 | Ctotal | Cresult2 | Cinput2 | Coutput3 | Cqualifier | CoutClock.
Definition cell_get {F} (x : Cell) (d : CLData F) : Z :=
  match x with
  | Ct1 => cl_t1 d | Ct2 => cl_t2 d | Ct3 => cl_t3 d | Ctotal => cl_total d | Cresult2 => cl_result2 d
  | Cinput2 => cl_input2 d | Coutput3 => cl_output3 d | Cqualifier => cl_qualifier d
  | CoutClock => if cl_outClock d then 1 else 0
  end%Z.
Definition cell_set {F} (x : Cell) (z : Z) (d : CLData F) : CLData F :=
  match x with
  | Ct1 => set_cl_t1 z d | Ct2 => set_cl_t2 z d | Ct3 => set_cl_t3 z d | Ctotal => set_cl_total z d
  | Cresult2 => set_cl_result2 z d | Cinput2 => set_cl_input2 z d | Coutput3 => set_cl_output3 z d
  | Cqualifier => set_cl_qualifier z d | CoutClock => set_cl_outClock (negb (Z.eqb z 0)) d
  end.

(** One access.  A task has two registers [a] and [b]. *)
Inductive Instr :=
| LoadA (x : Cell) | LoadB (x : Cell)
| Store (x : Cell) (e : Z -> Z -> Z)          (** [M(x) = e(a, b)]; undefined outside the int range *)
| StoreInterval                               (** [M(inClock3_interval) = 0.0] *)
| Lock | Unlock                               (** the callbacks, if they are given *)
| ClockUpdateIf (e : Z -> Z -> bool).         (** [if (e(a, b)) comp->clockUpdate(...)] *)

(** [M(x)++] *)
Definition increment (x : Cell) : list Instr := [LoadA x; Store x (fun a _ => a + 1)%Z].
(** 40, 69, 108 *)
Definition setOut : list Instr :=
  [LoadA CoutClock; LoadB Ctotal; Store CoutClock (fun a b => if Z.eqb a 0 && Z.eqb (Z.rem b 5) 0 then 1 else 0)%Z].
(** 75-77, 114-116 *)
Definition reportOut : list Instr := [LoadA CoutClock; ClockUpdateIf (fun a _ => negb (Z.eqb a 0))].

Inductive Part := P1 | P2 | P3.
(** FMI3.xml 11-13: true if [p] has a higher priority than [q] *)
Definition above (p q : Part) : bool :=
  match p, q with P1, P2 | P1, P3 | P2, P3 => true | _, _ => false end.

Section Tasks.
  Context {F : Type} {NF : Num F}.

  (** 23-45; [at4]: the value of (int)time == 4.  The operands of || are both read. *)
  Definition code1 (at4 : bool) : list Instr :=
    increment Ct1 ++ increment Ctotal ++
    (if at4 then [Store Cqualifier (fun _ _ => 2%Z); StoreInterval] else []) ++
    setOut ++ [LoadA Cqualifier; LoadB CoutClock; ClockUpdateIf (fun a b => Z.eqb a 2 || negb (Z.eqb b 0))].
  (** 53-78 *)
  Definition code2 : list Instr :=
    [Lock] ++ increment Ct2 ++ increment Ctotal ++
    [LoadA Cresult2; LoadB Cinput2; Store Cresult2 (fun a b => a + b)%Z; Store Cinput2 (fun _ _ => 0%Z)] ++
    setOut ++ [Unlock] ++ reportOut.
  (** 87-117 *)
  Definition code3 : list Instr :=
    increment Ct3 ++ [Store Coutput3 (fun _ _ => 1000%Z)] ++ [Lock] ++ increment Ctotal ++ setOut ++ [Unlock] ++ reportOut.
  (** The conversion (int)time (35) is made when the partition starts. *)
  Definition code (p : Part) (t : F) : res (list Instr) :=
    match p with
    | P1 => match ntrunc t with
            | Some z => if in_int z then Done (code1 (Z.eqb z 4)) else UB
            | None => UB
            end
    | P2 => Done code2
    | P3 => Done code3
    end.

  Record Task := mkTask { t_part : Part; t_code : list Instr; t_a : Z; t_b : Z }.
  (** The shared data, the preemption lock, and the interrupted tasks with the running one first. *)
  Record Cpu := mkCpu { cpu_data : CLData F; cpu_locked : bool; cpu_tasks : list Task }.

  (** What the importer sees: its reads, and the calls of clockUpdate. *)
  Inductive Seen := SawClock (b : bool) | SawInterval (q : Z) | SawUpdate (p : Part).

  (** One access of a task, on the data, the lock and the registers. *)
  Definition instr (c : Ctl F) (p : Part) (i : Instr) (d : CLData F) (l : bool) (a b : Z)
    : res (CLData F * bool * Z * Z * list Seen) :=
    match i with
    | LoadA x => Done (d, l, cell_get x d, b, [])
    | LoadB x => Done (d, l, a, cell_get x d, [])
    | Store x e => if in_int (e a b) then Done (cell_set x (e a b) d, l, a, b, []) else UB
    | StoreInterval => Done (set_cl_interval nzero d, l, a, b, [])
    | Lock => Done (d, hasLockPreemption c || l, a, b, [])
    | Unlock => Done (d, l && negb (hasUnlockPreemption c), a, b, [])
    | ClockUpdateIf e => if e a b then if hasClockUpdate c then Done (d, l, a, b, [SawUpdate p]) else UB
                         else Done (d, l, a, b, [])
    end.

  (** The steps of the importer: activate a partition, let the running task make one access,
      or call fmi3SetInt32 on input2 (172-184), fmi3GetClock on outClock (218-229) or
      fmi3GetIntervalDecimal on inClock3 (231-244). *)
  Inductive Sched := Start (p : Part) (t : F) | Go | SetInput (v : Z) | ReadClock | ReadInterval.

  (** The running task may be interrupted by one of priority [p]. *)
  Definition mayInterrupt (p : Part) (m : Cpu) : bool :=
    negb (cpu_locked m) && match cpu_tasks m with [] => true | t :: _ => above p (t_part t) end.
  (** The three functions that are not activations run when no partition holds the lock and
      partition 1, the task of the highest priority, is not running. *)
  Definition mayCall (m : Cpu) : bool :=
    negb (cpu_locked m) && match cpu_tasks m with [] => true | t :: _ => above P1 (t_part t) end.

  (** [None]: the scheduler does not do this step now. *)
  Definition sched1 (c : Ctl F) (e : Sched) (m : Cpu) : res (option (Cpu * list Seen)) :=
    match e with
    | Start p t =>
        if mayInterrupt p m
        then let! k := code p t in
             Done (Some (mkCpu (cpu_data m) (cpu_locked m) (mkTask p k 0 0 :: cpu_tasks m), []))
        else Done None
    | Go =>
        match cpu_tasks m with
        | mkTask p (i :: k) a b :: ts =>
            let! r := instr c p i (cpu_data m) (cpu_locked m) a b in
            let '(d, l, a', b', o) := r in
            Done (Some (mkCpu d l (match k with [] => ts | _ => mkTask p k a' b' :: ts end), o))
        | _ => Done None
        end
    | SetInput v =>
        if mayCall m then Done (Some (mkCpu (set_cl_input2 v (cpu_data m)) (cpu_locked m) (cpu_tasks m), []))
        else Done None
    | ReadClock =>
        if mayCall m then
          Done (Some (mkCpu (set_cl_outClock false (cpu_data m)) (cpu_locked m) (cpu_tasks m),
                      [SawClock (cl_outClock (cpu_data m))]))
        else Done None
    | ReadInterval =>
        if mayCall m then
          let q := cl_qualifier (cpu_data m) in
          Done (Some (mkCpu (if Z.eqb q 2 then set_cl_qualifier 1%Z (cpu_data m) else cpu_data m)
                            (cpu_locked m) (cpu_tasks m), [SawInterval q]))
        else Done None
    end.
  Fixpoint sched (c : Ctl F) (l : list Sched) (m : Cpu) : res (option (Cpu * list Seen)) :=
    match l with
    | [] => Done (Some (m, []))
    | e :: l' =>
        let! r := sched1 c e m in
        match r with
        | None => Done None
        | Some (m1, o1) =>
            let! r := sched c l' m1 in
            match r with
            | None => Done None
            | Some (m2, o2) => Done (Some (m2, o1 ++ o2))
            end
        end
    end.
  (** No task is active and preemption is not locked. *)
  Definition idle (d : CLData F) : Cpu := mkCpu d false [].
End Tasks.
Arguments Task : clear implicits. Arguments Cpu F : clear implicits. Arguments Sched F : clear implicits.
Arguments Go {F}. Arguments SetInput {F}. Arguments ReadClock {F}. Arguments ReadInterval {F}.
