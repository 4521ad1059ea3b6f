# Formal model of modelica/Reference-FMUs in Coq 8.16.1

## 1. Approach

The C code in /repo is read as text and modelled function by function as total
Gallina functions. Every definition of a model file cites file and lines.

* **Numbers.** `double` arithmetic is a class `Num F` (add, sub, mul, comparisons,
  decimal literals, conversion from uint64, truncation, infinity, DBL_MIN). The
  framework and the FMUs are written once, for an arbitrary `F`. A theorem that does
  not depend on arithmetic is proved for every `Num F`, hence for IEEE doubles. There are
  two instances: `NumB64.v` (binary64, the executable `spec_float` of the standard
  library with round-to-nearest-even, prec 53, emax 1024) and `NumR.v` (the reals of
  the standard library). No theorem uses a library other than the standard one.
* **Outcomes.** `res A = Done a | UB | NoFuel`. Undefined behaviour (NULL dereference,
  out-of-bounds access, signed overflow, an unrepresentable double-to-int conversion,
  use of a freed handle, a NULL callback) is the distinct outcome `UB`; exhausting the
  fuel of a `while(true)` loop is `NoFuel`. Theorems about results speak about `Done`,
  and C20 / C26 are the theorems that exclude the other two outcomes.
* **World.** An instance (`Inst` = control fields, fields a model function may write,
  solver arrays), a heap of saved FMU states (`Sys`), the trace of callback invocations
  (`Event`), and the environment of one call (`Env`, the file system seen by Resource).
* **FMUs.** A record `Model` holds what an FMU's config.h and model.c define; the
  framework (cosimulation.c, fmi3Functions.c, fmi2Functions.c) is generic over it.
  `model_of v f` is FMU `f` compiled for FMI version `v`.
* **Caller memory.** Arrays are `option (list T)` (None = NULL) with the count the caller
  claims separate from the length.
* **Histories.** `exec3`/`exec2` execute one API call given as data (`Op3`/`Op2`);
  `run3`/`run2` a list of calls; `reach3`/`reach2` all states reachable from any
  successful instantiation by any calls with any arguments (calls that are not UB).

Layers of files (rocq/theories):

| Files | Content |
|---|---|
| Base, Instance, ModelIface | outcomes, monads, `Num`, instance record, model interface |
| Core, Fmi3, Fmi2, Api | cosimulation.c, fmi3Functions.c, fmi2Functions.c, calls as data |
| Fmu*.v, Fmus | the nine FMUs: config.h + model.c |
| Preempt | the partitions of Clocks as tasks that interrupt one another, one load or store at a time |
| ImpBuffer, ImpUri, ImpPath, ImpWrap | src/FMI.c log buffer, FMIPathToURI and FMIPlatformBinaryPath, src/FMI3.c and src/FMI2.c wrappers |
| ImpLife | memory, libraries and files of the importer and the example programs |
| Spec*.v | specifications used by the property statements; they do not use helpers of the model |
| Samples, SamplesR | concrete instances for the examples beside the theorems |
| Prop*.v | the property theorems, closed by `exact`, with examples and `Print Assumptions` |
| all others | lemmas |

## 2. Trusted base

* Coq 8.16.1's kernel (the build is also checked with coqchk). No plugins, no flags, no
  axioms declared here, nothing admitted.
* Axioms, as listed by `Print Assumptions` (printed at the end of every Prop file for all
  its theorems): every theorem is *closed under the global context* except those over the
  reals, which use exactly `ClassicalDedekindReals.sig_forall_dec` and
  `FunctionalExtensionality.functional_extensionality_dep` from the standard library's
  reals. These are:
  C19_fmi3_reached_exact, C19_fmi2_reached_exact, C20_fmi3_exact, C20_fmi2_exact,
  C21_fmi3_exact, C21_fmi2_exact, C23_versions_agree_real_partial, C30_fmi3_height,
  C30_fmi2_height, C31_fmi3_exact, C31_fmi2_exact, C32_fmi3_solution, C32_fmi2_solution,
  C32_decay, C33_transpose, C33_linear, C33_linear_fmi2, C34_vanderpol_partial,
  C34_vanderpol_fmi2_partial, C34_roberts_partial, C34_zero, C34_parameter_refuted,
  C34_eliminated_refuted, C55_fmi3_exact, C55_fmi2_exact, C56_exact, C56_dahlquist, C57_exact, C57_above_exact, C58_exact, C58_first_bounce,
  C59_refuted, C61_exact, C62_exact, C63_same_exact_partial, C63_solution_exact,
  C64_same_exact_partial, C64_solution_exact, C65_exact, C65_fmi2_exact_partial, C66_exact, C68_exact,
  C68_second_event, C68_only_bounces_refuted, C75_fmi3_mixture, C76_fmi3_rest, C76_fmi2_rest,
  C76_fmi3_elastic, C76_fmi2_elastic, C77_mirror, C77_equilibrium, C77_energy, C78_superposition,
  C79_space_exact, C79_resource_exact, C79_closed.
* That the Gallina definitions say what the cited C lines say. This was done by reading;
  the code was neither built nor run.
* The C environment: LP64 with 32-bit int, `FLT_EVAL_METHOD` 0, no contraction into fused
  operations, round to nearest, one NaN (payload and sign of NaN are not observed).

### Modelled

| Source | In |
|---|---|
| src/cosimulation.c: createModelInstance, freeModelInstance (as the end of a history), configurate, reset, doFixedStep, getFMUState/setFMUState, logging, setDebugLogging, default model functions | Core.v, ModelIface.v, Api.v |
| src/fmi3Functions.c: every fmi3 function with its state mask, the CALL / ASSERT / BEGIN_FUNCTION macros and the DoStep loop | Fmi3.v, Api.v |
| src/fmi2Functions.c: every fmi2 function, same | Fmi2.v, Api.v |
| BouncingBall, Clocks, Dahlquist, Feedthrough, Resource, Roberts, Stair, StateSpace, VanDerPol: config.h and model.c, all functions | Fmu*.v |
| FMI 3 / FMI 2 model descriptions: tables of variables, types and sizes, states and derivatives, event indicators, declared capabilities | SpecVars.v, SpecMx.v, SpecCreate.v (specifications) |
| src/FMI.c: FMICreateInstance (buffer), FMIClearLogMessageBuffer, FMIAppendToLogMessageBuffer, FMIAppendArrayToLogMessageBuffer, FMIPathToURI | ImpBuffer.v, ImpUri.v |
| src/FMI.c: FMIPlatformBinaryPath, with the platform names of include/FMI.h (all systems and architectures) | ImpPath.v |
| src/FMI.c: FMICreateInstance, FMILoadPlatformBinary, FMIFreeInstance, FMIFree; LOAD_SYMBOL, instantiation and release of components in src/FMI3.c and src/FMI2.c; the memory of createModelInstance and freeModelInstance; setUp and tearDown of examples/util.h; examples/import_shared_library.c, import_static_library.c | ImpLife.v |
| src/FMI3.c, src/FMI2.c: every wrapper function (call forwarded, `state`, `status`), instantiation | ImpWrap.v |
| examples: simulate_fmi3_cs.c, simulate_fmi3_me.c, cs_early_return.c, cs_event_mode.c, cs_intermediate_update.c, cs_reconfiguration.c, jacobian.c, the parts of util.h they use, recordVariables of the FMUs | Programs.v |
| examples/scs_synchronous.c (the callback runs right after the activation that calls it: it is the last action of a partition) | ProgramsClocks.v |
| examples/simulate_fmi2_cs.c, simulate_fmi2_me.c, same | Programs2.v |
| examples/Feedthrough.c (start values, inputs, rows) and simulate_fmi3_cs.c, simulate_fmi3_me.c, simulate_fmi2_cs.c compiled with it; the conversion from double to float is a parameter | ProgramsFeed.v |

### Not modelled or simplified

* Allocation always succeeds, except in ImpLife.v (C71, C72), where every request for memory, a library or a
  file may fail. Callbacks return, do not call the FMU again and do not
  change its memory. Texts of log messages are not modelled (an event `ELog` has status and
  category).
* A model partition of Clocks runs to completion in FmuClocks.v; Preempt.v models its
  interruption (C54): one processor, tasks interrupted at every access outside the lock by a
  higher priority of FMI3.xml, other calls made while no lock is held and partition 1 is not
  running, sequentially consistent single loads and stores of int members. The busy loop
  (95-99) has no effect.
* fmi3FreeInstance / fmi2FreeInstance end a history. A call on a NULL instance is modelled
  by the common check of BEGIN_FUNCTION (`api3 None`).
* A serialized state is an opaque blob with the size of the instance; a byte array that is
  no image of an instance is UB when it is deserialized. `sizeof(ModelInstance)` is the
  parameter `szof`.
* Access outside a row of a matrix of StateSpace is UB even if it stays inside the matrix.
* Feedthrough's getString/getBinary return pointers into the instance; the model returns
  the content at the time of the call.
* The Resource FMU sees files as a function from paths to the first character read by
  `fgetc` (None: cannot be opened).
* Importer: printf texts are parameters of the model (the text that a format denotes);
  `size_t` wrap-around and texts longer than INT_MAX are not modelled; symbols are found
  in the library (not assumed in ImpLife.v); the log messages of the wrappers are not modelled.
* ImpLife.v: addresses are not used again; every logged call writes into the log buffer, also those without arguments; the log buffer keeps its address when it grows; each dlopen gives a
  handle of its own; the simulation between instantiation and tearDown is its final status and releases what it
  allocates; Linux and macOS, not the static linking variant.
* Example programs: setUp succeeds (Programs*.v; C72 is about setUp and tearDown); the rows of the output file are values, not their text;
  no input (NO_INPUTS) except for Feedthrough (ProgramsFeed.v); the rows written by the callback of
  cs_intermediate_update.c are left out; the programs call the FMU directly (forwarding by the
  wrappers is C44). `simulate_me` takes the macros NX and NZ as arguments.
* Not modelled at all: the FMI 1 example programs, scs_threaded.c (Windows only), the playground, the Windows
  part of src/FMI.c, the Python scripts and tests, the
  build system.

## 3. How each property is modelled and proved

Statements are in the Prop file given; `refuted` theorems carry a concrete witness.

**Modes (PropModes.v; lemmas Gate, Modes, Frame, Frame3, Effect).**
- **C01/C02** calls forbidden by the mode: tables `when3`/`when2` (SpecModes.v) written
  as lists of modes per function, independent of the bit masks; case analysis over all
  operations: Error, Terminated (FMI 3 and FMI 2), every variable and all memory unchanged.
- **C03** failing calls end in Terminated; induction over the value-reference loops. The
  functions that are not implemented are listed in the statement.
- **C04/C05** mode graph: relation `edges3`/`edges2` and `next3`/`next2`, one-step theorem and whole histories.
- **C06** only OK, Discard, Error: per-FMU lemmas on model functions (LawsFmus), loops.

**Reading and writing (PropReads.v, PropData.v, PropData2.v; Vars*, Data*, Multi*, Sim*).**
- **C07** getters are pure: a simulation relation "equal up to cached dependent values and
  dirty flag", preserved by every operation (Sim*.v); observations of every continuation are
  equal. Roberts and a changing Resource file are refuted.
- **C08/C09** set then get, frame: SpecVars.v gives for every FMU the declared variables and the
  dependency relation; per-FMU laws (`VarLaws`) are lifted through the list macros. B of
  StateSpace: Square.v, PropSquare.v (the sizes are 3, 3, 3 unless the instance is Terminated, from Fits.v).
  Binary variables: FeedBin.v, PropBinary.v.
- **C10** induction over lists. **C11** unknown references. **C12** sizes, with an independent
  size function.
- **C29** equations of dependent variables in every reachable state.
- **C35/C36** Feedthrough, through histories.

**FMU state (PropState.v; Saves, SimSys).**
- **C13** restore rewinds: relation on systems that ignores exactly identity and logging.
- **C14** serialization round trip and size check. **C15** (PropInstance.v) identity is kept.

**Instances (PropInstance.v).** C24, C25 logging (induction over the category list), C27,
C28 instantiation (start values, tokens and declared interfaces in SpecCreate.v), C47 settings.

**Steps and events (PropSteps.v, PropEvents.v, PropSolver.v; Steps, StepReal, Cut, Solver, EulerMe, Crossing).**
- **C17** invariant time = startTime + nSteps*h. **C18** validation. **C19/C20** reached point and
  termination: by the comparisons of the code in any arithmetic, as grid points over R.
- **C21** DoStep is an iteration of one solver step. **C22** simulation between the solver
  and an importer that drives a Model Exchange instance.
- **C45** early return. **C46** crossings. **C30–C32** invariants over R (C31 also binary64:
  the finitely many grid points are computed, starting from any counter).

**C33/C34 (PropDeriv.v)** sums over arbitrary lists; derivatives by `derivable_pt_lim` of the
standard library. **C37/C38 (PropSpace.v)** matrix-vector specification in SpecSpace.v.
**C39, C40, C48 (PropClocks.v; Traces)** invariants over activation histories and traces.
**C40, C54 (PropPreempt.v; Preempt, SpecPreempt, Tasks)** an invariant over schedules: the data
in memory are those of a serial execution of the activations that have passed their commit
point (last access of partition 1, Unlock of partitions 2 and 3), changed by the accesses that
the running task has made since its lock and by partition 3's unlocked writes. C54_serializable
links the serial execution to `run3` of the API calls; C54_uninterrupted links the list of
accesses to FmuClocks.v.
**C16 (PropReset.v; Reset)** simulation between a reset instance and a new one, with a relation
listing what Reset leaves behind. **C23 (PropCross.v; Cross*)** simulation between the
FMI 2 and FMI 3 transition systems. The relation `K` covers the instances; `KH` relates the saved
FMU states one by one, so scripts may save, restore, free and serialize them. FMI 2 reads and writes Booleans
one at a time through an array of length one (`boolean_get`, `boolean_set` prove this equal to
FMI 3's loop); it also neither refreshes nor marks values as out of date there, which `K` absorbs.
For Resource (PropCross2.v; CrossRes), given a file URI in FMI 2 and the path of the same directory in
FMI 3, both builds are replaced call by call by one model `RX` that reads the file from a fixed path; this needs
the file to be readable at each call (its contents may change). **C26 (PropSafe.v; Safe*)** contract `callable3`/`callable2` with the limits `within3`/`within2`
(SpecSafe.v), execution is not UB, with an invariant over reachable states.

**Model Exchange (PropMx.v; Mx, Mx2)**
- **C49** GetContinuousStates and the derivatives are the variables ModelStructure declares.
- **C50** SetContinuousStates. **C51** indicators and nominals. **C52** UpdateDiscreteStates
  (`ball_event`, `stair_event` in SpecMx.v). **C53** output derivatives,
  CompletedIntegratorStep and FMI 2 status functions.

**Importer (PropImporter.v; Importer, ImpResource, Wrapper).**
- **C41** URI decoding, and composition with the importer's FMIPathToURI. **C42** log buffer:
  a representation invariant (text, capacity). **C43** FMIPathToURI. **C44** wrappers:
  forwarding and wrapper state.

**Progress and example programs (PropProgress.v, PropPrograms.v; Progress, Runs*).**
- **C55** an acceptable DoStep succeeds: no internal error (invariant of the loop), no UB (C26)
  and an end (C20) together.
- **C56** simulate_fmi3_cs: the solution by Euler's method is written down separately
  (`next`, `solution` in SpecPrograms.v); induction over the passes of the program with an
  invariant tying the instance to the n-th point. The conditions on the arithmetic (`precise`,
  `before`) hold in exact arithmetic, and are checked in binary64 for 100 steps.
- **C57** simulate_fmi3_me, same method (RunsMe; RunsBall for BouncingBall, whose invariant says what an event
  seen in the last pass has left to do); as built it writes the start values only. The program does not
  look at the indicator in the step after an event; that no bounce is lost by this is proved for every
  number of steps in exact arithmetic (RunsBallReal) and in binary64 (BallB64: sums of doubles of one
  sign keep it, so the ball is above the ground after every step and rises after a bounce).
- **C58** cs_early_return: the solver steps with a row are characterised by `visits`
  (SpecPrograms.v); induction over the passes, in exact arithmetic. The fall to the first bounce
  is computed in closed form. **C59** cs_intermediate_update fails.
- **C60** cs_reconfiguration always fails. **C61** jacobian.
- **C62** scs_synchronous: induction over the passes; the invariant gives the four counters of
  Clocks and that the countdown clock is not pending (RunsClocks.v), for every number of passes.
- **C63** simulate_fmi2_cs and simulate_fmi3_cs agree (PropPrograms2.v; RunsTwo): the relation
  `tied` (every portable script from here on is answered alike) is what C23 gives for new
  instances; each call of the programs preserves it, so the loops are related pass by pass. With
  C56 the FMI 2 program writes the solution. For Resource (PropPrograms3.v; RunsRes, RunsResMe), given
  the URI and the path of the same directory, the two instances are related by their clocks and
  locations; both open the same file (C41), and DoStep only counts the time. Feedthrough's programs
  set different inputs in FMI 2 and FMI 3 (C65_fmi2_refuted).
- **C64** simulate_fmi2_me and simulate_fmi3_me agree (RunsTwoMe): a relational program logic
  (`rel`: from related states, related results, with rules for sequence, call, record and
  `goto TERMINATE`) over the same relation. With C57 the FMI 2 program writes the solution and the bounces.
- **C65** the co-simulation programs for Feedthrough (PropFeed.v; RunsFeed, RunsFeed2): the rows are
  given by a small specification of the signals (SpecFeed.v: three phases and a ramp). Invariant of the
  loop: the outputs are those of the inputs of the last communication point. Induction over the
  passes, for every arithmetic and conversion to float; the times, phases and ramp are then computed in
  exact arithmetic for every number of steps.
- **C66** the model exchange program for Feedthrough (RunsFeedMe): the same with the phase of the last
  input event; a point with an input event has two rows.
- **C67** FMIPlatformBinaryPath (PropPath.v; Paths): the place is given by the relation `location`
  (SpecPath.v: entries of directories and the table of platform names of the standard); the text of the
  format is shown to be that path, and snprintf to leave it, or its beginning, in the buffer.
- **C68** cs_event_mode (PropEventMode.v; RunsEventMode): the rows are characterised by `event_visits`
  (SpecEventMode.v). Invariant: the values are those of the solution and the indicator the solver compares
  with is that of the point or, just after a bounce, one that is not positive. In exact arithmetic, for
  every number of steps.
- **C69** every declared variable can be read (PropSettable.v; Settable, Settable2): the list of variables is
  that of C11 (SpecVars.v); per FMU the value of each of them exists in every state whose arrays have
  their sizes, which is an invariant.
- **C70** when a variable can be assigned: causality, variability and initial of every variable are copied
  from the model descriptions (SpecSettable.v: `attributes`), the rules of the standards are the functions
  `may_set3` and `may_set2` of these, the mode and the interface type. Case analysis over the variables and the
  modes; the arrays of StateSpace for every size.
- **C71** memory and libraries of the importer (PropLife.v; Life, Life2, Life3): the order of the calls is the relation
  `permitted` over the phases of the instances (SpecLife.v), the system an oracle that may refuse each request and
  leave out symbols. Per instance an invariant says which blocks it holds in each phase; a frame lemma (a call on a
  part of the world does the same in the whole world) extends it to any number of interleaved instances.
  C71_live_partial: an instantiated instance keeps library, component and a full table of functions whatever is done
  with others; C71_ok: the status of an instantiation is OK exactly when everything was there (without conditions).
  The functions an FMU has are transcribed from the header files (`declared`), not taken from the model.
- **C72** setUp and tearDown of the example programs: the same invariants, with the two files as the frame.
- **C75** Roberts and **C76** the end of the bouncing (PropRest.v, over the reals): induction on the course of solver steps
  gives the recurrence; then an invariant (C75), and for C76 a flight in closed form, a bound on the speed at its end
  and a decreasing measure on the bounces (or, for e = 1, an increasing one). The bound on y2 in C75 is needed
  (C75_second_refuted, in binary64). For binary64 neither is proved.
- **C77** VanDerPol (PropOrbit.v) and **C78** StateSpace (PropLinear.v): induction on the course of solver steps, in every
  arithmetic; for C78 the rows of the padded matrices are related to the values read. The facts on the recurrences
  (mirror, energy, superposition) are inductions over the reals.
- **C79** simulate_fmi3_cs for StateSpace and Resource (PropMore.v): one loop lemma over an invariant of the FMU
  (`loop_program`), instantiated for the two FMUs; the closed form is an induction over the reals.
- **C80** import_static_library (PropLife.v): case analysis over the answers of the system.
- **C81** importer with its own step sizes (SpecOwn.v, Own.v, PropOwn.v): the four calls are evaluated symbolically, induction over the steps; the comparison with co-simulation reuses C77 and an analogue for Dahlquist in any arithmetic. Unlike C22 the agreement is stated in the values read, and the steps may all differ. The importer also gets by without CompletedIntegratorStep and event indicators; FMI 3 only.
- **C73** tokens (PropToken.v): from C28 and the table of tokens in the model descriptions. **C74** import_shared_library.c
  (PropLife.v): by cases over what the system grants.
  C72_status, C72_success: the status they end with.

What is missing in a `partial` property is in MANIFEST.json.

## 4. Findings: where the code does not have the property

Theorem names in parentheses where refuted or proved.

Framework
- `reset` does not reset terminateSimulation, nextEventTimeDefined, stopTime,
  nextCommunicationPoint, the stored event indicators, StateSpace's x0 and der_x, Roberts' g1, g2.
  After a Stair run that ended at counter 10, Reset + initialization gives an instance whose
  first DoStep terminates at once (C16_stair_refuted, C16_statespace_refuted,
  C16_fmi2_setup_refuted).
- EnterStepMode is allowed in Initialization Mode and skips the configuration of the solver
  (C16_enter_step_mode_refuted). EnterStepMode, EnterContinuousTimeMode and SetTime are not
  restricted to an interface type; ExitConfigurationMode of a Co-Simulation instance goes to
  Step Mode even with event mode; Set* is allowed in Terminated.
- fmi3DoStep with a NaN step size never returns (C20). The relative tolerance of isClose
  is larger than Roberts' solver step: DoStep can pass the point by solver steps (C19).
  With earlyReturnAllowed an event at the last solver step is reported as early return. In
  event mode without early return the status of eventUpdate is ignored (1241).
- The stored event indicators are not renewed after an event in Event Mode and in FMI 2:
  a bounce can be followed by a spurious second event (C46); with event mode and early return
  a height below 0 can be read (C30_event_mode_refuted). In cs_event_mode every bounce is followed by
  such an event one solver step later (C68_second_event).
- fmi2DoStep returns Discard without moving nextCommunicationPoint (C23_after_discard_refuted);
  without SetupExperiment the stop time is 0.
- Resource: get functions of fmi3Functions.c refresh the values before an unknown variable is found, those for Booleans
  in fmi2Functions.c do not, so the builds differ if the file is removed meanwhile (C23_removed_file_refuted).
- Calls with nvr = 0 return OK for any nValues; fmi3GetBinary does not check the number of
  values (C12). A single-variable Set with too many values assigns and then returns Error.
- Several setters read `values[*index]` before they check the number of values
  (Feedthrough enumeration, string, binary; Stair counter): out-of-bounds read (C26).
- fmi2GetFMUstate / fmi2SetFMUstate ignore the status of the helper; fmi2GetBoolean and
  fmi2SetBoolean do not check for NULL and do not refresh dirty values.
- No function returns Warning, Fatal or Pending; newDiscreteStatesNeeded is always false.
  Functions that are not implemented return Error without Terminated (C03).

FMUs
- Attributes that the setters do not respect: the counter of Stair cannot be set to its declared maximum
  (C70_stair_refuted), structural parameters of StateSpace cannot be set one at a time (C70_statespace_refuted),
  computed variables are accepted (C70_calculated_refuted), and so are fixed parameters in Step Mode and, for
  VanDerPol, at events of model exchange (C70_only_then_refuted).
- Roberts: reading y3 overwrites a value that was set with dae = false (C07, C08);
  g1, g2 are declared event indicators but never computed (C51); from a mixture with much y2 a
  DoStep ends with NaN and status OK (C75_second_refuted); partial derivatives
  ignore that y3 is eliminated (C34); FMI3.xml declares event mode, the FMU rejects it
  (C28_declared_event_mode_refuted); fixedInternalStepSize 1e-3 in XML, 1e-6 in config.h.
- BouncingBall: the indicator is not h on the way up near the floor (C51); it implements
  output derivatives but declares no maxOutputDerivativeOrder.
- BouncingBall: with e = 1, allowed by the model description, the ball gains speed at every bounce, without bound
  (C76_fmi3_elastic): explicit Euler and the reset to the floor add energy.
- VanDerPol: the derivative with respect to mu is 0 outside Initialization Mode (C34).
- StateSpace: fmi3SetUInt64 never returns OK (index incremented before the check, C38);
  B is read m×n and written n×m, so after a failed change of m a value assigned to B is read back in another
  order (C08_statespace_refuted); B·u uses r instead of m (C37_terminated_refuted); x0 never
  initialises x; step size 1e-3 but XML says 1.
- Stair: a solver grid that misses the full seconds never increments the counter (C31);
  counter above 10 is an Error at the next event; INT_MAX overflows.
- Stair and VanDerPol have the same instantiation token.
- Feedthrough: SetBoolean accepts Boolean_output (C08); the enumeration is an Int32 in FMI 2
  and an Int64 in FMI 3 (C23_enumeration_refuted).
- Clocks: an unread tick of outClock is lost at the next activation; `(int)time` and a NULL
  clockUpdate callback are undefined (C26); Co-Simulation instantiation succeeds although
  not declared (C28_undeclared_interface_refuted); inClock3Ticks and output3 are written
  outside the lock (harmless, C54_ticks). The test of outClock (75, 114) is after the unlock:
  the clockUpdate report of a fifth tick is lost when partition 1 interrupts there
  (C54_reports_refuted). Without lock callbacks a tick is lost (C54_unlocked_refuted).
- Resource: the status of calculateValues is ignored by the getters; "%zz" truncates the
  path; in the FMI 3 build a path of 4096 bytes or more has no terminator (C26).

Importer
- Log buffer: a text that fills the buffer exactly loses its last character
  (C42_truncated_refuted); the array function never returns when length + 3 equals the room
  left (C42_endless_refuted).
- FMIPathToURI writes "%FFFFFFxx" for negative chars (C43_bounds_refuted, C41_signed_refuted) and
  "% A" for bytes below 16 (C43_control_refuted), and leaves `?`, `#` and the like
  unencoded (C43_delimiters_refuted).
- FMIPlatformBinaryPath reads before the string if the directory is empty (C67_empty_refuted), takes a
  backslash at its end for a separator on every system (C67_backslash_refuted), and before FMI 3 names
  the same place for x86_64 and aarch64 (C67_architecture_refuted).
- FMI3InstantiateModelExchange goes on when functions are missing: it calls a NULL pointer (C71_function_refuted)
  or returns FMIFatal with a component that nobody releases (C71_exchange_refuted). A missing function is reported
  through logMessage without a check for NULL (C71_silent_refuted). FMICreateInstance does not check the allocation
  of the log buffer (C71_buffer_refuted); createModelInstance keeps the component when its name cannot be copied
  (C71_name_refuted). FMI2FreeInstance called twice frees twice (C71_twice_refuted); a second FMILoadPlatformBinary
  or instantiation loses the first handle or table (C71_library_refuted, C71_table_refuted).
- Stair and VanDerPol have the same token: each accepts the model description of the other (C73_refuted).
- Without memory for the copy of the name createModelInstance returns NULL and keeps the instance (C74_left, C80_left_refuted).
  import_static_library reads the pointer `m` after fmi3FreeInstance(m) (indeterminate in C; modelled as unchanged).
- import_shared_library leaves the library open when it fails (C74_failure_refuted; the process ends then).
- FMI3.c never looks up fmi3SetShiftDecimal and fmi3SetShiftFraction: FMI3SetShiftDecimal and FMI3SetShiftFraction always
  call a NULL pointer (C71_shift_refuted). FMI2SetDebugLogging and FMI3SetDebugLogging log with a format that has two
  arguments more than are given (C71_format_refuted). FMI3GetIntervalFraction logs a pointer with %d, and
  FMI3GetNumberOfEventIndicators and FMI3GetNumberOfContinuousStates log the pointers with %zu instead of the numbers
  (the texts are not modelled).
- tearDown of the example programs calls FMI*FreeInstance although there is no table of functions: after a failed
  dlopen every program crashes (C72_library_refuted), also scs_synchronous when a function is missing
  (C72_scheduled_refuted) and the FMI 2 programs without memory for the table (C72_table_refuted).
- Wrappers: `state` is set before the call and also when the call fails
  (C44_refused_refuted); EnterStepMode and SetFMUState do not update it
  (C44_step_mode_refuted); FMI3ExitConfigurationMode may return an error without
  calling the FMU (C44_exit_configuration_refuted); FMI3InstantiateScheduledExecution ignores
  its instanceEnvironment and logMessage arguments; FMI3InstantiateModelExchange ignores a
  failure of loadSymbols.
- VanDerPol with mu = 0 is a harmonic oscillator, but the solver multiplies x0^2 + x1^2 by 1 + 1e-4 in every step: the
  orbits spiral outwards (C77_energy).

Example programs
- simulate_fmi{1,2,3}_me.c integrate only `#if NX > 0`, but no file defines NX or NZ: as built
  the model exchange programs write the start values in every row and succeed
  (C57_as_built, C57_as_built_refuted).
- cs_intermediate_update adds the step size to a time that DoStep has already advanced: the second
  DoStep is refused for every stop time beyond two communication steps (C59_refuted).
- cs_reconfiguration ends with Error before its first row for every input (C60_refuted,
  caused by C38).
- simulate_fmi3_cs ends without a line for the time reached when the FMU ends the simulation: the
  last value of Stair's counter in the file is 9, although it ended because of 10; simulate_fmi2_cs
  writes it (C63_last_line_refuted).
- Feedthrough.c, FMI 1 and 2: applyDiscreteInputs sets one of two values (nvr is 1), so the discrete
  Float64 input and the enumeration are never set (C65_fmi2_refuted).
- Feedthrough.c writes the string with the format `"%\"%s\","`; `%"` is no conversion
  (undefined behaviour of fprintf; not modelled). The FMI 1 and 2 rows have one field more than the header.
- The co-simulation rows for Feedthrough lag one communication point: recordVariables runs before the inputs
  of the point are applied (C65_exact).
- nextInputEventTime returns no time before its argument: in the model exchange program an input event
  happens only at a time that is exactly 0.5, 1 or 1.5 (`input_event`, C66_rows); a step size that
  misses these times leaves the discrete inputs at their start values.
- simulate_fmi3_cs ends with Error when the stop time is not a multiple of the step (C56_passes).
- Stair: if the importer goes on after terminateSimulation, DoStep fails although its arguments
  are acceptable (C55_stair_refuted). Its co-simulation program leaves the loop before the last
  value is recorded.

## 5. Tests of the theorems

seeded/LOG.jsonl lists the wrong programs tried: an edit of a model definition in a scratch
copy, the claim it breaks, the theorems that fail, and the theorems tightened as a result.
`theorems_failed` are the theorems of the properties tested that no longer compile;
`first_failing_lemmas` are the lemmas at which their proofs break (a theorem is listed when a
lemma it is built on fails, so a long list does not mean that every statement in it became
false). Where only proof scripts broke although the claim was not stated by any theorem, the
note says so and a theorem was added.
