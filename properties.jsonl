{"id": "C01", "title": "A call that the current FMI 3 mode forbids is rejected without touching the simulation", "statement": "If an fmi3 function is called while the instance is in a mode in which that function is not allowed, the call returns fmi3Error, writes no output argument, changes no variable, no time and no setting of the instance, and leaves the instance in Terminated. Getting in a forbidden mode never triggers evaluation of the model.", "quantifier": "every FMU of the package, every fmi3 function that has a mode restriction, every argument, every instance state", "why_tests_cant": "There are more than fifty functions times twelve modes times all variable values; tests call a handful of functions in the legal order.", "anchors": ["src/fmi3Functions.c: BEGIN_FUNCTION, allowedState, MASK_fmi3*", "include/model.h: ModelState"]}
{"id": "C02", "title": "A call that the current FMI 2 state forbids is rejected without touching the simulation", "statement": "If an fmi2 function is called in a state in which it is not allowed, the call returns fmi2Error, writes no output argument, leaves every variable and the time unchanged and puts the instance into the terminated state.", "quantifier": "every FMU, every fmi2 function with a state restriction, every argument and instance state", "why_tests_cant": "The whole product of functions and states has to be checked with arbitrary variable values.", "anchors": ["src/fmi2Functions.c: BEGIN_FUNCTION, allowedState, MASK_fmi2*"]}
{"id": "C03", "title": "Any failing FMI 3 call ends in Terminated; a successful one never does except Terminate", "statement": "Whenever an fmi3 function of an existing instance returns fmi3Error the instance is in Terminated afterwards, except for the functions the implementation declares as not implemented and SetDebugLogging-like functions listed in the statement; whenever a call other than fmi3Terminate (and fmi3SetFMUState restoring a terminated state) returns fmi3OK on an instance that was not terminated, it is not terminated afterwards.", "quantifier": "every FMU, every fmi3 call with every argument, every instance state, including failures in the middle of a multi-variable call", "why_tests_cant": "Failures can happen at any element of an argument list and in any model function called below.", "anchors": ["src/fmi3Functions.c: CALL, GET_VARIABLES, SET_VARIABLES, fmi3DoStep, fmi3SetDebugLogging"]}
{"id": "C04", "title": "Mode graph of FMI 3 instances", "statement": "Along every history of fmi3 calls the mode of the instance moves only along the edges of an explicit graph: e.g. InitializationMode is entered only from Instantiated, StepMode/EventMode/ContinuousTimeMode/ClockActivationMode are first entered only through ExitInitializationMode (or EnterStepMode), and only Reset or SetFMUState leads out of Terminated. The modes StartAndEnd, StepDiscarded and IntermediateUpdateMode are never observed.", "quantifier": "every FMU, every interface type, every finite sequence of fmi3 calls with arbitrary arguments", "why_tests_cant": "It is a statement about every call history.", "anchors": ["src/fmi3Functions.c: fmi3EnterInitializationMode ... fmi3EnterStepMode, fmi3Terminate, fmi3Reset, fmi3SetFMUState"]}
{"id": "C05", "title": "State graph of FMI 2 components", "statement": "Along every history of fmi2 calls the state moves only along an explicit graph; a component whose state is terminated stays terminated until fmi2Reset or fmi2SetFMUstate; the states stepInProgress, stepFailed and stepCanceled are never observed.", "quantifier": "every FMU, both interface types, every finite sequence of fmi2 calls with arbitrary arguments", "why_tests_cant": "It is a statement about every call history.", "anchors": ["src/fmi2Functions.c: fmi2SetupExperiment ... fmi2Reset"]}
{"id": "C06", "title": "Only OK, Discard and Error are ever returned", "statement": "No fmi2 or fmi3 function of an FMU of this package ever returns Warning, Fatal or Pending; Discard is returned only by fmi2DoStep (after the model asked to terminate) and by the fmi2 Get...Status functions.", "quantifier": "every FMU, every call, every instance state", "why_tests_cant": "Statuses are propagated through several layers, from every model function.", "anchors": ["src/fmi3Functions.c: CALL", "src/fmi2Functions.c: CALL, fmi2DoStep, fmi2GetStatus", "src/cosimulation.c"]}
{"id": "C07", "title": "Getters are observationally pure", "statement": "A Get function of any variable type that returns OK changes nothing a later call can observe: the values returned by every later call, in any continuation, are the same as if it had not been made. In particular calling it twice gives the same answer. (Reading an output clock is the documented exception.)", "quantifier": "every FMU except the clock getters of Clocks, every reachable state, every list of value references, every continuation of calls", "why_tests_cant": "Getters lazily recompute dependent variables and clear a dirty flag, so they do write to the instance; harmlessness is about every continuation.", "anchors": ["src/fmi3Functions.c: GET_VARIABLES", "src/fmi2Functions.c: GET_VARIABLES", "*/model.c: calculateValues, get*"]}
{"id": "C08", "title": "Set followed by Get returns the value that was set", "statement": "If setting a variable succeeds, a following Get of the same value reference succeeds and returns exactly the value (bit pattern, string or bytes) that was set.", "quantifier": "every FMU, every settable variable of every type, every value, every instance state in which the set succeeds", "why_tests_cant": "All values of all types, including NaN, infinities and strings of every length.", "anchors": ["*/model.c: setFloat64, getFloat64, setInt32, setString, ...", "src/fmi3Functions.c: SET_VARIABLES"]}
{"id": "C09", "title": "Setting one variable does not change an independent one", "statement": "A successful Set of a variable leaves the value of every other variable that is not documented to depend on it unchanged, as seen through Get.", "quantifier": "every FMU, every pair of variables not related by the dependency table, every value and state", "why_tests_cant": "Quadratic number of pairs times all values and states.", "anchors": ["*/model.c: set*, get*, calculateValues"]}
{"id": "C10", "title": "Multi-variable Set is the sequence of single-variable Sets", "statement": "A Set call with k value references and as many values has the same effect and the same status as k successive single-variable Set calls stopped at the first failing one; earlier elements stay applied.", "quantifier": "every FMU with scalar variables, every list of value references of any length (also with repetitions and unknown references), every list of values", "why_tests_cant": "Unbounded argument lists.", "anchors": ["src/fmi3Functions.c: SET_VARIABLES", "src/fmi2Functions.c: SET_VARIABLES"]}
{"id": "C11", "title": "Unknown value references and wrong types are rejected", "statement": "Getting or setting a value reference that the model description does not declare with that type returns Error and changes no variable value.", "quantifier": "every FMU, all 2^32 value references outside the declared set, every type, every state", "why_tests_cant": "The value-reference space and the list positions are unbounded for testing.", "anchors": ["*/model.c: default branches", "src/cosimulation.c: GET_NOT_ALLOWED, SET_NOT_ALLOWED"]}
{"id": "C12", "title": "Number of values must match the variables", "statement": "An fmi3 Get or Set call returns OK only if the number of values passed equals the sum of the sizes of the referenced variables; a Get that is given fewer values never writes beyond the given number and one that is given a matching number writes exactly that many.", "quantifier": "every FMU, every list of value references, every nValues, every buffer", "why_tests_cant": "All combinations of list length, nValues and array-variable sizes.", "anchors": ["include/model.h: ASSERT_NVALUES", "src/fmi3Functions.c: GET_VARIABLES, SET_VARIABLES, fmi3GetBinary", "StateSpace/model.c: setUInt64"]}
{"id": "C13", "title": "Saving and restoring the FMU state rewinds the simulation", "statement": "After fmi3GetFMUState, any sequence of calls, and fmi3SetFMUState with the saved handle, every continuation of calls returns the same statuses and values as it would have returned right after the save.", "quantifier": "every FMU, every reachable state at the save, every history in between, every continuation", "why_tests_cant": "Quantifies over two unbounded call histories.", "anchors": ["src/cosimulation.c: getFMUState, setFMUState", "src/fmi3Functions.c: fmi3GetFMUState, fmi3SetFMUState", "src/fmi2Functions.c: fmi2GetFMUstate, fmi2SetFMUstate"]}
{"id": "C14", "title": "Serialization of FMU states is lossless", "statement": "Serializing a saved FMU state into a buffer of the reported size and deserializing that buffer gives a state that restores the same simulation as the original; any other size is rejected with Error.", "quantifier": "every FMU, every saved state, every buffer size", "why_tests_cant": "All states and all sizes.", "anchors": ["src/fmi3Functions.c: fmi3SerializedFMUStateSize, fmi3SerializeFMUState, fmi3DeserializeFMUState", "src/fmi2Functions.c: same functions"]}
{"id": "C15", "title": "Restoring an FMU state keeps the identity and the logging of the instance", "statement": "SetFMUState never changes which interface type the instance has, which callbacks it uses and which log categories are enabled, even when the state was saved from another instance.", "quantifier": "every FMU, every pair of instance and saved state, every history", "why_tests_cant": "All pairs of histories.", "anchors": ["src/cosimulation.c: setFMUState"]}
{"id": "C16", "title": "Reset returns the instance to the freshly instantiated behaviour", "statement": "After a successful Reset the instance is in Instantiated and every continuation of calls behaves exactly as on a freshly created instance with the same name, token, logging settings and callbacks.", "quantifier": "every FMU, every history before the reset, every continuation after it", "why_tests_cant": "Quantifies over two unbounded histories; leftovers of the first simulation only show in particular continuations.", "anchors": ["src/cosimulation.c: reset", "src/fmi3Functions.c: fmi3Reset", "src/fmi2Functions.c: fmi2Reset", "*/model.c: setStartValues"]}
{"id": "C17", "title": "Simulation time is start time plus an integer number of solver steps", "statement": "In co-simulation the internal time is always startTime + n*h where n is the number of fixed solver steps done since initialization and h the solver step of the FMU, with no accumulated rounding: the time after n steps does not depend on how the steps were distributed over DoStep calls.", "quantifier": "every FMU, every number of steps, every sequence of DoStep calls", "why_tests_cant": "Rounding-error accumulation needs arbitrarily many steps.", "anchors": ["src/cosimulation.c: doFixedStep", "src/fmi3Functions.c: fmi3DoStep", "src/fmi2Functions.c: fmi2DoStep"]}
{"id": "C18", "title": "DoStep validates its communication point and step", "statement": "fmi3DoStep returns OK only if the communication point is (within the documented tolerance) the end of the previous step, the step size is not <= 0 and the end of the step does not exceed the stop time by more than the tolerance; otherwise it returns Error without advancing time or changing any variable. The same for fmi2DoStep with its checks.", "quantifier": "every FMU, all doubles including NaN and infinities as arguments, every reachable state", "why_tests_cant": "All pairs of doubles.", "anchors": ["src/fmi3Functions.c: fmi3DoStep lines 1194-1230", "src/fmi2Functions.c: fmi2DoStep", "src/cosimulation.c: isClose"]}
{"id": "C19", "title": "DoStep reaches the requested communication point and not more", "statement": "When fmi3DoStep returns OK without early return and without termination, the internal time is the last point of the solver grid that does not exceed currentCommunicationPoint+communicationStepSize by more than the tolerance, and lastSuccessfulTime equals the internal time. In particular the internal time does not run past the requested point by one solver step or more.", "quantifier": "every FMU, every start time, communication point and step size", "why_tests_cant": "Boundary cases of floating-point comparison over all doubles and step counts.", "anchors": ["src/fmi3Functions.c: fmi3DoStep loop", "src/cosimulation.c: isClose"]}
{"id": "C20", "title": "DoStep terminates", "statement": "Every DoStep call returns after finitely many solver steps.", "quantifier": "every FMU, every argument pair of doubles, every reachable state", "why_tests_cant": "Non-termination cannot be observed by a test and only occurs for unusual arguments.", "anchors": ["src/fmi3Functions.c: fmi3DoStep loop", "src/fmi2Functions.c: fmi2DoStep loop"]}
{"id": "C21", "title": "The trajectory does not depend on how a simulation is cut into DoStep calls", "statement": "For an FMU simulated without event mode and early return, the state at a given internal time is the same whichever sequence of communication steps led there, as long as no inputs are set in between.", "quantifier": "every FMU, all sequences of communication step sizes", "why_tests_cant": "Quantifies over all partitions of the simulation interval.", "anchors": ["src/fmi3Functions.c: fmi3DoStep", "src/cosimulation.c: doFixedStep"]}
{"id": "C22", "title": "The built-in co-simulation solver is forward Euler on the FMU's own derivatives", "statement": "Advancing a co-simulation instance by one solver step yields the same continuous states and the same time as an importer that runs the same FMU through the model-exchange functions (get states, get derivatives, set states to x + h*dx, set time) from the same state.", "quantifier": "every FMU with continuous states, every state, every number of steps", "why_tests_cant": "All states and unbounded number of steps.", "anchors": ["src/cosimulation.c: doFixedStep", "src/fmi3Functions.c: fmi3SetTime, fmi3SetContinuousStates, fmi3GetContinuousStateDerivatives"]}
{"id": "C23", "title": "FMI 2 and FMI 3 builds of an FMU agree", "statement": "The FMI 2 and the FMI 3 build of the same FMU, driven through corresponding call sequences, hold the same variable values and continuous states after every call.", "quantifier": "every FMU available in both versions, every corresponding call sequence with all values", "why_tests_cant": "Relates two programs on every history.", "anchors": ["src/fmi2Functions.c", "src/fmi3Functions.c", "src/cosimulation.c"]}
{"id": "C24", "title": "Events and errors are logged only when enabled", "statement": "After SetDebugLogging or instantiation with logging off, no message of category logEvents is sent; error messages are sent only while logStatusError logging is enabled; the logger is called only if one was given.", "quantifier": "every FMU, every history and setting of the categories", "why_tests_cant": "Every call path may log.", "anchors": ["src/cosimulation.c: setDebugLogging, logEvent, logError", "src/fmi3Functions.c", "src/fmi2Functions.c"]}
{"id": "C25", "title": "SetDebugLogging enables exactly the requested categories", "statement": "A successful SetDebugLogging with an empty category list switches every category; with a list of known categories it switches exactly those in the list and leaves the others; with an unknown category it returns Error.", "quantifier": "every list of categories of any length with repetitions, every previous setting", "why_tests_cant": "Unbounded lists.", "anchors": ["src/cosimulation.c: setDebugLogging"]}
{"id": "C26", "title": "Conforming callers never trigger undefined behaviour", "statement": "If the caller passes arrays that are at least as long as the count passed with them, live FMU-state handles and valid strings, no fmi3 or fmi2 call reads or writes outside an array, dereferences NULL or overflows a signed integer.", "quantifier": "every FMU, every history, every call that meets the listed preconditions", "why_tests_cant": "Memory errors depend on particular lengths and histories and may stay silent in a test.", "anchors": ["src/fmi3Functions.c", "src/fmi2Functions.c", "src/cosimulation.c", "*/model.c"]}
{"id": "C27", "title": "A NULL instance is rejected", "statement": "Every fmi3 function that takes an instance, and the fmi2 functions, return Error when it is NULL and do nothing else (the Free function does nothing).", "quantifier": "every function and argument", "why_tests_cant": "All functions with all other arguments.", "anchors": ["src/fmi3Functions.c: ASSERT_NOT_NULL, BEGIN_FUNCTION", "src/fmi2Functions.c: ASSERT_NOT_NULL"]}
{"id": "C28", "title": "Instantiation succeeds exactly for valid arguments", "statement": "Instantiation returns an instance exactly if the instance name is non-empty, the token/GUID equals that of the FMU, the interface type is supported and event mode is requested only from FMUs that have it; the created instance is in Instantiated with the model's start values.", "quantifier": "every FMU, all strings and flags", "why_tests_cant": "All strings.", "anchors": ["src/cosimulation.c: createModelInstance", "src/fmi3Functions.c: fmi3Instantiate*", "src/fmi2Functions.c: fmi2Instantiate"]}
{"id": "C29", "title": "Dependent variables are always consistent with their arguments", "statement": "Whatever was set, stepped, restored or reset before, Get on a dependent variable (derivative or output) returns the model equation applied to the values that Get returns for its arguments.", "quantifier": "every FMU with dependent variables, every reachable state", "why_tests_cant": "Caching with a dirty flag: staleness depends on the history.", "anchors": ["*/model.c: calculateValues", "src/fmi3Functions.c: GET_VARIABLES", "src/fmi2Functions.c: GET_VARIABLES"]}
{"id": "C30", "title": "BouncingBall: the ball does not fall through the floor", "statement": "In a co-simulation of BouncingBall with g <= 0 and start height above 0, the height seen after every DoStep is positive, and after a bounce the velocity is the reversed velocity times e (or everything is 0 once the velocity is below v_min).", "quantifier": "all parameter values with g <= 0 (as reals), every number of steps and every sequence of DoStep calls", "why_tests_cant": "Unbounded simulation and all parameter values.", "anchors": ["BouncingBall/model.c: eventUpdate, getEventIndicators, getContinuousStates", "src/cosimulation.c: doFixedStep"]}
{"id": "C31", "title": "Stair: the counter counts the elapsed seconds", "statement": "In co-simulation with start time 0, the counter is 1 plus the number of elapsed time events, never exceeds 10 without an error, and the simulation is terminated when it reaches 10.", "quantifier": "every sequence of DoStep calls", "why_tests_cant": "Every sequence of steps, boundary behaviour at the event times.", "anchors": ["Stair/model.c: eventUpdate", "src/cosimulation.c: doFixedStep (time events)", "src/fmi3Functions.c: fmi3DoStep"]}
{"id": "C32", "title": "Dahlquist: closed-form numerical solution", "statement": "After n solver steps the state is exactly x0*(1-k*h)^n (over the reals), hence for 0<=k*h<=1 it is non-increasing in absolute value and keeps its sign.", "quantifier": "every x0, k, n", "why_tests_cant": "All real parameters and all n.", "anchors": ["Dahlquist/model.c: getDerivatives, setContinuousStates", "src/cosimulation.c: doFixedStep"]}
{"id": "C33", "title": "Directional and adjoint derivatives are transposes", "statement": "For every seed pair, the inner product of an adjoint seed with the directional derivative equals the inner product of the adjoint derivative with the directional seed.", "quantifier": "every FMU with partial derivatives, all lists of unknowns and knowns, all seeds (over the reals)", "why_tests_cant": "Bilinear identity over unbounded lists.", "anchors": ["src/fmi3Functions.c: fmi3GetDirectionalDerivative, fmi3GetAdjointDerivative"]}
{"id": "C34", "title": "Reported partial derivatives are the true derivatives", "statement": "The directional derivative returned for a declared dependency is the mathematical partial derivative of the model equation at the current point.", "quantifier": "VanDerPol, Roberts and the other FMUs with directional derivatives, every real point", "why_tests_cant": "All real points; finite differences only approximate.", "anchors": ["VanDerPol/model.c: getPartialDerivative", "Roberts/model.c: getPartialDerivative", "src/fmi2Functions.c: fmi2GetDirectionalDerivative"]}
{"id": "C35", "title": "Feedthrough: outputs equal inputs", "statement": "Getting an output of Feedthrough returns the value last successfully set on the corresponding input (or the start value), for each type, at all times.", "quantifier": "all values of all types, every history", "why_tests_cant": "All values and histories.", "anchors": ["Feedthrough/model.c: calculateValues, get*, set*"]}
{"id": "C36", "title": "Feedthrough: strings, binaries and enumerations are range-checked", "statement": "Setting a string of 128 bytes or more, a binary of more than 128 bytes or an enumeration value other than 1 or 2 fails and leaves the stored value unchanged; shorter ones are stored completely.", "quantifier": "all strings, binaries and integers", "why_tests_cant": "All lengths and contents.", "anchors": ["Feedthrough/model.c: setString, setBinary, setInt64, setInt32"]}
{"id": "C37", "title": "StateSpace: states and outputs follow the matrices", "statement": "The derivative of the state is A*x + B*u and the output is C*x + D*u with the matrices and vectors as returned by Get; matrices and vectors that were set are returned unchanged.", "quantifier": "all sizes m, n, r up to the maximum and all values", "why_tests_cant": "All combinations of sizes and values.", "anchors": ["StateSpace/model.c: calculateValues, getFloat64, setFloat64"]}
{"id": "C38", "title": "StateSpace: structural parameters can be changed in configuration mode", "statement": "In Configuration or Reconfiguration Mode, fmi3SetUInt64 of m, n or r with values in the allowed range returns OK, the number of continuous states then is n, and values out of range are rejected.", "quantifier": "all lists of structural parameters and values", "why_tests_cant": "All values and lists.", "anchors": ["StateSpace/model.c: setUInt64, getNumberOfContinuousStates", "src/fmi3Functions.c: fmi3SetUInt64, fmi3ExitConfigurationMode"]}
{"id": "C39", "title": "Clocks: tick counters count activations", "statement": "In scheduled execution the total tick count equals the number of successful activations of the input clocks, each counter equals the activations of its clock, the output clock is reported exactly at every fifth total tick and a read clears it.", "quantifier": "every sequence of activations and reads", "why_tests_cant": "Every interleaving of activations.", "anchors": ["Clocks/model.c: activateModelPartition*, getClock, getInterval"]}
{"id": "C40", "title": "Clocks: preemption locks are balanced", "statement": "Every model partition that locks preemption unlocks it before it returns, never nests the lock and updates the shared total only between lock and unlock.", "quantifier": "every partition, every history", "why_tests_cant": "Every interleaving of callbacks.", "anchors": ["Clocks/model.c: activateModelPartition1, activateModelPartition2, activateModelPartition3"]}
{"id": "C41", "title": "Resource: URI decoding", "statement": "In the FMI 2 build the path opened is the percent-decoded path of the resource URI, and decoding the URI of a path made by the importer's FMIPathToURI gives back the path.", "quantifier": "all paths", "why_tests_cant": "All strings.", "anchors": ["Resource/model.c: calculateValues", "src/FMI.c: FMIPathToURI"]}
{"id": "C42", "title": "Importer: log message buffer holds everything that was appended", "statement": "After any sequence of FMIAppendToLogMessageBuffer and FMIAppendArrayToLogMessageBuffer calls since the last clear, the buffer is a NUL-terminated string equal to the concatenation of the appended texts, whatever their lengths, and every append terminates.", "quantifier": "every sequence of appended strings and arrays of any length", "why_tests_cant": "The failure needs an exact coincidence of lengths.", "anchors": ["src/FMI.c: FMIAppendToLogMessageBuffer, FMIAppendArrayToLogMessageBuffer, FMIClearLogMessageBuffer"]}
{"id": "C43", "title": "Importer: path to URI conversion is injective and produces only URI characters", "statement": "FMIPathToURI maps different absolute paths to different URIs, uses only unreserved characters, '/' and %XX triplets, and never writes beyond the given buffer.", "quantifier": "all paths and buffer sizes", "why_tests_cant": "All byte strings.", "anchors": ["src/FMI.c: FMIPathToURI"]}
{"id": "C44", "title": "Importer wrapper forwards calls unchanged", "statement": "FMI3 and FMI2 wrapper functions call exactly the corresponding FMU function with unchanged arguments and return its status; the wrapper's own state is the mode the FMU enters if the call succeeds.", "quantifier": "every wrapper function, every argument, every status returned by the FMU", "why_tests_cant": "All histories of calls and statuses.", "anchors": ["src/FMI3.c", "src/FMI2.c", "include/FMI.h: FMIState"]}
{"id": "C45", "title": "Early return stops exactly at the first event", "statement": "With early return allowed, DoStep returns early at the first solver step at which an event (zero crossing or time event) occurs, reports it, and the next communication point is the time reached; without early return and event mode, all events are handled inside the step.", "quantifier": "every FMU with events, every history", "why_tests_cant": "Every placement of events relative to steps.", "anchors": ["src/fmi3Functions.c: fmi3DoStep"]}
{"id": "C46", "title": "Zero crossings are detected exactly on sign change", "statement": "A step reports a state event iff some event indicator changed between positive and non-positive over the step, and each indicator is compared with its value at the end of the previous step or after the event handling.", "quantifier": "every FMU with event indicators, every history", "why_tests_cant": "All histories of indicator values.", "anchors": ["src/cosimulation.c: doFixedStep, configurate", "src/fmi3Functions.c: fmi3DoStep"]}
{"id": "C47", "title": "API calls change only the settings they are documented to change", "statement": "The settings of an instance (mode, time, start and stop time, next communication point, number of solver steps, event mode and early return flags, log categories, name, type, callbacks) are changed by an API call only as documented for that function: for example Set* calls in FMI 3 never move time or mode unless they fail, DoStep never changes the stop time or the log categories, SetTime changes nothing but the time.", "quantifier": "all FMUs, all API functions of FMI 2 and FMI 3, all reachable states, all arguments, any arithmetic", "why_tests_cant": "frame conditions quantify over all fields, functions and arguments; a test only looks at the fields it names", "anchors": ["src/fmi3Functions.c", "src/fmi2Functions.c", "src/cosimulation.c"]}
{"id": "C48", "title": "Callbacks are called only by the functions that may call them", "statement": "The intermediate update callback is called only from fmi3DoStep and only if one was given, clockUpdate and the preemption callbacks only from fmi3ActivateModelPartition of Clocks; every other FMI 3.0 function and every FMI 2.0 function calls the logger at most.", "quantifier": "every FMU, every function with all arguments, every state", "why_tests_cant": "All functions, all arguments and states.", "anchors": ["src/cosimulation.c: doFixedStep", "Clocks/model.c: activateModelPartition*", "src/fmi3Functions.c", "src/fmi2Functions.c"]}
{"id": "C49", "title": "States and derivatives of Model Exchange are the declared variables", "statement": "In every state of every history, GetContinuousStates and GetContinuousStateDerivatives (FMI 2: GetDerivatives) succeed exactly when asked for the number of states that the instance reports (FMI 2: the number in ModelStructure), and then give the values of the declared state and derivative variables in the order of ModelStructure, writing nothing beyond that number.", "quantifier": "every FMU, every reachable state, every array and requested number", "why_tests_cant": "All states, including StateSpace whose number of states changes; tests look at a few.", "anchors": ["src/fmi3Functions.c: fmi3GetContinuousStates, fmi3GetContinuousStateDerivatives, fmi3GetNumberOfContinuousStates", "src/fmi2Functions.c: fmi2GetContinuousStates, fmi2GetDerivatives", "*/model.c: getContinuousStates, getDerivatives"]}
{"id": "C50", "title": "SetContinuousStates changes the states and what follows from them, nothing else", "statement": "In Continuous-Time Mode SetContinuousStates succeeds exactly for the right number of values; afterwards the state variables read as the given values, and every variable that is neither a state nor computed from one reads as before.", "quantifier": "every FMU, every reachable state in Continuous-Time Mode, all values", "why_tests_cant": "Quantifies over all values and all other variables.", "anchors": ["src/fmi3Functions.c: fmi3SetContinuousStates", "src/fmi2Functions.c: fmi2SetContinuousStates", "*/model.c: setContinuousStates"]}
{"id": "C51", "title": "Event indicators and nominal values follow from the variables and the model description", "statement": "GetEventIndicators succeeds exactly for the number of event indicators; BouncingBall gives its height (with a hysteresis at the ground), Roberts y1 - 1e-4 and y3 - 1e-2; GetNominalsOfContinuousStates gives the declared nominal values. The full claim that the indicators are the variables the XML declares as event indicators is false.", "quantifier": "every FMU, every reachable state", "why_tests_cant": "All states of the state space.", "anchors": ["src/fmi3Functions.c: fmi3GetEventIndicators, fmi3GetNominalsOfContinuousStates", "BouncingBall/model.c: getEventIndicators", "Roberts/model.c: getEventIndicators", "Roberts/FMI3.xml"]}
{"id": "C52", "title": "The event update reports exactly what it did", "statement": "UpdateDiscreteStates (FMI 2: NewDiscreteStates) bounces the ball exactly if its height is at most zero and it falls, and reports valuesOfContinuousStatesChanged exactly then; it counts the step of Stair exactly if a time event is due, reports the next event one second later, asks to terminate from ten on and fails above; all other FMUs report that nothing happened and keep all their variables.", "quantifier": "every FMU, every reachable state", "why_tests_cant": "All states and times, including those at the edge of the tolerance.", "anchors": ["src/fmi3Functions.c: fmi3UpdateDiscreteStates", "src/fmi2Functions.c: fmi2NewDiscreteStates", "BouncingBall/model.c: eventUpdate", "Stair/model.c: eventUpdate"]}
{"id": "C53", "title": "Output derivatives, completed steps and the status functions of FMI 2 answer truthfully", "statement": "GetOutputDerivatives of BouncingBall gives der(h) and der(v) for order 1 and fails for anything else, and fails for every other FMU; CompletedIntegratorStep asks for nothing and changes nothing; after a DoStep of FMI 2 that returned Discard, GetBooleanStatus(Terminated) is true and GetRealStatus(LastSuccessfulTime) is the time of the instance.", "quantifier": "every FMU, every reachable state, all lists of variables and orders", "why_tests_cant": "All lists of variables and orders in all states; the discarded step depends on the whole history.", "anchors": ["src/fmi3Functions.c: fmi3GetOutputDerivatives, fmi3CompletedIntegratorStep", "src/fmi2Functions.c: fmi2GetRealOutputDerivatives, fmi2GetRealStatus, fmi2GetBooleanStatus", "BouncingBall/model.c: getOutputDerivative"]}
{"id": "C54", "title": "Clocks: partitions that interrupt one another do not lose updates", "statement": "If the importer runs the model partitions of Clocks as tasks that interrupt one another by priority, at any access to the shared data outside the preemption lock, then every schedule that runs all tasks to their end has the effect of the same fmi3ActivateModelPartition, fmi3SetInt32, fmi3GetClock and fmi3GetIntervalDecimal calls made one after the other in some order: no tick is lost, the values read are those of that order and no task gets stuck. Without the lock callbacks this fails, and a clockUpdate report can be lost even with them.", "quantifier": "every schedule of any length and nesting, every reachable instance in clock activation mode, every activation time", "why_tests_cant": "The lost update needs an interruption between one load and one store; a test cannot steer the scheduler to every such point.", "anchors": ["Clocks/model.c: activateModelPartition1, activateModelPartition2, activateModelPartition3", "Clocks/FMI3.xml: priorities", "src/fmi3Functions.c: fmi3ActivateModelPartition"]}
{"id": "C55", "title": "An acceptable communication step succeeds", "statement": "If doStep is called in Step Mode with a current communication point and a step size the FMU accepts, the call returns OK (in FMI 2 OK, or Discard exactly because the FMU wants to terminate); it does not fail for an internal reason, and in exact arithmetic it always returns.", "quantifier": "all FMUs but Stair, all reachable instances, all communication points and step sizes", "why_tests_cant": "The internal loop depends on rounding of the solver times and on events at arbitrary solver steps; tests run the default steps only.", "anchors": ["src/fmi3Functions.c fmi3DoStep", "src/fmi2Functions.c fmi2DoStep", "*/model.c eventUpdate"]}
{"id": "C56", "title": "simulate_fmi3_cs writes the Euler solution and ends OK exactly for stop times on the grid", "statement": "The co-simulation example program writes one row for each multiple of FIXED_SOLVER_STEP up to the stop time, with the values of the forward Euler solution (with the bounces for BouncingBall); it ends with OK if the stop time is a multiple of the step up to the tolerance, and with Error after the last full step otherwise.", "quantifier": "BouncingBall, Dahlquist, VanDerPol; all stop times and numbers of steps for which the arithmetic is precise enough, in exact arithmetic all below 99999 steps", "why_tests_cant": "The test runs one stop time per FMU; accumulated times, tolerances and the stop time comparison interact for each number of steps differently.", "anchors": ["examples/simulate_fmi3_cs.c", "examples/BouncingBall.c", "src/fmi3Functions.c fmi3DoStep"]}
{"id": "C57", "title": "simulate_fmi3_me writes the Euler solution", "statement": "The model exchange example program, given the numbers of states and event indicators of the FMU, writes one row per multiple of FIXED_SOLVER_STEP up to the stop time with the forward Euler solution, one row more with the values before the event at each bounce, and ends with OK. No bounce is lost although the program ignores the indicators in the step after an event.", "quantifier": "BouncingBall, Dahlquist, VanDerPol; all stop times and numbers of steps; binary64, exact arithmetic, and all arithmetics in which no two successive steps bounce", "why_tests_cant": "The loop over mode changes and state transfers is unbounded; the program ends with OK also if it integrates nothing.", "anchors": ["examples/simulate_fmi3_me.c"]}
{"id": "C58", "title": "cs_early_return records every event", "statement": "The early-return example program ends with OK for every stop time; its rows are points of the Euler solution, ten solver steps apart unless an event makes DoStep return early, and each solver step with a bounce before the last row has a row of its own.", "quantifier": "BouncingBall, Dahlquist, VanDerPol; all stop times below 99999 solver steps; exact arithmetic", "why_tests_cant": "Where the events fall relative to the communication points depends on the stop time and on every earlier bounce.", "anchors": ["examples/cs_early_return.c", "src/fmi3Functions.c fmi3DoStep"]}
{"id": "C59", "title": "cs_intermediate_update simulates up to the stop time", "statement": "The intermediate-update example program simulates from the start time to the stop time and ends with OK.", "quantifier": "all stop times", "why_tests_cant": "Whether some stop time lets the program reach its end is a statement over all of them.", "anchors": ["examples/cs_intermediate_update.c"]}
{"id": "C60", "title": "cs_reconfiguration runs to its end", "statement": "The reconfiguration example sets the structural parameters of StateSpace, simulates, reconfigures after five steps and ends with OK.", "quantifier": "all stop times, environments, arithmetics", "why_tests_cant": "Whether any choice of environment lets the program pass is a universal statement.", "anchors": ["examples/cs_reconfiguration.c", "StateSpace/model.c setUInt64"]}
{"id": "C61", "title": "jacobian computes the Jacobian of VanDerPol by columns and by rows", "statement": "The columns by fmi3GetDirectionalDerivative and the rows by fmi3GetAdjointDerivative which the example program computes are those of the Jacobian of van der Pol's equation at the start values; the program's assertions hold and it ends with OK.", "quantifier": "all environments; exact arithmetic and binary64", "why_tests_cant": "The test observes one build; the equality is claimed for the exact values and for binary64 whatever the environment.", "anchors": ["examples/jacobian.c", "VanDerPol/model.c getPartialDerivative"]}
{"id": "C62", "title": "scs_synchronous activates the partitions of Clocks as documented", "statement": "The scheduled-execution example program ends with OK, and after each second t the counters it writes are the ticks documented in the table of the FMU: clock 1 every second, clock 2 in the first two of eight seconds, clock 3 once at 4 s (announced by the clock-update callback), and their sum.", "quantifier": "all numbers of passes that fit the counters, all environments and arithmetics with exact integral times", "why_tests_cant": "The test runs ten passes once; the claim is over every number of passes and depends on the interplay of callback, interval qualifier and output clock in each.", "anchors": ["examples/scs_synchronous.c", "Clocks/model.c activateModelPartition1-3, getInterval"]}
{"id": "C63", "title": "The FMI 2 and the FMI 3 co-simulation programs write the same file", "statement": "simulate_fmi2_cs and simulate_fmi3_cs, run with the same FMU and stop time, return the same status and write the same lines (times and values); if the FMU asks to end the simulation before the stop time, the FMI 2 program writes one more line with the time reached and the values the FMI 3 FMU holds as well. Hence the FMI 2 program writes the solution by Euler's method too.", "quantifier": "all stop times, step counts, environments, resource locations; binary64, exact arithmetic (and any arithmetic for FMUs without state events)", "why_tests_cant": "A test compares two runs with one stop time; the two programs drive different implementations of DoStep and report a termination differently (Discard versus an output argument), so their agreement is a statement about all runs.", "anchors": ["examples/simulate_fmi2_cs.c", "examples/simulate_fmi3_cs.c", "src/fmi2Functions.c fmi2DoStep", "src/fmi3Functions.c fmi3DoStep"]}
{"id": "C64", "title": "The FMI 2 and the FMI 3 model exchange programs write the same file", "statement": "simulate_fmi2_me and simulate_fmi3_me, run with the same FMU, stop time and numbers of states and event indicators, return the same status and write the same lines, events and an end asked for by the FMU included.", "quantifier": "all stop times, numbers NX and NZ, step counts, environments, resource locations; binary64, exact arithmetic (and any arithmetic for FMUs without state events)", "why_tests_cant": "A test compares two runs; the programs use different event interfaces (eventInfo versus six arguments) and different orders of recording and termination, so agreement is a statement about all runs.", "anchors": ["examples/simulate_fmi2_me.c", "examples/simulate_fmi3_me.c", "src/fmi2Functions.c fmi2NewDiscreteStates", "src/fmi3Functions.c fmi3UpdateDiscreteStates"]}
{"id": "C65", "title": "The co-simulation programs for Feedthrough write the inputs, one communication point late", "statement": "simulate_fmi3_cs, compiled for Feedthrough, succeeds for every stop time that is a multiple of the step, and writes one row per communication point: row 0 holds the start values, row n+1 shows in the outputs of every type (floats, eight integer types, Boolean, String, Binary, enumeration) exactly the inputs applied at point n. simulate_fmi2_cs does the same for the types of FMI 2.", "quantifier": "all numbers of steps, environments, resource paths, conversions to binary32; any arithmetic precise enough for the steps, exact arithmetic without condition", "why_tests_cant": "A run compares one file with a reference; that no input of any type gets lost, delayed further or mixed up with another at any number of steps is a statement over all runs.", "anchors": ["examples/Feedthrough.c", "examples/simulate_fmi3_cs.c", "examples/simulate_fmi2_cs.c", "Feedthrough/model.c", "src/fmi3Functions.c fmi3DoStep"]}
{"id": "C66", "title": "The model exchange program for Feedthrough writes both sides of every input event", "statement": "simulate_fmi3_me, compiled for Feedthrough, succeeds and writes for every time point a row whose outputs are the continuous inputs of that time and the discrete inputs of the last input event; at an input event (0.5, 1 and 1.5 in exact arithmetic) a second row with the same time shows the inputs after the event.", "quantifier": "all numbers of steps, environments, resource paths, conversions to binary32; any arithmetic whose points divide the stop time, exact arithmetic without condition", "why_tests_cant": "The rows depend on the order of setting inputs, event mode and recording at every step; a run shows one sequence.", "anchors": ["examples/Feedthrough.c", "examples/simulate_fmi3_me.c", "Feedthrough/model.c", "src/fmi3Functions.c fmi3UpdateDiscreteStates"]}
{"id": "C67", "title": "The importer finds the shared library of an FMU at the place the standard names", "statement": "FMIPlatformBinaryPath writes the path <directory>/binaries/<platform>/<model identifier><extension> with the platform name of the FMI version as a terminated string and returns FMIOK if it fits into the given size, and FMIError if it does not; it never writes beyond that size; different FMUs and different platforms have different paths.", "quantifier": "all directories, model identifiers, buffers and sizes, the three systems, architectures and FMI versions", "why_tests_cant": "All strings and all buffer sizes, the truncation boundary included.", "anchors": ["src/FMI.c: FMIPlatformBinaryPath", "include/FMI.h: FMI_PLATFORM, FMI_PLATFORM_TUPLE"]}
{"id": "C68", "title": "cs_event_mode records the solution and the values before and after every bounce, and handles no other events", "statement": "The example program cs_event_mode for BouncingBall ends with fmi3OK; it writes the points of the Euler solution at communication steps of ten solver steps, cut short by each bounce, of which it writes the values before and after event handling; every event it handles is a bounce. For FMUs without event updates the instance is refused and nothing is written.", "quantifier": "all stop times below 99999 solver steps, environments and fuels", "why_tests_cant": "The number of steps and of bounces is unbounded; a test looks at one stop time.", "anchors": ["examples/cs_event_mode.c", "src/fmi3Functions.c: fmi3DoStep, fmi3EnterEventMode, fmi3UpdateDiscreteStates, fmi3EnterStepMode", "BouncingBall/model.c"]}
{"id": "C69", "title": "Every declared variable can be read", "statement": "Whenever the mode allows reading, fmi3Get<Type> or fmi2Get<Type> of a variable listed in the model description, with as many values as it has, returns OK.", "quantifier": "all FMUs, variables and reachable states; for Resource all environments in which its file can be read", "why_tests_cant": "A test reads some variables in some states; the arrays of StateSpace change their sizes at run time.", "anchors": ["*/model.c: get functions", "src/fmi3Functions.c: GET_VARIABLES", "src/fmi2Functions.c: GET_VARIABLES, GET_BOOLEAN_VARIABLES", "*/FMI3.xml, */FMI2.xml: ModelVariables"]}
{"id": "C70", "title": "A variable can be assigned exactly when its attributes and the standard allow it", "statement": "Setting one variable to values in its declared range returns OK if its causality, variability and initial allow it in the current mode; the time, constants and computed variables are refused in every state and the attempt changes no variable; in model exchange parameters and inputs are refused in the modes in which they must not be assigned.", "quantifier": "all FMUs, variables, values, modes and reachable states", "why_tests_cant": "The combinations of variables, modes, interface types and array sizes are not enumerated by tests.", "anchors": ["*/model.c: set functions", "src/fmi3Functions.c: SET_VARIABLES", "src/fmi2Functions.c: SET_VARIABLES, SET_BOOLEAN_VARIABLES", "*/FMI3.xml, */FMI2.xml: ModelVariables"]}
{"id": "C71", "title": "The importer library releases every block and library, whatever fails", "statement": "An importer that creates instances with FMICreateInstance, loads the library, instantiates, calls functions of the FMU, releases the component and calls FMIFreeInstance, each in this order, never runs into undefined behaviour; and once all its instances are freed no memory and no library is left, also if requests for memory, libraries or functions of the libraries fail on the way. An instantiation returns OK exactly if the FMU accepts, its library has all functions and there was memory for everything; from then until its release the instance has its library, the component made by the right function and all function pointers, whatever happens to other instances.", "quantifier": "all numbers and interleavings of instances, FMI 2 and FMI 3 and all interface types, all patterns of failing allocations, libraries and missing functions", "why_tests_cant": "Failures of single allocations and of single symbols at every point of every interleaving cannot be provoked by tests.", "anchors": ["src/FMI.c: FMICreateInstance, FMILoadPlatformBinary, FMIFreeInstance", "src/FMI3.c: LOAD_SYMBOL, loadSymbols3, FMI3Instantiate*, FMI3FreeInstance", "src/FMI2.c: LOAD_SYMBOL, FMI2Instantiate, FMI2FreeInstance", "src/cosimulation.c: createModelInstance, freeModelInstance", "include/fmi3Functions.h, include/fmi2Functions.h: the functions of an FMU"]}
{"id": "C72", "title": "The example programs end properly and release everything", "statement": "Whatever status the simulation or fmi*Terminate ends with and whichever file, library, function or memory is missing, an example program ends without undefined behaviour; all memory, the library and both files are released, but for the component of the FMU after a fatal error, which must not be called any more. The status is the worse one of the simulation and of terminate, or an error if the program could not be set up.", "quantifier": "all interface types and FMI versions 2 and 3, all statuses of the simulation and of terminate, all patterns of failures", "why_tests_cant": "A test runs the programs on a system where nothing fails.", "anchors": ["examples/util.h: CALL, setUp, tearDown", "src/FMI.c", "src/FMI3.c", "src/FMI2.c"]}
{"id": "C73", "title": "The token tells the FMUs apart", "statement": "An FMU whose instantiating functions are given the token (FMI 3) or GUID (FMI 2) of the model description of another Reference FMU returns no instance.", "quantifier": "all pairs of FMUs, both versions, all interface types, names, settings and callbacks, tokens with anything after the terminating zero", "why_tests_cant": "Tests instantiate each FMU with its own token, and with a few wrong ones.", "anchors": ["src/cosimulation.c: createModelInstance 58-67", "*/config.h: INSTANTIATION_TOKEN", "*/FMI3.xml: instantiationToken", "*/FMI2.xml: guid"]}
{"id": "C74", "title": "import_shared_library ends, reports success exactly when all is there, and leaves nothing behind", "statement": "The example program import_shared_library runs into no undefined behaviour whatever fails; it returns EXIT_SUCCESS exactly if the library can be opened, has the two functions, the FMU accepts and there is memory; and whatever it returns, memory and library have been released.", "quantifier": "all patterns of failing allocations, missing libraries and functions", "why_tests_cant": "Single failures of the system cannot be provoked by tests.", "anchors": ["examples/import_shared_library.c: main", "src/cosimulation.c: createModelInstance, freeModelInstance"]}
{"id": "C75", "title": "Roberts keeps a mixture a mixture", "statement": "Without its own equation for y3 (dae = false), Roberts started with a mixture (y1, y2, y3 not negative, sum 1, y2 at most 1/40) still has one after any number of steps: no concentration read through the API is negative, they sum to 1, y2 stays at most 1/40, y3 has not become smaller and the residual r is 0.", "quantifier": "all mixtures, all sequences of DoStep calls, exact arithmetic", "why_tests_cant": "The invariant holds for arbitrarily many solver steps and all start values; a test follows one course for a while.", "anchors": ["Roberts/model.c: calculateValues, getDerivatives", "Roberts/config.h: FIXED_SOLVER_STEP", "src/cosimulation.c: doFixedStep"]}
{"id": "C76", "title": "A damped ball comes to rest; with restitution 1 it never does", "statement": "If the restitution takes more from the speed than the Euler method adds (e*(0.1 + 0.003*|g|) < 0.1, met by the start values), there is a number of solver steps after which BouncingBall reads h = DBL_MIN, v = 0, g = 0 at the end of every further sequence of DoStep calls. With e = 1, the largest value allowed by the model description, g is never set to 0 and the speed exceeds every bound.", "quantifier": "all heights, speeds, gravities and restitutions in the stated ranges, all sequences of DoStep calls of co-simulation without event mode, exact arithmetic", "why_tests_cant": "That motion ends, or never ends, is a statement on unboundedly many steps and bounces.", "anchors": ["BouncingBall/model.c: eventUpdate, getDerivatives, getEventIndicators", "BouncingBall/FMI3.xml: e", "src/cosimulation.c: doFixedStep", "src/fmi3Functions.c: fmi3DoStep", "src/fmi2Functions.c: fmi2DoStep"]}
{"id": "C77", "title": "VanDerPol follows the Euler method for its equation", "statement": "After any sequence of successful DoStep calls x0 and x1 are those of as many Euler steps of 0.01 from the values before, in every arithmetic and however the steps were distributed over the calls; mu is kept. In exact arithmetic mirrored start values give the mirrored orbit, the equilibrium is kept, and with mu = 0 every step multiplies x0^2 + x1^2 by 1 + 1e-4.", "quantifier": "all start values and mu, all numbers of steps, all sequences of DoStep calls of co-simulation, FMI 3 and FMI 2", "why_tests_cant": "A reference file holds one orbit of one start value.", "anchors": ["VanDerPol/model.c: calculateValues, getDerivatives", "src/cosimulation.c: doFixedStep", "src/fmi3Functions.c: fmi3DoStep", "src/fmi2Functions.c: fmi2DoStep"]}
{"id": "C78", "title": "StateSpace follows the Euler method for x' = A x + B u and superposes", "statement": "After any sequence of successful DoStep calls the state of StateSpace is that of as many Euler steps of 0.001 for x' = A x + B u with the matrices and input as read, the output is C x + D u, and matrices and input are kept, in every arithmetic. In exact arithmetic the trajectory and the output of a linear combination of start values and inputs are the linear combinations of the trajectories and outputs.", "quantifier": "all matrices, inputs, states, coefficients, all numbers of steps, all sequences of DoStep calls", "why_tests_cant": "Linearity is a statement on all combinations of inputs and states.", "anchors": ["StateSpace/model.c: calculateValues, getDerivatives, setContinuousStates", "src/cosimulation.c: doFixedStep"]}
{"id": "C79", "title": "simulate_fmi3_cs writes the outputs of StateSpace and Resource", "statement": "The program simulate_fmi3_cs compiled for StateSpace writes, at the times 0, h, 2h, ... up to the stop time, y = C x + D u of the Euler solution for the start values, and returns OK if the stop time is a multiple of the step up to the tolerance and Error if the last step would pass it; in exact arithmetic y = 1.001^k (1, 2, 3). Compiled for Resource it writes the first character of resources/y.txt in every line, and without the file returns Error and writes no line.", "quantifier": "all stop times (below 99999 steps in exact arithmetic; in any arithmetic as far as the time grid is precise), all paths that fit, all file contents", "why_tests_cant": "The stop time, the path and the file are arbitrary.", "anchors": ["examples/simulate_fmi3_cs.c: main", "examples/StateSpace.c: recordVariables", "examples/Resource.c: recordVariables", "StateSpace/model.c", "Resource/model.c: calculateValues"]}
{"id": "C80", "title": "import_static_library ends, reports success exactly when the instance was made, and leaves nothing behind", "statement": "The example program import_static_library runs into no undefined behaviour whatever fails (up to the comparison of a freed pointer with NULL); it returns EXIT_SUCCESS exactly if VanDerPol accepts the token and there is memory; VanDerPol accepts it; and in the end nothing is allocated.", "quantifier": "all patterns of failing allocations, all arithmetics", "why_tests_cant": "Failing allocations cannot be provoked by tests.", "anchors": ["examples/import_static_library.c: main", "src/cosimulation.c: createModelInstance, freeModelInstance"]}
{"id": "C81", "title": "An importer that chooses its own step sizes gets the Euler solution from Dahlquist and VanDerPol", "statement": "In Continuous-Time Mode an importer that gets the states and derivatives, sets a time and sets the states advanced by a step size of its choice never sees a call fail; the values read afterwards are those of the Euler method with these step sizes, from whatever start and parameter values. With the solver's step size, a Model Exchange and a Co-Simulation instance that agree in all variables but the time agree again after as many importer steps as solver steps.", "quantifier": "all arithmetics, all start and parameter values, all sequences of step sizes and times, all sequences of DoStep calls", "why_tests_cant": "Step size control makes every step different; a test fixes a handful of sizes and start values.", "anchors": ["src/fmi3Functions.c: fmi3GetContinuousStates, fmi3GetContinuousStateDerivatives, fmi3SetTime, fmi3SetContinuousStates, fmi3DoStep", "Dahlquist/model.c", "VanDerPol/model.c"]}
