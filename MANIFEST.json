{
 "claims": [
  {
   "property": "C01",
   "status": "proved",
   "theorems": [
    "C01_forbidden_calls_have_no_effect"
   ],
   "note": "All FMI 3 functions in all reachable modes, any arithmetic."
  },
  {
   "property": "C02",
   "status": "proved",
   "theorems": [
    "C02_forbidden_calls_have_no_effect"
   ],
   "note": "All FMI 2 functions, any arithmetic."
  },
  {
   "property": "C03",
   "status": "proved",
   "theorems": [
    "C03_errors_terminate",
    "C03_success_does_not_terminate"
   ],
   "note": "The functions that are not implemented, and GetOutputDerivatives of the FMUs without it, return Error without a mode change; the statement lists them."
  },
  {
   "property": "C04",
   "status": "proved",
   "theorems": [
    "C04_mode_graph",
    "C04_terminated_until_reset"
   ],
   "note": ""
  },
  {
   "property": "C05",
   "status": "proved",
   "theorems": [
    "C05_mode_graph",
    "C05_terminated_until_reset"
   ],
   "note": ""
  },
  {
   "property": "C06",
   "status": "proved",
   "theorems": [
    "C06_fmi3_statuses",
    "C06_fmi2_statuses"
   ],
   "note": "Discard occurs only for DoStep and the FMI 2 status queries."
  },
  {
   "property": "C07",
   "status": "partial",
   "theorems": [
    "C07_reading_changes_nothing",
    "C07_reading_changes_nothing_fmi2",
    "C07_reading_twice",
    "C07_reading_resource",
    "C07_roberts_refuted",
    "C07_resource_refuted"
   ],
   "note": "Proved for all FMUs but Roberts; the full statement is refuted for Roberts (reading y3 overwrites a value that was set) and for Resource when its file changes (proved while the file stays readable). Clock and interval reads of Clocks are consuming by design and excluded."
  },
  {
   "property": "C08",
   "status": "partial",
   "theorems": [
    "C08_statespace",
    "C08_statespace_refuted",
    "C08_set_then_get",
    "C08_boolean_output_refuted",
    "C08_roberts_y3_refuted",
    "C08_fmi2_set_then_get",
    "C08_C09_fmi2_boolean",
    "C08_fmi2_boolean_output_refuted",
    "C08_C09_binary",
    "C08_binary_others"
   ],
   "note": "FMI 3 and FMI 2, binary variables included. Proved for every variable of every FMU but Boolean_output of Feedthrough and y3 of Roberts without dae (both refuted), and B of StateSpace in the state Terminated after its sizes were changed (refuted; C08_statespace proves it in all other states)."
  },
  {
   "property": "C09",
   "status": "proved",
   "theorems": [
    "C09_other_variables_unchanged",
    "C08_C09_fmi2_boolean",
    "C09_fmi2_other_variables_unchanged",
    "C08_C09_binary",
    "C09_binary_unchanged"
   ],
   "note": "FMI 3 and FMI 2: every FMU, every pair of variables, binary variables included."
  },
  {
   "property": "C10",
   "status": "proved",
   "theorems": [
    "C10_many_as_singles",
    "C10_statespace_refuted",
    "C10_fmi2_many_as_singles"
   ],
   "note": "FMI 3 and FMI 2: every FMU with scalar variables; refuted for the structural parameters of StateSpace."
  },
  {
   "property": "C11",
   "status": "proved",
   "theorems": [
    "C11_get_unknown",
    "C11_set_unknown",
    "C11_set_unknown_changes_nothing",
    "C11_fmi2_get_unknown",
    "C11_fmi2_set_unknown",
    "C11_fmi2_set_unknown_changes_nothing",
    "C11_fmi2_boolean_unknown"
   ],
   "note": "FMI 3 and FMI 2: every FMU, every value reference and type."
  },
  {
   "property": "C12",
   "status": "partial",
   "theorems": [
    "C12_get_sizes",
    "C12_set_sizes",
    "C12_no_variables_refuted",
    "C12_binary_refuted"
   ],
   "note": "Proved for calls with at least one variable of the numeric, Boolean and String types. The full statement is refuted for calls without variables and for GetBinary."
  },
  {
   "property": "C13",
   "status": "proved",
   "theorems": [
    "C13_restoring_rewinds",
    "C13_restoring_rewinds_fmi2"
   ],
   "note": ""
  },
  {
   "property": "C14",
   "status": "proved",
   "theorems": [
    "C14_serialization_is_lossless",
    "C14_serialization_is_lossless_fmi2",
    "C14_other_sizes_are_rejected",
    "C14_other_sizes_are_rejected_fmi2"
   ],
   "note": ""
  },
  {
   "property": "C15",
   "status": "proved",
   "theorems": [
    "C15_identity_is_kept",
    "C15_identity_is_kept_fmi2"
   ],
   "note": "FMI 3 and FMI 2, whole histories, including states saved by other instances of the FMU."
  },
  {
   "property": "C16",
   "status": "partial",
   "theorems": [
    "C16_reset_renews_partial",
    "C16_reset_renews_fmi2_partial",
    "C16_stair_refuted",
    "C16_statespace_refuted",
    "C16_enter_step_mode_refuted",
    "C16_fmi2_setup_refuted"
   ],
   "note": "Proved for every reachable instance, every FMU and every continuation, except for leftovers that are shown to be visible: Stair's terminateSimulation, StateSpace's x0, EnterStepMode called in Initialization Mode; FMI 2 continuations must start with SetupExperiment (each refuted with a witness)."
  },
  {
   "property": "C17",
   "status": "proved",
   "theorems": [
    "C17_fmi3_grid",
    "C17_fmi2_grid",
    "C17_fmi3_calls",
    "C17_fmi3_updates",
    "C17_fmi2_calls",
    "C17_C18_fmi3_start",
    "C17_C18_fmi2_start"
   ],
   "note": "FMI 3 and FMI 2, every history without SetTime, any arithmetic; the step counter is a uint64_t that wraps around."
  },
  {
   "property": "C18",
   "status": "proved",
   "theorems": [
    "C17_C18_fmi3_start",
    "C17_C18_fmi2_start",
    "C18_fmi3_rejected",
    "C18_fmi2_rejected",
    "C18_fmi3_accepted",
    "C18_fmi2_accepted",
    "C18_C45_fmi3_end",
    "C18_fmi3_end_kept",
    "C18_fmi2_end_kept"
   ],
   "note": "FMI 3 and FMI 2, every arithmetic, hence also NaN and infinities."
  },
  {
   "property": "C19",
   "status": "partial",
   "theorems": [
    "C19_fmi2_reached_exact",
    "C19_fmi3_reached",
    "C19_fmi2_reached",
    "C19_fmi3_reached_exact",
    "C19_one_step_refuted"
   ],
   "note": "Proved with the tests of the code in any arithmetic, and as the last grid point within the tolerance in exact arithmetic, FMI 3 and FMI 2. The part 'not past the requested point by one solver step' is refuted for Roberts, whose solver step is smaller than the tolerance."
  },
  {
   "property": "C20",
   "status": "partial",
   "theorems": [
    "C20_fmi3_returns_partial",
    "C20_fmi2_returns_partial",
    "C20_fmi3_exact",
    "C20_fmi2_exact",
    "C20_nan_refuted"
   ],
   "note": "Proved if a grid point lies beyond the end of the step, and in exact arithmetic for all arguments up to the wrap-around of the step counter. Refuted for a NaN step size, with which DoStep never returns."
  },
  {
   "property": "C21",
   "status": "proved",
   "theorems": [
    "C21_fmi3_trajectory",
    "C21_fmi2_trajectory",
    "C21_fmi3_exact",
    "C21_fmi2_exact"
   ],
   "note": "FMI 3 without event mode, FMI 2. In any arithmetic for cuttings with the same number of solver steps; in exact arithmetic for cuttings with the same end."
  },
  {
   "property": "C22",
   "status": "proved",
   "theorems": [
    "C22_fmi3_importer"
   ],
   "note": "FMI 3: for every FMU with continuous states and every sequence of DoStep calls without event mode, the states, parameters and indicators are those of an importer that integrates a model-exchange instance of the same FMU through the API with as many Euler steps. The step of the FMI 2 solver is described by C45."
  },
  {
   "property": "C23",
   "status": "partial",
   "theorems": [
    "C23_resource_partial",
    "C23_removed_file_refuted",
    "C23_versions_agree_partial",
    "C23_versions_agree_real_partial",
    "C23_versions_agree_any_partial",
    "C23_enumeration_refuted",
    "C23_after_discard_refuted"
   ],
   "note": "All FMUs with both builds, for doubles, reals (and any arithmetic without state events), every script of calls allowed in both versions, including Booleans and any number of FMU states saved, restored in any order, freed and copied by serialization; Resource given a file URI and the path of the same directory, if its file is readable at each call. Partial because the builds differ where the three refutations say: the type of Feedthrough's enumeration, stepping on after Discard, and the file of Resource removed meanwhile."
  },
  {
   "property": "C24",
   "status": "proved",
   "theorems": [
    "C24_messages_need_permission",
    "C24_messages_need_permission_fmi2",
    "C24_silent_histories",
    "C24_silent_histories_fmi2"
   ],
   "note": ""
  },
  {
   "property": "C25",
   "status": "proved",
   "theorems": [
    "C25_requested_categories",
    "C25_requested_categories_fmi2"
   ],
   "note": ""
  },
  {
   "property": "C26",
   "status": "partial",
   "theorems": [
    "C26_no_undefined_behaviour_partial",
    "C26_no_undefined_behaviour_fmi2_partial",
    "C26_conforming_histories_partial",
    "C26_conforming_histories_fmi2_partial",
    "C26_instantiation_defined",
    "C26_instantiation_defined_fmi2",
    "C26_short_values_refuted",
    "C26_short_strings_refuted",
    "C26_no_clock_callback_refuted",
    "C26_time_conversion_refuted",
    "C26_long_path_refuted"
   ],
   "note": "For every FMU, reachable instance and call that keeps the contract in SpecSafe.v (arrays as long as their counts, live handles, no NULL strings, as many values as value references) and the limits of the code (int counters, path buffer, clock callback), execution is not UB; also for whole histories and for instantiation without any precondition. The full statement (no nvr <= nValues, no limits) is refuted five ways."
  },
  {
   "property": "C27",
   "status": "proved",
   "theorems": [
    "C27_null_instance",
    "C27_null_instance_fmi2",
    "C27_live_instance"
   ],
   "note": ""
  },
  {
   "property": "C28",
   "status": "proved",
   "theorems": [
    "C28_model_exchange",
    "C28_co_simulation",
    "C28_scheduled_execution",
    "C28_fmi2",
    "C28_declared_event_mode_refuted",
    "C28_undeclared_interface_refuted"
   ],
   "note": "Also two refutations: Roberts declares event mode but rejects it; Clocks accepts co-simulation without declaring it."
  },
  {
   "property": "C29",
   "status": "partial",
   "theorems": [
    "C29_equations_hold",
    "C29_statespace",
    "C29_statespace_refuted",
    "C29_fmi2_equations_hold"
   ],
   "note": "All FMUs, FMI 3 and FMI 2, every reachable state; for StateSpace every state but Terminated, where it is refuted (sizes changed by a call that failed)."
  },
  {
   "property": "C30",
   "status": "proved",
   "theorems": [
    "C30_fmi3_height",
    "C30_fmi2_height",
    "C30_fmi2_configured",
    "C30_event_mode_refuted"
   ],
   "note": "Over the reals, without event mode. With event mode and early return DoStep returns before the event is handled and a height below 0 can be read (refuted there)."
  },
  {
   "property": "C31",
   "status": "proved",
   "theorems": [
    "C31_fmi3_exact",
    "C31_fmi3_binary64",
    "C31_fmi2_exact",
    "C31_fmi2_binary64",
    "C31_other_start_refuted"
   ],
   "note": "For start time 0, in exact arithmetic (any start value of the counter up to 9) and in binary64 (start value 0..9). For a start time off the grid of full seconds the counter is not incremented (refuted)."
  },
  {
   "property": "C32",
   "status": "proved",
   "theorems": [
    "C32_fmi3_solution",
    "C32_fmi2_solution",
    "C32_decay"
   ],
   "note": "Over the reals, FMI 3 and FMI 2."
  },
  {
   "property": "C33",
   "status": "proved",
   "theorems": [
    "C33_transpose",
    "C33_linear",
    "C33_linear_fmi2",
    "C33_absent"
   ],
   "note": "all lists, seeds and states for the FMUs with an implementation (VanDerPol, Roberts), in exact arithmetic; the others answer Error"
  },
  {
   "property": "C34",
   "status": "partial",
   "theorems": [
    "C34_vanderpol_partial",
    "C34_vanderpol_fmi2_partial",
    "C34_roberts_partial",
    "C34_zero",
    "C34_parameter_refuted",
    "C34_eliminated_refuted"
   ],
   "note": "true partial derivatives for VanDerPol and Roberts at every point; refuted for mu outside initialization mode and for Roberts with y3 eliminated"
  },
  {
   "property": "C35",
   "status": "proved",
   "theorems": [
    "C35_output_is_input",
    "C35_binary_output_is_input",
    "C35_output_follows_set",
    "C35_output_kept",
    "C35_binary_output_kept",
    "C35_output_starts",
    "C35_fmi2_output_is_input",
    "C35_fmi2_output_follows_set",
    "C35_fmi2_boolean_output_follows_set",
    "C35_fmi2_output_kept",
    "C35_fmi2_output_starts"
   ],
   "note": "FMI 3 (all types including Binary) and FMI 2, whole histories."
  },
  {
   "property": "C36",
   "status": "proved",
   "theorems": [
    "C36_string_range",
    "C36_enumeration_range",
    "C36_binary_range",
    "C36_fmi2_string_range",
    "C36_fmi2_enumeration_range"
   ],
   "note": "FMI 3 and FMI 2."
  },
  {
   "property": "C37",
   "status": "proved",
   "theorems": [
    "C37_equations",
    "C37_set_then_get",
    "C37_terminated_refuted"
   ],
   "note": "For every reachable state that is not Terminated, any arithmetic. In such states m = n = r = 3 (see C38). In a Terminated state with sizes changed by a failing call the equation is false (refuted)."
  },
  {
   "property": "C38",
   "status": "partial",
   "theorems": [
    "C38_set_always_refused",
    "C38_in_range_refuted",
    "C38_number_of_states",
    "C38_out_of_range"
   ],
   "note": "False of the code: fmi3SetUInt64 never returns OK for StateSpace (proved for all calls; witness given). The number of states equals n, and out-of-range values are refused without effect (proved)."
  },
  {
   "property": "C39",
   "status": "proved",
   "theorems": [
    "C39_counters",
    "C39_output_clock",
    "C39_reported"
   ],
   "note": "From every new instance and every history without SetFMUState the counters equal the successful activations; output clock read and cleared; reports every fifth tick (clock 1 also reports a pending interval change)."
  },
  {
   "property": "C40",
   "status": "proved",
   "theorems": [
    "C40_balanced",
    "C40_total_locked"
   ],
   "note": "Balance over all histories; partitions 2 and 3 change the total only under the lock in every schedule. Partition 1 changes it without the lock (it has the highest priority)."
  },
  {
   "property": "C41",
   "status": "partial",
   "theorems": [
    "C41_decoded_path",
    "C41_importer_path_partial",
    "C41_signed_refuted"
   ],
   "note": "URI decoding in the FMI 2.0 build for all well-formed URIs and histories, and the composition with the importer's FMIPathToURI for all paths without negative chars; refuted for signed chars above 127"
  },
  {
   "property": "C42",
   "status": "partial",
   "theorems": [
    "C42_memory_safe",
    "C42_text_partial",
    "C42_truncated_refuted",
    "C42_endless_refuted"
   ],
   "note": "memory safety for all sequences of calls; the exact text for all sequences that avoid the two lengths at which the code truncates or loops forever, which are refuted with witnesses"
  },
  {
   "property": "C43",
   "status": "partial",
   "theorems": [
    "C43_uri_partial",
    "C43_injective_partial",
    "C43_characters_partial",
    "C43_injective_refuted",
    "C43_bounds_refuted",
    "C43_delimiters_refuted",
    "C43_control_refuted"
   ],
   "note": "bounds, result, injectivity and characters for all paths and buffers, if no char is negative (and, for the characters, none below 16); refuted without these conditions, and for delimiters such as ?"
  },
  {
   "property": "C44",
   "status": "partial",
   "theorems": [
    "C44_forwards_partial",
    "C44_forwards_fmi2",
    "C44_state_partial",
    "C44_state_fmi2_partial",
    "C44_step_mode_refuted",
    "C44_refused_refuted",
    "C44_exit_configuration_refuted"
   ],
   "note": "all histories: same calls, statuses, outputs and callbacks; the state kept by the wrapper is the FMU's mode while all calls return OK and EnterStepMode/SetFMUState are not used; refuted for these and for refused calls. Assumes loaded functions: for fmi3SetShift* see C71_shift_refuted"
  },
  {
   "property": "C45",
   "status": "proved",
   "theorems": [
    "C45_C46_fmi3_early",
    "C45_C46_fmi3_inside",
    "C45_fmi2_inside",
    "C18_C45_fmi3_end"
   ],
   "note": "FMI 3: with early return (event mode or not), and without event mode; FMI 2: events handled inside. C18_C45_fmi3_end gives the next communication point."
  },
  {
   "property": "C46",
   "status": "partial",
   "theorems": [
    "C45_C46_fmi3_early",
    "C45_C46_fmi3_inside",
    "C46_fmi3_configured",
    "C46_fmi3_current",
    "C46_fmi3_kept",
    "C46_fmi3_event_mode_refuted",
    "C46_fmi2_refuted"
   ],
   "note": "Proved for FMI 3: inside DoStep, after initialization and between calls. The part 'or after the event handling' is refuted when the events are handled in Event Mode and in FMI 2, where the stored indicators are not renewed."
  },
  {
   "property": "C47",
   "status": "proved",
   "theorems": [
    "C47_settings",
    "C47_settings_fmi2"
   ],
   "note": ""
  },
  {
   "property": "C48",
   "status": "proved",
   "theorems": [
    "C48_callbacks",
    "C48_callbacks_fmi2"
   ],
   "note": "FMI 3.0: every call in every state; FMI 2.0: every reachable state."
  },
  {
   "property": "C49",
   "status": "proved",
   "theorems": [
    "C49_fmi3_states",
    "C49_fmi3_derivatives",
    "C49_fmi2_states",
    "C49_fmi2_derivatives"
   ],
   "note": "Both versions, all FMUs, every reachable state; the number of states is the one GetNumberOfContinuousStates reports (FMI 2: that of ModelStructure)."
  },
  {
   "property": "C50",
   "status": "proved",
   "theorems": [
    "C50_fmi3_set",
    "C50_fmi2_set"
   ],
   "note": "Both versions, all FMUs."
  },
  {
   "property": "C51",
   "status": "partial",
   "theorems": [
    "C51_fmi3_indicators",
    "C51_fmi2_indicators",
    "C51_fmi3_nominals",
    "C51_fmi2_nominals",
    "C51_declared_indicators_refuted",
    "C51_height_indicator_refuted"
   ],
   "note": "Number and values are proved in terms of the variables; the claim that the indicators are the variables FMI3.xml declares is refuted for Roberts (g1, g2 never computed) and BouncingBall (hysteresis)."
  },
  {
   "property": "C52",
   "status": "proved",
   "theorems": [
    "C52_fmi3_eventless",
    "C52_fmi2_eventless",
    "C52_fmi3_bounce",
    "C52_fmi2_bounce",
    "C52_fmi3_stair",
    "C52_fmi2_stair"
   ],
   "note": "Stair for counters below INT_MAX (beyond, the code overflows)."
  },
  {
   "property": "C53",
   "status": "proved",
   "theorems": [
    "C53_fmi3_output_derivatives",
    "C53_fmi2_output_derivatives",
    "C53_fmi3_no_output_derivatives",
    "C53_fmi2_no_output_derivatives",
    "C53_fmi3_completed",
    "C53_fmi2_completed",
    "C53_fmi2_discard_explained",
    "C53_fmi2_last_successful_time"
   ],
   "note": "Modes StepMode/StepComplete and Terminated for the output derivatives."
  },
  {
   "property": "C54",
   "status": "proved",
   "theorems": [
    "C54_serializable",
    "C54_uninterrupted",
    "C54_ticks",
    "C54_progress",
    "C54_unlocked_refuted",
    "C54_reports_refuted"
   ],
   "note": "The report of a fifth tick can be lost although all values agree (C54_reports_refuted); without lock callbacks updates are lost (C54_unlocked_refuted)."
  },
  {
   "property": "C55",
   "status": "partial",
   "theorems": [
    "C55_fmi3_succeeds",
    "C55_fmi3_status",
    "C55_fmi2_succeeds",
    "C55_fmi3_exact",
    "C55_fmi2_exact",
    "C55_stair_refuted"
   ],
   "note": "Proved for all FMUs but Stair, both versions, any arithmetic in which a grid point lies beyond the end of the step, and in exact arithmetic without that condition; refuted for Stair after its request to terminate."
  },
  {
   "property": "C56",
   "status": "proved",
   "theorems": [
    "C56_ends",
    "C56_passes",
    "C56_exact",
    "C56_dahlquist"
   ],
   "note": "FMI 3 program for BouncingBall, Dahlquist and VanDerPol; the conditions on the arithmetic hold in exact arithmetic below 99999 steps and are checked in binary64 for 100 steps."
  },
  {
   "property": "C57",
   "status": "partial",
   "theorems": [
    "C57_solution",
    "C57_binary64",
    "C57_exact",
    "C57_above",
    "C57_above_exact",
    "C57_as_built",
    "C57_as_built_refuted"
   ],
   "note": "Proved for BouncingBall (events included), Dahlquist and VanDerPol if NX and NZ are the numbers of states and indicators. Refuted for the program as built, because no file defines NX and NZ."
  },
  {
   "property": "C58",
   "status": "proved",
   "theorems": [
    "C58_exact",
    "C58_first_bounce"
   ],
   "note": "Exact arithmetic, FMI 3 program for BouncingBall, Dahlquist and VanDerPol."
  },
  {
   "property": "C59",
   "status": "partial",
   "theorems": [
    "C59_refuted"
   ],
   "note": "False of the code: proved to end with Error for every stop time beyond two communication steps, in exact arithmetic."
  },
  {
   "property": "C60",
   "status": "partial",
   "theorems": [
    "C60_refuted"
   ],
   "note": "False of the code: proved to fail for every arithmetic, environment and stop time."
  },
  {
   "property": "C61",
   "status": "proved",
   "theorems": [
    "C61_exact",
    "C61_binary64"
   ],
   "note": "Exact arithmetic and binary64."
  },
  {
   "property": "C62",
   "status": "proved",
   "theorems": [
    "C62_rows",
    "C62_exact",
    "C62_binary64"
   ],
   "note": "Rows, for every number of passes; exact arithmetic; the program as it is in binary64"
  },
  {
   "property": "C63",
   "status": "partial",
   "theorems": [
    "C63_resource",
    "C63_resource_rows",
    "C63_same_partial",
    "C63_same_exact_partial",
    "C63_same_any_partial",
    "C63_solution",
    "C63_solution_exact",
    "C63_last_line_refuted"
   ],
   "note": "Proved for BouncingBall, Dahlquist, Stair, VanDerPol and (C63_resource, C63_resource_rows) Resource, given the URI and the path of the same directory. The programs for Feedthrough set different inputs (C65_fmi2_refuted), so it is left out. C63_last_line_refuted: with Stair the FMI 3 program does not write the last values, so the files differ by one line."
  },
  {
   "property": "C64",
   "status": "partial",
   "theorems": [
    "C64_resource",
    "C64_same_partial",
    "C64_same_exact_partial",
    "C64_same_any_partial",
    "C64_solution",
    "C64_solution_exact"
   ],
   "note": "Proved for BouncingBall, Dahlquist, Stair, VanDerPol and (C64_resource, with NX = NZ = 0) Resource, given the URI and the path of the same directory. The programs for Feedthrough have inputs and are left out (C66)."
  },
  {
   "property": "C65",
   "status": "partial",
   "theorems": [
    "C65_ends",
    "C65_passes",
    "C65_exact",
    "C65_fmi2_ends_partial",
    "C65_fmi2_passes_partial",
    "C65_fmi2_exact_partial",
    "C65_fmi2_refuted"
   ],
   "note": "Proved for the FMI 3 program. Refuted for the FMI 2 program, of which it is proved what it writes instead: all but the discrete Float64 output and the enumeration, which keep their start values."
  },
  {
   "property": "C66",
   "status": "proved",
   "theorems": [
    "C66_rows",
    "C66_exact"
   ],
   "note": "FMI 3; the FMI 2 model exchange program is not modelled for Feedthrough."
  },
  {
   "property": "C67",
   "status": "partial",
   "theorems": [
    "C67_path_partial",
    "C67_place",
    "C67_injective_partial",
    "C67_backslash_refuted",
    "C67_empty_refuted",
    "C67_architecture_refuted"
   ],
   "note": "Proved except: a directory that is empty or (not on Windows) ends in a backslash, and platforms before FMI 3, where it is refuted."
  },
  {
   "property": "C68",
   "status": "partial",
   "theorems": [
    "C68_exact",
    "C68_second_event",
    "C68_only_bounces_refuted",
    "C68_refused"
   ],
   "note": "Proved in exact arithmetic for every stop time below 99999 solver steps. That only bounces are handled as events is false: one solver step after each bounce there is a second event at which nothing changes (C68_second_event, C68_only_bounces_refuted), since the stored indicator is not renewed in Event Mode. Not proved for binary64."
  },
  {
   "property": "C69",
   "status": "proved",
   "theorems": [
    "C69_readable",
    "C69_fmi2_readable",
    "C69_fmi2_boolean"
   ],
   "note": "For FMI 3.0 and FMI 2.0, every FMU; for Resource when its file can be read."
  },
  {
   "property": "C70",
   "status": "partial",
   "theorems": [
    "C70_accepts_partial",
    "C70_fmi2_accepts_partial",
    "C70_rejects_partial",
    "C70_fmi2_rejects_partial",
    "C70_model_exchange_partial",
    "C70_fmi2_model_exchange_partial",
    "C70_stair_refuted",
    "C70_statespace_refuted",
    "C70_calculated_refuted",
    "C70_only_then_refuted"
   ],
   "note": "Acceptance for every FMU except the value 10 for the counter of Stair and structural parameters of StateSpace set one at a time (both refuted); refusal of computed variables except Boolean_output of Feedthrough and x of StateSpace (refuted); refusal of parameters and inputs in model exchange except for VanDerPol and StateSpace (refuted, as it is in Step Mode)."
  },
  {
   "property": "C71",
   "status": "partial",
   "theorems": [
    "C71_defined_partial",
    "C71_clean_partial",
    "C71_live_partial",
    "C71_ok",
    "C71_shift_refuted",
    "C71_format_refuted",
    "C71_function_refuted",
    "C71_exchange_refuted",
    "C71_name_refuted",
    "C71_buffer_refuted",
    "C71_silent_refuted",
    "C71_twice_refuted",
    "C71_library_refuted",
    "C71_table_refuted"
   ],
   "note": "Proved for every interleaving and failure pattern, including calls of all functions but fmi3SetShift* and fmi*SetDebugLogging, under three conditions: the log buffer is allocated, the FMU can copy the name, and FMI 3 Model Exchange finds all functions. A refutation for each condition and each exception."
  },
  {
   "property": "C72",
   "status": "partial",
   "theorems": [
    "C72_program_partial",
    "C72_status",
    "C72_success",
    "C72_library_refuted",
    "C72_scheduled_refuted",
    "C72_table_refuted"
   ],
   "note": "Proved if the library loads, the log buffer and the name are allocated, and for FMI 3 Model Exchange and Scheduled Execution all functions are found, for FMI 2 the table is allocated; otherwise refuted. FMI 1 programs are not modelled."
  },
  {
   "property": "C73",
   "status": "partial",
   "theorems": [
    "C73_foreign_partial",
    "C73_refuted"
   ],
   "note": "Proved for all pairs of FMUs but Stair and VanDerPol, which have the same token (refuted)."
  },
  {
   "property": "C74",
   "status": "partial",
   "theorems": [
    "C74_program_partial",
    "C74_failure_refuted",
    "C74_left"
   ],
   "note": "Proved, except that nothing is left behind when the program fails after opening the library (refuted; the process ends then)."
  },
  {
   "property": "C75",
   "status": "proved",
   "theorems": [
    "C75_fmi3_mixture",
    "C75_second_refuted"
   ],
   "note": "Exact arithmetic and FMI 3 (Roberts has no FMI 2 build), as stated. The bound on y2 is needed: C75_second_refuted."
  },
  {
   "property": "C76",
   "status": "proved",
   "theorems": [
    "C76_fmi3_rest",
    "C76_fmi2_rest",
    "C76_fmi3_elastic",
    "C76_fmi2_elastic"
   ],
   "note": "Exact arithmetic, as stated; co-simulation without event mode. The damping condition is sufficient; restitutions between it and 1 are open."
  },
  {
   "property": "C77",
   "status": "proved",
   "theorems": [
    "C77_fmi3_orbit",
    "C77_fmi2_orbit",
    "C77_mirror",
    "C77_equilibrium",
    "C77_energy"
   ],
   "note": "FMI 3 without event mode, and FMI 2; mirror, equilibrium and energy in exact arithmetic."
  },
  {
   "property": "C78",
   "status": "proved",
   "theorems": [
    "C78_fmi3_linear",
    "C78_superposition"
   ],
   "note": "FMI 3 without event mode (StateSpace has no FMI 2 build), every state but Terminated; superposition in exact arithmetic."
  },
  {
   "property": "C79",
   "status": "proved",
   "theorems": [
    "C79_space",
    "C79_resource",
    "C79_missing",
    "C79_space_exact",
    "C79_resource_exact",
    "C79_closed"
   ],
   "note": "Any arithmetic that is precise enough, and exact arithmetic; FMI 3 program."
  },
  {
   "property": "C80",
   "status": "partial",
   "theorems": [
    "C80_program_partial",
    "C80_left_refuted",
    "C80_accepts"
   ],
   "note": "Proved, except that the instance stays allocated when the copy of its name fails (refuted; exactly this case)."
  },
  {
   "property": "C81",
   "status": "proved",
   "theorems": [
    "C81_runs",
    "C81_dahlquist",
    "C81_vanderpol",
    "C81_same",
    "C81_product"
   ],
   "note": "FMI 3; Dahlquist and VanDerPol. C22 compares all FMUs with continuous states for the solver's step size, in terms of the states."
  }
 ]
}