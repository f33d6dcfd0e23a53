{
 "claims": [
  {
   "property": "C01",
   "status": "proved",
   "theorems": [
    "C01_any_call_sequence",
    "C01_global_balance_is_sum_of_residuals",
    "C01_global_balance_bounded"
   ],
   "note": "Exact arithmetic; any history, any soil routine results; finite residuals assumed since NaN is not caught (C02)."
  },
  {
   "property": "C02",
   "status": "proved",
   "theorems": [
    "C02_reported_residual_within_tolerance",
    "C02_residual_always_a_number_refuted"
   ],
   "note": "Tolerance proved for every history; NaN residual reached by a concrete Update (refuted part)."
  },
  {
   "property": "C03",
   "status": "proved",
   "theorems": [
    "C03_surface_water_partitioned",
    "C03_insertion_partitions"
   ],
   "note": "Exact arithmetic. The dropped residue of 1e-12 cm does not enter because infiltration is measured before it is dropped."
  },
  {
   "property": "C04",
   "status": "proved",
   "theorems": [
    "C04_reported_fluxes_not_negative"
   ],
   "note": "Every monotone rounding."
  },
  {
   "property": "C05",
   "status": "proved",
   "theorems": [
    "C05_ponded_water_bounded",
    "C05_ponded_water_bounded_refuted"
   ],
   "note": "Bound for every rounding with the equality case spelled out; refuted in the equality case by a concrete Update."
  },
  {
   "property": "C06",
   "status": "proved",
   "theorems": [
    "C06_giuh_call_is_safe",
    "C06_giuh_conserves_water",
    "C06_giuh_unit_hydrograph"
   ],
   "note": "Conservation for exact arithmetic; memory safety of a call for every rounding."
  },
  {
   "property": "C07",
   "status": "proved",
   "theorems": [
    "C07_giuh_is_convolution",
    "C07_giuh_drains"
   ],
   "note": "Convolution and draining for exact arithmetic."
  },
  {
   "property": "C08",
   "status": "proved",
   "theorems": [
    "C08_ordinates",
    "C08_total",
    "C08_coarse_resolution_refuted"
   ],
   "note": "Total kept up to one hour (real arithmetic); int(1/resolution) and the division for every rounding; coarser than one hour refuted with the Phillipsburg configuration at two hours."
  },
  {
   "property": "C09",
   "status": "proved",
   "theorems": [
    "C09_clock_advances_by_substeps",
    "C09_clock_advances_by_resolution",
    "C09_long_substep_never_runs",
    "C09_clock_always_advances_by_resolution_refuted"
   ],
   "note": "Positive cases for every state; refuted for sub-steps that do not divide the resolution or exceed it."
  },
  {
   "property": "C10",
   "status": "proved",
   "theorems": [
    "C10_substep_length",
    "C10_fixed_substep_length",
    "C10_adaptive_substep_within_resolution"
   ],
   "note": ""
  },
  {
   "property": "C11",
   "status": "proved",
   "theorems": [
    "C11_forcing_applied"
   ],
   "note": ""
  },
  {
   "property": "C12",
   "status": "proved",
   "theorems": [
    "C12_invalid_soil_passes_rain_through",
    "C12_invalid_soil_history",
    "C12_invalid_soil_balance"
   ],
   "note": ""
  },
  {
   "property": "C13",
   "status": "proved",
   "theorems": [
    "C13_update_needs_forcing"
   ],
   "note": ""
  },
  {
   "property": "C14",
   "status": "proved",
   "theorems": [
    "C14_names_resolve",
    "C14_arrays_stay_consistent"
   ],
   "note": "All names; consistency of the arrays kept by every sequence of BMI calls that does not overwrite soil_num_wetting_fronts. Every rounding."
  },
  {
   "property": "C15",
   "status": "proved",
   "theorems": [
    "C15_set_then_get",
    "C15_nothing_else_changes",
    "C15_set_succeeds",
    "C15_number_of_fronts_refuted"
   ],
   "note": "Every pair of names, every value; exception soil_num_wetting_fronts refuted by a theorem."
  },
  {
   "property": "C16",
   "status": "proved",
   "theorems": [
    "C16_get_at_indices",
    "C16_set_at_indices",
    "C16_set_at_indices_defined"
   ],
   "note": "Every index list including duplicates; definedness characterised exactly."
  },
  {
   "property": "C17",
   "status": "proved",
   "theorems": [
    "C17_unknown_names"
   ],
   "note": "All strings."
  },
  {
   "property": "C18",
   "status": "proved",
   "theorems": [
    "C18_outputs_mirror_profile"
   ],
   "note": ""
  },
  {
   "property": "C19",
   "status": "proved",
   "theorems": [
    "C19_grid_without_value_refuted",
    "C19_every_other_grid_has_a_value"
   ],
   "note": "Refuted for two names; every other string with a grid has a value (undefined only before the first Update for the 11 outputs)."
  },
  {
   "property": "C20",
   "status": "proved",
   "theorems": [
    "C20_what_is_reported",
    "C20_depths_of_layers_refuted"
   ],
   "note": "What is reported is proved, the advertised meaning refuted for every column."
  },
  {
   "property": "C21",
   "status": "proved",
   "theorems": [
    "C21_history_keeps_numbering",
    "C21_delete_removes_exactly_one",
    "C21_delete_absent_aborts"
   ],
   "note": "Any history of insert-first/delete keeps numbering 1..n; delete removes exactly one front; absent number aborts. Every rounding."
  },
  {
   "property": "C22",
   "status": "proved",
   "theorems": [
    "C22_copy_is_disjoint_and_equal",
    "C22_delete_list_releases_all",
    "C22_delete_front_refines",
    "C22_delete_front_absent_aborts",
    "C22_insert_first_refines",
    "C22_find_front_refines",
    "C22_length_counts",
    "C22_reverse_relinks"
   ],
   "note": "Heap level model of linked_list.cxx with allocation state; each operation refines the list operation, touches nothing else and has no UB. listSortFrontsByDepth and listInsertFrontAtDepth are not modelled (no caller)."
  },
  {
   "property": "C23",
   "status": "proved",
   "theorems": [
    "C23_insert_at_end_returns",
    "C23_interior_insert_never_returns_refuted",
    "C23_insert_without_predecessor_refuted"
   ],
   "note": "Insertion at the end behaves; interior insertion never returns (refuted), missing predecessor dereferences NULL (refuted)."
  },
  {
   "property": "C24",
   "status": "proved",
   "theorems": [
    "C24_storage_is_the_integral",
    "C24_storage_is_the_sum_of_slabs",
    "C24_storage_is_linear",
    "C24_storage_within_the_column"
   ],
   "note": "Exact arithmetic; Riemann integral of Coquelicot, any number of layers and fronts."
  },
  {
   "property": "C25",
   "status": "proved",
   "theorems": [
    "C25_merging_conserves_water"
   ],
   "note": "Exact arithmetic; any number of layers and fronts."
  },
  {
   "property": "C26",
   "status": "proved",
   "theorems": [
    "C26_crossing_conserves_water",
    "C26_equal_water_contents_lose_water_refuted"
   ],
   "note": "Exact arithmetic; conservation unless two fronts tie at a boundary or the water contents are equal; the latter case is refuted by a witness that loses 0.3 cm."
  },
  {
   "property": "C27",
   "status": "proved",
   "theorems": [
    "C27_percolation_is_the_loss_of_storage"
   ],
   "note": "Exact arithmetic."
  },
  {
   "property": "C28",
   "status": "proved",
   "theorems": [
    "C28_repair_reports_its_change_of_storage",
    "C28_repair_makes_progress",
    "C28_nothing_to_repair",
    "C28_one_pass_removes_all_inversions_refuted"
   ],
   "note": "The reported change of storage is exact; an inverted profile loses a front; that one pass removes all inversions is refuted by a witness."
  },
  {
   "property": "C29",
   "status": "proved",
   "theorems": [
    "C29_creating_a_front_conserves_water"
   ],
   "note": "Exact arithmetic; dry depth within the first layer, surface not saturated."
  },
  {
   "property": "C30",
   "status": "proved",
   "theorems": [
    "C30_profile_structure_preserved",
    "C30_one_layer_structure_preserved",
    "C30_structure_preserved_by_crossing_refuted"
   ],
   "note": "Every rounding and number of layers, unless a front passes another one lying exactly on a layer boundary; unconditional for one layer; the exception is shown to break the structure."
  },
  {
   "property": "C31",
   "status": "proved",
   "theorems": [
    "C31_update_memory_safe",
    "C31_one_layer_memory_safe",
    "C31_move_never_aborts",
    "C31_no_use_after_free_refuted",
    "C31_no_out_of_bounds_refuted"
   ],
   "note": "Every rounding. Use of a deleted front is the only UB left and is refuted as a claim by a witness Update; ties are excluded and a witness shows the out-of-bounds read they cause."
  },
  {
   "property": "C32",
   "status": "proved",
   "theorems": [
    "C32_retention_bounds",
    "C32_retention_decreasing",
    "C32_retention_formula",
    "C32_head_recovered",
    "C32_water_content_recovered",
    "C32_oversaturated_head_is_nan"
   ],
   "note": "Exact arithmetic (rounding breaks exact inversion)."
  },
  {
   "property": "C33",
   "status": "proved",
   "theorems": [
    "C33_conductivity_bounds",
    "C33_conductivity_increasing",
    "C33_conductivity_bounds_rounded"
   ],
   "note": "Bounds for every rounding and exactly; monotonicity exactly."
  },
  {
   "property": "C34",
   "status": "proved",
   "theorems": [
    "C34_closed_form_is_finite",
    "C34_closed_form_finite_binary64",
    "C34_integrated_drive_not_negative",
    "C34_integration_terminates",
    "C34_closed_form_not_negative",
    "C34_closed_form_bounds"
   ],
   "note": "Sign for every rounding; termination and finiteness of the integration, bounds of the closed form, exactly. The closed form is finite for every rounding and every water content. Found: the drive is 0 when the first water content is residual."
  },
  {
   "property": "C35",
   "status": "proved",
   "theorems": [
    "C35_demand_is_a_number",
    "C35_demand_nan_refuted",
    "C35_aet_demand_bounds",
    "C35_reported_aet_bounds_refuted"
   ],
   "note": "Demand bounds for every rounding, and the demand is a number for every rounding if the half point is positive; NaN demand with a half point of 0 and reported AET outside the range refuted by witnesses."
  },
  {
   "property": "C36",
   "status": "proved",
   "theorems": [
    "C36_frozen_factor_range",
    "C36_frozen_factor_by_layer",
    "C36_frozen_factor_monotone",
    "C36_frozen_factor_reads_inside_refuted"
   ],
   "note": "Range for every rounding, layer means and monotonicity exactly; over-read refuted with witness."
  },
  {
   "property": "C37",
   "status": "proved",
   "theorems": [
    "C37_velocities_limited",
    "C37_velocities_positive",
    "C37_dry_over_wet_exits"
   ],
   "note": "Limits for every rounding; success, positivity and the exit for profiles with upper-to-lower drying in exact arithmetic."
  },
  {
   "property": "C38",
   "status": "proved",
   "theorems": [
    "C38_velocity_through_layers",
    "C38_third_layer_refuted",
    "C38_capacity_through_layers"
   ],
   "note": "Proved for the first two layers, for layers that conduct alike and for the infiltration capacity; refuted by a witness from the third layer on."
  },
  {
   "property": "C39",
   "status": "proved",
   "theorems": [
    "C39_applied_by_the_update",
    "C39_only_once",
    "C39_values_do_not_matter_without_flag",
    "C39_later_calls_have_no_effect"
   ],
   "note": "Every rounding. Distinct soil types (C40 covers shared ones); no effect later or without the flag for every call sequence."
  },
  {
   "property": "C40",
   "status": "proved",
   "theorems": [
    "C40_shared_type_gets_deepest_values_refuted",
    "C40_upper_value_lost_refuted",
    "C40_front_above_saturation_refuted"
   ],
   "note": "Refuted in general (deepest layer of a type wins) and by concrete executions."
  },
  {
   "property": "C41",
   "status": "proved",
   "theorems": [
    "C41_required_keys",
    "C41_other_keys_are_ignored",
    "C41_order_is_irrelevant",
    "C41_accepted_soil_types",
    "C41_accepts",
    "C41_missing_layer_thickness_refuted",
    "C41_invalid_soil_type_refuted"
   ],
   "note": "Required keys, comments and order for every file and rounding; complete configurations are accepted; refuted for a missing layer_thickness and for invalid soil types (shipped Bushland configuration)."
  },
  {
   "property": "C42",
   "status": "proved",
   "theorems": [
    "C42_timestep",
    "C42_forcing_resolution",
    "C42_endtime",
    "C42_unknown_unit_refuted",
    "C42_unclosed_unit_refuted",
    "C42_endtime_unknown_unit_refuted"
   ],
   "note": "All units of the code; refuted for unknown units, text after the unit, unclosed brackets and unknown endtime units."
  },
  {
   "property": "C43",
   "status": "proved",
   "theorems": [
    "C43_layers_read_in_order",
    "C43_soil_types_read_in_order",
    "C43_cells_read_in_order",
    "C43_depths"
   ],
   "note": "For every rounding; depths as exact running sums in real arithmetic."
  },
  {
   "property": "C44",
   "status": "proved",
   "theorems": [
    "C44_one_front_for_each_layer",
    "C44_hydrostatic",
    "C44_first_state_is_sound",
    "C44_first_fronts_binary64"
   ],
   "note": "Structure for every rounding; van Genuchten values, bounds and initial storage in real arithmetic; shipped Phillipsburg and soil freeze-thaw configurations as instances. In binary64 the first fronts hold no NaN and conductivities up to Ksat."
  },
  {
   "property": "C45",
   "status": "proved",
   "theorems": [
    "C45_capacity_not_negative",
    "C45_insertion_is_finite",
    "C45_infiltration_any_rounding",
    "C45_supply_limited_any_rounding",
    "C45_surface_is_finite",
    "C45_nan_capacity_infiltrates_all",
    "C45_negative_infiltration_refuted",
    "C45_infiltration_bounded",
    "C45_supply_limited_infiltrates_all",
    "C45_update_infiltration_bounded"
   ],
   "note": "Bounds exactly and for every rounding; the parts of the surface water are finite for every rounding even if the capacity is NaN."
  },
  {
   "property": "C46",
   "status": "proved",
   "theorems": [
    "C46_update_until_is_one_update",
    "C46_update_until_reaches_time_refuted"
   ],
   "note": "The behaviour that exists is proved; the property itself is refuted with a witness."
  },
  {
   "property": "C47",
   "status": "proved",
   "theorems": [
    "C47_free_drainage_front",
    "C47_free_drainage_of_a_profile"
   ],
   "note": "First part for every list; second part for every structured profile."
  },
  {
   "property": "C48",
   "status": "proved",
   "theorems": [
    "C48_head_iteration",
    "C48_water_content_in_range"
   ],
   "note": "Exact arithmetic; whenever the iteration ends. That it ends is not claimed."
  },
  {
   "property": "C49",
   "status": "proved",
   "theorems": [
    "C49_initialise_builds_the_list",
    "C49_histories_refine",
    "C49_histories_run",
    "C49_actions_are_safe",
    "C49_finalize_releases",
    "C49_nothing_left",
    "C49_uncoupled_cells_leak_refuted",
    "C49_second_finalize_refuted",
    "C49_destructor_alone_leaks_refuted"
   ],
   "note": "Heap model of the object from constructor to destructor, every rounding, every history of creations, edits, deletions, copies and reallocations. Exact number of blocks left; refuted for a second Finalize, for soil_z without coupling, and for the destructor alone. The action list is the memory behaviour of Update seen from the list routines; it is not derived from the Update model."
  },
  {
   "property": "C50",
   "status": "proved",
   "theorems": [
    "C50_line_of_the_table",
    "C50_soil_of_the_row",
    "C50_incomplete_rows_refuted",
    "C50_small_n_refuted",
    "C50_derived_parameters",
    "C50_wilting_point_refuted",
    "C50_shipped_table_refuted"
   ],
   "note": "Derived parameters in real arithmetic, table reading for every rounding; refuted for n <= 1, the wilting point, incomplete rows, and soils 7 and 11 of the shipped table."
  },
  {
   "property": "C51",
   "status": "proved",
   "theorems": [
    "C51_rows_in_order",
    "C51_reading_ends",
    "C51_column_lengths",
    "C51_open_last_line_refuted",
    "C51_short_row_refuted"
   ],
   "note": "Streams modelled with eofbit and failbit; every rounding. Refuted for an unterminated last line and for a row with two cells."
  },
  {
   "property": "C52",
   "status": "proved",
   "theorems": [
    "C52_one_update_per_row",
    "C52_number_of_steps"
   ],
   "note": "Every rounding; the number of steps in real arithmetic. Printing of numbers is not modelled."
  },
  {
   "property": "C53",
   "status": "proved",
   "theorems": [
    "C53_clients_are_safe",
    "C53_clients_are_safe_one_layer"
   ],
   "note": "Real arithmetic; from the text of the configuration. UseAfterFree is excluded only by C31 and stays possible for fronts below the residual content. Ties are a hypothesis with several layers, proved impossible with one."
  },
  {
   "property": "C54",
   "status": "proved",
   "theorems": [
    "C54_program_is_safe",
    "C54_program_is_safe_one_layer"
   ],
   "note": "Real arithmetic; every forcing text. Same remarks as C53."
  },
  {
   "property": "C55",
   "status": "proved",
   "theorems": [
    "C55_columns_add_up",
    "C55_file_balance",
    "C55_file_error_bound",
    "C55_file_routing"
   ],
   "note": "Real arithmetic; from the text of the configuration to the columns of the output."
  },
  {
   "property": "C56",
   "status": "proved",
   "theorems": [
    "C56_integral_exists",
    "C56_integration_bounds",
    "C56_drive_is_the_integral_refuted",
    "C56_closed_form"
   ],
   "note": "Real arithmetic, every van Genuchten soil; the integral is Coquelicot's Riemann integral. Equality refuted by a factor of at least nine."
  },
  {
   "property": "C57",
   "status": "proved",
   "theorems": [
    "C57_demand_formula",
    "C57_half_demand_head",
    "C57_demand_shape"
   ],
   "note": "Real arithmetic, every van Genuchten soil."
  },
  {
   "property": "C58",
   "status": "proved",
   "theorems": [
    "C58_substeps",
    "C58_ordinates",
    "C58_clock",
    "C58_program_steps",
    "C58_program_steps_refuted"
   ],
   "note": "binary64 (Flocq): round to nearest even with overflow. Uses only Coq standard library axioms."
  },
  {
   "property": "C59",
   "status": "proved",
   "theorems": [
    "C59_sort_refines",
    "C59_sort_orders",
    "C59_sort_separates_refuted",
    "C59_sort_numbers_refuted"
   ],
   "note": "pointer code refines the list function; two refutations of the wider claim"
  },
  {
   "property": "C60",
   "status": "proved",
   "theorems": [
    "C60_layer_of_depth",
    "C60_insert_between",
    "C60_insert_below_last",
    "C60_insert_single_refuted",
    "C60_insert_above_refuted",
    "C60_insert_outside_leaks_refuted"
   ],
   "note": "listFindLayer for any rounding; listInsertFrontAtDepth on heap nodes; three refutations of the wider claim"
  },
  {
   "property": "C61",
   "status": "proved",
   "theorems": [
    "C61_motion_balances",
    "C61_first_front_drains",
    "C61_motion_stops"
   ],
   "note": "exact arithmetic, one layer, at least two fronts; the multi-layer routines have their own theorems (C25-C28)"
  },
  {
   "property": "C62",
   "status": "proved",
   "theorems": [
    "C62_fronts_advance"
   ],
   "note": "any rounding; the loop over the fronts only, before merging, crossing and closing"
  },
  {
   "property": "C63",
   "status": "proved",
   "theorems": [
    "C63_substep_balances",
    "C63_substep_stops",
    "C63_dry_weather_continues"
   ],
   "note": "exact arithmetic, one layer, at least two fronts before the sub-step"
  },
  {
   "property": "C64",
   "status": "proved",
   "theorems": [
    "C64_one_front_per_update",
    "C64_front_needs_onset",
    "C64_counters_fit"
   ],
   "note": "Induction over the Updates; user edits between them are arbitrary. The bound is attained by the worked example."
  },
  {
   "property": "C65",
   "status": "proved",
   "theorems": [
    "C65_binary64_accuracy",
    "C65_global_balance_rounded",
    "C65_global_balance_binary64"
   ],
   "note": "Induction over sub-steps, Updates and user edits. The bound M on storages and totals is a hypothesis on the run; increments are bounded through the totals. The worked example is a rainy hour in binary64."
  },
  {
   "property": "C66",
   "status": "proved",
   "theorems": [
    "C66_routing_rounded",
    "C66_routing_binary64",
    "C66_routing_rounded_drains"
   ],
   "note": "The rounded queue is compared with the exact one; an entry with n entries behind it has been through at most n calls."
  },
  {
   "property": "C67",
   "status": "proved",
   "theorems": [
    "C67_drying_never_wets"
   ],
   "note": "Invariant of the stages of the search: rising, falling, risen again, and after the step was multiplied by 100."
  },
  {
   "property": "C68",
   "status": "proved",
   "theorems": [
    "C68_head_iteration_ends"
   ],
   "note": "Each change of direction divides the step by ten and a step below 1e-14 ends the search. Runs upwards end at 1e7 cm; runs downwards end below zero or after five equal masses. With enough fuel the result does not depend on the fuel."
  },
  {
   "property": "C69",
   "status": "proved",
   "theorems": [
    "C69_one_front_balances",
    "C69_surface_water",
    "C69_substep_stops"
   ],
   "note": "Two cases per phase: several fronts (C63) and one front, where the head iteration and the closure decide; rooted fronts make the one-front case inductive."
  },
  {
   "property": "C70",
   "status": "proved",
   "theorems": [
    "C70_configuration_starts",
    "C70_every_step_is_kept",
    "C70_simulation_balances",
    "C70_update_ends",
    "C70_configured_simulation"
   ],
   "note": "Invariant one_layer over histories; established from the text of the configuration by the acceptance theorem of C45. No calibration and no coupling to soil temperatures."
  },
  {
   "property": "C71",
   "status": "proved",
   "theorems": [
    "C71_program_balances",
    "C71_file_closes",
    "C71_no_step_refuted"
   ],
   "note": "Induction over the loop of main; number of sub-steps per forcing step bounded by fres/dt + 1; C71_no_step_refuted shows why one step is needed."
  },
  {
   "property": "C72",
   "status": "proved",
   "theorems": [
    "C72_loops",
    "C72_update",
    "C72_program"
   ],
   "note": "Every function that depends on the bound, from the two loops up to the program; shows that the bound of the model is not part of what the other theorems claim."
  },
  {
   "property": "C73",
   "status": "proved",
   "theorems": [
    "C73_capillary_integral_ends",
    "C73_head_iteration_ends",
    "C73_infinite_mass_refuted",
    "C73_substep_ends",
    "C73_update_ends",
    "C73_one_layer_updates_end",
    "C73_program_ends",
    "C73_program_outcome"
   ],
   "note": "For columns of several layers the Update theorem assumes that every sub-step starts from fronts without infinities; with one layer that is proved."
  },
  {
   "property": "C74",
   "status": "proved",
   "theorems": [
    "C74_mass",
    "C74_velocities",
    "C74_creation",
    "C74_merging",
    "C74_layer_crossing",
    "C74_domain_crossing",
    "C74_dry_over_wet",
    "C74_motion",
    "C74_Update",
    "C74_sessions",
    "C74_whole_life",
    "C74_pictures_exist",
    "C74_no_use_after_free_refuted"
   ],
   "note": "Addresses are never used twice in the heap model, so every access to a released node is noticed. The numbers of the fronts must run 1, 2, ...: Initialize establishes it, every Update keeps it."
  },
  {
   "property": "C75",
   "status": "proved",
   "theorems": [
    "C75_update_keeps_fronts_physical",
    "C75_histories_keep_fronts_physical",
    "C75_one_layer",
    "C75_initialize_is_physical",
    "C75_velocities_do_not_abort"
   ],
   "note": "Exact arithmetic. Ties at a layer boundary are excluded (C31 shows what they do); with two layers of the same soil type a calibration can leave a front above saturation (C40), hence the hypothesis on the soil types. The conductivity bound is one number for the column: the code keeps the conductivity of a front that a calibration or a change of temperature has outdated until it is computed again."
  },
  {
   "property": "C76",
   "status": "proved",
   "theorems": [
    "C76_storage_is_the_shares",
    "C76_books_of_a_pass",
    "C76_dry_pass"
   ],
   "note": "Exact arithmetic; the loop over the fronts before the closure at front 1. The pass must return: C31 shows the case in which it does not, and C67/C68 bound the iteration. In the first layer a front above the boundary must have a positive velocity, because the code skips the water of a front at rest there."
  },
  {
   "property": "C77",
   "status": "proved",
   "theorems": [
    "C77_motion_joins_heads",
    "C77_buried_inversion_refuted",
    "C77_update_joins_heads",
    "C77_histories_keep_heads_joined",
    "C77_initialize_joins_heads",
    "C77_storage_of_reached_states"
   ],
   "note": "Exact arithmetic, for runs without ties (C30) and without buried inversions; the theorem named refuted shows one repair with a buried inversion after which the heads differ. For the storage the heads and depths of the reached state have to be finite."
  },
  {
   "property": "C78",
   "status": "proved",
   "theorems": [
    "C78_grids",
    "C78_shape_of_layers",
    "C78_shape_of_fronts_refuted",
    "C78_spacing_and_origin_refuted"
   ],
   "note": "What the code does is proved; the statement as a whole is refuted for the shape of the front grid and for spacing and origin (theorems named refuted)."
  },
  {
   "property": "C79",
   "status": "proved",
   "theorems": [
    "C79_motion_ledger",
    "C79_motion_balance",
    "C79_dry_motion",
    "C79_wet_motion",
    "C79_substep_ledger",
    "C79_balance_check_passes"
   ],
   "note": "Exact arithmetic. The gap of the pass is bounded by C79_dry_motion when the demand exceeds the rain and by C79_wet_motion when the first front lies inside the first layer; otherwise it is an explicit quantity. Ties and zero divisors of merges are excluded by hypotheses (move_tie, move_degenerate)."
  },
  {
   "property": "C80",
   "status": "proved",
   "theorems": [
    "C80_buffers",
    "C80_lines_are_rows",
    "C80_long_header_refuted",
    "C80_names",
    "C80_name_overrun_refuted"
   ],
   "note": "What the code does is proved for every file; the claim beyond the limits is refuted (theorems named refuted). Hexadecimal numbers are left out as in Config.v."
  },
  {
   "property": "C81",
   "status": "proved",
   "theorems": [
    "C81_data_file",
    "C81_layers_file",
    "C81_numbers",
    "C81_balance_from_text"
   ],
   "note": "Simplified: a zero has no sign and a NaN is printed without one. The buffers of printf and failing writes are not modelled."
  },
  {
   "property": "C82",
   "status": "proved",
   "theorems": [
    "C82_nothing_vanishes",
    "C82_upright_motion",
    "C82_created_front_is_wetter",
    "C82_upright_substep",
    "C82_balance_check_passes"
   ],
   "note": "Exact arithmetic. The order of the fronts is assumed after the pass only, and for a created front that it is wetter than the first one (C82_created_front_is_wetter says when); everything after it is proved. Ties are excluded."
  },
  {
   "property": "C83",
   "status": "proved",
   "theorems": [
    "C83_substep",
    "C83_balance_check_passes",
    "C83_simulation",
    "C83_global_balance",
    "C83_configuration"
   ],
   "note": "Exact arithmetic, no calibration after the start. What each sub-step must satisfy (no tie, order after the pass, finite heads below the upper end of their layer) and the gap of its pass are hypotheses on the executed sub-steps, stated in Spec_Layered; the rest of the sub-step, the invariant and the sum are proved."
  },
  {
   "property": "C84",
   "status": "proved",
   "theorems": [
    "C84_substep",
    "C84_stops",
    "C84_no_demand",
    "C84_holds_water",
    "C84_dry_simulation",
    "C84_global_balance",
    "C84_still",
    "C84_configuration"
   ],
   "note": "Exact arithmetic. The hydrostatic form is derived from the configuration for the first state and preserved by every dry sub-step, so no per-sub-step hypothesis remains. The bound on the balance is in terms of the demand that the pass drops, since the iteration may overshoot on a steep curve."
  },
  {
   "property": "C85",
   "status": "proved",
   "theorems": [
    "C85_pass",
    "C85_substep",
    "C85_balance_check_passes",
    "C85_weather",
    "C85_capacity",
    "C85_simulation",
    "C85_global_balance"
   ],
   "note": "Exact arithmetic. Hypotheses per sub-step: wetting fronts in the first layer, supply, no tie between crossing fronts, seated end. Wetting fronts in deeper layers are covered by C83 under its own hypotheses."
  },
  {
   "property": "C86",
   "status": "proved",
   "theorems": [
    "C86_program",
    "C86_still_program"
   ],
   "note": "Exact arithmetic. Rooting lines (wilting point and field capacity) are in the configuration; the sub-step is not longer than the forcing interval. The actual evapotranspiration and the recharge are only claimed to be numbers, since the former can be negative (see C35)."
  },
  {
   "property": "C87",
   "status": "proved",
   "theorems": [
    "C87_indeterminate_memory",
    "C87_written_variables",
    "C87_sessions",
    "C87_routing_update",
    "C87_routing_program",
    "C87_causality"
   ],
   "note": "For every rounding. The client theorems assume valid soils and no pending calibration; the routing theorems assume at least one ordinate after resampling (without one, the routing itself is undefined, C08), and for the program that both configurations initialise. Causality is claimed for runs that complete."
  },
  {
   "property": "C88",
   "status": "proved",
   "theorems": [
    "C88_fronts",
    "C88_fluxes",
    "C88_rows",
    "C88_program"
   ],
   "note": "Fixed sub-steps, no pending calibration and no soil temperatures. The long interval must have executed all its sub-steps, which the counter shows (the loop breaks only when the end time is exceeded). In C88_program the short interval is at most an hour and the end time a whole number of long intervals. Routed runoff and discharge are not claimed: the hydrograph is resampled with the interval."
  },
  {
   "property": "C89",
   "status": "proved",
   "theorems": [
    "C89_passes",
    "C89_meaning",
    "C89_other_sizes",
    "C89_buffers_refuted",
    "C89_calibration"
   ],
   "note": "The asserts are taken to be compiled in. That the configuration of the repository meets the benchmark is not claimed (this would mean to evaluate twelve sub-steps with real powers)."
  },
  {
   "property": "C90",
   "status": "proved",
   "theorems": [
    "C90_more_rain_in_a_substep",
    "C90_more_rain_in_an_update",
    "C90_more_rain_refuted",
    "C90_more_water_any_rounding"
   ],
   "note": "Exact arithmetic, lgar_insert_water for any rounding. A film of at most 10^-12 cm on the surface in a dry sub-step, which the code removes, is excluded. Longer forcing intervals are not covered: their later sub-steps start from different soils."
  },
  {
   "property": "C91",
   "status": "proved",
   "theorems": [
    "C91_update",
    "C91_program_any_rounding",
    "C91_program",
    "C91_shared_rows_refuted"
   ],
   "note": "The condition that no two layers share a row is needed only while calibration values wait to be applied; C91_shared_rows_refuted shows that it is needed then."
  },
  {
   "property": "C92",
   "status": "proved",
   "theorems": [
    "C92_update",
    "C92_initialize",
    "C92_program_any_rounding",
    "C92_program"
   ],
   "note": ""
  },
  {
   "property": "C93",
   "status": "proved",
   "theorems": [
    "C93_discharge"
   ],
   "note": "Exact arithmetic; C66 bounds the rounding of the routing in floating point. For coarser resolutions there is no ordinate left (C08)."
  },
  {
   "property": "C94",
   "status": "proved",
   "theorems": [
    "C94_arrays",
    "C94_matrices",
    "C94_empty_matrix",
    "C94_complete_refuted",
    "C94_negative_size_refuted"
   ],
   "note": "The completeness of a matrix and the refusal of negative sizes are refuted. Only src/main.cxx, which is not built, calls these functions; they are in the built programs and their header."
  },
  {
   "property": "C95",
   "status": "proved",
   "theorems": [
    "C95_frost_moves_nothing",
    "C95_drive",
    "C95_capacity",
    "C95_dry_depth",
    "C95_temperatures",
    "C95_substep",
    "C95_update",
    "C95_colder_takes_less_refuted",
    "C95_frost_of_the_lower_layer_is_ignored"
   ],
   "note": "C95_frost_moves_nothing holds for any rounding, the others in exact arithmetic. C95_colder_takes_less_refuted: when the water that would stay equals the maximum exactly, the warmer soil takes in nothing (finding 5). The velocities of later steps do depend on frost (C38), so the comparison is per step from the same state. C95_frost_of_the_lower_layer_is_ignored (any rounding): the capacity takes the factor of the first layer for the layer of the draining front (finding 39)."
  },
  {
   "property": "C96",
   "status": "proved",
   "theorems": [
    "C96_depth_any_rounding",
    "C96_new_front_any_rounding",
    "C96_depth",
    "C96_closed_drive",
    "C96_longer_step",
    "C96_drier_takes_more"
   ],
   "note": "Exact arithmetic. The statement about drier soil needs the closed form of the drive; with the integrated drive the drive itself depends on the water content. Finite depth within the layer for every rounding."
  },
  {
   "property": "C97",
   "status": "proved",
   "theorems": [
    "C97_infiltration",
    "C97_substep",
    "C97_update",
    "C97_same_infiltration_refuted",
    "C97_infiltration_any_rounding",
    "C97_substep_any_rounding"
   ],
   "note": "C97_infiltration_any_rounding and C97_substep_any_rounding hold for any rounding and any two limits, if both runs let in water or neither does; the division of the rest is proved in exact arithmetic. C97_same_infiltration_refuted: when the water that would stay equals the limit exactly nothing goes in (finding 5). The velocities of the fronts do depend on the ponded water, so later steps may differ."
  },
  {
   "property": "C98",
   "status": "proved",
   "theorems": [
    "C98_ponded_water_speeds_fronts",
    "C98_velocities_of_a_substep",
    "C98_new_front_ignores_water_refuted",
    "C98_larger_limit_is_faster_refuted"
   ],
   "note": "The speed-up is proved in exact arithmetic (C37 gives the conditions under which the velocities are positive); which ponded depth a sub-step uses, for any rounding. Refuted for the sub-step that makes a new front: its velocity ignores the water left on the surface, and a larger ponding limit can make it slower (finding 40)."
  },
  {
   "property": "C99",
   "status": "proved",
   "theorems": [
    "C99_water_content_monotone",
    "C99_saturation_monotone",
    "C99_conductivity_monotone",
    "C99_head_monotone",
    "C99_demand_monotone",
    "C99_frost_monotone",
    "C99_saturated_content_refuted"
   ],
   "note": "Any rounding that satisfies the Fp laws; pow, exp and sqrt are taken as correctly rounded (see the trusted base). The upper bound theta_e itself is refuted in binary64 (C99_saturated_content_refuted)."
  },
  {
   "property": "C100",
   "status": "proved",
   "theorems": [
    "C100_drier_start",
    "C100_conductivity_binary64"
   ],
   "note": "Any rounding that satisfies the Fp laws. Conductivities and heads in binary64."
  },
  {
   "property": "C101",
   "status": "proved",
   "theorems": [
    "C101_saturation_at_most_one",
    "C101_head_of_content",
    "C101_saturated_exactly",
    "C101_zero_head_saturated_refuted"
   ],
   "note": "Binary64. The claim that head 0 means saturated is refuted with a witness."
  },
  {
   "property": "C102",
   "status": "proved",
   "theorems": [
    "C102_update_binary64",
    "C102_histories_binary64",
    "C102_one_layer_binary64",
    "C102_initialize_binary64",
    "C102_no_nan",
    "C102_velocities_do_not_abort",
    "C102_client_reads_contents",
    "C102_program_prints_no_nan"
   ],
   "note": "Binary64. Steps with ties of depths are excluded as in C75, except in a column of one layer, where none occur. Depths and fluxes are not covered, only water contents, heads and conductivities."
  },
  {
   "property": "C103",
   "status": "proved",
   "theorems": [
    "C103_routing_order",
    "C103_routing_memory",
    "C103_routing_flushes",
    "C103_shorter_memory_refuted"
   ],
   "note": "Any rounding; the call is described entry by entry, then induction over the calls. Runoffs in the order theorem are finite, the queue may hold infinities."
  }
 ]
}