# Assumptions of each theorem

What `Print Assumptions` reports for every theorem in `Prop_*.v`. All of these come from Coq's standard library.

* **A** `ClassicalDedekindReals.sig_forall_dec`
* **B** `ClassicalDedekindReals.sig_not_dec`
* **C** `Classical_Prop.classic`
* **D** `FunctionalExtensionality.functional_extensionality_dep`

`-` means closed under the global context.

| Theorem | File | Axioms |
|---|---|---|
| `C01_any_call_sequence` | `Prop_Bmi.v` | A B C D |
| `C01_global_balance_bounded` | `Prop_Ledger.v` | A B C D |
| `C01_global_balance_is_sum_of_residuals` | `Prop_Ledger.v` | A B C D |
| `C02_reported_residual_within_tolerance` | `Prop_Ledger.v` | A B C D |
| `C02_residual_always_a_number_refuted` | `Prop_Ledger.v` | A B C D |
| `C03_insertion_partitions` | `Prop_Surface.v` | A D |
| `C03_surface_water_partitioned` | `Prop_Surface.v` | A B C D |
| `C04_reported_fluxes_not_negative` | `Prop_Ledger.v` | A B C D |
| `C05_ponded_water_bounded` | `Prop_Surface.v` | A B C D |
| `C05_ponded_water_bounded_refuted` | `Prop_Surface.v` | A B C D |
| `C06_giuh_call_is_safe` | `Prop_Giuh.v` | A D |
| `C06_giuh_conserves_water` | `Prop_Giuh.v` | A D |
| `C06_giuh_unit_hydrograph` | `Prop_Giuh.v` | A D |
| `C07_giuh_drains` | `Prop_Giuh.v` | A D |
| `C07_giuh_is_convolution` | `Prop_Giuh.v` | A D |
| `C08_coarse_resolution_refuted` | `Prop_Config.v` | A B C D |
| `C08_ordinates` | `Prop_Config.v` | A B C D |
| `C08_total` | `Prop_Config.v` | A B C D |
| `C09_clock_advances_by_resolution` | `Prop_Clock.v` | A B C D |
| `C09_clock_advances_by_substeps` | `Prop_Clock.v` | A B C D |
| `C09_clock_always_advances_by_resolution_refuted` | `Prop_Clock.v` | A B C D |
| `C09_long_substep_never_runs` | `Prop_Clock.v` | A B C D |
| `C100_conductivity_binary64` | `Prop_StartRound.v` | A B C D |
| `C100_drier_start` | `Prop_DryStart.v` | A B C D |
| `C101_head_of_content` | `Prop_SatRound.v` | A B C D |
| `C101_saturated_exactly` | `Prop_SatRound.v` | A B C D |
| `C101_saturation_at_most_one` | `Prop_SatRound.v` | A B C D |
| `C101_zero_head_saturated_refuted` | `Prop_SatRound.v` | A B C D |
| `C102_client_reads_contents` | `Prop_SaneRun.v` | A B C D |
| `C102_histories_binary64` | `Prop_SaneRun.v` | A B C D |
| `C102_initialize_binary64` | `Prop_SaneRun.v` | A B C D |
| `C102_no_nan` | `Prop_SaneRun.v` | A B C D |
| `C102_one_layer_binary64` | `Prop_SaneRun.v` | A B C D |
| `C102_program_prints_no_nan` | `Prop_SaneRun.v` | A B C D |
| `C102_update_binary64` | `Prop_SaneRun.v` | A B C D |
| `C102_velocities_do_not_abort` | `Prop_SaneRun.v` | A B C D |
| `C103_routing_flushes` | `Prop_GiuhAny.v` | A D |
| `C103_routing_memory` | `Prop_GiuhAny.v` | A D |
| `C103_routing_order` | `Prop_GiuhAny.v` | A D |
| `C103_shorter_memory_refuted` | `Prop_GiuhAny.v` | A B C D |
| `C10_adaptive_substep_within_resolution` | `Prop_Clock.v` | A B C D |
| `C10_fixed_substep_length` | `Prop_Clock.v` | A B C D |
| `C10_substep_length` | `Prop_Clock.v` | A B C D |
| `C11_forcing_applied` | `Prop_Clock.v` | A B C D |
| `C12_invalid_soil_balance` | `Prop_Clock.v` | A B C D |
| `C12_invalid_soil_history` | `Prop_Clock.v` | A B C D |
| `C12_invalid_soil_passes_rain_through` | `Prop_Clock.v` | A B C D |
| `C13_update_needs_forcing` | `Prop_Clock.v` | A B C D |
| `C14_arrays_stay_consistent` | `Prop_Bmi.v` | A B C D |
| `C14_names_resolve` | `Prop_Bmi.v` | - |
| `C15_nothing_else_changes` | `Prop_Bmi.v` | - |
| `C15_number_of_fronts_refuted` | `Prop_Bmi.v` | - |
| `C15_set_succeeds` | `Prop_Bmi.v` | - |
| `C15_set_then_get` | `Prop_Bmi.v` | - |
| `C16_get_at_indices` | `Prop_Bmi.v` | - |
| `C16_set_at_indices` | `Prop_Bmi.v` | - |
| `C16_set_at_indices_defined` | `Prop_Bmi.v` | - |
| `C17_unknown_names` | `Prop_Bmi.v` | - |
| `C18_outputs_mirror_profile` | `Prop_Clock.v` | A B C D |
| `C19_every_other_grid_has_a_value` | `Prop_Bmi.v` | - |
| `C19_grid_without_value_refuted` | `Prop_Bmi.v` | - |
| `C20_depths_of_layers_refuted` | `Prop_Bmi.v` | A D |
| `C20_what_is_reported` | `Prop_Bmi.v` | A |
| `C21_delete_absent_aborts` | `Prop_List.v` | - |
| `C21_delete_removes_exactly_one` | `Prop_List.v` | - |
| `C21_history_keeps_numbering` | `Prop_List.v` | A |
| `C22_copy_is_disjoint_and_equal` | `Prop_Heap.v` | - |
| `C22_delete_front_absent_aborts` | `Prop_Heap.v` | - |
| `C22_delete_front_refines` | `Prop_Heap.v` | - |
| `C22_delete_list_releases_all` | `Prop_Heap.v` | - |
| `C22_find_front_refines` | `Prop_Heap.v` | - |
| `C22_insert_first_refines` | `Prop_Heap.v` | A |
| `C22_length_counts` | `Prop_Heap.v` | - |
| `C22_reverse_relinks` | `Prop_Heap.v` | - |
| `C23_insert_at_end_returns` | `Prop_Heap.v` | A |
| `C23_insert_without_predecessor_refuted` | `Prop_Heap.v` | A |
| `C23_interior_insert_never_returns_refuted` | `Prop_Heap.v` | A |
| `C24_storage_is_linear` | `Prop_Storage.v` | A D |
| `C24_storage_is_the_integral` | `Prop_Storage.v` | A D |
| `C24_storage_is_the_sum_of_slabs` | `Prop_Storage.v` | A D |
| `C24_storage_within_the_column` | `Prop_Storage.v` | A D |
| `C25_merging_conserves_water` | `Prop_Storage.v` | A B C D |
| `C26_crossing_conserves_water` | `Prop_Storage.v` | A B C D |
| `C26_equal_water_contents_lose_water_refuted` | `Prop_Storage.v` | A B C D |
| `C27_percolation_is_the_loss_of_storage` | `Prop_Storage.v` | A B C D |
| `C28_nothing_to_repair` | `Prop_Storage.v` | A B C D |
| `C28_one_pass_removes_all_inversions_refuted` | `Prop_Storage.v` | A B C D |
| `C28_repair_makes_progress` | `Prop_Storage.v` | A B C D |
| `C28_repair_reports_its_change_of_storage` | `Prop_Storage.v` | A B C D |
| `C29_creating_a_front_conserves_water` | `Prop_Storage.v` | A B C D |
| `C30_one_layer_structure_preserved` | `Prop_Profile.v` | A B C D |
| `C30_profile_structure_preserved` | `Prop_Profile.v` | A B C D |
| `C30_structure_preserved_by_crossing_refuted` | `Prop_Profile.v` | A B C D |
| `C31_move_never_aborts` | `Prop_Profile.v` | A B C D |
| `C31_no_out_of_bounds_refuted` | `Prop_Profile.v` | A B C D |
| `C31_no_use_after_free_refuted` | `Prop_Profile.v` | A B C D |
| `C31_one_layer_memory_safe` | `Prop_Profile.v` | A B C D |
| `C31_update_memory_safe` | `Prop_Profile.v` | A B C D |
| `C32_head_recovered` | `Prop_Soil.v` | A B C D |
| `C32_oversaturated_head_is_nan` | `Prop_Soil.v` | A B C D |
| `C32_retention_bounds` | `Prop_Soil.v` | A B C D |
| `C32_retention_decreasing` | `Prop_Soil.v` | A B C D |
| `C32_retention_formula` | `Prop_Soil.v` | A B C D |
| `C32_water_content_recovered` | `Prop_Soil.v` | A B C D |
| `C33_conductivity_bounds` | `Prop_Soil.v` | A B C D |
| `C33_conductivity_bounds_rounded` | `Prop_Soil.v` | A B C D |
| `C33_conductivity_increasing` | `Prop_Soil.v` | A B C D |
| `C34_closed_form_bounds` | `Prop_Soil.v` | A B C D |
| `C34_closed_form_finite_binary64` | `Prop_GeffNum.v` | A B C D |
| `C34_closed_form_is_finite` | `Prop_GeffNum.v` | A B C D |
| `C34_closed_form_not_negative` | `Prop_Soil.v` | A B C D |
| `C34_integrated_drive_not_negative` | `Prop_Soil.v` | A B C D |
| `C34_integration_terminates` | `Prop_Soil.v` | A B C D |
| `C35_aet_demand_bounds` | `Prop_Soil.v` | A B C D |
| `C35_demand_is_a_number` | `Prop_DemandNum.v` | A B C D |
| `C35_demand_nan_refuted` | `Prop_DemandNum.v` | A B C D |
| `C35_reported_aet_bounds_refuted` | `Prop_Soil.v` | A B C D |
| `C36_frozen_factor_by_layer` | `Prop_Soil.v` | A B D |
| `C36_frozen_factor_monotone` | `Prop_Soil.v` | A B C D |
| `C36_frozen_factor_range` | `Prop_Soil.v` | A B D |
| `C36_frozen_factor_reads_inside_refuted` | `Prop_Soil.v` | A B D |
| `C37_dry_over_wet_exits` | `Prop_Flow.v` | A B C D |
| `C37_velocities_limited` | `Prop_Flow.v` | A B C D |
| `C37_velocities_positive` | `Prop_Flow.v` | A B C D |
| `C38_capacity_through_layers` | `Prop_Flow.v` | A B C D |
| `C38_third_layer_refuted` | `Prop_Flow.v` | A B C D |
| `C38_velocity_through_layers` | `Prop_Flow.v` | A B C D |
| `C39_applied_by_the_update` | `Prop_Calib.v` | A B C D |
| `C39_later_calls_have_no_effect` | `Prop_Calib.v` | A B C D |
| `C39_only_once` | `Prop_Calib.v` | A B C D |
| `C39_values_do_not_matter_without_flag` | `Prop_Calib.v` | A B C D |
| `C40_front_above_saturation_refuted` | `Prop_Calib.v` | A B C D |
| `C40_shared_type_gets_deepest_values_refuted` | `Prop_Calib.v` | A B C D |
| `C40_upper_value_lost_refuted` | `Prop_Calib.v` | A B C D |
| `C41_accepted_soil_types` | `Prop_Config.v` | A B C D |
| `C41_accepts` | `Prop_Config.v` | A B C D |
| `C41_invalid_soil_type_refuted` | `Prop_Config.v` | A B C D |
| `C41_missing_layer_thickness_refuted` | `Prop_Config.v` | A B C D |
| `C41_order_is_irrelevant` | `Prop_Config.v` | A B C D |
| `C41_other_keys_are_ignored` | `Prop_Config.v` | A B C D |
| `C41_required_keys` | `Prop_Config.v` | A B C D |
| `C42_endtime` | `Prop_Config.v` | A B C D |
| `C42_endtime_unknown_unit_refuted` | `Prop_Config.v` | A B C D |
| `C42_forcing_resolution` | `Prop_Config.v` | A B C D |
| `C42_timestep` | `Prop_Config.v` | A B C D |
| `C42_unclosed_unit_refuted` | `Prop_Config.v` | A B C D |
| `C42_unknown_unit_refuted` | `Prop_Config.v` | A B C D |
| `C43_cells_read_in_order` | `Prop_Config.v` | A B C D |
| `C43_depths` | `Prop_Config.v` | A B C D |
| `C43_layers_read_in_order` | `Prop_Config.v` | A B C D |
| `C43_soil_types_read_in_order` | `Prop_Config.v` | A B C D |
| `C44_first_fronts_binary64` | `Prop_StartRound.v` | A B C D |
| `C44_first_state_is_sound` | `Prop_Config.v` | A B C D |
| `C44_hydrostatic` | `Prop_Config.v` | A B C D |
| `C44_one_front_for_each_layer` | `Prop_Config.v` | A B C D |
| `C45_capacity_not_negative` | `Prop_CapNum.v` | A B C D |
| `C45_infiltration_any_rounding` | `Prop_InfilAny.v` | A B C D |
| `C45_infiltration_bounded` | `Prop_Surface.v` | A B C D |
| `C45_insertion_is_finite` | `Prop_CapNum.v` | A B C D |
| `C45_nan_capacity_infiltrates_all` | `Prop_SurfNum.v` | A B C D |
| `C45_negative_infiltration_refuted` | `Prop_SurfNum.v` | A B C D |
| `C45_supply_limited_any_rounding` | `Prop_InfilAny.v` | A B C D |
| `C45_supply_limited_infiltrates_all` | `Prop_Surface.v` | A B C D |
| `C45_surface_is_finite` | `Prop_SurfNum.v` | A B C D |
| `C45_update_infiltration_bounded` | `Prop_Surface.v` | A B C D |
| `C46_update_until_is_one_update` | `Prop_Clock.v` | A B C D |
| `C46_update_until_reaches_time_refuted` | `Prop_Clock.v` | A B C D |
| `C47_free_drainage_front` | `Prop_List.v` | - |
| `C47_free_drainage_of_a_profile` | `Prop_Profile.v` | - |
| `C48_head_iteration` | `Prop_Flow.v` | A B C D |
| `C48_water_content_in_range` | `Prop_Flow.v` | A B C D |
| `C49_actions_are_safe` | `Prop_Life.v` | A B C D |
| `C49_destructor_alone_leaks_refuted` | `Prop_Life.v` | A B C D |
| `C49_finalize_releases` | `Prop_Life.v` | A B C D |
| `C49_histories_refine` | `Prop_Life.v` | A B C D |
| `C49_histories_run` | `Prop_Life.v` | A B C D |
| `C49_initialise_builds_the_list` | `Prop_Life.v` | A B C D |
| `C49_nothing_left` | `Prop_Life.v` | A B C D |
| `C49_second_finalize_refuted` | `Prop_Life.v` | A B C D |
| `C49_uncoupled_cells_leak_refuted` | `Prop_Life.v` | A B C D |
| `C50_derived_parameters` | `Prop_Config.v` | A B C D |
| `C50_incomplete_rows_refuted` | `Prop_Config.v` | A B C D |
| `C50_line_of_the_table` | `Prop_Config.v` | A D |
| `C50_shipped_table_refuted` | `Prop_Config.v` | A B C D |
| `C50_small_n_refuted` | `Prop_Config.v` | A B C D |
| `C50_soil_of_the_row` | `Prop_Config.v` | A B C D |
| `C50_wilting_point_refuted` | `Prop_Config.v` | A B C D |
| `C51_column_lengths` | `Prop_Driver.v` | A D |
| `C51_open_last_line_refuted` | `Prop_Driver.v` | A D |
| `C51_reading_ends` | `Prop_Driver.v` | A D |
| `C51_rows_in_order` | `Prop_Driver.v` | A D |
| `C51_short_row_refuted` | `Prop_Driver.v` | A D |
| `C52_number_of_steps` | `Prop_Driver.v` | A B C D |
| `C52_one_update_per_row` | `Prop_Driver.v` | A B C D |
| `C53_clients_are_safe` | `Prop_Driver.v` | A B C D |
| `C53_clients_are_safe_one_layer` | `Prop_Driver.v` | A B C D |
| `C54_program_is_safe` | `Prop_Driver.v` | A B C D |
| `C54_program_is_safe_one_layer` | `Prop_Driver.v` | A B C D |
| `C55_columns_add_up` | `Prop_Driver.v` | A B C D |
| `C55_file_balance` | `Prop_Driver.v` | A B C D |
| `C55_file_error_bound` | `Prop_Driver.v` | A B C D |
| `C55_file_routing` | `Prop_Driver.v` | A B C D |
| `C56_closed_form` | `Prop_Geff.v` | A B C D |
| `C56_drive_is_the_integral_refuted` | `Prop_Geff.v` | A B C D |
| `C56_integral_exists` | `Prop_Geff.v` | A B C D |
| `C56_integration_bounds` | `Prop_Geff.v` | A B C D |
| `C57_demand_formula` | `Prop_Geff.v` | A B C D |
| `C57_demand_shape` | `Prop_Geff.v` | A D |
| `C57_half_demand_head` | `Prop_Geff.v` | A B C D |
| `C58_clock` | `Prop_Binary64.v` | A B C D |
| `C58_ordinates` | `Prop_Binary64.v` | A B C D |
| `C58_program_steps` | `Prop_Binary64.v` | A B C D |
| `C58_program_steps_refuted` | `Prop_Binary64.v` | A B C D |
| `C58_substeps` | `Prop_Binary64.v` | A B C D |
| `C59_sort_numbers_refuted` | `Prop_Depth.v` | A D |
| `C59_sort_orders` | `Prop_Depth.v` | A D |
| `C59_sort_refines` | `Prop_Depth.v` | A D |
| `C59_sort_separates_refuted` | `Prop_Depth.v` | A D |
| `C60_insert_above_refuted` | `Prop_Depth.v` | A D |
| `C60_insert_below_last` | `Prop_Depth.v` | A D |
| `C60_insert_between` | `Prop_Depth.v` | A D |
| `C60_insert_outside_leaks_refuted` | `Prop_Depth.v` | A D |
| `C60_insert_single_refuted` | `Prop_Depth.v` | A D |
| `C60_layer_of_depth` | `Prop_Depth.v` | A D |
| `C61_first_front_drains` | `Prop_Single.v` | A D |
| `C61_motion_balances` | `Prop_Single.v` | A B C D |
| `C61_motion_stops` | `Prop_Single.v` | A B C D |
| `C62_fronts_advance` | `Prop_Advance.v` | A B C D |
| `C63_dry_weather_continues` | `Prop_SubSingle.v` | A B C D |
| `C63_substep_balances` | `Prop_SubSingle.v` | A B C D |
| `C63_substep_stops` | `Prop_SubSingle.v` | A B C D |
| `C64_counters_fit` | `Prop_Growth.v` | A B C D |
| `C64_front_needs_onset` | `Prop_Growth.v` | A B C D |
| `C64_one_front_per_update` | `Prop_Growth.v` | A B C D |
| `C65_binary64_accuracy` | `Prop_LedgerFp.v` | A B C D |
| `C65_global_balance_binary64` | `Prop_LedgerFp.v` | A B C D |
| `C65_global_balance_rounded` | `Prop_LedgerFp.v` | A B C D |
| `C66_routing_binary64` | `Prop_GiuhFp.v` | A B C D |
| `C66_routing_rounded` | `Prop_GiuhFp.v` | A D |
| `C66_routing_rounded_drains` | `Prop_GiuhFp.v` | A D |
| `C67_drying_never_wets` | `Prop_Drying.v` | A B C D |
| `C68_head_iteration_ends` | `Prop_Drying.v` | A B C D |
| `C69_one_front_balances` | `Prop_OneLayer.v` | A B C D |
| `C69_substep_stops` | `Prop_OneLayer.v` | A B C D |
| `C69_surface_water` | `Prop_OneLayer.v` | A B C D |
| `C70_configuration_starts` | `Prop_OneLayer.v` | A B C D |
| `C70_configured_simulation` | `Prop_OneLayer.v` | A B C D |
| `C70_every_step_is_kept` | `Prop_OneLayer.v` | A B C D |
| `C70_simulation_balances` | `Prop_OneLayer.v` | A B C D |
| `C70_update_ends` | `Prop_OneLayer.v` | A B C D |
| `C71_file_closes` | `Prop_OneLayer.v` | A B C D |
| `C71_no_step_refuted` | `Prop_OneLayer.v` | A B C D |
| `C71_program_balances` | `Prop_OneLayer.v` | A B C D |
| `C72_loops` | `Prop_Fuel.v` | A B C D |
| `C72_program` | `Prop_Fuel.v` | A B C D |
| `C72_update` | `Prop_Fuel.v` | A B C D |
| `C73_capillary_integral_ends` | `Prop_Ends.v` | A B C D |
| `C73_head_iteration_ends` | `Prop_Ends.v` | A B C D |
| `C73_infinite_mass_refuted` | `Prop_Ends.v` | A B C D |
| `C73_one_layer_updates_end` | `Prop_Ends.v` | A B C D |
| `C73_program_ends` | `Prop_Ends.v` | A B C D |
| `C73_program_outcome` | `Prop_Ends.v` | A B C D |
| `C73_substep_ends` | `Prop_Ends.v` | A B C D |
| `C73_update_ends` | `Prop_Ends.v` | A B C D |
| `C74_Update` | `Prop_Refine.v` | A B C D |
| `C74_creation` | `Prop_Refine.v` | A B C D |
| `C74_domain_crossing` | `Prop_Refine.v` | A B C D |
| `C74_dry_over_wet` | `Prop_Refine.v` | A B C D |
| `C74_layer_crossing` | `Prop_Refine.v` | A B C D |
| `C74_mass` | `Prop_Refine.v` | A D |
| `C74_merging` | `Prop_Refine.v` | A B C D |
| `C74_motion` | `Prop_Refine.v` | A B C D |
| `C74_no_use_after_free_refuted` | `Prop_Refine.v` | A B C D |
| `C74_pictures_exist` | `Prop_Refine.v` | - |
| `C74_sessions` | `Prop_Refine.v` | A B C D |
| `C74_velocities` | `Prop_Refine.v` | A B C D |
| `C74_whole_life` | `Prop_Refine.v` | A B C D |
| `C75_histories_keep_fronts_physical` | `Prop_Physical.v` | A B C D |
| `C75_initialize_is_physical` | `Prop_Physical.v` | A B C D |
| `C75_one_layer` | `Prop_Physical.v` | A B C D |
| `C75_update_keeps_fronts_physical` | `Prop_Physical.v` | A B C D |
| `C75_velocities_do_not_abort` | `Prop_Physical.v` | A B C D |
| `C76_books_of_a_pass` | `Prop_Books.v` | A B C D |
| `C76_dry_pass` | `Prop_Books.v` | A B C D |
| `C76_storage_is_the_shares` | `Prop_Books.v` | A B C D |
| `C77_buried_inversion_refuted` | `Prop_Meet.v` | A B C D |
| `C77_histories_keep_heads_joined` | `Prop_Meet.v` | A B C D |
| `C77_initialize_joins_heads` | `Prop_Meet.v` | A B C D |
| `C77_motion_joins_heads` | `Prop_Meet.v` | A B C D |
| `C77_storage_of_reached_states` | `Prop_Meet.v` | A B C D |
| `C77_update_joins_heads` | `Prop_Meet.v` | A B C D |
| `C78_grids` | `Prop_Grid.v` | - |
| `C78_shape_of_fronts_refuted` | `Prop_Grid.v` | - |
| `C78_shape_of_layers` | `Prop_Grid.v` | - |
| `C78_spacing_and_origin_refuted` | `Prop_Grid.v` | - |
| `C79_balance_check_passes` | `Prop_Motion.v` | A B C D |
| `C79_dry_motion` | `Prop_Motion.v` | A B C D |
| `C79_motion_balance` | `Prop_Motion.v` | A B C D |
| `C79_motion_ledger` | `Prop_Motion.v` | A B C D |
| `C79_substep_ledger` | `Prop_Motion.v` | A B C D |
| `C79_wet_motion` | `Prop_Motion.v` | A B C D |
| `C80_buffers` | `Prop_TableFile.v` | A B C D |
| `C80_lines_are_rows` | `Prop_TableFile.v` | A D |
| `C80_long_header_refuted` | `Prop_TableFile.v` | A B C D |
| `C80_name_overrun_refuted` | `Prop_TableFile.v` | A B C D |
| `C80_names` | `Prop_TableFile.v` | A B C D |
| `C81_balance_from_text` | `Prop_Output.v` | A B C D |
| `C81_data_file` | `Prop_Output.v` | A B C D |
| `C81_layers_file` | `Prop_Output.v` | A B C D |
| `C81_numbers` | `Prop_Output.v` | A D |
| `C82_balance_check_passes` | `Prop_Upright.v` | A B C D |
| `C82_created_front_is_wetter` | `Prop_Upright.v` | A B C D |
| `C82_nothing_vanishes` | `Prop_Upright.v` | A B C D |
| `C82_upright_motion` | `Prop_Upright.v` | A B C D |
| `C82_upright_substep` | `Prop_Upright.v` | A B C D |
| `C83_balance_check_passes` | `Prop_Layered.v` | A B C D |
| `C83_configuration` | `Prop_Layered.v` | A B C D |
| `C83_global_balance` | `Prop_Layered.v` | A B C D |
| `C83_simulation` | `Prop_Layered.v` | A B C D |
| `C83_substep` | `Prop_Layered.v` | A B C D |
| `C84_configuration` | `Prop_Rest.v` | A B C D |
| `C84_dry_simulation` | `Prop_Rest.v` | A B C D |
| `C84_global_balance` | `Prop_Rest.v` | A B C D |
| `C84_holds_water` | `Prop_Rest.v` | A B C D |
| `C84_no_demand` | `Prop_Rest.v` | A B C D |
| `C84_still` | `Prop_Rest.v` | A B C D |
| `C84_stops` | `Prop_Rest.v` | A B C D |
| `C84_substep` | `Prop_Rest.v` | A B C D |
| `C85_balance_check_passes` | `Prop_Storm.v` | A B C D |
| `C85_capacity` | `Prop_Storm.v` | A B C D |
| `C85_global_balance` | `Prop_Storm.v` | A B C D |
| `C85_pass` | `Prop_Storm.v` | A B C D |
| `C85_simulation` | `Prop_Storm.v` | A B C D |
| `C85_substep` | `Prop_Storm.v` | A B C D |
| `C85_weather` | `Prop_Storm.v` | A B C D |
| `C86_program` | `Prop_Drought.v` | A B C D |
| `C86_still_program` | `Prop_Drought.v` | A B C D |
| `C87_causality` | `Prop_Influence.v` | A B C D |
| `C87_indeterminate_memory` | `Prop_Influence.v` | A B C D |
| `C87_routing_program` | `Prop_Influence.v` | A B C D |
| `C87_routing_update` | `Prop_Influence.v` | A B C D |
| `C87_sessions` | `Prop_Influence.v` | A B C D |
| `C87_written_variables` | `Prop_Influence.v` | A B C D |
| `C88_fluxes` | `Prop_Split.v` | A B C D |
| `C88_fronts` | `Prop_Split.v` | A B C D |
| `C88_program` | `Prop_Split.v` | A B C D |
| `C88_rows` | `Prop_Split.v` | A B C D |
| `C89_buffers_refuted` | `Prop_UnitTest.v` | A B C D |
| `C89_calibration` | `Prop_UnitTest.v` | A B C D |
| `C89_meaning` | `Prop_UnitTest.v` | A B C D |
| `C89_other_sizes` | `Prop_UnitTest.v` | A B C D |
| `C89_passes` | `Prop_UnitTest.v` | A B C D |
| `C90_more_rain_in_a_substep` | `Prop_MoreRain.v` | A B C D |
| `C90_more_rain_in_an_update` | `Prop_MoreRain.v` | A B C D |
| `C90_more_rain_refuted` | `Prop_MoreRain.v` | A B C D |
| `C90_more_water_any_rounding` | `Prop_MoreRainAny.v` | A B C D |
| `C91_program` | `Prop_Relayer.v` | A B C D |
| `C91_program_any_rounding` | `Prop_Relayer.v` | A B C D |
| `C91_shared_rows_refuted` | `Prop_Relayer.v` | A B C D |
| `C91_update` | `Prop_Relayer.v` | A B C D |
| `C92_initialize` | `Prop_Recalib.v` | A B C D |
| `C92_program` | `Prop_Recalib.v` | A B C D |
| `C92_program_any_rounding` | `Prop_Recalib.v` | A B C D |
| `C92_update` | `Prop_Recalib.v` | A B C D |
| `C93_discharge` | `Prop_Discharge.v` | A B C D |
| `C94_arrays` | `Prop_Alloc.v` | - |
| `C94_complete_refuted` | `Prop_Alloc.v` | - |
| `C94_empty_matrix` | `Prop_Alloc.v` | - |
| `C94_matrices` | `Prop_Alloc.v` | - |
| `C94_negative_size_refuted` | `Prop_Alloc.v` | - |
| `C95_capacity` | `Prop_Frost.v` | A B C D |
| `C95_colder_takes_less_refuted` | `Prop_Frost.v` | A B C D |
| `C95_drive` | `Prop_Frost.v` | A B C D |
| `C95_dry_depth` | `Prop_Frost.v` | A B C D |
| `C95_frost_moves_nothing` | `Prop_Frost.v` | A B C D |
| `C95_frost_of_the_lower_layer_is_ignored` | `Prop_Frost.v` | A B C D |
| `C95_substep` | `Prop_Frost.v` | A B C D |
| `C95_temperatures` | `Prop_Frost.v` | A B C D |
| `C95_update` | `Prop_Frost.v` | A B C D |
| `C96_closed_drive` | `Prop_NewFront.v` | A B C D |
| `C96_depth` | `Prop_NewFront.v` | A B C D |
| `C96_depth_any_rounding` | `Prop_DryNum.v` | A B C D |
| `C96_drier_takes_more` | `Prop_NewFront.v` | A B C D |
| `C96_longer_step` | `Prop_NewFront.v` | A B C D |
| `C96_new_front_any_rounding` | `Prop_DryNum.v` | A B C D |
| `C97_infiltration` | `Prop_Ponding.v` | A B C D |
| `C97_infiltration_any_rounding` | `Prop_Ponding.v` | A B C D |
| `C97_same_infiltration_refuted` | `Prop_Ponding.v` | A B C D |
| `C97_substep` | `Prop_Ponding.v` | A B C D |
| `C97_substep_any_rounding` | `Prop_Ponding.v` | A B C D |
| `C97_update` | `Prop_Ponding.v` | A B C D |
| `C98_larger_limit_is_faster_refuted` | `Prop_Speed.v` | A B C D |
| `C98_new_front_ignores_water_refuted` | `Prop_Speed.v` | A B C D |
| `C98_ponded_water_speeds_fronts` | `Prop_Speed.v` | A B C D |
| `C98_velocities_of_a_substep` | `Prop_Speed.v` | A B C D |
| `C99_conductivity_monotone` | `Prop_RoundMono.v` | A B C D |
| `C99_demand_monotone` | `Prop_RoundMono.v` | A B C D |
| `C99_frost_monotone` | `Prop_RoundMono.v` | A B C D |
| `C99_head_monotone` | `Prop_RoundMono.v` | A B C D |
| `C99_saturated_content_refuted` | `Prop_RoundMono.v` | A B C D |
| `C99_saturation_monotone` | `Prop_RoundMono.v` | A B C D |
| `C99_water_content_monotone` | `Prop_RoundMono.v` | A B C D |
