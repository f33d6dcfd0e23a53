{"id": "C01", "title": "Cumulative water balance stays closed", "statement": "After any history of Updates and user edits that ends with an Update, the 'Global balance' printed at Finalize (initial storage + precipitation + calibration change - surface runoff - AET - ponded water - percolation - final storage) equals the sum of the local residuals of all sub-steps plus the sub-1e-12 ponding residues that the model discards, so its absolute value is at most (number of sub-steps) x (1e-4 + 1e-12) cm, provided every local residual and the calibration change are finite numbers (a NaN residual is not stopped, see C02).", "quantifier": "every configuration, every forcing history of any length, every calibration overwrite, whatever the soil routines return", "why_tests_cant": "the bound has to hold for unbounded histories and independently of what the wetting-front solver does inside a step", "anchors": ["src/bmi_lgar.cxx: BmiLGAR::Update, BmiLGAR::global_mass_balance", "src/lgar.cxx: lgar_global_mass_balance"]}
{"id": "C02", "title": "A step that returns reports a residual within tolerance", "statement": "When Update returns, the output mass_balance is at most 1e-6 m (1e-4 cm) in absolute value or it is not a number; a finite residual above the tolerance always stops the program. A NaN residual is not stopped.", "quantifier": "every state and every forcing", "why_tests_cant": "one would have to try every soil state; the NaN hole is invisible to any finite test run that stays finite", "anchors": ["src/bmi_lgar.cxx: BmiLGAR::Update (local_mb, unexpected_local_error)"]}
{"id": "C03", "title": "Surface water is partitioned without loss", "statement": "For one Update: water ponded before + precipitation = infiltration + surface_runoff + water ponded after, up to the ponding residue below 1e-12 cm that is dropped.", "quantifier": "every forcing value, number of sub-steps, ponding limit and soil state for which Update returns with finite values", "why_tests_cant": "the infiltration branches are selected by real-valued comparisons; a test covers finitely many of them", "anchors": ["src/bmi_lgar.cxx: BmiLGAR::Update", "src/lgar.cxx: lgar_insert_water, lgar_create_surficial_front"]}
{"id": "C04", "title": "Fluxes that a user reads are never negative", "statement": "With non-negative forcing, precipitation, potential_evapotranspiration, surface_runoff and ponded water reported by Update are never negative, and with non-negative unit-hydrograph ordinates neither are giuh_runoff and total_discharge.", "quantifier": "every history of non-negative forcings, every (monotone) rounding of the arithmetic", "why_tests_cant": "sign preservation must hold in every branch and at every point of an unbounded history", "anchors": ["src/bmi_lgar.cxx: BmiLGAR::Update", "src/lgar.cxx: lgar_insert_water", "giuh/giuh.c: giuh_convolution_integral"]}
{"id": "C05", "title": "Ponded water never exceeds the configured maximum", "statement": "Water left on the surface after an Update is at most ponded_depth_max. This holds except when the water remaining after infiltration is exactly equal to the maximum: then nothing infiltrates and the ponded water may exceed the maximum (refuted in general, with witness).", "quantifier": "every ponded depth, capacity and maximum", "why_tests_cant": "the failing case is an exact equality of reals which random tests never hit", "anchors": ["src/lgar.cxx: lgar_insert_water", "src/bmi_lgar.cxx: BmiLGAR::Update"]}
{"id": "C06", "title": "Unit-hydrograph routing conserves water", "statement": "Over any sequence of calls to the GIUH routing, water put in times the sum of ordinates equals water put out plus water still queued; with ordinates summing to 1, cumulative giuh_runoff + queue = cumulative surface_runoff.", "quantifier": "every list of ordinates, every initial queue and every runoff sequence of any length", "why_tests_cant": "needs induction over the whole call history", "anchors": ["giuh/giuh.c: giuh_convolution_integral", "src/bmi_lgar.cxx: BmiLGAR::Update, BmiLGAR::Initialize"]}
{"id": "C07", "title": "Unit-hydrograph routing is the discrete convolution and drains", "statement": "Starting from an empty queue, the k-th output is sum_j ordinate[j] * runoff[k-j]; after as many dry steps as there are ordinates the output is zero for ever and all the water has left.", "quantifier": "every ordinate list, every runoff sequence, every k", "why_tests_cant": "a closed-form statement about every prefix of every input sequence", "anchors": ["giuh/giuh.c: giuh_convolution_integral"]}
{"id": "C08", "title": "Resampling the unit hydrograph to the forcing resolution keeps its total", "statement": "For a forcing resolution of one hour or finer, the ordinates used by the model sum to the ordinates of the configuration file. For a resolution coarser than one hour no ordinate remains and the first Update writes outside the queue (refuted, with witness).", "quantifier": "every ordinate list and every forcing resolution", "why_tests_cant": "truncation int(1/resolution) has to be analysed for every resolution", "anchors": ["src/lgar.cxx: InitFromConfigFile (giuh_ordinates)", "src/bmi_lgar.cxx: BmiLGAR::Initialize", "giuh/giuh.c: giuh_convolution_integral"]}
{"id": "C09", "title": "Model time advances by exactly the sub-steps taken", "statement": "Each Update advances GetCurrentTime by (sub-steps taken) x (sub-step length); when the sub-step divides the forcing resolution and the end time is not reached inside the step this is exactly GetTimeStep. It fails to advance at all when the sub-step is longer than the forcing resolution, and advances by less when it does not divide it (refuted, with witness).", "quantifier": "every sub-step length and forcing resolution, any history", "why_tests_cant": "involves truncation of an arbitrary real quotient and unbounded histories", "anchors": ["src/bmi_lgar.cxx: BmiLGAR::Update, GetCurrentTime, GetTimeStep"]}
{"id": "C10", "title": "Adaptive sub-step never exceeds the forcing resolution", "statement": "With adaptive time stepping the sub-step used is min(forcing resolution, one of {minimum, 2 x minimum, forcing resolution}) selected by rain intensity and ponding; it never exceeds the forcing resolution and at least one sub-step is taken.", "quantifier": "every precipitation rate, ponded amount, minimum step and resolution", "why_tests_cant": "continuum of inputs", "anchors": ["src/bmi_lgar.cxx: BmiLGAR::Update (adaptive_timestep)", "configs/README.md"]}
{"id": "C11", "title": "Precipitation and PET applied equal rate times simulated time", "statement": "The precipitation and potential_evapotranspiration reported for an Update are the input rates (mm/h to m) times the simulated hours of that Update, in every sub-step pattern.", "quantifier": "every rate, every number of sub-steps", "why_tests_cant": "sum over an arbitrary number of sub-steps", "anchors": ["src/bmi_lgar.cxx: BmiLGAR::Update"]}
{"id": "C12", "title": "Invalid soil types pass precipitation straight through", "statement": "If a layer uses a soil type above the number of valid types, Update reports surface_runoff = total_discharge = precipitation and zero for every other flux, leaves the soil profile and the clock unchanged, and the cumulative balance stays zero.", "quantifier": "every forcing history", "why_tests_cant": "must hold for every history, also for negative and unset forcings that this path never checks", "anchors": ["src/bmi_lgar.cxx: BmiLGAR::Update (is_invalid_soil_type)"]}
{"id": "C13", "title": "Update refuses to run without valid forcing", "statement": "After Initialize, an Update before both precipitation_rate and potential_evapotranspiration_rate have been set to non-negative numbers stops with an assertion failure and never produces output (valid soils).", "quantifier": "every state, every negative or NaN forcing", "why_tests_cant": "every negative real / NaN", "anchors": ["src/lgar.cxx: lgar_initialize", "src/bmi_lgar.cxx: BmiLGAR::Update (assert)"]}
{"id": "C14", "title": "Every advertised variable resolves consistently", "statement": "Every name returned by GetInputVarNames/GetOutputVarNames and every calibratable name has a grid, a type other than none, a positive item size, a value pointer, and GetVarNbytes equal to the size of the array that pointer designates, except soil_depth_layers whose array is one longer.", "quantifier": "every advertised name and every reachable model state (any number of layers, fronts, temperature cells)", "why_tests_cant": "the array sizes depend on the whole history of the state", "anchors": ["src/bmi_lgar.cxx: GetVarGrid, GetVarType, GetVarItemsize, GetVarNbytes, GetGridSize, GetValuePtr", "include/bmi_lgar.hxx"]}
{"id": "C15", "title": "Set then get returns what was set and changes nothing else", "statement": "SetValue(name, v) followed by GetValue(name) yields v, and GetValue of every other variable is unchanged (the only exception being soil_num_wetting_fronts, which changes the length of the two front arrays and lets a later GetValue read out of bounds).", "quantifier": "every pair of variables, every value, every state", "why_tests_cant": "quadratic number of pairs times all values and states", "anchors": ["src/bmi_lgar.cxx: SetValue, GetValue, GetValuePtr"]}
{"id": "C16", "title": "Indexed access agrees with whole-array access", "statement": "GetValueAtIndices(name, inds) returns the entries of GetValue(name) at these indices in order, SetValueAtIndices changes exactly those entries (last write wins), and both are defined only for indices inside the array.", "quantifier": "every name, every index list including duplicates, every state", "why_tests_cant": "all index lists of all lengths", "anchors": ["src/bmi_lgar.cxx: GetValueAtIndices, SetValueAtIndices"]}
{"id": "C17", "title": "Unknown variable names are rejected uniformly", "statement": "For every string that is not one of the known names, GetVarGrid is -1, GetVarType/GetVarUnits/GetVarLocation are none, GetVarItemsize is 0, and GetValue, GetValuePtr, SetValue and both indexed accessors throw without changing the model.", "quantifier": "all strings", "why_tests_cant": "infinitely many strings", "anchors": ["src/bmi_lgar.cxx: GetVarGrid, GetVarType, GetVarUnits, GetVarLocation, GetVarItemsize, GetValuePtr, SetValue"]}
{"id": "C18", "title": "Front outputs mirror the soil state after every Update", "statement": "After Update, soil_num_wetting_fronts is the number of wetting fronts, soil_moisture_wetting_fronts and soil_depth_wetting_fronts have exactly that length and hold the water contents and 0.01 x the depths of the fronts from top to bottom, and soil_storage is the storage of exactly that profile.", "quantifier": "every state and history", "why_tests_cant": "must hold for arbitrary numbers of fronts after arbitrary histories", "anchors": ["src/bmi_lgar.cxx: BmiLGAR::Update, realloc_soil"]}
{"id": "C19", "title": "A variable with a grid has a value", "statement": "Every name for which GetVarGrid answers a grid can be read by GetValue. Refuted: soil_storage_model and van_genuchten_m have a grid, type and size but every access throws.", "quantifier": "all strings", "why_tests_cant": "requires comparing two decision tables on all strings", "anchors": ["src/bmi_lgar.cxx: GetVarGrid, GetValuePtr"]}
{"id": "C20", "title": "soil_depth_layers reports the layer depths in its advertised unit", "statement": "GetValue(soil_depth_layers) gives, for every layer, the depth of its bottom in metres. Refuted: it gives 0 followed by the depths of all layers but the last, in centimetres.", "quantifier": "every layering", "why_tests_cant": "the wrong answer is a well-formed array of the right length", "anchors": ["src/bmi_lgar.cxx: GetValuePtr, GetVarUnits"]}
{"id": "C21", "title": "Front list operations keep fronts numbered 1..n", "statement": "Inserting at the top, appending at the end and deleting a front by number keep the front numbers equal to 1..n from top to bottom; deletion removes exactly the requested front, returns the one below it, keeps all other contents and stops the program if the number is absent.", "quantifier": "every list and every number", "why_tests_cant": "induction over arbitrary lists", "anchors": ["src/linked_list.cxx: listInsertFirst, listInsertFront, listDeleteFront, listFindFront, listLength"]}
{"id": "C22", "title": "List operations are memory safe and leak free", "statement": "On a well-formed null-terminated chain of heap nodes every list operation dereferences only live nodes, the result is again a well-formed chain representing the expected sequence, deletion releases exactly one node, copying allocates a disjoint chain with equal contents, and destroying a list releases every node exactly once.", "quantifier": "every heap and every chain of any length, disjoint from any other chain", "why_tests_cant": "aliasing and leaks over all heaps", "anchors": ["src/linked_list.cxx: listCopy, listDelete, listInsertFirst, listInsertFront, listDeleteFront, listFindFront, listReverseOrder"]}
{"id": "C23", "title": "Inserting a front in the middle of the list terminates", "statement": "listInsertFront(…, k, …) inserts at position k and renumbers those below. Refuted: it returns only when the new front becomes the last; any interior insertion loops for ever, and a number with no predecessor dereferences NULL.", "quantifier": "every list and position", "why_tests_cant": "non-termination cannot be observed by a test that ends", "anchors": ["src/linked_list.cxx: listInsertFront"]}
{"id": "C24", "title": "Reported storage is the integral of the water content", "statement": "soil_storage (cm) of a profile whose bottom fronts sit on the layer boundaries equals the integral of the piecewise-constant water content over depth, layer by layer; it is linear in the water contents, and lies between sum(theta_r*thickness) and sum(theta_e*thickness) when each water content lies in its soil's range and depths are ordered.", "quantifier": "every profile with any number of layers and fronts", "why_tests_cant": "induction over profiles", "anchors": ["src/lgar.cxx: lgar_calc_mass_bal"]}
{"id": "C25", "title": "Merging wetting fronts conserves water", "statement": "Merging fronts that overtook each other leaves the storage unchanged, never deletes the front at a layer bottom and never stops or fails, for every profile with strictly decreasing water content inside each layer.", "quantifier": "every profile of any length", "why_tests_cant": "an algebraic identity for all reals combined with induction over the loop that deletes from the list it walks", "anchors": ["src/lgar.cxx: lgar_merge_wetting_fronts"]}
{"id": "C26", "title": "Crossing a layer boundary conserves water", "statement": "When a front passes into the next layer the storage is unchanged provided the water content it takes in the new layer differs from that of the front below; if they are equal the depth is replaced by 1/1000 of the layer's depth and water is not conserved (refuted, with witness).", "quantifier": "every profile, soil parameters and depth", "why_tests_cant": "continuum of inputs, exceptional case of measure zero", "anchors": ["src/lgar.cxx: lgar_wetting_fronts_cross_layer_boundary"]}
{"id": "C27", "title": "Percolation equals the storage lost through the bottom", "statement": "The percolation produced when the deepest front reaches the bottom is exactly the decrease of storage; no other front can leave and at most one leaves per call.", "quantifier": "every profile", "why_tests_cant": "for all reals and all lists", "anchors": ["src/lgar.cxx: lgar_wetting_front_cross_domain_boundary"]}
{"id": "C28", "title": "Dry-over-wet repair removes every inversion", "statement": "After the repair no front is drier than (or as dry as) the front below it in the same layer. Refuted: the front after a deleted one is skipped, so inversions can survive; the mass change it reports is nevertheless exactly the accumulated absolute change of storage.", "quantifier": "every profile", "why_tests_cant": "needs a universally quantified invariant; the skip is only visible with two adjacent inversions", "anchors": ["src/lgar.cxx: lgar_fix_dry_over_wet_wetting_fronts, lgar_check_dry_over_wet_wetting_fronts"]}
{"id": "C29", "title": "Creating a surficial front conserves water and never oversaturates", "statement": "Creating a new front takes from the surface exactly the water it adds to the storage; its water content is at most saturation and at least the previous surface water content.", "quantifier": "every profile, dry depth and ponded amount", "why_tests_cant": "for all reals", "anchors": ["src/lgar.cxx: lgar_create_surficial_front, lgar_calc_dry_depth"]}
{"id": "C30", "title": "The profile structure is preserved for ever", "statement": "After Initialize and any history of Updates, every layer 1..N has exactly one bottom front, it lies exactly at the layer bottom and is the last of its layer, fronts are ordered by layer and numbered 1..n. The only way to break this is a non-bottom front lying exactly on a layer boundary when another front passes it (exhibited as a witness).", "quantifier": "every configuration with positive thicknesses and every forcing history", "why_tests_cant": "inductive invariant over unbounded histories", "anchors": ["src/lgar.cxx: lgar_move_wetting_fronts and everything it calls", "src/bmi_lgar.cxx: BmiLGAR::Update"]}
{"id": "C31", "title": "Update touches only live memory", "statement": "For a valid configuration and a profile with the structure above, Update never dereferences NULL, never indexes an array out of bounds and never aborts inside list deletion; the single exception is the branch that deletes a layer-1 front whose water content fell below residual and then keeps using it (use after free, exhibited).", "quantifier": "every valid configuration, state and forcing", "why_tests_cant": "absence of undefined behaviour cannot be tested", "anchors": ["src/lgar.cxx: lgar_move_wetting_fronts", "src/bmi_lgar.cxx: BmiLGAR::Update"]}
{"id": "C32", "title": "Retention curve is bounded, decreasing and inverted exactly", "statement": "calc_theta_from_h maps heads >= 0 into [theta_r, theta_e], equals theta_e at 0, is strictly decreasing, and calc_h_from_Se(calc_Se_from_theta(calc_theta_from_h(h))) = h.", "quantifier": "every soil with alpha>0, n>1, theta_r<theta_e and every head", "why_tests_cant": "continuum of parameters", "anchors": ["src/soil_funcs.cxx: calc_theta_from_h, calc_Se_from_h, calc_h_from_Se, calc_Se_from_theta"]}
{"id": "C33", "title": "Unsaturated conductivity is bounded and increasing", "statement": "calc_K_from_Se lies in [0, Ksat], is 0 at Se=0 and Ksat at Se=1 and is increasing in Se.", "quantifier": "every soil and every saturation in [0,1]", "why_tests_cant": "continuum", "anchors": ["src/soil_funcs.cxx: calc_K_from_Se"]}
{"id": "C34", "title": "Capillary drive is never negative", "statement": "calc_Geff returns a non-negative value for every pair of water contents in both modes (integration or closed form for theta1<=theta2), 0 for equal water contents in the integration mode, and the integration always terminates. For any rounding and any water contents, even infinite or NaN, the closed form is a finite number if the drive of the dry soil is; in binary64 it is for every soil with bc_lambda and bc_psib between 0 and 2^20.", "quantifier": "every soil and every pair of water contents", "why_tests_cant": "termination and sign for a continuum of inputs", "anchors": ["src/soil_funcs.cxx: calc_Geff"]}
{"id": "C35", "title": "Actual evapotranspiration demand lies between 0 and PET", "statement": "The AET demand computed for a sub-step lies in [0, PET*dt] (or is NaN) for every state. For any rounding it is a number, not NaN, whenever the head of the surface front is not negative (it may be infinite), the head at the half point is positive and one of the two is finite; with wilting point and field capacity both 0 cm the half point is 0 and a saturated surface demands NaN in binary64 (refuted with witness). The AET finally reported can leave this range because mass-balance errors are swept into it (refuted with witness).", "quantifier": "every state, soil, PET and step", "why_tests_cant": "continuum, and the violation needs a rare repair branch", "anchors": ["src/aet.cxx: calc_aet", "src/lgar.cxx: lgar_move_wetting_fronts, lgar_theta_mass_balance"]}
{"id": "C36", "title": "Frozen-soil factor stays in [0.05, 1] and only reads given temperatures", "statement": "With soil freeze-thaw coupling each layer's conductivity factor lies in [0.05,1] and depends monotonically on its mean temperature. Reading stays inside the temperature profile unless an upper layer consumes all cells, in which case the next layer reads past the end (refuted with witness).", "quantifier": "every temperature profile and layering", "why_tests_cant": "all array shapes", "anchors": ["src/lgar.cxx: frozen_factor_hydraulic_conductivity"]}
{"id": "C37", "title": "Front velocities are sane", "statement": "After the velocity computation every front that is not at a layer bottom has 0 < dz/dt <= 1e4 cm/h (non-negative conductivities and ponding), bottom fronts have 0, the deepest front is untouched, nothing else changes; a profile that is drier above than below ends the program with exit status 0.", "quantifier": "every profile and soil", "why_tests_cant": "continuum", "anchors": ["src/lgar.cxx: lgar_dzdt_calc"]}
{"id": "C38", "title": "Layered velocity uses each layer's own thickness and conductivity", "statement": "The harmonic sum in the velocity of a front in layer k is sum_j thickness_j / K_j(psi). Refuted for k>=3: thickness j is paired with the conductivity of layer k-j; the infiltration capacity pairs them correctly.", "quantifier": "every layering with 3 or more layers", "why_tests_cant": "a numerically plausible wrong value", "anchors": ["src/lgar.cxx: lgar_dzdt_calc, lgar_insert_water"]}
{"id": "C39", "title": "Calibration parameters are applied exactly once", "statement": "With calib_params=true, values set before the first Update replace the soil parameters of every layer at that Update, keep every front's capillary head and change the storage by exactly the calibration change that is booked; later SetValue calls on calibration variables have no effect on the simulation; with calib_params=false they never have.", "quantifier": "every parameter values, every history", "why_tests_cant": "ordering of calls over unbounded histories", "anchors": ["src/bmi_lgar.cxx: update_calibratable_parameters, Update", "src/lgar.cxx: lgar_initialize"]}
{"id": "C40", "title": "Layers can be calibrated independently", "statement": "Each layer gets the values set for it. Refuted: two layers of the same soil type share one record, the deeper layer's values overwrite the upper one's while the upper front's water content was computed with the old ones.", "quantifier": "every assignment of soil types to layers", "why_tests_cant": "only visible for layers sharing a type", "anchors": ["src/bmi_lgar.cxx: update_calibratable_parameters"]}
{"id": "C41", "title": "Initialize rejects incomplete configurations", "statement": "Initialize succeeds only if layer_soil_type, soil_params_file, layer_thickness, initial_psi, timestep, endtime, wilting_point_psi, field_capacity_psi, forcing_resolution and giuh_ordinates all appear as keys; a missing one stops Initialize, and lines with other keys and the order of lines are irrelevant.", "quantifier": "every configuration file (any sequence of lines)", "why_tests_cant": "all files, all orders", "anchors": ["src/lgar.cxx: InitFromConfigFile"]}
{"id": "C42", "title": "Time values in the configuration are converted by their unit", "statement": "timestep, endtime and forcing_resolution are converted according to the bracketed unit, default seconds. Refuted for text after the unit and for unknown units, which silently mean hours (or leave endtime unset).", "quantifier": "every value and unit string", "why_tests_cant": "all strings", "anchors": ["src/lgar.cxx: InitFromConfigFile"]}
{"id": "C43", "title": "Vectors in the configuration are read completely and in order", "statement": "A comma separated list of n numbers is read as exactly these n numbers in order; layer depths are the running sums, start at 0 and end at the column depth.", "quantifier": "every list of numbers and layers", "why_tests_cant": "all strings and lengths", "anchors": ["src/lgar.cxx: ReadVectorData, InitFromConfigFile"]}
{"id": "C44", "title": "Initial profile is in hydrostatic equilibrium inside physical bounds", "statement": "After Initialize there is one front per layer, at its bottom, with the configured head, water content in [theta_r, theta_e], conductivity in [0, Ksat], and the initial storage is sum(thickness * theta(head)).", "quantifier": "every valid configuration", "why_tests_cant": "any number of layers and any parameters", "anchors": ["src/lgar.cxx: InitializeWettingFronts, lgar_initialize"]}
{"id": "C45", "title": "Infiltration never exceeds supply, capacity or room", "statement": "Water infiltrated in a sub-step without a new front is at most the water on the surface and at most the free storage of the column, whatever conductivities and suction are (unless the capacity comes out as NaN, when only the first bound holds); for supply-limited steps everything infiltrates. Over a whole Update, with or without new fronts, infiltration is at most the water ponded before plus the precipitation. For any rounding, if the capacity is not negative (it may be infinite or NaN), runoff, ponding and infiltration are finite numbers between 0 and the water on the surface; a NaN capacity lets all of it in. In binary64 the capacity of a saturated silt column is negative and so is the infiltration (refuted with witness). Unless the column holds more than its largest storage the capacity is not negative, for any rounding.", "quantifier": "every state and forcing", "why_tests_cant": "continuum", "anchors": ["src/lgar.cxx: lgar_insert_water"]}
{"id": "C46", "title": "UpdateUntil reaches the requested time", "statement": "UpdateUntil(t) advances the model until GetCurrentTime() >= t. Refuted: it performs exactly one Update for every positive t and stops the program for t <= 0.", "quantifier": "every t and state", "why_tests_cant": "all t", "anchors": ["src/bmi_lgar.cxx: UpdateUntil"]}
{"id": "C47", "title": "Free-drainage front is the first front with a companion below in its layer", "statement": "wetting_front_free_drainage returns the smallest index i such that front i+1 lies in the same layer, or the number of fronts if there is none; for a structured profile the fronts 1..i lie in layers 1..i.", "quantifier": "every list", "why_tests_cant": "induction over lists", "anchors": ["src/lgar.cxx: wetting_front_free_drainage"]}
{"id": "C48", "title": "Iterative head solution closes the mass or books the difference", "statement": "When the head iteration ends with the mass matched the error is at most 1e-12 cm; otherwise the demand AET is reduced by the remaining error (minus 1e-12), unless saturation was attempted; the returned water content lies in [theta_r, theta_e] when the head is non-negative.", "quantifier": "every soil, masses and iteration count", "why_tests_cant": "termination and exit conditions of a numerical search", "anchors": ["src/lgar.cxx: lgar_theta_mass_balance"]}
{"id": "C49", "title": "Finalize releases everything once", "statement": "After Initialize and any history of front creations, edits, deletions and profile copies, Finalize followed by the destructor frees every wetting front of the current and previous profile exactly once and every heap array a pointer still holds exactly once; the number of arrays left is zero when no configuration line is repeated and soil_z is given only with sft_coupled. Refuted in general: soil_z without coupling leaks, Finalize twice (or Update after it) is a use after free, the destructor alone leaks everything but two arrays.", "quantifier": "every history", "why_tests_cant": "all heaps", "anchors": ["src/bmi_lgar.cxx: Finalize 662-690, ~BmiLGAR 24, realloc_soil 64-71", "src/lgar.cxx: InitFromConfigFile 176-725", "src/linked_list.cxx: listDelete, listCopy"]}
{"id": "C50", "title": "Soil parameters read from the table give a physical soil", "statement": "For every table row with n>1 and alpha>0, the derived m lies in (0,1), the Brooks-Corey index is n-1>0 and the bubbling pressure and minimal head are positive; for n<=1 these derived values are left unset; the stored wilting-point water content is computed from an unset exponent (refuted).", "quantifier": "every row", "why_tests_cant": "continuum; uninitialised reads look plausible", "anchors": ["src/lgar.cxx: lgar_read_vG_param_file"]}
{"id": "C51", "title": "Forcing file rows become steps in order", "statement": "ReadForcingData takes the file named by the first forcing_file line; if every line of it ends with a line feed, row i gives time, precipitation and PET of step i, empty lines and extra cells are ignored; reading always terminates and the PET column is never longer than the precipitation column nor that than the time column. Refuted without a final line feed (the last row is read twice) and for a row without a third cell (PET of all later steps moves one step forward, silently).", "quantifier": "every file text, every configuration", "why_tests_cant": "all texts and line endings", "anchors": ["src/bmi_main_lgar.cxx: ReadForcingData 183-262"]}
{"id": "C52", "title": "The standalone program runs one Update per forcing row", "statement": "When main ends normally it has run exactly floor(endtime/forcing_resolution) Updates; Update i had the precipitation and PET of row i and nothing else was written to the model; line i of data_variables.csv has the time of row i and the values published by the interface after Update i, data_layers.csv the fronts after it.", "quantifier": "every configuration and forcing file", "why_tests_cant": "all inputs and run lengths", "anchors": ["src/bmi_main_lgar.cxx: main 32-179"]}
{"id": "C53", "title": "Clients of the interface are memory safe", "statement": "After Initialize on a usable configuration, any sequence of Update, UpdateUntil, GetValue, GetValueAtIndices, SetValue, SetValueAtIndices calls with announced buffer sizes, types and positions, that reads outputs only after an Update and does not overwrite soil_depth_layers or soil_num_wetting_fronts, performs no out-of-bounds access, null dereference or uninitialised read, provided no front hits a layer boundary exactly (automatic with one layer).", "quantifier": "every configuration, every call sequence", "why_tests_cant": "unbounded interleavings", "anchors": ["src/bmi_lgar.cxx: Update 78-561, accessors 693-1183"]}
{"id": "C54", "title": "The standalone program is memory safe", "statement": "For a usable configuration with a finite number of steps, the program performs no out-of-bounds access, null dereference or uninitialised read whatever the text of the forcing file (one layer; with more layers provided no front hits a layer boundary exactly).", "quantifier": "every configuration and forcing text", "why_tests_cant": "all texts", "anchors": ["src/bmi_main_lgar.cxx: main 32-179, ReadForcingData 183-262"]}
{"id": "C55", "title": "The output file closes the water balance", "statement": "Over a run of the program the columns of data_variables.csv add up to the ledger totals; initial storage plus precipitation minus runoff, AET and percolation minus the last storage minus ponded water equals the printed global error, which is bounded by the number of sub-steps times 1e-4+1e-12; discharge plus queue equals runoff times the ordinate sum.", "quantifier": "every run of any length", "why_tests_cant": "all forcings and lengths", "anchors": ["src/bmi_main_lgar.cxx: main 116-162", "src/bmi_lgar.cxx: Update 78-561"]}
{"id": "C56", "title": "Capillary drive is the integral of relative conductivity", "statement": "In integration mode calc_Geff lies between the integral of K/Ksat over the head interval minus 6 first steps and 11 interval widths; refuted as equality: whenever the conductivities at both ends differ by at most 2% the result is at least nine times the integral, because each trapezoid uses the next step's width and the last step overshoots. The closed form equals the Brooks-Corey expression, with the effective suction as limit value from saturation.", "quantifier": "every van Genuchten soil and every pair of heads", "why_tests_cant": "continuum of soils and heads; adaptive step sequence", "anchors": ["src/soil_funcs.cxx: calc_Geff 34-140"]}
{"id": "C57", "title": "Evapotranspiration demand follows the S-shaped reduction", "statement": "For a van Genuchten soil calc_aet returns PET*dt/(1+(psi/h50)^3) where psi is the head of the first front and h50 the head at which the water content is halfway between field capacity and wilting point; the demand is full at saturation, half at h50 and decreasing in the head.", "quantifier": "every soil, head, PET and step", "why_tests_cant": "continuum", "anchors": ["src/aet.cxx: calc_aet 17-74"]}
{"id": "C58", "title": "Step counts and clock are exact in binary64", "statement": "With time step and forcing resolution in whole seconds, F = k*T, the number of sub-steps computed in binary64 is exactly k, and with T dividing the hour the clock advances by exactly F. With F dividing the hour the unit hydrograph has 3600/F repetitions per ordinate and the program does E/F steps. Refuted for other resolutions: with 57 s and an end time of 57 s the program does no step, because main has no guard against the rounded quotient.", "quantifier": "every configuration text with whole seconds in any unit; every state", "why_tests_cant": "all pairs of step lengths and all end times", "anchors": ["src/lgar.cxx: InitFromConfigFile 640-700", "src/bmi_lgar.cxx: Update 197-224", "src/bmi_main_lgar.cxx: main 76-90"]}
{"id": "C59", "title": "Sorting fronts by depth orders them and keeps each front together", "statement": "listSortFrontsByDepth leaves the nodes linked as before, orders the depths and keeps depth, water content, layer and number of every front together. Refuted: head, conductivity, to_bottom and velocity stay at their old position, and whenever the list was not sorted before, the fronts are not numbered from top to bottom afterwards.", "quantifier": "every list of any length in any heap", "why_tests_cant": "all lengths and permutations", "anchors": ["src/linked_list.cxx: listSortFrontsByDepth 487-525"]}
{"id": "C60", "title": "A depth is found in its layer and a front can be inserted there", "statement": "listFindLayer returns the only layer that contains the depth, 0 if there is none. listInsertFrontAtDepth between two fronts links a node with that layer and keeps order and numbers; below the last front it does nothing. Refuted: with one front it dereferences NULL; above the first front the caller's list does not contain the new node and its number is not set; a depth outside of the soil leaks the node.", "quantifier": "every list, heap, depth and layering", "why_tests_cant": "all lists and depths", "anchors": ["src/linked_list.cxx: listInsertFrontAtDepth 339-455, listFindLayer 461-482"]}
{"id": "C61", "title": "In a column of one layer moving the fronts accounts for the water", "statement": "Fronts that are drier from top to bottom, move down and lie inside the column: when the motion returns, the stored water has changed by infiltration minus evapotranspiration minus percolation up to 1e-7 cm, and the fronts are drier from top to bottom, inside the soil's range and inside the column again (a saturated first front may hang below it). The motion fails to return only if the demand exceeds the infiltration plus the water the first front holds above the second; then a deleted front is used.", "quantifier": "every van Genuchten soil, column depth, list of at least two fronts, step length, infiltration and demand; exact arithmetic", "why_tests_cant": "all profiles, including those where fronts overtake each other, leave the column, dry out or need the closing loop", "anchors": ["src/lgar.cxx: lgar_move_wetting_fronts 964-1544"]}
{"id": "C62", "title": "Fronts advance by velocity times time", "statement": "When the loop over the fronts returns, every front that is not the deepest of its layer has gone down by its velocity times the length of the time step (in the first layer not below the column), the deepest front of every layer is still at the boundary, and the capillary heads on both sides of every boundary are equal.", "quantifier": "every rounding, column, list of fronts, copy of the previous step, step length, infiltration and demand", "why_tests_cant": "all numbers of layers and fronts and all roundings", "anchors": ["src/lgar.cxx: lgar_move_wetting_fronts 1007-1316"]}
{"id": "C63", "title": "Water balance of a sub-step in a one-layer column", "statement": "In a column of one layer with at least two fronts, a completed sub-step leaves fronts in order and conserves water up to 1e-7 cm: storage and surface water afterwards plus runoff, evapotranspiration and recharge equal storage and surface water before plus rain. The local balance is at most 1e-7 + 1e-12 cm, so the code never aborts on it. A sub-step stops only because the first front dried out and is used after its deletion, because its depth is not positive, or because the integral of the capillary drive does not end. In dry weather with a demand that the first front can meet, and the closed form of the capillary drive, it always completes.", "quantifier": "every van Genuchten soil, column depth, step length, rain, demand, surface water and list of at least two fronts in order, exact arithmetic", "why_tests_cant": "real-valued states, soils and forcings, any number of fronts", "anchors": ["src/bmi_lgar.cxx: Update 220-503", "src/lgar.cxx: lgar_insert_water 1941-2092", "src/lgar.cxx: lgar_create_surficial_front 2098-2171", "src/lgar.cxx: lgar_dzdt_calc 2362-2506"]}
{"id": "C64", "title": "Number of wetting fronts", "statement": "An Update adds at most one wetting front, whatever the number of its sub-steps; m Updates add at most m. A sub-step adds none unless it rains and the sub-step before was without rain. Front numbers and counters therefore fit a C int as long as the initial number of fronts plus the number of Updates does.", "quantifier": "every rounding, column, state, forcing, calibration and number of Updates", "why_tests_cant": "unbounded number of Updates and sub-steps; every rounding", "anchors": ["src/bmi_lgar.cxx: Update 218-504", "src/lgar.cxx: lgar_create_surficial_front 2098-2171", "src/lgar.cxx: lgar_move_wetting_fronts 964-1544"]}
{"id": "C65", "title": "Printed water balance in floating point", "statement": "If arithmetic results up to a size L are off by at most eta, and no storage and no total exceeds L/32, the global balance that Finalize prints after m Updates and n sub-steps is a number, and at most n (1e-4 + 1e-12 + 13 eta) + (6 m + 7) eta in absolute value. binary64 meets this with L = 2^k and eta = 2^(k-53). With up to 32768 cm in every storage and total, rounding adds at most 2e-9 cm per sub-step and 1e-9 cm per Update.", "quantifier": "every rounding of the stated accuracy, every initial state, forcing, calibration, number of Updates and of sub-steps; nothing assumed about the soil routines", "why_tests_cant": "unbounded number of Updates and sub-steps; all roundings", "anchors": ["src/bmi_lgar.cxx: Update 78-561", "src/lgar.cxx: lgar_global_mass_balance 869-911"]}
{"id": "C66", "title": "Unit-hydrograph routing in floating point", "statement": "If arithmetic results up to a size L are off by at most eta, every discharge of the unit hydrograph is within 2 N eta of the exact convolution of the runoff with the N ordinates, after any number of calls, so rounding errors do not build up. After N dry calls the routed water is the runoff times the sum of the ordinates up to 2 N eta per call. binary64 meets this with L = 2^k and eta = 2^(k-53).", "quantifier": "every rounding of the stated accuracy, all ordinates of size at most one, all runoff series of bounded size and any length", "why_tests_cant": "real-valued series of any length; all roundings", "anchors": ["giuh/giuh.c: giuh_convolution_integral 12-39"]}
{"id": "C67", "title": "Drying never wets a front", "statement": "When lgar_theta_mass_balance has to take water out of a front, in a column of any number of layers, the head it leaves is at least the one it started from, so the water content does not grow. The water held differs from the prescribed mass by at most 1e-12, or what is off beyond 1e-12 is subtracted from AET.", "quantifier": "all soils, layers, thicknesses, heads and masses with the prescribed mass at most the present one; exact arithmetic", "why_tests_cant": "unbounded iteration over real heads with adaptive step", "anchors": ["src/lgar.cxx: lgar_theta_mass_balance 2513-2654"]}
{"id": "C68", "title": "The head iteration ends", "statement": "The while loop of lgar_theta_mass_balance ends for every starting head that is not negative and every prescribed mass, also one that cannot be held.", "quantifier": "all soils, numbers of layers, thicknesses, starting heads, masses; exact arithmetic", "why_tests_cant": "termination of an unbounded loop for all real inputs", "anchors": ["src/lgar.cxx: lgar_theta_mass_balance 2513-2654"]}
{"id": "C69", "title": "A sub-step that starts with one front keeps its water", "statement": "In a column of one soil layer with a single wetting front, a completed sub-step of Update leaves ordered fronts whose water content belongs to their head, accounts for rain, storage, surface water, runoff, evapotranspiration and recharge within 1e-4 cm (the bound the code checks) plus the 1e-12 cm it forgets. The surface water alone is split exactly. A sub-step stops only by the use of a deleted front, an assertion, a capillary integral that does not end and, with one front only, the abort on the local balance or the head iteration.", "quantifier": "all soils, depths, heads, forcings and ponded depths; exact arithmetic", "why_tests_cant": "real-valued states; the head iteration has an unbounded number of passes", "anchors": ["src/bmi_lgar.cxx: Update 145-500", "src/lgar.cxx: lgar_move_wetting_fronts 964-1544, lgar_theta_mass_balance 2513-2654"]}
{"id": "C70", "title": "A whole simulation of a one-layer column keeps its water", "statement": "A well-formed one-layer configuration file starts a model of which, after any number of Updates with any finite forcing set in between, the fronts are ordered, every sub-step has kept its water, and the global balance is bounded by the sum of the tolerances of the sub-steps. An Update with forcing that is not negative ends with finite outputs or in a sub-step of C69 that stops.", "quantifier": "all configurations, all sequences of Updates and settings of the forcing; exact arithmetic", "why_tests_cant": "unbounded histories", "anchors": ["src/bmi_lgar.cxx: Initialize 32-58, Update 78-561", "src/lgar.cxx: InitFromConfigFile 176-725"]}
{"id": "C71", "title": "The standalone program closes its balance on a one-layer column", "statement": "The program run on a well-formed one-layer configuration and forcing that is not negative ends for one of four known reasons, or prints a global balance of at most 1e-4 cm per sub-step, and the columns of its output file add up to the same. This needs at least one forcing step: a shorter run prints the initial storage.", "quantifier": "all configurations, forcing files and end times; exact arithmetic", "why_tests_cant": "unbounded number of steps and all input files", "anchors": ["src/bmi_main_lgar.cxx: main 32-179, ReadForcingData 183-262", "src/lgar.cxx: lgar_global_mass_balance 869-911"]}
{"id": "C72", "title": "A bound on the passes of the unbounded loops does not change a result", "statement": "The capillary integral and the head iteration have no counter. If they are cut off after n passes and a run is not affected by that, then the run gives the same result, or stops for the same reason, with every larger bound. Two bounds never give two different results. This holds for one Update and for the whole program.", "quantifier": "every rounding, all states, all input files, all bounds", "why_tests_cant": "quantifies over all bounds and all inputs", "anchors": ["src/soil_funcs.cxx: calc_Geff 34-140", "src/lgar.cxx: lgar_theta_mass_balance 2513-2654", "src/bmi_lgar.cxx: Update 78-561", "src/bmi_main_lgar.cxx: main 32-179"]}
{"id": "C73", "title": "Updates end", "statement": "The loops without a counter end. The capillary integral ends for all water contents; the head iteration ends unless it is given a negative head or an infinity, and never ends for an infinite mass. A sub-step of a column of any number of layers ends if its fronts lie below the surface, have heads that are not negative and no infinite water content or speed; an Update ends if all its sub-steps start so. With one layer this is always the case, so every Update of a simulation and the whole program end.", "quantifier": "all van Genuchten soils, fronts, forcing numbers; sub-steps with any number of layers; simulations and configurations of one layer; exact arithmetic", "why_tests_cant": "termination of unbounded loops for all real inputs", "anchors": ["src/soil_funcs.cxx: calc_Geff 34-140", "src/lgar.cxx: lgar_theta_mass_balance 2513-2654", "src/bmi_lgar.cxx: Update 78-561", "src/bmi_main_lgar.cxx: main 32-179"]}
{"id": "C74", "title": "The linked list in memory is the list of the model", "statement": "With the wetting fronts as nodes of a heap and state->head, state->state_previous as pointers, every routine that reads, moves, creates, merges or deletes fronts, and Update as a whole, returns the same numbers or stops for the same reason as on sequences, and leaves the heap with exactly the nodes of two separate null-terminated chains. So from Initialize on no Update leaks, shares or frees twice a front, the number of allocated fronts is the number of fronts in the two lists, and releasing the two lists releases all. The one use of a front after its release that the sequences predict really happens.", "quantifier": "all heaps with two separate chains, all profiles with running numbers, all soils, parameters and forcing, any number of Updates with arbitrary writes of the client in between; every rounding", "why_tests_cant": "leaks, aliasing and use after free depend on the history of allocations; a test sees one history", "anchors": ["src/linked_list.cxx: 35-331", "src/lgar.cxx: 922-2506", "src/bmi_lgar.cxx: Update 78-561, Finalize 662-690"]}
{"id": "C75", "title": "Fronts stay physical in columns of any number of layers", "statement": "In exact arithmetic, with van Genuchten soils, the water content of every front stays between the residual and the saturated content of the soil of its layer and is the one the soil's retention curve gives for its head; the head stays non-negative; the conductivity stays between zero and the largest saturated conductivity. This holds after every sub-step and after every Update, also the one that applies fitting calibration values, as long as no two fronts tie at a layer boundary; in a column of one layer always. Initialize establishes it. So the abort of the velocity routine for a negative conductivity cannot be reached.", "quantifier": "all columns with any number of layers, all profiles, all soils with physical parameters, all forcing and time steps, frozen or not, any number of Updates and client writes", "why_tests_cant": "the bounds have to hold for every combination of fronts, soils and forcing through eight routines that rewrite water contents and heads; a test sees a few", "anchors": ["src/lgar.cxx: 964-2171, 2362-2506", "src/bmi_lgar.cxx: Update 78-561, update_calibratable_parameters 582-660"]}
{"id": "C76", "title": "Each front's share of the water in a layered column, and the books of one pass", "statement": "In a column of any number of layers the stored water is the sum of the shares of the fronts; a front's share is what it holds more than the column would hold without it, in its own layer and in the layers above. One pass of the motion over the fronts leaves every front with the share it had, the front that supplies the demand also with the rain less the evapotranspiration demand; where it does not, the entry of that front says by how much and which exit of the head iteration caused it. The storage after the pass is the storage before plus rain less demand plus these differences. If the demand that is met exceeds the rain, no front becomes wetter, the demand only becomes smaller, and the difference is at most 1e-12 cm for each front and twice the unmet demand.", "quantifier": "all columns with any number of layers, all van Genuchten soils, all profiles on the curves of their soils with equal heads at the layer boundaries and non-negative velocities, all time steps, rain and demands", "why_tests_cant": "the head iteration spreads the water of a front over all layers above it, with as many unknowns as layers; a test covers a few columns and shows only the total", "anchors": ["src/lgar.cxx: lgar_move_wetting_fronts 1007-1316, lgar_theta_mass_balance 2513-2654"]}
{"id": "C77", "title": "Capillary head is continuous at the boundaries between layers", "statement": "After Initialize, and after every sub-step, Update and user edit that follows, the front that ends at the lower boundary of a layer has the head of the first front of the next layer and the water content its own soil has at that head, also when an Update applies new calibration values. The motion restores this even if it did not hold before. It fails when the repair of two fronts with the drier one on top takes place below a wetter front of the same layer: the repair sets the layers above to the head of the lower of the two. As a consequence the water stored in every state reached is the sum of the shares of the fronts.", "quantifier": "all columns with any number of layers, all van Genuchten soils, all physical starts, all sequences of Updates and user edits without tied fronts and without repairs below a wetter front of the same layer", "why_tests_cant": "continuity has to survive every order of moving, merging, crossing, repairing and creating fronts over arbitrarily long runs", "anchors": ["src/lgar.cxx: lgar_move_wetting_fronts 964-1544, merge/cross/fix 1545-1940, lgar_create_surficial_front 2098-2171", "src/bmi_lgar.cxx: Update 78-561, calibratable 582-660"]}
{"id": "C78", "title": "Grid queries describe the grids", "statement": "The grid identifiers are 0 to 4: exactly these have rank 1 and a size that is not negative. For a grid of rank 1, GetGridShape fills an array of one entry with the size of the grid, and GetGridSpacing and GetGridOrigin return numbers that the model has set. This holds for the shape of the layer grid only: for the front grid the size goes to the second entry, out of the bounds of an array of one entry, and spacing and origin of grid 0 are never set.", "quantifier": "all objects whose arrays match their counters, all grid identifiers, all arrays of the caller", "why_tests_cant": "an overrun of the caller's array by one int and a read of memory without a value usually go unnoticed in a test", "anchors": ["src/bmi_lgar.cxx: 820-871", "include/all.hxx: 103-106"]}
{"id": "C79", "title": "Water ledger of a motion and of a sub-step in layered columns", "statement": "In a column of any number of layers, one motion of the fronts changes the storage by the water put in, less the reported evapotranspiration and bottom flux, to within the larger of the gap of its pass and 2e-10 cm, plus twice what the repairs of inverted fronts change (nothing if no front is inverted). With a front inside the first layer that bound is, rain or not, the iteration tolerance for each front plus the part of the demand that the pass does not meet, because the closure makes up what a saturated front cannot take. A sub-step splits rain and ponded water exactly into infiltration, runoff and ponded water, increases the sums of the Update by what it used, and reports a local balance within the same bound plus 1e-12 cm; without an inversion and with a gap below 1e-4 cm the program does not stop on its check of the balance.", "quantifier": "all layered columns with physical soils, all profiles of physical fronts with finite speeds, all rain, demand and time steps, in exact arithmetic, for motions that do not tie and whose merges have a divisor other than zero", "why_tests_cant": "the closure, merging, crossing and repair steps occur in any order and number; a test observes one of them at a time and only the balance that the code itself computes", "anchors": ["src/lgar.cxx: 964-1544", "src/lgar.cxx: 1545-1940", "src/lgar.cxx: 2098-2171", "src/bmi_lgar.cxx: 220-503"]}
{"id": "C80", "title": "The soil table from bytes to memory", "statement": "Reading the soil table with fgets and character arrays gives, for every file, what reading it line by line gives, and stops for the same reason. If no line has more than 253 characters, each line after the header is one soil; a name of up to 24 characters is stored and one of 26 to 29 stops the program. Refuted beyond these limits: a header of 254 characters or more makes the rest of it the first soil and moves every soil down by one; a name of 25 characters passes the length test and is written past the end of the table's array, and one of 30 or more past the end of the array that the test looks at.", "quantifier": "all files as sequences of bytes, all numbers of soils, all roundings", "why_tests_cant": "the overrun is one byte, into padding; the shipped table has short lines and names", "anchors": ["src/lgar.cxx: 2277-2356", "include/all.hxx: 40", "include/all.hxx: 68"]}
{"id": "C81", "title": "The text of the output files", "statement": "data_variables.csv is a header and one line per step: the time of the step as in the forcing file and the eleven published values, each rounded to the nearest number with 15 digits after the point; splitting the lines at the commas gives these cells back, whatever the forcing file contained. data_layers.csv has two lines per step: number and time of the step, and the fronts from the surface downwards with depth and head in millimetres. A written number is read back as one that differs by at most half a unit of its last digit. The water balance of a run can be checked from the printed columns alone, up to half a unit of the 15th digit for every number used.", "quantifier": "all configurations, forcing files and soil tables for which the program ends; all roundings (the balance: exact arithmetic); all numbers, infinities and NaN", "why_tests_cant": "the files are a few thousand lines of one data set; that no time or number can break a line or a column is a statement about all texts", "anchors": ["src/bmi_main_lgar.cxx: 92-157", "src/bmi_main_lgar.cxx: 265-280"]}
{"id": "C82", "title": "A motion that leaves the fronts drier downwards needs no repair", "statement": "If after the pass over the fronts no front is followed by an equally wet or wetter one of its layer, then no later stage of the motion divides by a vanishing difference of water contents, none of the three repairs of inverted fronts changes anything, and the storage after the motion is what the closure of the balance leaves less the flux through the bottom. The fronts are drier downwards again and their heads meet at the layer boundaries. The same holds for a sub-step, with or without the creation of a front, whose local balance then keeps within the gap of the pass.", "quantifier": "all layered columns with physical soils, all profiles of physical fronts with finite speeds, all rain, demand and time steps, in exact arithmetic, for motions that do not tie", "why_tests_cant": "that merging, crossing and the closure never invert fronts that were in order, whatever their number and soils, is a statement about every sequence of these steps", "anchors": ["src/lgar.cxx: 964-1544", "src/lgar.cxx: 1545-1940", "src/lgar.cxx: 2098-2171", "src/bmi_lgar.cxx: 220-503"]}
{"id": "C83", "title": "The water of a simulation in a column of several layers", "statement": "Let every sub-step of a simulation be free of ties, leave the fronts drier downwards after its pass, and leave every front with a finite head below the upper end of its layer. Then after every sub-step the fronts are in order again (a profile of physical fronts that sink, drier downwards, heads that meet at the layer boundaries), the rain and the pond are split into infiltration, runoff and a pond that is not negative, and the storage changes by the water put in less what leaves, up to a bound given by the gap of the pass, or by the tolerance of the head iteration and the part of the demand that is not met. The balance check of the code passes whenever this bound is below its tolerance. At the end the global balance that the program prints is bounded by the sum of these bounds. Every well-formed configuration without calibration starts such a simulation.", "quantifier": "all layered columns with physical soils, all sequences of Updates and user edits with finite rain, any number of sub-steps, in exact arithmetic, for sub-steps that are undisturbed in the sense above", "why_tests_cant": "an invariant of the whole program and a bound on a sum over all sub-steps of all simulations; a run shows the printed balance of one forcing", "anchors": ["src/bmi_lgar.cxx: 78-561", "src/lgar.cxx: 869-911", "src/lgar.cxx: 964-1544", "src/lgar.cxx: 1941-2171", "src/lgar.cxx: 2362-2506"]}
{"id": "C84", "title": "A column of several layers in dry weather", "statement": "Take a column with one resting front per layer, all at one capillary head, and no water on the surface. A sub-step without rain keeps the column in that form. The head does not fall. Nothing infiltrates and nothing runs off. The sub-step is undisturbed, so its water is accounted for (C83), up to the tolerance of the iteration and twice the part of the demand that the pass drops. As long as the column holds water, the sub-step can only be stopped by an iteration that never ends or by the program's own balance check. Without demand it always ends and changes no head and no storage, with an exact balance. All this holds for simulations of any length without rain, and every well-formed configuration without calibration starts in such a state.", "quantifier": "all numbers of layers, soils, heads, demands, time steps, all dry simulations of Updates and user edits of any length, and all well-formed configurations without calibration", "why_tests_cant": "Tests run a few columns over one season; the claim concerns every column, every demand and every length of a dry spell, including the absence of failed assertions.", "anchors": ["src/lgar.cxx:964-1544", "src/lgar.cxx:2513-2654", "src/lgar.cxx:733-771", "src/bmi_lgar.cxx:218-504", "src/aet.cxx:17-74"]}
{"id": "C85", "title": "Rain on a column of several layers", "statement": "Take a column of several layers whose fronts are in order and whose wetting fronts lie in the first layer. Let the evaporative demand of a sub-step be below the water that the first front holds above the second; without a wetting front let the surface be dry or a front be created. If no two crossing fronts tie, the sub-step is undisturbed: no repair of wet over dry is due, its water is accounted for up to the number of fronts times the tolerance of the iteration, and the fronts stay in order. With a wetting front and at most ten million fronts, such a sub-step is never stopped by a failing water balance. A simulation made of such sub-steps, with any edits of time step and weather between the Updates, keeps the model in order. With at most 200 fronts and always a wetting front, the global balance at its end is off by at most 2.02e-10 cm per sub-step. The column never holds more than its pores and its infiltration capacity is not negative.", "quantifier": "all numbers of layers, soils, fronts in order, rain rates, ponding depths, demands, time steps, and all simulations of such sub-steps of any length", "why_tests_cant": "Tests run a few storms on a few columns; the claim concerns every storm on every column, with the error bound growing only with the number of sub-steps.", "anchors": ["src/lgar.cxx:964-1544", "src/lgar.cxx:1941-2171", "src/lgar.cxx:2513-2654", "src/bmi_lgar.cxx:218-504", "src/aet.cxx:17-74", "src/lgar.cxx:869-911"]}
{"id": "C86", "title": "The standalone program in a drought", "statement": "Take a well-formed configuration of any number of layers with non-negative residual water contents, without calibration and without coupling to soil temperatures, and a forcing file without rain that covers the configured end time. The program either completes or is stopped by an iteration that does not end or by the balance check of a sub-step; it is never stopped otherwise, and not even so unless the forcing asks for evaporation. If it completes, every line of the output shows one resting front per layer, all at one head that never falls from line to line and starts at or above the configured one. The storage of each line is exactly what the configured layers hold at that head, and never rises. Rain, infiltration, runoff, routed runoff and discharge are zero in every line. The printed balance is bounded by the tolerance of the check times the number of sub-steps. Without evaporative demand the program completes, every line equals the configured column, and the printed balance is zero.", "quantifier": "all well-formed configurations of any number of layers, soil tables, forcing files without rain of any length and demand, junk in uninitialised memory, iteration bounds", "why_tests_cant": "A test runs one configuration over one forcing file; the claim concerns every configuration, every dry forcing file and every line of the output.", "anchors": ["src/bmi_main_lgar.cxx:32-179", "src/bmi_main_lgar.cxx:183-280", "src/bmi_lgar.cxx:32-58", "src/bmi_lgar.cxx:78-561", "src/lgar.cxx:73-139", "src/lgar.cxx:176-725", "src/lgar.cxx:869-911", "src/lgar.cxx:964-1544", "giuh/giuh.c:12-39"]}
{"id": "C87", "title": "What does not influence the results", "statement": "Four things never change what the model reports. First, memory that the code reads without having written it when it computes the water content at the wilting point: the initial state and the whole run are the same for every content. Second, what a client writes through the interface before an Update into variables other than the forcing (and the soil temperatures, if coupled): as long as no calibration is pending the Update ends the same way and publishes the same fluxes, fronts and totals, in sessions of any length. Third, the unit hydrograph: Updates with another hydrograph end the same way and differ only in the routed runoff, the discharge and their totals; the program run with another giuh_ordinates line ends the same way, writes the same lines but for these two cells, and prints the same balance. Fourth, the future: with forcing files that agree in their first k rows, completed runs agree in the first k lines of the output.", "quantifier": "all roundings, iteration bounds, configurations, soil tables, forcing files, states, client writes, hydrographs, session lengths and prefixes", "why_tests_cant": "These are claims about pairs of runs; a test compares a few pairs, while the claim ranges over every pair of contents, writes, hydrographs and futures.", "anchors": ["src/bmi_lgar.cxx:32-58", "src/bmi_lgar.cxx:78-561", "src/bmi_lgar.cxx:875-1009", "src/bmi_main_lgar.cxx:32-179", "src/lgar.cxx:73-139", "src/lgar.cxx:176-725", "src/lgar.cxx:2277-2356", "giuh/giuh.c:12-39"]}
{"id": "C88", "title": "One forcing interval or several shorter ones", "statement": "An Update over an interval of k*m sub-steps in which no sub-step was skipped, and k Updates over intervals of m sub-steps each with the same rates of precipitation and PET, leave the same column of soil: the same fronts, ponded water, previous rain and counters are carried on, the same fronts are published, and the storage and the balance of the last sub-step are the same, with any rounding. In exact arithmetic precipitation, PET, AET, runoff, infiltration and recharge of the long interval are the sums of those of the short ones. For the standalone program: if it completes, it also completes with a configuration that differs only in forcing_resolution, k times finer, and a forcing file in which every row is repeated k times; it then writes k lines for every line, the last of which shows the same fronts, storage and balance, and the six fluxes add up.", "quantifier": "all roundings (exact arithmetic for the sums and the program), iteration bounds, numbers k, m and n, states, hydrographs, configurations, soil tables and forcing files", "why_tests_cant": "It relates pairs of runs with different time structure for every k, m and forcing; a regression test compares against stored output of one resolution.", "anchors": ["src/bmi_lgar.cxx:78-561", "src/bmi_main_lgar.cxx:32-179", "src/lgar.cxx:176-725"]}
{"id": "C89", "title": "What the unit test of the interface establishes", "statement": "The program lasam_unitest returns for a configuration if and only if the configuration initialises with three layers and one temperature cell, the first Update (rain of 1.896 mm/h and PET of 0.104 mm/h) publishes exactly four fronts whose depths and moistures lie within 1.E-5 of the benchmark, infiltration, PET and AET are not off by more than 1.E-5 mm, and the second Update, with the parameters of the calibration test, ends. The exit code is then always 0. A valid configuration with other numbers of layers or cells ends it with an exception; with more than four fronts it writes beyond its arrays and with fewer it compares entries without a value. The comparisons of its calibration test cannot fail.", "quantifier": "all roundings, iteration bounds, configurations, soil tables and contents of indeterminate memory", "why_tests_cant": "The claim is about the test itself, for every configuration it may be given; the test is only ever run with one.", "anchors": ["tests/main_unit_test_bmi.cxx:27-688", "src/bmi_lgar.cxx:693-1009", "src/bmi_lgar.cxx:32-58", "src/bmi_lgar.cxx:78-561"]}
{"id": "C90", "title": "More rain on the same soil", "statement": "Of two sub-steps that start from the same state and differ in the rain only, the one with more rain lets at least as much water into the soil, has at least as much runoff and leaves at least as much water on the surface; the three differences add up to the additional rain. The same holds for the infiltration and runoff that Update publishes, and the ponded water it leaves, when the forcing interval is one sub-step. It does not hold at the tie in lgar_insert_water, where the water left over equals the maximum ponded depth exactly: there more rain means no infiltration at all. In lgar_insert_water it holds for any rounding as well, when the water that stood on the surface before the rain is the same and the tie is excluded.", "quantifier": "all states, forcings 0 <= r1 <= r2, environments and iteration bounds, in exact arithmetic (the claim on lgar_insert_water: any monotone rounding), with not negative infiltration and ponded water within its maximum", "why_tests_cant": "The claim compares two executions for every state and every pair of rain rates; the tie has measure zero and no test meets it.", "anchors": ["src/lgar.cxx:1941-2092", "src/lgar.cxx:2098-2171", "src/bmi_lgar.cxx:218-504", "src/bmi_lgar.cxx:78-561"]}
{"id": "C91", "title": "Only the soils of the layers matter", "statement": "How the soils are numbered, which other soils the table holds, in which order and under which names, has no influence: two columns with the same soil in each layer go through the same Updates, with the same fronts, balance and outputs, or stop for the same reason; two programs whose configurations differ in the lines about the soil table, the soil types and their maximal number, and whose tables hold the same five numbers in the rows of each layer, write the same files and print the same balance. The exception is the calibration: the values set for a layer are written into its row of the table, so that layers sharing a row get the same values (C40), and layers with rows of their own do not.", "quantifier": "all pairs of states with the same soil in each layer, all pairs of configurations and tables, uninitialised memory and forcings; whatever the rounding for Update and for the program by its initial states, exact arithmetic for the statement about the numbers in the files", "why_tests_cant": "It compares all pairs of tables and numberings; a test compares two.", "anchors": ["src/lgar.cxx:176-725", "src/lgar.cxx:733-771", "src/lgar.cxx:964-1544", "src/lgar.cxx:1545-1940", "src/lgar.cxx:2277-2356", "src/bmi_lgar.cxx:78-561", "src/bmi_lgar.cxx:582-660"]}
{"id": "C92", "title": "Calibration switched on without changing a value has no effect", "statement": "If a client switches the calibration on but leaves the values that Initialize offers as they are, nothing happens: the first Update then writes the soil parameters that are in the table already, recomputes the water contents the fronts have already, and shifts the initial storage of the balance by zero, so that it equals the Update without calibration. Initialize does offer the values in force. Hence two configurations that differ only in their lines calib_params=true and calib_params=false let the program write the same files and print the same balance, or stop for the same reason.", "quantifier": "all states whose waiting values are those in force, all configurations, tables, forcings and uninitialised memory; whatever the rounding, with a finite initial storage; in exact arithmetic the last follows from an accepted configuration", "why_tests_cant": "It compares all pairs of runs with and without the flag; a test compares one, and a difference in the last bit of one parameter of one soil would be needed to notice a recomputation that is not exact.", "anchors": ["src/bmi_lgar.cxx:122-132", "src/bmi_lgar.cxx:582-660", "src/lgar.cxx:73-139", "src/lgar.cxx:176-725", "src/bmi_main_lgar.cxx:32-179"]}
{"id": "C93", "title": "The discharge in the output is the runoff routed through the configured hydrograph", "statement": "In data_variables.csv the columns giuh_runoff and total_discharge are equal in every line (percolation is not part of the discharge), and the value in line t is the sum over i of ordinate i times the surface_runoff of line t-i, where the ordinates are those of the configuration, each divided by the number of forcing steps in an hour and repeated as often. If the last lines show no runoff, as many as there are ordinates after this resampling, the discharge of the whole run is its runoff times the sum of the configured ordinates.", "quantifier": "all well-formed configurations, hydrographs, forcing resolutions up to an hour, forcings and runs of any length in which the column of the runoff holds numbers; exact arithmetic", "why_tests_cant": "It relates whole columns of runs of any length for every hydrograph; a test sees a few runs, and errors in the shift of the queue or the resampling can stay below its tolerance.", "anchors": ["giuh/giuh.c:12-39", "src/bmi_lgar.cxx:506-560", "src/lgar.cxx:638-660", "src/bmi_main_lgar.cxx:107-165"]}
{"id": "C94", "title": "Allocated arrays and matrices are zero and complete", "statement": "d_alloc, i_alloc and f_alloc return a null pointer when malloc does, and otherwise a new array of zeros with the indices 0 to n (so that it can be counted from one), without touching other blocks. itwo_alloc and dtwo_alloc return a null pointer when the first malloc fails, and otherwise a matrix of zeros whose rows are blocks of their own. Refuted: that a matrix is complete when its pointer is not null. If a row is not granted the loop ends silently and this row and all later ones are null pointers. A matrix without rows or columns ends the program with the exit status of success, and a negative size is not refused.", "quantifier": "all sizes up to 2^31 - 2, all element types, all contents of memory and all patterns of granted and refused requests", "why_tests_cant": "malloc practically never fails in a test, and no test tries every pattern of failures and sizes.", "anchors": ["src/mem_funcs.cxx:26-56", "src/mem_funcs.cxx:62-92", "src/mem_funcs.cxx:97-143"]}
{"id": "C95", "title": "Frost lowers infiltration and nothing else in a step", "statement": "The frozen factors have no effect on the motion of the fronts within a call: with other factors lgar_move_wetting_fronts returns the same fronts (up to their conductivities), the same evapotranspiration and the same bottom flux, or stops for the same reason. The capillary drive does not depend on the conductivity at saturation. Lower soil temperatures give lower, positive frozen factors; with lower factors the infiltration capacity and the depth of a new front are not greater. So in a sub-step, and in an Update with one sub-step, from the same state a colder soil takes in at most as much water, lets at least as much run off and keeps at least as much on the surface as a warmer one, and the sums are equal.", "quantifier": "all columns with any number of layers, all soils with van Genuchten parameters, all lists of fronts in order, all rain and ponding, all temperature profiles that are cell by cell not above the other one; the motion of the fronts for any rounding, the comparisons in exact arithmetic; without ties at a layer boundary and with ponded water within its maximum", "why_tests_cant": "It compares two runs for every pair of temperature profiles and every state; tests with frozen soil are one run each, and a wrong sign or a factor applied in the wrong place need not show in the water balance.", "anchors": ["src/lgar.cxx:816-856", "src/lgar.cxx:964-1544", "src/lgar.cxx:1941-2092", "src/lgar.cxx:2098-2229", "src/soil_funcs.cxx:34-140", "src/bmi_lgar.cxx:122-128", "src/bmi_lgar.cxx:218-504"]}
{"id": "C96", "title": "The depth of a new front is the fixed point of its own velocity", "statement": "Where rain meets an unsaturated surface, lgar_calc_dry_depth returns the only depth that a sharp front reaches within the sub-step if it moves all that time with the velocity it has at that depth, or the bottom of the layer if that lies higher. The closed form of the drive towards saturation is a constant of the soil. A longer sub-step gives a deeper front, but at most in proportion. With the closed form a drier soil takes in at least as much of the same water through the new front as a wetter one. For any rounding the depth is a finite number between 0 and the bottom of the layer and the deficit is not negative, also on a saturated or completely frozen soil, where intermediate results are infinite or NaN. For any rounding the new front takes in a finite part of the surface water and leaves a finite rest, both between 0 and that water.", "quantifier": "all layers, all soils with van Genuchten parameters, all water contents below saturation, all positive frozen factors and sub-step lengths, every drive that is not negative; exact arithmetic", "why_tests_cant": "The depth solves a quadratic equation; a wrong coefficient or sign gives another plausible depth, and the water balance holds for every depth. A test with one expected value cannot show that the value is the fixed point for all parameters.", "anchors": ["src/lgar.cxx:2098-2229", "src/soil_funcs.cxx:34-140"]}
{"id": "C97", "title": "The ponding limit divides water between the surface and the runoff and changes nothing else in a step", "statement": "From the same state with a larger ponded_depth_max, a sub-step (and an Update with one sub-step) lets the same water into the soil, takes the same evapotranspiration, sends the same water through the bottom, stores the same water and ends with the same fronts up to their velocities. At least as much water stays on the surface, more by at most the difference of the limits, and exactly that much less runs off.", "quantifier": "all columns, soils, fronts, forcing, ponded water and all pairs of limits 0 <= pm <= pm'; exact arithmetic (equality of infiltration, fronts and storage also for any rounding); runs in which the ponded water is within its limit (outside of finding 5)", "why_tests_cant": "It relates two runs for every pair of limits. A limit that leaks into the infiltration or that is applied after the infiltration in one branch only still conserves water.", "anchors": ["src/lgar.cxx:1941-2092", "src/bmi_lgar.cxx:307-421", "src/bmi_lgar.cxx:218-504"]}
{"id": "C98", "title": "Water on the surface makes every front faster by its own share", "statement": "Calculating the velocities of the same fronts with a larger ponded depth changes nothing but velocities. Each front that is free to move becomes faster by exactly Ks (h' - h) / (z (theta - theta_below)), with the saturated conductivity Ks of its layer and its frost, limited to 10^4 cm/h; only a front that got the velocity 10^-9 standing for zero is exempt. At the end of every sub-step the velocities belong to the water left on the surface or to none; after rain in the previous sub-step, to the water left (refuted for the sub-step that makes a new front).", "quantifier": "all columns, soils, frost, lists of fronts and pairs of ponded depths h <= h'; exact arithmetic; both calculations return", "why_tests_cant": "It relates two calculations for every pair of ponded depths and every front. A ponded depth that is left out in one layer, or counted twice, changes velocities only while water stands on the surface.", "anchors": ["src/lgar.cxx:2362-2506", "src/bmi_lgar.cxx:281-427"]}
{"id": "C99", "title": "Rounding does not turn the soil functions round", "statement": "Evaluated in floating point, with any monotone rounding and overflow to infinity: the water content falls with the suction head and lies between theta_r and (theta_e - theta_r) + theta_r; the saturation of a head falls with the head and lies in [0,1]; the saturation of a water content rises with it; the conductivity rises with the saturation; the head falls with the saturation and is not negative; the demand for evapotranspiration does not rise with the head of the first front and does not fall with the potential evapotranspiration; the frost factor does not fall with the temperature. None of these results is NaN.", "quantifier": "all roundings; all soils with 0 <= theta_r < theta_e <= 1, alpha > 0, n > 1, 0 < m < 1; all pairs of arguments in order", "why_tests_cant": "A formula can be monotone over the reals and lose this in floating point, for single pairs of neighbouring doubles. Tests sample few of the pairs.", "anchors": ["src/soil_funcs.cxx:147-183", "src/aet.cxx:17-74", "src/lgar.cxx:842-849"]}
{"id": "C100", "title": "A larger initial head starts drier", "statement": "Appending a line initial_psi with a larger head to a configuration changes nothing in the column (layers, depths, soils, frost factors). The first state has the same fronts; none of them has a larger water content, and the initial storage of the mass balance is not larger. This holds after rounding.", "quantifier": "all roundings, configuration files, soil tables and pairs of heads 0 <= h <= h' for which both configurations are accepted; layers of positive thickness and soils with 0 <= theta_r < theta_e <= 1", "why_tests_cant": "It compares two starts for every pair of heads and every table. It needs that the last line of a key wins, that initial_psi reaches nothing but the fronts, and that every rounded operation of the storage is monotone.", "anchors": ["src/lgar.cxx:176-725", "src/lgar.cxx:733-771", "src/soil_funcs.cxx:147-150"]}
{"id": "C101", "title": "Saturation in double precision", "statement": "In binary64 no water content that the retention function can return, nor any up to theta_e, has a calculated saturation above 1: the conductivity is a number between 0 and Ksat and the head of a content above theta_r is not negative and not NaN. A content of at least theta_e, also one that exceeds it by rounding, has saturation 1, conductivity Ksat and head 0 exactly. The converse fails: with theta_r = 0.09 and theta_e = 0.34 a soil at head 0 has a calculated saturation of 1 - 2^-53 and a head above 0.", "quantifier": "all soils with doubles 0 <= theta_r < theta_e <= 1, alpha > 0, n > 1, 0 < m < 1, all water contents between theta_r and the larger of theta_e and the rounded content of some head >= 0", "why_tests_cant": "There are about 2^120 pairs of water contents. A single pair with a saturation one ulp above 1 would give pow of a negative number, NaN in the conductivity and in everything after it; no sample shows that there is none.", "anchors": ["src/soil_funcs.cxx:147-150", "src/soil_funcs.cxx:164-167", "src/soil_funcs.cxx:172-175", "src/soil_funcs.cxx:180-183"]}
{"id": "C102", "title": "No NaN in any front in double precision", "statement": "In binary64 no front ever holds a NaN. If the soils' parameters are doubles of a van Genuchten soil and every front's water content is one its soil can hold, its head not negative (it may be infinite) and its conductivity between 0 and Ksat, then this stays so after each sub-step of an Update and at its end, through calibration with such values, and through any sequence of Updates without ties and user edits; in a column of one layer through every sequence. Initialize leaves such a state when the initial head is not negative. The velocity routine never reaches its abort for a negative conductivity from there. Every water content that a client then reads is a finite number of at least theta_r with a saturation between 0 and 1. The standalone program prints no NaN for any front of a column of one layer, or of several layers without ties.", "quantifier": "all columns of any number of layers whose parameters are doubles with 0 <= theta_r < theta_e <= 1, alpha > 0 with finite 1/alpha, n > 1, 0 < m < 1, 0 <= Ksat; all states, forcings and execution paths in binary64", "why_tests_cant": "A NaN needs a content that leaves its range by one rounding error at one of thousands of operations of one of unboundedly many steps; tests see a few trajectories, and C75 speaks only of exact arithmetic.", "anchors": ["src/lgar.cxx:964-1544", "src/lgar.cxx:1545-1940", "src/lgar.cxx:2098-2171", "src/lgar.cxx:2362-2506", "src/lgar.cxx:2513-2654", "src/soil_funcs.cxx:147-183", "src/bmi_lgar.cxx:78-561", "src/bmi_lgar.cxx:582-660", "src/lgar.cxx:733-771", "src/bmi_main_lgar.cxx:32-179"]}
{"id": "C103", "title": "Routing keeps the order of runoffs and forgets, whatever the rounding", "statement": "With N unit-hydrograph ordinates and any rounding: if the ordinates, the runoffs and the queue are not negative, no discharge is negative or NaN, and more runoff at some calls or more water in the queue gives no less discharge at any call. Whatever the queue holds, NaN and infinities too, from the N-th call on the discharges depend on the runoffs only, to the last bit, and after N calls without runoff the discharge is exactly 0. Before the N-th call the old queue does show (refuted with witness).", "quantifier": "every number of ordinates, every queue, every sequence of runoffs of any length, every rounding function obeying the laws of Fp", "why_tests_cant": "Order and forgetting must hold for every pair of histories and every rounding error in them; a test compares a few histories and cannot tell an exact zero from a small remainder that will come back.", "anchors": ["giuh/giuh.c:12-39"]}
