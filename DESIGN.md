# Formal model of LGAR-C (LASAM) in Rocq

Source: `/repo` (NOAA-OWP/LGAR-C, C++), read as text only. Prover: Coq 8.16.1, files in `rocq/theories`.

## 1. Approach

* The model is a set of total Gallina functions, one per C/C++ function, written in the order of the source
  statements. Each definition cites file and lines.
* **Numbers.** `double` is the type `dbl` = finite real | +inf | -inf | NaN (`Dbl.v`). Every arithmetic
  operation follows IEEE-754 on the special values and applies a rounding function `rnd : R -> dbl` to the exact
  real result. `rnd` is a parameter of the whole model (class `Fp`): it is required to be monotone, not NaN, exact on 0.
  The exact instance gives real arithmetic; the binary64 instance (`Binary64.v`, Flocq: round to nearest even, overflow to
  infinity) is the machine arithmetic. Structural, memory-safety and bound theorems are proved for every such rounding;
  conservation laws are proved for the exact instance, the ledger and the routing also in rounded arithmetic with an error
  bound (C65, C66). Signed zeros are not modelled; `pow`, `exp`, `sqrt` are taken as
  the rounding of the exact function. `int` is `Z` (no overflow), conversions from `double` to `int` are checked.
* **Control.** Functions return `outcome A`: `Ok a`, or a stop with a distinct reason: `UB` (null dereference, out of
  bounds, use after free, uninitialised read, double free, bad conversion), `Abort`, `AssertFail`, `Exit n`, `Throw`,
  `Diverge` (proved non-termination) or `OutOfFuel` (the bound given to an unbounded loop was not enough).
  Undefined behaviour is never assumed away.
* **Lists.** `struct wetting_front*` lists are Coq lists of records and pointers into them are positions. `HeapList.v`
  models `linked_list.cxx` a second time at the level of heap nodes and pointers, `HeapFronts.v` and `HeapUpdate.v` do so for
  the routines on fronts and for `Update`; refinement theorems link the two levels (C22, C59, C74).
* **Specifications** (`Spec*.v`) are stated over real-valued profiles, integrals as finite sums, convolution sums, etc.,
  without using model helpers. Property theorems live in `Prop_*.v`, each closed by `exact` of a lemma and followed by
  `Print Assumptions`; an `Example` beside it meets its hypotheses on a concrete case.
* When the code does not satisfy the property, the theorem is named `..._refuted` and exhibits a witness; what does hold
  is proved separately.

## 2. Plan per property

| Property | Model | Proof idea |
|---|---|---|
| C01, C02 | `Update` complete, soil routines as modelled | ledger invariant by induction over sub-steps and history; the soil routines may return anything |
| C03, C04, C05, C45 | `lgar_insert_water`, `lgar_create_surficial_front`, surface part of `Update` | case analysis on branches; fold over sub-steps |
| C06, C07, C08 | `giuh_convolution_integral`, resampling loop | induction over call history; convolution sum as spec |
| C09, C10, C11, C46 | clock and sub-step part of `Update`, `UpdateUntil` | truncation lemmas, induction over sub-steps |
| C12, C13 | invalid-soil path, assertions | induction over history / direct |
| C14-C17, C19, C20 | string-level BMI tables and a store of arrays | exhaustive case split on the name decision tables, frame lemmas |
| C18 | end of `Update` | loop invariant |
| C21, C23, C47 | list level `linked_list.cxx` | induction on lists, divergence by invariant |
| C22, C49 | heap level `linked_list.cxx` (`HeapList.v`), `Finalize` and the arrays (`Life.v`) | representation predicate, refinement |
| C24-C29 | `lgar_calc_mass_bal`, merge, cross layer, cross domain, fix dry-over-wet, create front | mass decomposition over list splits, loop invariants, field identities |
| C30, C31 | `lgar_move_wetting_fronts`, `Update` | inductive structural invariant; absence of UB from it |
| C32-C34 | `soil_funcs.cxx` | real analysis with `Rpower`; termination argument for the integration |
| C35, C36, C37, C38 | `calc_aet`, frozen factor, `lgar_dzdt_calc` | clamp lemmas, signs and monotone rounding exclude NaN, loop invariants, witness |
| C39, C40 | `update_calibratable_parameters` | frame argument over histories, witness |
| C41-C44, C50 | `InitFromConfigFile`, `ReadVectorData`, `InitializeWettingFronts`, `lgar_read_vG_param_file` with `stod`/file content as parameters | induction over lines / layers |
| C48 | `lgar_theta_mass_balance` | loop invariant with fuel |
| C51 | `ReadForcingData` with streams and their flags | induction over lines; termination by the rest of the text |
| C52, C54, C55 | `main`: configuration, forcing, loop, columns | induction over steps, on top of the theorems for `Initialize`, `Update` and the interface |
| C56, C57 | `calc_Geff`, `calc_aet` | area function of a decreasing integrand, loop invariants; inverse of the retention curve |
| C58 | step counts and clock, `binary64` instance (`Binary64.v`) | error bounds of rounded quotients; exactness for the divisors of the hour by computation |
| C59 | `listSortFrontsByDepth` on lists and heap nodes (`DepthList.v`) | invariant of the passes: the tail is sorted and above the rest; refinement of the pointer code |
| C60 | `listFindLayer`, `listInsertFrontAtDepth` on heap nodes | induction on the layers and on the chain of nodes |
| C61 | `lgar_move_wetting_fronts` as a whole, one layer, exact reals (`Move.v`) | induction from the deepest front up; invariant of the closing loop; merging, bottom and repair keep the order of the fronts |
| C62 | `move_one`, `move_loop` (`Move.v`), every rounding | one front at a time, induction from the deepest front up |
| C63 | `substep` as a whole: demand, creation of a front, infiltration, motion, velocities, local balance; one layer, exact reals (`Update.v`) | C61 for the motion; the other phases keep the order of the fronts and the sum of the water |
| C64 | length of `st_head` through `Update`, every rounding (`Update.v`, `Move.v`, `Fronts.v`, `Infil.v`) | no routine but the creation of a front lengthens the list; the rain of the previous sub-step equals that of the next one inside an Update, so the decision to create holds at most once |
| C65 | ledger of `substep`, `finish_update`, `global_error` in any rounding of a given accuracy (`Spec_LedgerFp.v`), and in `binary64` | every addition is inverted to within eta; induction over sub-steps, Updates and user edits; accuracy of binary64 from Flocq |
| C66 | `giuh_convolution_integral` in any rounding of a given accuracy, and in `binary64` | the rounded queue runs beside the exact one; an entry is off by at most 2 eta per call it has been through |
| C67 | `lgar_theta_mass_balance`, exact reals (`Infil.v`) | invariant of the stages of the search; the head never falls below the starting one |
| C68 | `lgar_theta_mass_balance`, exact reals (`Infil.v`) | nested induction: divisions of the step, then steps of a run, then passes with an equal mass |
| C69 | one sub-step of `Update`, one layer, exact reals (`Update.v`) | the phases one after another, for one front and for several |
| C70 | `Initialize` and `Update` on one layer, exact reals (`Config.v`, `Update.v`) | invariant `one_layer` over histories, established from the text of the configuration |
| C71 | `main` of the standalone program on one layer, exact reals (`Driver.v`) | induction over the loop of `main`, with C70 and the column sums of C55 |
| C72 | every function that uses the bound `fuel`, every rounding | function by function: more passes give the same outcome or the smaller bound was reached |
| C73 | both unbounded loops, sub-step, Update, program, exact reals | per loop a measure (integration step bounded below; divisions of the step of the head); upwards: from some bound on the outcome is constant and is not `OutOfFuel` |
| C74 | every routine on fronts, and `Update`, on heap nodes and pointers (`HeapFronts.v`, `HeapUpdate.v`), every rounding | simulation: a heap with two separate chains pictures two sequences; routine by routine the pointer code keeps the picture |
| C75 | every routine that writes water content, head or conductivity of a front, up to `Update`, the calibration and `Initialize` | invariant `physical_front`, routine by routine, exact arithmetic; histories by induction |
| C76 | `move_loop`, `move_one`, `balance_theta`, `lgar_theta_mass_balance` | attribution of the storage to fronts by induction over the profile; the pass by induction over the fronts with the books `d`, exact arithmetic |
| C77 | the motion with its merging, crossing and repairing, creation of a front, `update_calibratable_parameters`, `Update`, `Initialize` | invariant on lists of physical fronts, routine by routine; induction over the repair with a positional condition; exact arithmetic |
| C78 | `GetGridRank`, `GetGridSize`, `GetGridShape`, `GetGridSpacing`, `GetGridOrigin` | case analysis on the identifier; memory without a value as in the rest of the model |
| C79 | `lgar_move_wetting_fronts`, `lgar_create_surficial_front`, one sub-step of `Update` | the exact effect of each phase on the storage (C24 to C29, C48, C76) composed along the motion; the closure of the balance is either exact, within its tolerance, or the gap of the pass; a front that the pass leaves saturated is still the one that the closure adjusts after layer crossing |
| C80 | `lgar_read_vG_param_file` on the bytes of the file (`TableFile.v`) | fgets as a function on the rest of the file; byte arrays with unset bytes; refinement to the reading of rows |
| C81 | the printing of `main` and `write_state` (`Output.v`) | printf of integers and of fixed-point numbers as texts; induction over digits, values and rows; cells of the forcing file are free of commas and line feeds; triangle inequality for the sums |
| C82 | `lgar_move_wetting_fronts`, `lgar_create_surficial_front`, one sub-step of `Update` | an invariant of closure, merging, crossing and the bottom crossing: physical fronts, heads that meet at boundaries (C75) and water contents that decrease downwards within each layer; it excludes zero divisors and inversions, so that C79 applies without them |
| C83 | `Update` with all its sub-steps, the global balance, and `Initialize` before it | induction over the executed sub-steps with an invariant of the whole state (fronts in order, velocities that do not rise, pond and storage that agree with the totals); each sub-step by C82 and the bounds of C79; the sum by the ledger of C01 |
| C84 | Dry weather in layered columns: sub-step (move, closure, merging, velocities, balance check), Update, simulations, Initialize | The hydrostatic form (one resting bottom front per layer, one head) is an invariant: the pass settles each layer in turn at the head below and the lowest layer by the iteration, so all layers end at one head; repairs and merges are idle. Induction over the fronts, the sub-steps and the history. |
| C85 | Rain on layered columns with wetting fronts in the first layer: sub-step (insert_water, create, move, merging, crossing, closure, velocities, balance check), Update, simulations | The pass moves the wetting fronts of the first layer without touching the fronts below, so the first front takes the whole volume and stays wetter than the next; this discharges the hypotheses of C83 except for ties. Induction over the fronts, the sub-steps and the history. |
| C86 | The standalone program on layered columns in a drought: configuration, forcing file, Updates, output lines, printed balance | Initialize gives a resting column (C84). Each Update keeps it resting and its recorded balance within the tolerance; the unit hydrograph of nothing is nothing. Induction over the rows of the forcing, then the ledger of the whole history gives the printed balance. |
| C87 | Indeterminate memory, client writes, unit hydrograph and future rows make no difference | Two executions are related step by step: the reader of the soil table up to the unused column, the Update up to the edited or routed fields (each part of the Update commutes with the change of these fields), the driver by induction over its steps. Two executions either both end with related results or stop for the same reason. |
| C88 | Cutting a forcing interval into k parts changes nothing in the soil; fluxes add up | The sub-step loop is shown not to read the fields in which the two states differ and to add increments that do not depend on the accumulators; a loop of k*m sub-steps is cut into k loops, each between the prologue and the epilogue of an Update; induction over k and over the steps of the driver. |
| C89 | The unit test passes exactly for configurations of the right size that meet the benchmark; its exit code says nothing | UnitTest.v models main of the test as a client of the interface. Its first part is evaluated for a symbolic state of any size, the setters and getters by their memory model, the comparisons by case analysis on the number of published fronts. |
| C90 | More rain on the same soil: infiltration, runoff and ponded water do not decrease, and share the additional rain | Two executions of sub_hydro are compared: the infiltration capacity turns out not to depend on the rain, the decision to create a surficial front depends on its sign only, and the partition at the surface is monotone. The sum comes from the balance at the surface (C03). For any rounding the partition is rewritten in terms of the rest `max(w - capacity, 0)`, which is monotone in w. |
| C91 | Only the soils of the layers matter: numbering, other rows and names of the soil table have no influence; refuted for layers sharing a row while calibration values wait | Each routine is shown to give the same result in two environments with the same soil per layer (congruence), Update follows; for calibration the writes into the two tables are followed. For programs, Initialize is compared line by line, and the soil derived from a row is shown to depend on its five numbers only. |
| C92 | Calibration switched on without changing a value has no effect | The loop of the calibration is followed over the fronts: each write leaves the table as it is since the parameters are equal, m included, which Initialize computed by the same expression; water contents were computed from the same head. Initialize and the reading of the configuration are shown not to depend on the flag otherwise. |
| C93 | The columns giuh_runoff and total_discharge of the output file are the convolution of the column surface_runoff with the configured hydrograph, and the run drains | The Updates of the loop of main are calls of the routing one after the other (induction over the lines, C55), the ordinates after Initialize come from C08, the rest is C07; metres and centimetres by linearity of the convolution. |
| C94 | The allocators give zeroed arrays counted from one; a matrix can be incomplete without notice (refuted), an empty one ends the program with success | `Alloc.v` models malloc with an arbitrary pattern of refusals, sizes in bytes as size_t, memset and stores with bounds; the loop over the rows by induction. |
| C95 | Other frozen factors leave the motion of the fronts in a step unchanged up to conductivities; a colder soil takes in at most as much water in a step, and more stays or runs off | A relation between fronts up to conductivity goes through every phase of lgar_move_wetting_fronts, for any rounding. The drive is unchanged when the conductivity is scaled (induction over the integration loop); the capacity and the dry depth increase with the factors; lower temperatures give lower factors through the exponential and the mean of the cells of a layer (C36). |
| C96 | The depth of a new front is the unique fixed point of its velocity, cut at the bottom of the layer; it grows at most in proportion to the sub-step; a drier soil takes in at least as much | The root of the quadratic equation in lgar_calc_dry_depth is shown to satisfy the fixed-point equation, and that equation to have one positive solution; monotonicity of the root in the time step and of root times deficit in the deficit. |
| C97 | A larger limit for ponded water leaves infiltration, evapotranspiration, recharge, storage and fronts (up to velocities) of a step unchanged; the water that stays grows by at most the difference, the runoff falls by as much | Both runs are inverted side by side: everything up to the partition of the surface water is the same computation; case analysis of surface_partition; the velocities come last and are the only part that sees the ponded water. For any rounding: a positive rest means, by monotonicity, that the capacity is the smaller number. |
| C98 | With more water on the surface each free front is faster by Ks (h' - h) / (z (theta - theta_below)), up to the limit of 10^4 cm/h | Both calculations inverted side by side; case analysis on finite and infinite values; induction over the list. For a sub-step: calculating the velocities a second time changes nothing, so the ponded depth they belong to can be asked for afterwards |
| C99 | After any rounding the soil functions, the evapotranspiration demand and the frost factor are still monotone, and not NaN | One monotonicity lemma per operation (overflow and special cases of pow included), composed; signs and the range [0,1] exclude NaN |
| C100 | Appending a line with a larger initial_psi leaves the column alone; no front starts wetter and the initial storage does not grow, after any rounding; in binary64 no conductivity grows | Inversion of Initialize for both files; C99 for the water contents; induction over the fronts with rounded sums and products |
| C101 | `soil_funcs.cxx` in binary64: no saturation above 1, so no NaN; contents from theta_e on are saturated exactly; head 0 need not be | The rounded sum is as near as theta_e is; the mirror image of a number in its rounding is not rounded up (ties to even, narrower gap below a power of two); then monotone rounding |
| C102 | the whole Update, calibration and Initialize in binary64: water contents, heads and conductivities of all fronts are never NaN | The invariant of C75 with rounding: contents up to theta_e or up to a rounded retention value have a saturation in [0, 1] (C101); clamps and monotone rounding keep contents in range; the subtraction in the new front is exact (Sterbenz) |
| C103 | `giuh_convolution_integral`, any sequence of calls, any rounding | One call entry by entry; two queues agree from entry p on, and p falls by one with each call; rounded sums and products of non-negative numbers are monotone |
| C53 | calls of the interface from `Initialize` on | invariant of the object preserved by every call |

## 3. Trusted base

* Coq 8.16.1: kernel, `coqc`, the standard library. No plugin, no kernel check switched off, no axiom of our own.
* Libraries used: the standard library, `RecordUpdate` (record notation only), in some proofs `Coquelicot` (derivatives) and `Flocq`
  (binary64 instance). They add no axioms of their own to the theorems.
* `Print Assumptions` after every theorem in `Prop_*.v` lists a subset of
  `ClassicalDedekindReals.sig_forall_dec`, `ClassicalDedekindReals.sig_not_dec`, `FunctionalExtensionality.functional_extensionality_dep`
  (the axioms behind the type `R`) and `Classical_Prop.classic` (used by the real analysis of the standard library).
  `ASSUMPTIONS.md` gives the list for each theorem.
* The hand translation from C++ to Gallina. Every definition cites its lines. It was checked only by reading and by the worked examples in `Ex_*.v`.

### What is modelled

| Source | Model file | Remarks |
|---|---|---|
| `src/linked_list.cxx` | `ListOps.v`, `HeapList.v`, `DepthList.v` | twice: on lists and on heap nodes; `listPrint`, `listIsEmpty` not modelled |
| `src/soil_funcs.cxx`, `src/aet.cxx` | `Soil.v` | complete |
| `giuh/giuh.c` | `Giuh.v` | complete |
| `src/lgar.cxx` 816-2654 | `Fronts.v`, `Infil.v`, `Move.v`, `HeapFronts.v` | every routine called by `Update`, on lists and (those that touch fronts) on heap nodes; printing left out |
| `src/lgar.cxx` 73-807, 2277-2356 and `Initialize` | `Config.v`, `TableFile.v` | text of the lines to state, including `stod`, `stoi`, `sscanf`; the soil table also as bytes and character arrays |
| `src/bmi_lgar.cxx` 78-660 | `Update.v`, `State.v`, `HeapUpdate.v` | `Update`, `UpdateUntil`, calibration; `Update` also on heap nodes |
| `src/bmi_lgar.cxx` 693-1183 | `Bmi.v`, `Grid.v` | all names, sizes, pointers, get and set |
| `src/bmi_main_lgar.cxx` | `Driver.v`, `Output.v` | `main` and `ReadForcingData`, streams with their flags; the text of the two output files; what is printed to the screen is not modelled |
| `tests/main_unit_test_bmi.cxx` | `UnitTest.v` | `main` as a client of the interface, with `assert` compiled in; printing left out |
| `src/mem_funcs.cxx` | `Alloc.v` | all allocators, with arbitrary refusals of `malloc`; no built program calls them |
| memory of the object, `Finalize`, destructor | `Life.v` | addresses and ownership only; the steps of `Update` appear as actions on the list |

### What is not modelled

* Console output, verbosity "high", the framework glue for ngen.
* Code that no built program calls: `src/main.cxx`, `src/x*.cxx` and `include/X_stuff.hxx` are not in `CMakeLists.txt`.
* `int` overflow (`int` is `Z`), signed zeros, the sign and payload of NaN, floating point exceptions and rounding modes.
* `pow`, `exp`, `sqrt`: the rounding of the exact real function. A libm with other errors is covered by the theorems that hold for every rounding
  as far as the function stays monotone.
* `volQ_gw_cm` (never initialised by the code, never output) and the fields that nothing reads.
* Hexadecimal numbers in `stod`/`sscanf`.
* Indeterminate values that the code stores but never uses are an arbitrary parameter (`junk`); every other read of an unset value is undefined behaviour.

### Validation of the model

Extracted to OCaml with machine floats, the model passes the unit test of the repository and reproduces the benchmark of the real program (four fronts after twelve
sub-steps) in 15 to 17 digits; it also follows the recorded output of the two synthetic examples. See `validation/README.md`. This is a test of the model, no theorem
depends on it.

### Statements

* Theorems quantified over `fp : Fp` hold for every rounding: exact reals and binary64 alike.
  Theorems under `Local Existing Instance exact` are about real arithmetic: they say what the algorithm does, not what the last bits are.
* `Cfg` holds the step budget of the numerical loops and the NGEN build flag. Theorems hold for every value; a result `Ok` means the budget was enough.
* A theorem with suffix `_refuted` states that the code violates the property, with a witness.

## 4. Findings

Numbers in brackets are properties with a theorem.

1. Forcing resolution above one hour: no unit-hydrograph ordinate remains and the first `Update` writes before the queue [C08].
2. `listInsertFront` never returns for an interior position; a missing predecessor is a NULL dereference [C23].
3. `listSortFrontsByDepth` leaves head, conductivity, bottom flag and velocity behind; `listDeleteFirst` does not change the caller's list.
4. A NaN residual passes the mass-balance check [C02].
5. Ponded water can exceed its maximum when the remainder equals it exactly [C05].
6. A time step that does not divide the forcing resolution loses time; a longer one stops the clock [C09]. `UpdateUntil` ignores its argument [C46].
7. The invalid-soil path: fluxes pass through [C12], but `Initialize` already reads outside the soil table for such a layer. The shipped Bushland
   configuration does this [C44].
8. `soil_storage_model` and `van_genuchten_m` have a grid but no value [C19]; `soil_depth_layers` is in centimetres and shifted by one layer [C20];
   setting `soil_num_wetting_fronts` makes later reads leave the arrays [C15].
9. Crossing into a layer with equal water content does not conserve water [C26]. A blocked crossing loses water [C26].
10. Dry-over-wet repair skips the front after a deleted one [C28].
11. A front lying exactly on a boundary when another passes it breaks the layer order [C30].
12. A layer-1 front below the residual water content is deleted and then used [C31].
13. AET reported can be negative or above PET because errors of the mass balance are booked on it [C35].
14. The frozen factor of a layer without cells reads past the temperature profile [C36].
15. The velocity pairs the thickness of layer j with the conductivity of layer k-j [C38].
16. Two layers of one soil cannot be calibrated separately [C40].
17. Text after a unit or an unknown unit silently means hours; an unclosed bracket means seconds [C42].
18. A missing `layer_thickness` is noticed only after `num_layers` was read unset [C41].
19. The stored wilting-point water content uses an unset exponent; n <= 1 leaves parameters unset; a blank or incomplete row silently repeats
    the previous soil; in the shipped table soils 7 and 11 get the values of soils 6 and 10 [C50].
20. `soil_z` without coupling, repeated lines and a destructor without `Finalize` leak; `Finalize` twice is a use after free [C49].
21. Conductivity of a new front is multiplied by the frozen factor twice (`lgar.cxx:2154-2160`).
22. `volend_cm` is 0 until the first `Update`: the balance printed before it equals the initial storage [C71].
23. A negative `wilting_point_psi` makes the AET demand NaN.
24. `listInsertFrontAtDepth` dereferences NULL on a list of one element, takes the head by value, does not set the number of a new first front and leaks a node
    whose depth is outside of the soil [C60]. `listSortFrontsByDepth` leaves heads and velocities behind and breaks the numbering [C59]. Nothing calls them.
25. A forcing file without a line feed at the end: the last row is used twice. A row with two cells is accepted and moves the
    evapotranspiration of all later steps [C51].
26. `forcing_file` takes the first line with its key, every other key the last one [C51].
27. An unterminated forcing file with only a header line throws from `stod`.
28. `calc_Geff` pairs each trapezoid with the width of the next step, starts from the conductivity of the wrong end and never cuts the last step: with nearly equal
    conductivities the drive is nine times too large [C56].
29. `main` takes `int(endtime / timestep)` without the guard 1e-8 that the sub-step count has: with a forcing resolution of 57 s the last step is lost, and a run of
    57 s does nothing [C58]. Divisors of the hour are not affected.
30. A column with one front in a soil with n close to 1 and a head near 1e7 cm: the step of the head iteration jumps past 1e7, the search breaks off with too little water,
    the difference is booked on AET with the wrong sign and the local balance aborts the run [C69 leaves this reason open].
31. A front at the residual water content has an infinite head; when it receives water its head becomes NaN and the clamp sets it to saturation.
32. With an even integer n (for example 2) the head iteration accepts negative heads past saturation: the retention curve is even there, so the content returned can be
    lower although water was added.
33. Wetting can dry a front by a tiny amount: the first step up is one tenth of the head even where the mass already matches [compare C67].
34. The repair of a dry front over a wet one sets the layers above to the head of the lower of the two. With a wetter front of the same layer further up, the head
    then jumps at the boundary of the layer [C77_buried_inversion_refuted].
35. GetGridShape writes the size of the front grid to shape[1] although its rank is 1; GetGridSpacing and GetGridOrigin of grid 0 read members that nothing
    initialises [C78_shape_of_fronts_refuted, C78_spacing_and_origin_refuted].
36. The test of the length of a soil name comes after the name was written to a 30-byte array and lets 25 characters through to a 25-byte array; a header of more than 253 characters
    in the soil table shifts all soils by one [C80_name_overrun_refuted, C80_long_header_refuted].
37. The unit test returns 0 on every path that returns (FAILURE and SUCCESS are both 0), has room for four fronts only, and its comparisons of infiltration, PET and AET accept NaN [C89_passes, C89_buffers_refuted, C89_meaning].
38. `src/mem_funcs.cxx`: `itwo_alloc` and `dtwo_alloc` return a matrix with null rows when a row cannot be allocated, without any notice, and call `exit(0)` for a size of zero (C94).
39. `lgar_insert_water` multiplies the conductivity of the draining front's layer by the frozen factor of the first layer (`frozen_factor[current->layer_num]` with `current = head`, `lgar.cxx:1978-1998`): frost in that deeper layer has no effect on the infiltration capacity [C95_frost_of_the_lower_layer_is_ignored].
40. **Water on the surface is ignored by a new front.** In the sub-step that makes a surficial front, water that did not fit and is below `ponded_depth_max` is moved to `volon` and the ponded depth is set to zero before the velocities are calculated (bmi_lgar.cxx:387-392 and 424), so the new front moves as if nothing stood above it. If the limit is reached the velocities do see the water (:393-397): with a larger limit the front is slower. Proved in `C98_new_front_ignores_water_refuted` and `C98_larger_limit_is_faster_refuted`.
41. **Saturated silt holds more than its saturated water content** (soil_funcs.cxx:147-150). calc_theta_from_h adds theta_r to the rounded theta_e - theta_r. In binary64 the sum is one unit in the last place above theta_e for the silt of data/vG_default_params_HYDRUS.dat (0.034 and 0.46), at head 0. `C99_saturated_content_refuted`.
42. **Head 0 is not always saturated** (soil_funcs.cxx:147-183). With theta_r = 0.09 and theta_e = 0.34 a soil at head 0 has less water than theta_e in double precision; from its content the code calculates a saturation of 1 - 2^-53 and, for alpha = 1/64 and n = 2, a head of 10^-6 cm instead of 0. The opposite error (finding 41) is harmless: such contents are saturated exactly [C101].
43. **A half point of zero head makes the evapotranspiration NaN** (aet.cxx:17-74). wilting_point_psi and field_capacity_psi are read without a check; with both 0 the head at which half of PET is met is 0, and the quotient 0/0 of a saturated surface front makes the demand NaN. The clamps after it compare with NaN and let it pass [C35].
44. **An infiltration capacity that is NaN lets all the water in** (lgar.cxx:2041-2091). fmin and fmax ignore a NaN operand, so the whole surface water infiltrates and nothing runs off; a front of depth 0 without capillary drive and ponding has such a capacity (0/0) [C45].
45. **Rain on saturated silt infiltrates backwards in double precision** (lgar.cxx:2029-2039). The content the code gives this soil at head 0 is one unit in the last place above theta_e (finding 41), so the column holds more than its largest storage and the infiltration capacity is negative: in a column of 64 cm -2^-48 cm of 2 cm infiltrate and more than 2 cm run off [C45].
