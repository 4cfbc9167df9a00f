# Formal model of HPWHsim: design

## Approach

One model text, written once over an abstract number type (class `Num T`), is used at two instances:

* `R` (Coq's real numbers): conservation laws, bounds, termination, round trips.
  Rounding is abstracted away at this instance.
* `PrimFloat` (IEEE binary64 with hardware semantics in the kernel): executable tests against numbers
  from the repository's unit tests, and counterexamples that depend on rounding, NaN or infinities.

Control properties (demand response, lock-outs, choice of heat source, setters) are proved for *every*
`Num T` without using any arithmetic law; they therefore hold for doubles including NaN and infinities.

C++ exceptions thrown by `send_error` are an explicit outcome carrying the state at the time of the throw;
out-of-range vector accesses are a separate outcome (`UB`); unbounded loops take a fuel argument and
running out of it is a third outcome (`NoFuel`).  A division whose divisor can be zero on a reachable path is
a checked division: the real instance reports `UB`, the float instance computes the IEEE result.
`send_warning` has no effect in the model.

Heat-source objects are records in a list, pointers between them are indices.  The performance map of a
compressor (Btwxt interpolation, polynomials, third-party code) is an arbitrary function field of the record.

Every property theorem lives in a `Props*.v` file, is proved by `exact` of a lemma from a proof file, is followed by
an example showing that its hypotheses can be met, and by `Print Assumptions`.

## Per-property plan

* **C01** Inversion mixing terminates, stratifies and conserves heat -- Tank.v `mixInversions` (loop with fuel); termination by lexicographic measure (strict descents, weighted strict ascents); heat content as a sum over nodes; over R.
* **C02** Inversion mixing moves heat only upward and only as far as needed -- Prefix-sum characterisation of the isotonic regression, uniqueness proved separately from the code.
* **C03** Inversion mixing respects the temperature range and leaves stratified tanks alone -- Range invariant of every window mix; idempotence from the no-inversion exit.
* **C04** A draw conserves energy -- Draw loop with fuel; sum invariant over the node sweep.
* **C05** Draws cannot create temperature extremes -- Convex-combination invariant of the top-down sweep.
* **C06** Draw phase: no draw, and over-large second inlet -- Generic in the number type (no arithmetic laws used).
* **C07** The draw loop terminates -- R: measure = remaining node volumes; floats: vm_compute witness that 2^54 - 1 = 2^54 plus an invariant.
* **C08** Heat-exchanger draws conserve energy and stay in range -- Fold over nodes; sum and range invariants.
* **C09** Standby losses and conduction balance exactly -- Sum over nodes of the explicit update; telescoping of conduction.
* **C10** Standby phase respects the temperature range of a stratified tank -- Monotone profile gives sign of each difference; nra; counterexample over floats / R.
* **C11** Partial mixing at the bottom conserves heat, range and order -- mixNodes; affine map toward the mean.
* **C12** Adding heat above a node: conservation, limit and leftover -- Invariant of the water-filling loop.
* **C13** Adding heat fills from below like water -- Same invariant, stated as max(T, level).
* **C14** Adding heat to an inverted profile does not conserve energy -- Concrete witness.
* **C15** Distributing a heating capacity over the tank conserves energy -- Induction over nodes from the top with withheld/carried split.
* **C16** Resistance heating accounts for energy and time -- From C15.
* **C17** Integrated compressor heating accounts for energy and time -- From C15, performance an arbitrary function.
* **C18** External single-pass heating accounts for energy, volume and time -- Invariant of the do-while loop (any fuel), partial correctness.
* **C19** External multi-pass heating accounts for energy, volume and time -- Invariant of the do-while loop plus termination bound.
* **C20** Extra heat is fully delivered -- Invariant as C12 without a limit; resampling and thermal distribution sums.
* **C21** A whole simulation step balances energy -- Composition of C04,C09,C16-C20 through every branch of runOneStep, by a step-invariant on the state monad.
* **C22** The built-in energy balance check never raises a false alarm -- Algebra on top of C21.
* **C23** Multi-step runs report exact sums -- Induction over the step list.
* **C24** Multi-step outlet temperature is the volume average; undefined without draws -- R for positive draw, float witness for 0/0.
* **C25** Full demand-response lock-out stops all heating -- Generic in the number type.
* **C26** Compressor lock-out: no compressor ever adds heat -- Generic in the number type.
* **C27** Resistance lock-out: no resistance element ever adds heat -- Generic in the number type.
* **C28** Top-off timer -- Generic/R induction over steps.
* **C29** Run time never exceeds the step for sources that run at most once -- Invariant on run times through the heating loop.
* **C30** No node is heated beyond what the inputs allow -- Composition of bounds.
* **C31** Setpoint changes are all-or-nothing -- Generic in the number type, round trip over R.
* **C32** Setpoint feasibility query -- R.
* **C33** Fixed setpoints stay fixed -- Invariant over operation sequences.
* **C34** Setters with unsupported units are rejected without effect -- Generic.
* **C35** Unit conversions are inverse pairs -- R, field.
* **C36** Temperature differences given in Fahrenheit -- R, lra.
* **C37** Tank geometry -- R (Rpower).
* **C38** Resizing with UA adjustment keeps U -- R.
* **C39** Fractional heights always name an existing node -- R, floor lemmas.
* **C40** Setting layer temperatures: resampling is exact averaging -- R; overlap-integral specification, both branches of resample.
* **C41** Extensive resampling preserves totals -- From C40.
* **C42** Simulated thermocouples -- From C40.
* **C43** Normalisation terminates and normalises -- Measure: number of positive entries.
* **C44** Thermal distribution -- R with exp.
* **C45** Weighted distributions are piecewise integrals -- Step-function integral specification.
* **C46** Distribution-averaged tank temperature -- Same integral specification.
* **C47** Lowest heated node -- From C45.
* **C48** State of charge -- R.
* **C49** State-of-charge control has a dead band -- R.
* **C50** Temperature logic decisions follow the setpoint -- R.
* **C51** A heat source that should heat does not immediately shut off -- Generic.
* **C52** Idle units stay idle -- Generic.
* **C53** Compressor lock-out hysteresis -- Generic / R.
* **C54** Temperature depression converges and stays bounded -- Induction over histories.
* **C55** Energy removed from the environment -- Generic fold.
* **C56** Derived indices name what they should -- Induction over the source list.
* **C57** Resistance elements are addressed from bottom to top -- Sorted permutation.
* **C58** Setting the compressor capacity round-trips -- R; performance arbitrary.
* **C59** Configuration check -- Generic.
* **C60** Swapping performance-grid axes -- Mixed-radix index arithmetic.
* **C61** Grid vector clean-up -- Sortedness.
* **C62** Polynomial performance set interpolates its points -- R.
* **C63** Defrost derating -- R.
* **C64** 24-hour test draws what the pattern prescribes -- Loop invariant.
* **C65** First-hour-rating designation -- R.
* **C66** Fitting a parameter to a metric -- Arbitrary function, fuel = iteration cap.
* **C67** Temperature logic survives serialisation -- R.
* **C68** Tank survives serialisation -- R.
* **C69** External port heights survive serialisation for common node counts -- R floor lemma, floats by vm_compute over all heights of the named node counts.
* **C70** Copies of a simulator share state -- Store-based model.
* **C71** Heat-source choice: first come and VIP -- Generic.
* **C72** Sizing fractions -- R.
* **C73** A ready unit always completes its step -- Progress through every phase of the step; hypotheses are the readiness of the unit (`unitReady`) and fuel for the draw loop.
* **C74** External multi-pass heating always finishes -- Measure on the remaining time and the heat still missing; multi-pass only.
* **C75** Record and totals of the 24-hour test -- Loop invariant over the minutes of the test.
* **C76** First recovery period of the 24-hour test -- Same invariant, first recovery.
* **C77** Efficiency figures of the 24-hour test -- Algebra over the record.
* **C78** Standby period of the 24-hour test -- Standby minute by minute.
* **C79** Units without heat sources cannot be tested -- Generic.
* **C80** Setpoint across steps and tests -- State frames of the step.
* **C81** Generic models meet an energy factor -- C66 with the 24-hour test as metric.
* **C82** Generic models shift every point alike -- Shift of coefficients; C66.
* **C83** Fits at three conditions do not disturb each other -- Frames of the per-condition polynomials.
* **C84** Integrated units survive serialisation -- Round trip function by function; generic where no arithmetic is involved.
* **C85** Performance map of integrated units in the data model -- Round trip of grids and of the evaluated map.
* **C86** Writing and the simulator's state -- Frame of the writers.
* **C87** Names in the data model -- Induction over the list of sources.
* **C88** Central systems survive serialisation -- Round trip, index of the pole heights.
* **C89** What a resistance tank can be set up with -- Symbolic execution of the set-up, acceptance from C59.
* **C90** Losses follow from the energy factor -- R, field.
* **C91** Tanks of elements always run -- C73 and C23 on the set-up unit; ready and calm for all inputs.
* **C92** A rejected set-up is not undone -- Symbolic execution with errors.
* **C93** Generic resistance tanks -- As C89.
* **C94** The generic heat pump -- As C89; positivity of the performance map on the box of temperatures.
* **C95** Tables of results -- Writers as accumulating lists of fields; one field per column by induction over the columns.
* **C96** Schedules -- Invariant of the array over the entries read so far.
* **C97** The run command completes -- Induction over the minutes with the step theorems of C21, C22, C29 and C73.
* **C98** Daily totals -- Induction over the minutes with the minutes of the current day as invariant.
* **C99** Settings of a run -- Symbolic execution of the preparation; C97.
* **C100** Single-pass heating ends -- Measure on whole nodes still to be moved and ten thousandths of a degree still missing.
* **C101** Units with external condensers complete their steps and runs -- C73 with C100 and C74 for the heating call; between two heating calls the water stays in the range that bounds the loop.
* **C102** Integrated presets are accepted and start as described -- A boolean check on the records of the presets (computed once for all 64) that implies the acceptance conditions of C57/C59; its soundness is proved for every record.
* **C103** Integrated presets heat and complete their runs -- Positivity of every map on its rectangle by the signs of Bernstein coefficients at the ends of each segment, checked in Q; then C59, C73, C30 and C23 as for the generic unit.
* **C104** Preset data that defeat their purpose -- Evaluation of the two-point maps at the corner; comparison of the records with the unit they produce.
* **C105** External presets are accepted and are what they say -- A boolean check on the records of the presets, as for C102; the sizing fractions are a minimum of heights, computed in Q. Tank and losses by the cylinder of C37.
* **C106** Runs of external presets complete -- C101 with the presets of C105: a second check on the records gives the readiness of each logic, the flow of multi-pass units and the margins of the map; the Sanco map is checked segment by segment in Q as in C103.
* **C107** Queries about the compressor and single nodes -- Unfolding, with the compressor index and record of C105.
* **C108** What the name of a preset selects -- Enumeration over the list of names with boolean checks; acceptance by C102 and C105.
* **C109** Performance maps of the Colmac and Nyle single-pass presets -- Lower bound of the polynomial on a box from its expansion about the centre, checked in integers on a subdivision; runs by C106, setpoint by C80.
* **C110** Performance maps of the Colmac multi-pass presets -- The bounds of C109 with the outlet temperature absent; delivery by C106.
* **C111** Replacing the performance map of a unit -- Induction over the list of sources for the first compressor; C56 for the index.
* **C112** What heats in place of a locked-out source -- Frame relation for the locks through toLockOrUnlock, then the cases of the stand-in.

## Files

| File | Content |
|---|---|
| `Num.v`, `FNum.v` | the class of number types, the instances `R` and `PrimFloat.float` |
| `Base.v` | outcomes, the state monad, list access with undefined behaviour |
| `Types.v` | records for tank, heat source, heating logic, simulator; one setter per member |
| `Units.v`, `Utils.v` | HPWHUtils.cc/hh: conversions, resampling, distributions, polynomials |
| `TankM.v` | Tank.cc: mixing, draws, standby losses, geometry, inlets |
| `Logic.v` | HPWHHeatingLogic.cc and the queries of a heat source |
| `HeatSrc.v` | Resistance.cc, Condenser.cc: adding heat, performance, defrost, temperature limits |
| `Step.v` | HPWH.cc: runOneStep, runNSteps, extra heat, energy balance |
| `Setters.v` | HPWH.cc: setters, getters, sizing, derived values |
| `Perf.v` | polynomial sets, regressions, grid preparation |
| `Config.v` | checkInputs, configure |
| `Rating.v` | prepareForTest, findFirstHourRating, run24hrTest |
| `Fitter.v` | HPWHFitter.cc, makeGeneric... |
| `DataModel.v` | the readers (`from`) and writers (`to`) of every class |
| `Copy.v` | operator=, copy constructor, a store of objects |
| `Init.v` | HPWHpresets.cc:14-330: setAllDefaults, resistance tanks, the generic unit |
| `Legacy.v`, `LegacyTable.v` | HPWHpresets.cc:344-4374: what a preset's branch does, as an interpreter of records, and the records of the 64 presets with integrated sources |
| `ExtPreset.v`, `ExtTable.v` | HPWHpresets.cc:725-2171, 3796-3977: the same for the 44 presets with an external compressor, for any performance map |
| `ExtMaps.v`, `SpecSPMap.v` (sizes) | HPWHpresets.cc:725-971, 1164-1436: the coefficients of the maps of the Colmac and Nyle single-pass presets |
| `ExtMapsMP.v`, `SpecMPMap.v` (sizes) | HPWHpresets.cc:973-1162: the coefficients of the maps of the Colmac multi-pass presets |
| `PerfSwap.v` | HPWH.cc:1802-1833: replacing the performance map; what is assigned is a parameter |
| `SpecLock.v` | specification only: states that differ in locks alone (C112) |
| `Queries.v` | HPWH.cc:1766-1796, 2257-2295, 2317-2359: queries about compressor, nodes and thermocouples |
| `Models.v` | test/models_json/models.json, templates presets.h.j2 and presets.cpp.j2: enumeration and lookup; HPWHpresets.cc:331-342, 357-4353: dispatch of initLegacy; HPWH.cc:3048-3115, 3159-3168: names and classes of presets; Condenser.cc:1287-1358: axes of tables |
| `Report.v` | HPWH.cc: the CSV headings and rows (writeCSVHeading, writeCSVRow) |
| `Cli.v` | run.cpp, HPWH.cc setTankFromMeasured: schedules, the minutes of the run command, its tables of minutes and of days |
| `Spec*.v` | the vocabulary in which properties are stated (sums of heat, orders, integrals of step functions, readiness) |
| `Example.v` | concrete units for the examples |
| `*Proofs.v`, `Progress.v`, `SimFrame.v`, `WholeStep.v`, `StepEnergy.v`, `ExtProgress.v`, `SPProgress.v`, `StepProgress.v`, `RList.v` | proofs about the model functions |
| `*Facts.v` | the property statements with their proofs |
| `Props*.v` | the property theorems: statement, `exact`, `Print Assumptions` |

## Simplifications

Numbers.
* Theorems over `R` say nothing about rounding.  Where rounding decides (C07, C24, C69, ...) there is a statement at the float instance.
* `std::pow` is `Rpower`-like for positive bases; `exp` is `exp`.
* A divisor that can be zero is checked: `UB` over `R`.  The compiled program computes an infinity or a NaN there and continues.

Objects.
* A pointer between heat sources is an index into the list of sources; logics are not shared between sources.
* The member `isHTS` of state-of-charge logics, which no modelled function reads, is left out.
* `evaluatePerformance` is never null: a compressor without a map is outside the model.
* The courier throws on `send_error`; `send_warning`, `send_info` and `send_debug` have no effect.
* Strings that only document (name, description, product information, rating) are left out of the data model, names of heat sources are kept (C87).

Loops.
* A map of the class PerformancePoly_CWHS_SP reads the setpoint of the unit at each call. C109_positive is about all setpoints from 100 F; C109_run fixes the argument at the setpoint of the preset and shows that it is the setpoint of every state of the run.
* Loops without a bound in the source (draws, external heating, tests) carry fuel; `NoFuel` is never taken for success.  C07, C73, C74, C91, C94 say how much suffices.
* `std::sort` is an insertion sort; only the sorted result is used.

Third-party code.
* btwxt: the interpolator is an arbitrary function of the coil configuration, the grid and the target.  Its refusal of malformed tables is not modelled.
* nlohmann::json and the generated readers of vendor/hpwh_data_model are the identity on the members that are set.

Tests and fitting.
* Draw patterns start at whole minutes, as all patterns in the source do.
* The sentinel `DBL_MIN` of the secant method is an option.
* A failing polynomial evaluation in the fitter's map gives zeros where the source lets the exception pass.

Copies.
* The vector of shared pointers to sources is shared by the copies; equal to the source as long as no source is added to or removed from one of them.
* Steps of an object are modelled when the raw pointers of its tank and sources point to objects with its own setpoint.

Set-up.
* Elements created by `addResistance` get the configuration `Wrapped`; the member is left uninitialised by the source and read only by code for compressors.
* `configure` takes the class of the preset; `Models.v` gives the class of a name or number. `initLegacyId` takes the branch of a number to be the description of the preset of its name; a number in the range of a branch without a name is outside the model.

Files and tables.
* A file is its list of words; a word that is not a number is an explicit case.  Opening and closing files, the choice of paths and the printing of progress are left out.
* A row of a table is a list of fields; the number of digits printed is left out.
* `exit(1)` is the outcome `Err`.

## Hypotheses that restrict a theorem

* `domOn`, `domUp`, `domTo`, `reach`, `covered`, `coveredRun`: the performance map only has to be sound (positive power, or energy balance of output and COP)
  at water temperatures in a set `D` that contains every temperature the tank can reach; `calmUnit lo hi` and `coveredRun` give a set that suffices.
* `unitReady`, `unitOK`: what a step needs of a unit to complete; the examples exhibit units, C91 and C94 prove it of every unit set up by the modelled procedures.
* `unitReadyX True`, `extReady` (`SpecExt.v`), `calmRun`: the same for units with external condensers (C101): ports, shut-off logics and a range of temperatures the water keeps to; the examples exhibit a single-pass and a multi-pass unit.
* `deliversHeat`, `heatsAt` (`SpecExtPreset.v`): a map is positive in a range, and the compressors of a unit deliver heat there (C106); the map of the Sanco presets and a constant map meet them.
* `stopsHot`, `wholeHeight`, `passes` (`SpecExt.v`): shut-off logics, ports and loop bound for which single-pass heating ends; C100 shows by counterexample that the first and twelve nodes are needed.
* `acceptable`: what `checkInputs` demands (C59).

## Not modelled

* HPWHpresets.cc: of the presets of external systems (725-2171, 3796-3977) the coefficients of the performance maps other than those of the Sanco, Colmac and Nyle single-pass and Colmac multi-pass presets (the map is a parameter of `initExternal`); of all presets the members description, productInformation and rating10CFR430. The enumeration of models is generated by the build from test/models_json/models.json; `Models.v` has the names and numbers of that file.
* The commands measure, make and convert of `src/hpwh/*.cpp` (command line and files; the functions of HPWH they call are modelled), the test program.
* JSON report of test results (HPWH.cc:4266-4334).
* The interpolation of btwxt itself; which methods are chosen (setUpGridAxes) is modelled in `Models.v`.
* Concurrency: the source has none.

## Trusted base

* Coq 8.16.1's kernel, including its primitive 63-bit integers and binary64 floats for the float instance (`vm_compute` is used).
* The reading of the C++ source into the model; each definition cites the lines it models and says where it simplifies.
* The axioms printed by `Print Assumptions`, listed below per theorem.


## What Print Assumptions lists

Every property theorem and every example is followed by `Print Assumptions` in its `Props*.v` file.  The lists fall into four groups.

* **Closed under the global context** (no axiom, no primitive):
  * `PropsCentral`: C86_only_setpoint, C86_integrated, C86_functions, C86_grid
  * `PropsControl`: C25_full_lock_out, C26_compressor_lock_out, C27_resistance_lock_out, C28_timer_zero_without_top_off, C28_no_second_top_off, C51_should_heat_means_not_shut_off, C51_hot_tank_does_not_start, C52_idle_stays_idle, C71_first_come, C71_vip_takes_over
  * `PropsCopying`: C70_members, C70_shared, C70_writes_through, C70_logic_pointer, C70_owner_pointer, C70_neither, C70_constructed, C70_self, C70_source
  * `PropsFitter`: C66_secant, C66_fit, C81_EF_any, C66_pair_example
  * `PropsModels`: C108_lookup, C108_branch, C108_configure, C108_axes
  * `PropsNames`: C87_associations, C87_priority, C87_primary
  * `PropsPerf`: C60_transposes, C60_involution
  * `PropsPerfSwap`: C111_ignored, C111_first
  * `PropsRuns`: C24_no_draw_step
  * `PropsSchedule`: C96_schedule, C96_other_files, C96_too_late, C96_rejects_refuted
  * `PropsSetters`: C34_example
  * `PropsStandin`: C112_nothing, C112_stands_in
  * `PropsTank`: C06_no_draw_no_change
* **Axioms of the standard library's real numbers**, all or some of `ClassicalDedekindReals.sig_forall_dec`, `ClassicalDedekindReals.sig_not_dec`,
  `FunctionalExtensionality.functional_extensionality_dep`, `Classical_Prop.classic`:
  * `PropsCentralRT`: C69_ports, C88_central, C88_grid_points, C88_example
  * `PropsCommand`: C97_minutes, C98_days, C98_four_sources, C97_no_compressor, C97_no_soc_schedule, C99_command, C99_measured, C99_start_ignored, C99_air, C99_generic, C97_example, C98_example, C99_example
  * `PropsConfig`: C59_accepts_iff, C59_rejects, C59_soc_rejected, C59_configured, C59_rejected_keeps, C59_idempotent, C59_ready, C59_example
  * `PropsControl`: C25_compressor_standby_only, C28_timer_below_limit, C28_timer_counts, C53_lock_decision, C53_no_oscillation, C54_depression_step, C54_depression_bounded, C54_depression_converges, C55_energy_removed_from_environment, C53_example
  * `PropsCopying`: C70_thermostat, C70_step_length, C70_dangling, C70_condenser, C70_tank, C70_ex_own, C70_ex_tank
  * `PropsCsv`: C95_table, C95_no_compressor, C95_short_record, C95_preamble, C95_example
  * `PropsDataModel`: C67_temperature_logic, C67_charge_logic, C67_charge_refuted, C68_tank, C68_fraction_refuted, C67_example
  * `PropsDist`: C39_fraction_selects_node, C39_monotone, C39_ends, C39_set_inlet, C39_set_external_port, C40_layer_temperatures, C40_rejected, C41_total_preserved, C42_thermocouple, C42_average, C42_rejected, C43_normalize, C43_many_entries_refuted, C44_thermal_distribution, C44_cooler_nodes_first, C45_validity, C45_is_integral, C45_additive_normalised, C46_weighted_average, C46_top_bottom, C47_lowest_node, C48_formula, C48_bounds, C49_switch, C49_retarget, C49_dead_band, C49_negative_hysteresis_refuted, C50_comparison, C50_setpoint, C50_source, C39_example, C40_example, C42_example, C45_example, C46_example, C47_example, C48_example, C49_example, C50_example, C41_example, C43_example, C44_example
  * `PropsEnergy`: C15_heat_is_conserved, C15_succeeds, C16_resistance_accounting, C16_succeeds, C16_zero_power_undefined, C17_integrated_accounting, C18_single_pass_accounting, C19_multi_pass_accounting, C18_energy_bounds, C19_energy_bounds, C20_extra_heat, C20_succeeds, C21_step_balance, C22_no_false_alarm, C22_detects, C23_run_balance, C73_step_completes, C73_run_completes, C74_multi_pass_completes, C29_run_time, C30_step_range, C15_example, C16_example, C17_example, C18_example, C19_example, C20_example, C21_example, C22_example, C73_example, C23_balance_example, C29_example, C30_example, C73_domain_matters, C73_polynomial_example
  * `PropsExtPresets`: C105_accepts, C105_result, C105_size, C105_sizing, C105_example, C106_delivers, C106_single_pass, C106_multi_pass, C106_sanco, C106_sanco_cold, C106_example, C106_multi_example
  * `PropsExtRun`: C101_step_completes, C101_run_completes, C101_run_example, C101_step_example, C101_command_example, C101_multi_pass_example
  * `PropsFitter`: C66_line, C66_fit_result, C66_second_guess, C66_success_refuted, C66_fit_line, C66_damped_inverse, C66_least_squares, C81_EF, C81_cop, C82_UEF, C82_UEF_ambient, C83_three, C66_example, C66_damped_example, C83_points
  * `PropsInitGen`: C94_accepts, C94_performance, C94_positive_power_refuted, C94_runs, C94_example
  * `PropsInits`: C89_accepts, C89_result, C90_energy_factor, C90_monotone, C91_step, C91_run, C30_run_range, C91_range, C92_rejected, C92_compressor_known_refuted, C93_accepts, C93_result, C89_example, C90_example, C91_example, C93_example
  * `PropsLegacy`: C102_accepts, C102_result, C102_example, C103_maps, C103_runs, C103_example, C104_heats_refuted, C104_maxSetpoint_refuted, C104_input_refuted, C104_depresses_refuted, C104_sizes, C104_sizes_example, C104_threshold, C104_threshold_example
  * `PropsMPMaps`: C110_positive, C110_delivers, C110_larger, C110_example, C110_larger_example
  * `PropsModels`: C108_init, C108_renamed, C108_example
  * `PropsPerf`: C61_arrange, C61_trim, C62_interpolates, C62_at_points, C62_output, C62_single_rejected, C62_nearest, C63_outside, C63_interpolates, C63_range, C63_standard, C63_performance, C63_second_setup_ignored, C63_last_setup_wins_refuted, C62_example, C63_example
  * `PropsPerfSwap`: C111_single, C111_several, C111_example
  * `PropsQueries`: C107_external_presets, C107_no_compressor, C107_flow, C107_min_runtime, C107_node, C107_node_unchecked, C107_thermocouple, C107_example
  * `PropsRating`: C64_schedule, C64_total, C64_limits, C65_designation, C65_volume, C65_sustained, C75_record, C75_totals, C76_recovery, C76_efficiency, C77_figures, C77_no_adjustment, C77_annual_refuted, C78_standby, C79_never_ready, C80_step, C80_rating, C80_test, C65_monotone
  * `PropsRoundTrip`: C84_integrated, C85_grid_points, C85_defrost_lost, C85_defrost_refuted, C84_example, C85_example
  * `PropsRuns`: C23_sums, C24_outlet_mean, C24_succeeds
  * `PropsSPMaps`: C109_positive, C109_low_setpoint, C109_run, C109_example, C109_larger, C109_larger_example
  * `PropsSchedule`: C96_example
  * `PropsSetters`: C31_all_or_nothing, C31_when, C31_read_back, C32_maximum_is_accepted, C32_accepted_range, C32_no_source_refuted, C33_fixed_setpoint, C33_only_same_value, C34_rejected_without_effect, C34_depression_stored_before_error, C34_depression_refuted, C34_accepted, C35_inverse_pairs, C35_fixed_points, C35_order_preserving, C35_differences, C35_set_and_get, C36_converted_as_temperature, C36_running_compressor_warms, C36_celsius_cools, C37_one_cylinder, C37_monotone, C37_size_constants, C37_radius_in_feet, C37_radius_in_feet_refuted, C38_keeps_U, C38_rejected_unchanged, C38_plain_resize_keeps_UA, C31_example, C32_example, C33_example, C35_example, C38_example, C37_cylinder_unique, C37_example
  * `PropsSinglePass`: C100_single_pass_completes, C100_less_than_never_ends, C100_less_than_example, C100_few_nodes_never_end, C100_few_nodes_example, C100_example
  * `PropsSources`: C56_compressor_index, C56_lowest_element, C56_highest_element, C56_vip_element, C56_found_if_present, C56_derived_only, C57_map_lists_elements_in_order, C57_position_is_height, C57_set_capacity, C57_get_capacity, C57_read_back, C57_all_elements, C58_query_effect, C58_round_trip, C58_scaling, C58_query_keeps_setpoint_refuted, C72_logic_fraction, C72_node_range, C72_rejected, C72_ranges, C72_usable_refuted, C56_example, C57_example
  * `PropsTank`: C04_heat_content_is_stored_heat, C01_mixing_terminates_stratifies_conserves, C02_mixing_is_the_unique_isotonic_profile, C03_mixing_range_and_idempotence, C04_draw_conserves_energy, C05_draw_stays_in_range, C07_draw_terminates, C08_hx_draw, C09_standby_accounting, C09_standby_succeeds, C10_standby_range, C10_standby_range_refuted, C11_bottom_mixing, C12_add_heat, C13_add_heat_fills_like_water, C14_add_heat_inverted_refuted, C01_example, C02_example, C03_example, C07_example, C08_example, C09_example, C10_example, C11_example, C12_example, C13_water_filling_unique
* **Primitive types and operations of the kernel** (`PrimFloat.*`, `PrimInt63.*`; no axiom about them):
  * `PropsCentral`: C86_refuted, C86_example
  * `PropsCentralRT`: C69_doubles, C69_refuted, C69_example
  * `PropsConfig`: C59_accepted_runs_refuted
  * `PropsControl`: C27_compressor_takes_over_refuted, C25_example, C25_standby_example, C26_example, C27_example, C28_example, C51_example, C52_example, C53_run, C54_example, C55_example, C71_example, C71_first_example
  * `PropsCopying`: C70_refuted, C70_ex_thermostat, C70_ex_step_length
  * `PropsDataModel`: C68_volume_refuted
  * `PropsEnergy`: C16_zero_power_nan, C16_negative_power_refuted, C20_negative_total_refuted, C20_zero_total_refuted, C29_power_times_run_time_refuted
  * `PropsFitter`: C66_converged_refuted, C66_pair_run, C81_example, C81_index, C82_example, C83_example
  * `PropsNames`: C87_refuted, C87_example
  * `PropsPerf`: C61_example, C60_example
  * `PropsRating`: C64_example, C65_example, C77_example, C78_draw_refuted, C79_example, C80_example
  * `PropsRuns`: C24_no_draw_run, C23_example, C24_nan_example
  * `PropsSetters`: C36_example
  * `PropsSinglePass`: C100_single_pass_heats_refuted
  * `PropsSources`: C58_example, C72_example
  * `PropsStandin`: C112_example, C112_beside_vip_refuted
  * `PropsTank`: C07_draw_float_never_ends_refuted, C07_refuted_example
* **Both** (a statement about every number type with an example at both instances):
  * `PropsCopying`: C70_ex_source
  * `PropsTank`: C06_example

No axiom is declared in this development.
