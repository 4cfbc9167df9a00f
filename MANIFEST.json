{
 "claims": [
  {
   "property": "C01",
   "status": "proved",
   "theorems": [
    "C01_mixing_terminates_stratifies_conserves"
   ],
   "note": "Inversion mixing terminates, stratifies and conserves heat"
  },
  {
   "property": "C02",
   "status": "proved",
   "theorems": [
    "C02_mixing_is_the_unique_isotonic_profile"
   ],
   "note": "Inversion mixing moves heat only upward and only as far as needed"
  },
  {
   "property": "C03",
   "status": "proved",
   "theorems": [
    "C03_mixing_range_and_idempotence"
   ],
   "note": "Inversion mixing respects the temperature range and leaves stratified tanks alone"
  },
  {
   "property": "C04",
   "status": "proved",
   "theorems": [
    "C04_heat_content_is_stored_heat",
    "C04_draw_conserves_energy"
   ],
   "note": "A draw conserves energy"
  },
  {
   "property": "C05",
   "status": "proved",
   "theorems": [
    "C05_draw_stays_in_range"
   ],
   "note": "Draws cannot create temperature extremes"
  },
  {
   "property": "C06",
   "status": "proved",
   "theorems": [
    "C06_no_draw_no_change"
   ],
   "note": "Draw phase: no draw, and over-large second inlet"
  },
  {
   "property": "C07",
   "status": "proved",
   "theorems": [
    "C07_draw_terminates",
    "C07_draw_float_never_ends_refuted"
   ],
   "note": "The draw loop terminates"
  },
  {
   "property": "C08",
   "status": "proved",
   "theorems": [
    "C08_hx_draw"
   ],
   "note": "Heat-exchanger draws conserve energy and stay in range"
  },
  {
   "property": "C09",
   "status": "proved",
   "theorems": [
    "C09_standby_accounting",
    "C09_standby_succeeds"
   ],
   "note": "Standby losses and conduction balance exactly"
  },
  {
   "property": "C10",
   "status": "proved",
   "theorems": [
    "C10_standby_range",
    "C10_standby_range_refuted"
   ],
   "note": "Standby phase respects the temperature range of a stratified tank"
  },
  {
   "property": "C11",
   "status": "proved",
   "theorems": [
    "C11_bottom_mixing"
   ],
   "note": "Partial mixing at the bottom conserves heat, range and order"
  },
  {
   "property": "C12",
   "status": "proved",
   "theorems": [
    "C12_add_heat"
   ],
   "note": "Adding heat above a node: conservation, limit and leftover"
  },
  {
   "property": "C13",
   "status": "proved",
   "theorems": [
    "C13_add_heat_fills_like_water",
    "C13_water_filling_unique"
   ],
   "note": "Adding heat fills from below like water"
  },
  {
   "property": "C14",
   "status": "proved",
   "theorems": [
    "C14_add_heat_inverted_refuted"
   ],
   "note": "Adding heat to an inverted profile does not conserve energy"
  },
  {
   "property": "C15",
   "status": "proved",
   "theorems": [
    "C15_heat_is_conserved",
    "C15_succeeds"
   ],
   "note": "Distributing a heating capacity over the tank conserves energy"
  },
  {
   "property": "C16",
   "status": "proved",
   "theorems": [
    "C16_resistance_accounting",
    "C16_succeeds",
    "C16_zero_power_undefined",
    "C16_zero_power_nan",
    "C16_negative_power_refuted"
   ],
   "note": "Resistance heating accounts for energy and time"
  },
  {
   "property": "C17",
   "status": "proved",
   "theorems": [
    "C17_integrated_accounting"
   ],
   "note": "Integrated compressor heating accounts for energy and time"
  },
  {
   "property": "C18",
   "status": "proved",
   "theorems": [
    "C18_single_pass_accounting",
    "C18_energy_bounds"
   ],
   "note": "External single-pass heating accounts for energy, volume and time"
  },
  {
   "property": "C19",
   "status": "proved",
   "theorems": [
    "C19_multi_pass_accounting",
    "C19_energy_bounds"
   ],
   "note": "External multi-pass heating accounts for energy, volume and time"
  },
  {
   "property": "C20",
   "status": "proved",
   "theorems": [
    "C20_extra_heat",
    "C20_succeeds",
    "C20_negative_total_refuted",
    "C20_zero_total_refuted"
   ],
   "note": "Extra heat is fully delivered"
  },
  {
   "property": "C21",
   "status": "proved",
   "theorems": [
    "C21_step_balance"
   ],
   "note": "A whole simulation step balances energy"
  },
  {
   "property": "C22",
   "status": "proved",
   "theorems": [
    "C22_no_false_alarm",
    "C22_detects"
   ],
   "note": "The built-in energy balance check never raises a false alarm"
  },
  {
   "property": "C23",
   "status": "proved",
   "theorems": [
    "C23_run_balance",
    "C23_sums"
   ],
   "note": "Multi-step runs report exact sums"
  },
  {
   "property": "C24",
   "status": "proved",
   "theorems": [
    "C24_outlet_mean",
    "C24_succeeds",
    "C24_no_draw_step",
    "C24_no_draw_run"
   ],
   "note": "Multi-step outlet temperature is the volume average; undefined without draws"
  },
  {
   "property": "C25",
   "status": "proved",
   "theorems": [
    "C25_full_lock_out",
    "C25_compressor_standby_only"
   ],
   "note": "Full demand-response lock-out stops all heating"
  },
  {
   "property": "C26",
   "status": "proved",
   "theorems": [
    "C26_compressor_lock_out"
   ],
   "note": "Compressor lock-out: no compressor ever adds heat"
  },
  {
   "property": "C27",
   "status": "proved",
   "theorems": [
    "C27_resistance_lock_out",
    "C27_compressor_takes_over_refuted"
   ],
   "note": "Resistance lock-out: no resistance element ever adds heat"
  },
  {
   "property": "C28",
   "status": "proved",
   "theorems": [
    "C28_timer_zero_without_top_off",
    "C28_timer_below_limit",
    "C28_timer_counts",
    "C28_no_second_top_off"
   ],
   "note": "Top-off timer"
  },
  {
   "property": "C29",
   "status": "proved",
   "theorems": [
    "C29_run_time",
    "C29_power_times_run_time_refuted"
   ],
   "note": "Run time never exceeds the step for sources that run at most once"
  },
  {
   "property": "C30",
   "status": "proved",
   "theorems": [
    "C30_step_range",
    "C30_run_range"
   ],
   "note": "No node is heated beyond what the inputs allow"
  },
  {
   "property": "C31",
   "status": "proved",
   "theorems": [
    "C31_all_or_nothing",
    "C31_when",
    "C31_read_back"
   ],
   "note": "Setpoint changes are all-or-nothing"
  },
  {
   "property": "C32",
   "status": "proved",
   "theorems": [
    "C32_maximum_is_accepted",
    "C32_accepted_range",
    "C32_no_source_refuted"
   ],
   "note": "Setpoint feasibility query"
  },
  {
   "property": "C33",
   "status": "proved",
   "theorems": [
    "C33_fixed_setpoint",
    "C33_only_same_value"
   ],
   "note": "Fixed setpoints stay fixed"
  },
  {
   "property": "C34",
   "status": "proved",
   "theorems": [
    "C34_rejected_without_effect",
    "C34_depression_stored_before_error",
    "C34_depression_refuted",
    "C34_accepted"
   ],
   "note": "Setters with unsupported units are rejected without effect"
  },
  {
   "property": "C35",
   "status": "proved",
   "theorems": [
    "C35_inverse_pairs",
    "C35_fixed_points",
    "C35_order_preserving",
    "C35_differences",
    "C35_set_and_get"
   ],
   "note": "Unit conversions are inverse pairs"
  },
  {
   "property": "C36",
   "status": "proved",
   "theorems": [
    "C36_converted_as_temperature",
    "C36_running_compressor_warms",
    "C36_celsius_cools"
   ],
   "note": "Temperature differences given in Fahrenheit"
  },
  {
   "property": "C37",
   "status": "proved",
   "theorems": [
    "C37_one_cylinder",
    "C37_monotone",
    "C37_cylinder_unique",
    "C37_size_constants",
    "C37_radius_in_feet",
    "C37_radius_in_feet_refuted"
   ],
   "note": "Tank geometry"
  },
  {
   "property": "C38",
   "status": "proved",
   "theorems": [
    "C38_keeps_U",
    "C38_rejected_unchanged",
    "C38_plain_resize_keeps_UA"
   ],
   "note": "Resizing with UA adjustment keeps U"
  },
  {
   "property": "C39",
   "status": "proved",
   "theorems": [
    "C39_fraction_selects_node",
    "C39_monotone",
    "C39_ends",
    "C39_set_inlet",
    "C39_set_external_port"
   ],
   "note": "Fractional heights always name an existing node"
  },
  {
   "property": "C40",
   "status": "proved",
   "theorems": [
    "C40_layer_temperatures",
    "C40_rejected"
   ],
   "note": "Setting layer temperatures: resampling is exact averaging"
  },
  {
   "property": "C41",
   "status": "proved",
   "theorems": [
    "C41_total_preserved"
   ],
   "note": "Extensive resampling preserves totals"
  },
  {
   "property": "C42",
   "status": "proved",
   "theorems": [
    "C42_thermocouple",
    "C42_average",
    "C42_rejected"
   ],
   "note": "Simulated thermocouples"
  },
  {
   "property": "C43",
   "status": "proved",
   "theorems": [
    "C43_normalize",
    "C43_many_entries_refuted"
   ],
   "note": "Normalisation terminates and normalises"
  },
  {
   "property": "C44",
   "status": "proved",
   "theorems": [
    "C44_thermal_distribution",
    "C44_cooler_nodes_first"
   ],
   "note": "Thermal distribution"
  },
  {
   "property": "C45",
   "status": "proved",
   "theorems": [
    "C45_validity",
    "C45_is_integral",
    "C45_additive_normalised"
   ],
   "note": "Weighted distributions are piecewise integrals"
  },
  {
   "property": "C46",
   "status": "proved",
   "theorems": [
    "C46_weighted_average",
    "C46_top_bottom"
   ],
   "note": "Distribution-averaged tank temperature"
  },
  {
   "property": "C47",
   "status": "proved",
   "theorems": [
    "C47_lowest_node"
   ],
   "note": "Lowest heated node"
  },
  {
   "property": "C48",
   "status": "proved",
   "theorems": [
    "C48_formula",
    "C48_bounds"
   ],
   "note": "State of charge"
  },
  {
   "property": "C49",
   "status": "proved",
   "theorems": [
    "C49_switch",
    "C49_retarget",
    "C49_dead_band",
    "C49_negative_hysteresis_refuted"
   ],
   "note": "State-of-charge control has a dead band"
  },
  {
   "property": "C50",
   "status": "proved",
   "theorems": [
    "C50_comparison",
    "C50_setpoint",
    "C50_source"
   ],
   "note": "Temperature logic decisions follow the setpoint"
  },
  {
   "property": "C51",
   "status": "proved",
   "theorems": [
    "C51_should_heat_means_not_shut_off",
    "C51_hot_tank_does_not_start"
   ],
   "note": "A heat source that should heat does not immediately shut off"
  },
  {
   "property": "C52",
   "status": "proved",
   "theorems": [
    "C52_idle_stays_idle"
   ],
   "note": "Idle units stay idle"
  },
  {
   "property": "C53",
   "status": "proved",
   "theorems": [
    "C53_lock_decision",
    "C53_no_oscillation"
   ],
   "note": "Compressor lock-out hysteresis"
  },
  {
   "property": "C54",
   "status": "proved",
   "theorems": [
    "C54_depression_step",
    "C54_depression_bounded",
    "C54_depression_converges"
   ],
   "note": "Temperature depression converges and stays bounded"
  },
  {
   "property": "C55",
   "status": "proved",
   "theorems": [
    "C55_energy_removed_from_environment"
   ],
   "note": "Energy removed from the environment"
  },
  {
   "property": "C56",
   "status": "proved",
   "theorems": [
    "C56_compressor_index",
    "C56_lowest_element",
    "C56_highest_element",
    "C56_vip_element",
    "C56_found_if_present",
    "C56_derived_only"
   ],
   "note": "Derived indices name what they should"
  },
  {
   "property": "C57",
   "status": "proved",
   "theorems": [
    "C57_map_lists_elements_in_order",
    "C57_position_is_height",
    "C57_set_capacity",
    "C57_get_capacity",
    "C57_read_back",
    "C57_all_elements"
   ],
   "note": "Resistance elements are addressed from bottom to top"
  },
  {
   "property": "C58",
   "status": "proved",
   "theorems": [
    "C58_query_effect",
    "C58_round_trip",
    "C58_scaling",
    "C58_query_keeps_setpoint_refuted"
   ],
   "note": "Setting the compressor capacity round-trips"
  },
  {
   "property": "C59",
   "status": "proved",
   "theorems": [
    "C59_accepts_iff",
    "C59_rejects",
    "C59_soc_rejected",
    "C59_configured",
    "C59_rejected_keeps",
    "C59_idempotent",
    "C59_ready",
    "C59_accepted_runs_refuted"
   ],
   "note": "Configuration check"
  },
  {
   "property": "C60",
   "status": "proved",
   "theorems": [
    "C60_transposes",
    "C60_involution"
   ],
   "note": "Swapping performance-grid axes"
  },
  {
   "property": "C61",
   "status": "proved",
   "theorems": [
    "C61_arrange",
    "C61_trim"
   ],
   "note": "Grid vector clean-up"
  },
  {
   "property": "C62",
   "status": "proved",
   "theorems": [
    "C62_interpolates",
    "C62_at_points",
    "C62_output",
    "C62_single_rejected",
    "C62_nearest"
   ],
   "note": "Polynomial performance set interpolates its points"
  },
  {
   "property": "C63",
   "status": "proved",
   "theorems": [
    "C63_outside",
    "C63_interpolates",
    "C63_range",
    "C63_standard",
    "C63_performance",
    "C63_second_setup_ignored",
    "C63_last_setup_wins_refuted"
   ],
   "note": "Defrost derating"
  },
  {
   "property": "C64",
   "status": "proved",
   "theorems": [
    "C64_schedule",
    "C64_total",
    "C64_limits"
   ],
   "note": "24-hour test draws what the pattern prescribes"
  },
  {
   "property": "C65",
   "status": "proved",
   "theorems": [
    "C65_designation",
    "C65_monotone",
    "C65_volume",
    "C65_sustained"
   ],
   "note": "First-hour-rating designation"
  },
  {
   "property": "C66",
   "status": "proved",
   "theorems": [
    "C66_secant",
    "C66_line",
    "C66_fit",
    "C66_fit_result",
    "C66_second_guess",
    "C66_success_refuted",
    "C66_converged_refuted",
    "C66_fit_line",
    "C66_damped_inverse",
    "C66_least_squares"
   ],
   "note": "Fitting a parameter to a metric"
  },
  {
   "property": "C67",
   "status": "proved",
   "theorems": [
    "C67_temperature_logic",
    "C67_charge_logic",
    "C67_charge_refuted"
   ],
   "note": "Temperature logic survives serialisation"
  },
  {
   "property": "C68",
   "status": "proved",
   "theorems": [
    "C68_tank",
    "C68_fraction_refuted",
    "C68_volume_refuted"
   ],
   "note": "Tank survives serialisation"
  },
  {
   "property": "C69",
   "status": "proved",
   "theorems": [
    "C69_ports",
    "C69_doubles",
    "C69_refuted"
   ],
   "note": "External port heights survive serialisation for common node counts"
  },
  {
   "property": "C70",
   "status": "proved",
   "theorems": [
    "C70_members",
    "C70_shared",
    "C70_writes_through",
    "C70_logic_pointer",
    "C70_owner_pointer",
    "C70_neither",
    "C70_thermostat",
    "C70_step_length",
    "C70_dangling",
    "C70_constructed",
    "C70_self",
    "C70_refuted",
    "C70_source",
    "C70_condenser",
    "C70_tank"
   ],
   "note": "Copies of a simulator share state"
  },
  {
   "property": "C71",
   "status": "proved",
   "theorems": [
    "C71_first_come",
    "C71_vip_takes_over"
   ],
   "note": "Heat-source choice: first come and VIP"
  },
  {
   "property": "C72",
   "status": "proved",
   "theorems": [
    "C72_logic_fraction",
    "C72_node_range",
    "C72_rejected",
    "C72_ranges",
    "C72_usable_refuted"
   ],
   "note": "Sizing fractions"
  },
  {
   "property": "C73",
   "status": "proved",
   "theorems": [
    "C73_step_completes",
    "C73_run_completes"
   ],
   "note": "A ready unit always completes its step"
  },
  {
   "property": "C74",
   "status": "proved",
   "theorems": [
    "C74_multi_pass_completes"
   ],
   "note": "External multi-pass heating always finishes"
  },
  {
   "property": "C75",
   "status": "proved",
   "theorems": [
    "C75_record",
    "C75_totals"
   ],
   "note": "Record and totals of the 24-hour test"
  },
  {
   "property": "C76",
   "status": "proved",
   "theorems": [
    "C76_recovery",
    "C76_efficiency"
   ],
   "note": "First recovery period of the 24-hour test"
  },
  {
   "property": "C77",
   "status": "proved",
   "theorems": [
    "C77_figures",
    "C77_no_adjustment",
    "C77_annual_refuted"
   ],
   "note": "Efficiency figures of the 24-hour test"
  },
  {
   "property": "C78",
   "status": "proved",
   "theorems": [
    "C78_standby"
   ],
   "note": "Standby period of the 24-hour test"
  },
  {
   "property": "C79",
   "status": "proved",
   "theorems": [
    "C79_never_ready"
   ],
   "note": "Units without heat sources cannot be tested"
  },
  {
   "property": "C80",
   "status": "proved",
   "theorems": [
    "C80_step",
    "C80_rating",
    "C80_test"
   ],
   "note": "Setpoint across steps and tests"
  },
  {
   "property": "C81",
   "status": "proved",
   "theorems": [
    "C81_EF_any",
    "C81_EF",
    "C81_cop"
   ],
   "note": "Generic models meet an energy factor"
  },
  {
   "property": "C82",
   "status": "proved",
   "theorems": [
    "C82_UEF",
    "C82_UEF_ambient"
   ],
   "note": "Generic models shift every point alike"
  },
  {
   "property": "C83",
   "status": "proved",
   "theorems": [
    "C83_three"
   ],
   "note": "Fits at three conditions do not disturb each other"
  },
  {
   "property": "C84",
   "status": "proved",
   "theorems": [
    "C84_integrated"
   ],
   "note": "Integrated units survive serialisation"
  },
  {
   "property": "C85",
   "status": "proved",
   "theorems": [
    "C85_grid_points",
    "C85_defrost_lost",
    "C85_defrost_refuted"
   ],
   "note": "Performance map of integrated units in the data model"
  },
  {
   "property": "C86",
   "status": "proved",
   "theorems": [
    "C86_only_setpoint",
    "C86_integrated",
    "C86_functions",
    "C86_grid",
    "C86_refuted"
   ],
   "note": "Writing and the simulator's state"
  },
  {
   "property": "C87",
   "status": "proved",
   "theorems": [
    "C87_associations",
    "C87_priority",
    "C87_primary",
    "C87_refuted"
   ],
   "note": "Names in the data model"
  },
  {
   "property": "C88",
   "status": "proved",
   "theorems": [
    "C88_central",
    "C88_grid_points"
   ],
   "note": "Central systems survive serialisation"
  },
  {
   "property": "C89",
   "status": "proved",
   "theorems": [
    "C89_accepts",
    "C89_result"
   ],
   "note": "What a resistance tank can be set up with"
  },
  {
   "property": "C90",
   "status": "proved",
   "theorems": [
    "C90_energy_factor",
    "C90_monotone"
   ],
   "note": "Losses follow from the energy factor"
  },
  {
   "property": "C91",
   "status": "proved",
   "theorems": [
    "C91_step",
    "C91_run",
    "C91_range"
   ],
   "note": "Tanks of elements always run"
  },
  {
   "property": "C92",
   "status": "proved",
   "theorems": [
    "C92_rejected",
    "C92_compressor_known_refuted"
   ],
   "note": "A rejected set-up is not undone"
  },
  {
   "property": "C93",
   "status": "proved",
   "theorems": [
    "C93_accepts",
    "C93_result"
   ],
   "note": "Generic resistance tanks"
  },
  {
   "property": "C94",
   "status": "proved",
   "theorems": [
    "C94_accepts",
    "C94_performance",
    "C94_positive_power_refuted",
    "C94_runs"
   ],
   "note": "The generic heat pump"
  },
  {
   "property": "C95",
   "status": "proved",
   "theorems": [
    "C95_table",
    "C95_no_compressor",
    "C95_short_record",
    "C95_preamble"
   ],
   "note": "Tables of results"
  },
  {
   "property": "C96",
   "status": "proved",
   "theorems": [
    "C96_schedule",
    "C96_other_files",
    "C96_too_late",
    "C96_rejects_refuted"
   ],
   "note": "Schedules"
  },
  {
   "property": "C97",
   "status": "proved",
   "theorems": [
    "C97_minutes",
    "C97_no_compressor",
    "C97_no_soc_schedule"
   ],
   "note": "The run command completes"
  },
  {
   "property": "C98",
   "status": "proved",
   "theorems": [
    "C98_days",
    "C98_four_sources"
   ],
   "note": "Daily totals"
  },
  {
   "property": "C99",
   "status": "proved",
   "theorems": [
    "C99_command",
    "C99_measured",
    "C99_start_ignored",
    "C99_air",
    "C99_generic"
   ],
   "note": "Settings of a run"
  },
  {
   "property": "C100",
   "status": "proved",
   "theorems": [
    "C100_single_pass_completes",
    "C100_less_than_never_ends",
    "C100_single_pass_heats_refuted",
    "C100_few_nodes_never_end"
   ],
   "note": "Single-pass heating ends"
  },
  {
   "property": "C101",
   "status": "proved",
   "theorems": [
    "C101_step_completes",
    "C101_run_completes"
   ],
   "note": "Units with external condensers complete their steps and runs"
  },
  {
   "property": "C102",
   "status": "proved",
   "theorems": [
    "C102_accepts",
    "C102_result"
   ],
   "note": "Integrated presets are accepted and start as described"
  },
  {
   "property": "C103",
   "status": "proved",
   "theorems": [
    "C103_maps",
    "C103_runs"
   ],
   "note": "Integrated presets heat and complete their runs"
  },
  {
   "property": "C104",
   "status": "proved",
   "theorems": [
    "C104_heats_refuted",
    "C104_maxSetpoint_refuted",
    "C104_input_refuted",
    "C104_depresses_refuted",
    "C104_sizes",
    "C104_threshold"
   ],
   "note": "Preset data that defeat their purpose"
  },
  {
   "property": "C105",
   "status": "proved",
   "theorems": [
    "C105_accepts",
    "C105_result",
    "C105_size",
    "C105_sizing"
   ],
   "note": "External presets are accepted and are what they say"
  },
  {
   "property": "C106",
   "status": "proved",
   "theorems": [
    "C106_delivers",
    "C106_single_pass",
    "C106_multi_pass",
    "C106_sanco",
    "C106_sanco_cold"
   ],
   "note": "Runs of external presets complete"
  },
  {
   "property": "C107",
   "status": "proved",
   "theorems": [
    "C107_external_presets",
    "C107_no_compressor",
    "C107_flow",
    "C107_min_runtime",
    "C107_node",
    "C107_node_unchecked",
    "C107_thermocouple"
   ],
   "note": "Queries about the compressor and single nodes"
  },
  {
   "property": "C108",
   "status": "proved",
   "theorems": [
    "C108_lookup",
    "C108_branch",
    "C108_init",
    "C108_configure",
    "C108_axes",
    "C108_renamed"
   ],
   "note": "What the name of a preset selects"
  },
  {
   "property": "C109",
   "status": "proved",
   "theorems": [
    "C109_positive",
    "C109_larger",
    "C109_low_setpoint",
    "C109_run"
   ],
   "note": "Performance maps of the Colmac and Nyle single-pass presets"
  },
  {
   "property": "C110",
   "status": "proved",
   "theorems": [
    "C110_positive",
    "C110_delivers",
    "C110_larger"
   ],
   "note": "Performance maps of the Colmac multi-pass presets"
  },
  {
   "property": "C111",
   "status": "proved",
   "theorems": [
    "C111_ignored",
    "C111_first",
    "C111_single",
    "C111_several"
   ],
   "note": "Replacing the performance map of a unit"
  },
  {
   "property": "C112",
   "status": "proved",
   "theorems": [
    "C112_nothing",
    "C112_stands_in",
    "C112_beside_vip_refuted"
   ],
   "note": "What heats in place of a locked-out source"
  }
 ]
}