{
 "claims": [
  {
   "property": "C01",
   "status": "proved",
   "theorems": [
    "C01_normalization_lossless"
   ],
   "note": "exact arithmetic"
  },
  {
   "property": "C02",
   "status": "proved",
   "theorems": [
    "C02_unit_cube_is_declared_range",
    "C02_degenerate_range_refuted",
    "C02_contains"
   ],
   "note": "the low = high half is shown to leave the range, as the statement says"
  },
  {
   "property": "C03",
   "status": "proved",
   "theorems": [
    "C03_lenient_requests_are_clipped",
    "C03_strict_requests_exact_or_refused",
    "C03_failed_step_not_recorded",
    "C03_genset_requests"
   ],
   "note": "loads ignore requests, see C25; exact arithmetic"
  },
  {
   "property": "C04",
   "status": "proved",
   "theorems": [
    "C04_charge_within_capacity"
   ],
   "note": "exact arithmetic, default transition model; failed calls included"
  },
  {
   "property": "C05",
   "status": "proved",
   "theorems": [
    "C05_energy_accounting"
   ],
   "note": "exact arithmetic, default transition model; holds across failed calls and resets too"
  },
  {
   "property": "C06",
   "status": "proved",
   "theorems": [
    "C06_rate_limits"
   ],
   "note": ""
  },
  {
   "property": "C07",
   "status": "proved",
   "theorems": [
    "C07_cost_is_linear"
   ],
   "note": ""
  },
  {
   "property": "C08",
   "status": "proved",
   "theorems": [
    "C08_no_free_energy"
   ],
   "note": "proved as an equality, with the inequalities as consequences"
  },
  {
   "property": "C09",
   "status": "proved",
   "theorems": [
    "C09_binary64_lower_bound",
    "C09_binary64_upper_bound_refuted"
   ],
   "note": "executable binary64 of Coq.Floats.SpecFloat; the lower bound for every history of successful calls, the excess by a concrete run"
  },
  {
   "property": "C10",
   "status": "proved",
   "theorems": [
    "C10_normalized_actions_cover_iff"
   ],
   "note": ""
  },
  {
   "property": "C11",
   "status": "proved",
   "theorems": [
    "C11_predictions_are_right"
   ],
   "note": "start-up and wind-down times >= 0 (the constructor does not check this)"
  },
  {
   "property": "C12",
   "status": "proved",
   "theorems": [
    "C12_start_up_takes_start_up_time",
    "C12_wind_down_takes_wind_down_time"
   ],
   "note": "for allow_abortion=True or a zero delay; the other case is C13_without_abortion_status_is_stuck"
  },
  {
   "property": "C13",
   "status": "proved",
   "theorems": [
    "C13_abortion_restarts_the_delay",
    "C13_without_abortion_status_is_stuck"
   ],
   "note": ""
  },
  {
   "property": "C14",
   "status": "proved",
   "theorems": [
    "C14_output_follows_status"
   ],
   "note": ""
  },
  {
   "property": "C15",
   "status": "proved",
   "theorems": [
    "C15_cost_and_emissions"
   ],
   "note": ""
  },
  {
   "property": "C16",
   "status": "proved",
   "theorems": [
    "C16_load_sign",
    "C16_renewable_sign",
    "C16_one_sign_accepted",
    "C16_mixed_rejected"
   ],
   "note": "one value per step"
  },
  {
   "property": "C17",
   "status": "proved",
   "theorems": [
    "C17_done_at_the_end",
    "C17_episode_length",
    "C17_microgrid_clock",
    "C17_microgrid_done"
   ],
   "note": ""
  },
  {
   "property": "C18",
   "status": "proved",
   "theorems": [
    "C18_observations"
   ],
   "note": "also past the end of the data; includes user forecasters"
  },
  {
   "property": "C19",
   "status": "proved",
   "theorems": [
    "C19_forecast_shape_and_bounds"
   ],
   "note": ""
  },
  {
   "property": "C20",
   "status": "proved",
   "theorems": [
    "C20_oracle_is_right"
   ],
   "note": ""
  },
  {
   "property": "C21",
   "status": "proved",
   "theorems": [
    "C21_forecast_leaves_data",
    "C21_forecast_overwrites_new_series"
   ],
   "note": "C21_refuted is the concrete witness"
  },
  {
   "property": "C22",
   "status": "proved",
   "theorems": [
    "C22_lengths_after_set_forecaster",
    "C18_observations"
   ],
   "note": ""
  },
  {
   "property": "C23",
   "status": "proved",
   "theorems": [
    "C23_outage"
   ],
   "note": "grid used as flex or controllable module (the fixed mode cannot step, see DESIGN.md)"
  },
  {
   "property": "C24",
   "status": "proved",
   "theorems": [
    "C24_grid_cost_and_emissions"
   ],
   "note": "as C23"
  },
  {
   "property": "C25",
   "status": "proved",
   "theorems": [
    "C25_load",
    "C25_renewable"
   ],
   "note": ""
  },
  {
   "property": "C26",
   "status": "proved",
   "theorems": [
    "C26_unbalanced_energy",
    "C26_failures"
   ],
   "note": ""
  },
  {
   "property": "C27",
   "status": "proved",
   "theorems": [
    "C27_run_balances",
    "C27_never_unbalanced",
    "C27_imbalance_raised_late"
   ],
   "note": "Without an unbalanced-energy module the totals agree up to the tolerance of np.isclose."
  },
  {
   "property": "C28",
   "status": "proved",
   "theorems": [
    "C28_run_reports_its_modules"
   ],
   "note": "Module names equal to an info key are excluded for the info dictionary: there the code mixes the lists."
  },
  {
   "property": "C29",
   "status": "proved",
   "theorems": [
    "C29_lockstep",
    "C29_at_most_one_step",
    "C17_microgrid_clock"
   ],
   "note": ""
  },
  {
   "property": "C30",
   "status": "proved",
   "theorems": [
    "C30_controls_executed",
    "C30_missing_control_raises",
    "C30_missing_control_not_atomic",
    "C30_superfluous_ignored",
    "C29_at_most_one_step"
   ],
   "note": ""
  },
  {
   "property": "C31",
   "status": "proved",
   "theorems": [
    "C31_merit_order",
    "C31_last_resort",
    "C31_user_placed_module_refuted"
   ],
   "note": ""
  },
  {
   "property": "C32",
   "status": "proved",
   "theorems": [
    "C32_reset_rewinds",
    "C32_reset_keeps_charge_and_status",
    "C32_reset_succeeds",
    "C32_reset_follows_trajectory",
    "C32_reset_is_not_fresh_refuted"
   ],
   "note": ""
  },
  {
   "property": "C33",
   "status": "proved",
   "theorems": [
    "C33_columns_have_one_cell_per_row",
    "C33_get_log",
    "C33_new_column_is_padded",
    "C33_missing_key_breaks_frame"
   ],
   "note": ""
  },
  {
   "property": "C34",
   "status": "proved",
   "theorems": [
    "C34_distinct_names_all_shown",
    "C34_collision_hides_a_module",
    "C34_collision_accepted"
   ],
   "note": ""
  },
  {
   "property": "C35",
   "status": "proved",
   "theorems": [
    "C35_windows_agree",
    "C35_disagreement_refused",
    "C35_default_module_needs_step_zero",
    "C35_agreement_accepted",
    "C35_current_step",
    "C35_unchecked"
   ],
   "note": "For module lists without name collisions; C35_unchecked shows what a collision hides."
  },
  {
   "property": "C36",
   "status": "proved",
   "theorems": [
    "C36_stochastic_inside",
    "C36_stochastic_refuses",
    "C36_stochastic_all",
    "C36_fixed_length_inside",
    "C36_fixed_length_refuses",
    "C36_fixed_length_all",
    "C36_construction",
    "C36_reset_uses_window",
    "C36_reset_accepts",
    "C36_reset_refuses",
    "C36_window_episode",
    "C36_fixed_length_episode",
    "C36_deterministic_reset",
    "C36_stochastic_reset",
    "C36_stochastic_reset_refuted",
    "C36_empty_window_at_zero_refuted"
   ],
   "note": "user-defined forecasters excluded where reset must succeed"
  },
  {
   "property": "C37",
   "status": "proved",
   "theorems": [
    "C37_containers_partition",
    "C37_numbering",
    "C37_numbering_kept",
    "C37_category_by_class"
   ],
   "note": ""
  },
  {
   "property": "C38",
   "status": "proved",
   "theorems": [
    "C38_empty_action",
    "C38_sampled_action_runs",
    "C38_strict_sample_within_limits",
    "C38_strict_sample_genset_refuted"
   ],
   "note": ""
  },
  {
   "property": "C39",
   "status": "proved",
   "theorems": [
    "C39_priority_lists"
   ],
   "note": "names_separate: no module name is used in two categories"
  },
  {
   "property": "C40",
   "status": "proved",
   "theorems": [
    "C40_action_is_dispatch",
    "C40_within_limits",
    "C40_unserved_only_at_maximum",
    "C40_over_only_by_minimum",
    "C40_surplus",
    "C40_step_delivers"
   ],
   "note": ""
  },
  {
   "property": "C41",
   "status": "proved",
   "theorems": [
    "C41_default_list",
    "C41_given_list",
    "C41_genset_stays_off",
    "C41_genset_never_started"
   ],
   "note": ""
  },
  {
   "property": "C42",
   "status": "proved",
   "theorems": [
    "C42_actions",
    "C42_step_is_list",
    "C42_step_delivers",
    "C42_cannot_fail",
    "C42_refused",
    "C42_log",
    "C42_remove_action"
   ],
   "note": "Discrete environment."
  },
  {
   "property": "C43",
   "status": "proved",
   "theorems": [
    "C43_never",
    "C43_exceptions",
    "C43_action_space",
    "C43_flat",
    "C43_accepts",
    "C43_fixed_grid",
    "C43_fixed_grid_never_runs"
   ],
   "note": "Continuous environment."
  },
  {
   "property": "C44",
   "status": "proved",
   "theorems": [
    "C44_pv_curtailment",
    "C44_pv_any",
    "C44_pv_needs_the_name",
    "C44_battery_any",
    "C44_battery_discharge",
    "C44_share_of_batteries_refuted",
    "C44_lost_load_refuted",
    "C44_shaping_is_harmless_refuted"
   ],
   "note": "whether a division by zero raises or gives nan (Python or numpy numbers) is a parameter"
  },
  {
   "property": "C45",
   "status": "proved",
   "theorems": [
    "C45_module_round_trip",
    "C45_module_at_start",
    "C45_functions_raise",
    "C45_next_step_refuted",
    "C45_forecast_refuted",
    "C45_set_forecaster_refuted",
    "C45_microgrid_round_trip",
    "C45_files_refuted"
   ],
   "note": "The YAML and CSV text layers are taken to be faithful."
  },
  {
   "property": "C46",
   "status": "proved",
   "theorems": [
    "C46_set_module_attr"
   ],
   "note": ""
  },
  {
   "property": "C47",
   "status": "proved",
   "theorems": [
    "C47_module_by_module",
    "C47_round_trip"
   ],
   "note": "the NaN results on the infinite action box of the unbalanced module are not modelled"
  },
  {
   "property": "C48",
   "status": "proved",
   "theorems": [
    "C48_flat",
    "C48_nested",
    "C48_unit",
    "C48_keys",
    "C48_keys_never",
    "C48_returns",
    "C48_unknown_key",
    "C48_advertised_length_refuted"
   ],
   "note": "C48_advertised_length_refuted shows that the advertised length is wrong for repeated keys."
  },
  {
   "property": "C49",
   "status": "proved",
   "theorems": [
    "C49_status_update_is_phase_machine"
   ],
   "note": ""
  },
  {
   "property": "C50",
   "status": "proved",
   "theorems": [
    "C50_lenient_battery_never_fails",
    "C23_outage",
    "C25_load",
    "C25_renewable",
    "C26_unbalanced_energy",
    "C03_genset_requests"
   ],
   "note": "one clause per class"
  },
  {
   "property": "C51",
   "status": "proved",
   "theorems": [
    "C51_battery_observation",
    "C51_genset_observation"
   ],
   "note": ""
  },
  {
   "property": "C52",
   "status": "proved",
   "theorems": [
    "C52_run_cannot_fail",
    "C52_episode_cannot_fail"
   ],
   "note": "default battery transition model"
  },
  {
   "property": "C53",
   "status": "proved",
   "theorems": [
    "C53_batteries_within_capacity"
   ],
   "note": "default battery transition model"
  },
  {
   "property": "C54",
   "status": "proved",
   "theorems": [
    "C54_controller_cannot_fail",
    "C54_whole_run"
   ],
   "note": ""
  },
  {
   "property": "C55",
   "status": "proved",
   "theorems": [
    "C55_from_microgrid"
   ],
   "note": ""
  },
  {
   "property": "C56",
   "status": "proved",
   "theorems": [
    "C56_balance",
    "C56_exact_refuted"
   ],
   "note": ""
  },
  {
   "property": "C57",
   "status": "proved",
   "theorems": [
    "C57_limits",
    "C57_outage_refuted"
   ],
   "note": ""
  },
  {
   "property": "C58",
   "status": "proved",
   "theorems": [
    "C58_charge_update",
    "C58_charge_within",
    "C58_island_refuted",
    "C58_room"
   ],
   "note": ""
  },
  {
   "property": "C59",
   "status": "proved",
   "theorems": [
    "C59_bill"
   ],
   "note": ""
  },
  {
   "property": "C60",
   "status": "proved",
   "theorems": [
    "C60_run_advances",
    "C60_variables",
    "C60_returned",
    "C60_episode",
    "C60_reset_forgets",
    "C60_first_prices_refuted",
    "C60_actions"
   ],
   "note": ""
  },
  {
   "property": "C61",
   "status": "proved",
   "theorems": [
    "C61_run",
    "C61_reset",
    "C61_training_refuted",
    "C61_penalty_never"
   ],
   "note": ""
  },
  {
   "property": "C62",
   "status": "proved",
   "theorems": [
    "C62_copy",
    "C62_accepted",
    "C62_only_data"
   ],
   "note": ""
  },
  {
   "property": "C63",
   "status": "proved",
   "theorems": [
    "C63_same_dispatch",
    "C63_same_cost",
    "C63_any_control_refuted"
   ],
   "note": ""
  },
  {
   "property": "C64",
   "status": "proved",
   "theorems": [
    "C64_when",
    "C64_refuses",
    "C64_copy",
    "C64_complete",
    "C64_runs",
    "C64_load_negative",
    "C64_round_trip",
    "C64_round_trip_exists",
    "C64_same_demand_refuted"
   ],
   "note": "The claim that the copy has the same demand is refuted: the load comes back with the other sign."
  },
  {
   "property": "C65",
   "status": "proved",
   "theorems": [
    "C65_program",
    "C65_objective",
    "C65_optimal"
   ],
   "note": ""
  },
  {
   "property": "C66",
   "status": "proved",
   "theorems": [
    "C66_when",
    "C66_posed",
    "C66_feasible"
   ],
   "note": ""
  },
  {
   "property": "C67",
   "status": "proved",
   "theorems": [
    "C67_carried_out",
    "C67_made",
    "C67_infeasible",
    "C67_difference"
   ],
   "note": "Carried out exactly under conditions the program does not impose; C67_realistic_needed shows what happens otherwise."
  },
  {
   "property": "C68",
   "status": "proved",
   "theorems": [
    "C68_every_step",
    "C68_genset",
    "C68_never_sells",
    "C68_battery",
    "C68_last_step"
   ],
   "note": ""
  },
  {
   "property": "C69",
   "status": "proved",
   "theorems": [
    "C69_whole_run",
    "C69_solved",
    "C69_too_many"
   ],
   "note": ""
  },
  {
   "property": "C70",
   "status": "proved",
   "theorems": [
    "C70_decides",
    "C70_limits",
    "C70_order",
    "C70_genset",
    "C70_genset_refuted",
    "C70_battery_needed"
   ],
   "note": "The claim that a decision without loss_load covers its use is refuted: the genset is left out when needed for less than its minimum."
  },
  {
   "property": "C71",
   "status": "proved",
   "theorems": [
    "C71_total",
    "C71_steps",
    "C71_soc",
    "C71_served",
    "C71_served_refuted",
    "C71_total_refuted"
   ],
   "note": "That the load is met whenever the genset could serve it, and that a load of zero never raises, are refuted."
  },
  {
   "property": "C72",
   "status": "proved",
   "theorems": [
    "C72_same",
    "C72_island_refuted"
   ],
   "note": "Refuted without a grid."
  },
  {
   "property": "C73",
   "status": "proved",
   "theorems": [
    "C73_made",
    "C73_no_horizon",
    "C73_posed",
    "C73_solvable"
   ],
   "note": ""
  },
  {
   "property": "C74",
   "status": "proved",
   "theorems": [
    "C74_steps",
    "C74_too_many",
    "C74_soc",
    "C74_total",
    "C74_finder",
    "C74_as_planned",
    "C74_billed",
    "C74_stopped",
    "C74_as_planned_refuted",
    "C74_total_refuted"
   ],
   "note": "That plans are always carried out, and that runs whose programs are solved always return, are refuted."
  },
  {
   "property": "C75",
   "status": "proved",
   "theorems": [
    "C75_choice",
    "C75_steps",
    "C75_percentile",
    "C75_too_many",
    "C75_soc",
    "C75_late",
    "C75_compared",
    "C75_forecast",
    "C75_range_refuted",
    "C75_shown_refuted",
    "C75_forecast_refuted"
   ],
   "note": "That the percentile 1 is accepted, that the records show the next row, and that running on a forecast records anything are refuted."
  },
  {
   "property": "C76",
   "status": "proved",
   "theorems": [
    "C76_perfect"
   ],
   "note": ""
  },
  {
   "property": "C77",
   "status": "proved",
   "theorems": [
    "C77_all",
    "C77_ratio",
    "C77_index",
    "C77_adds_up",
    "C77_refused",
    "C77_lengths",
    "C77_nothing",
    "C77_unknown",
    "C77_in_order",
    "C77_mpc",
    "C77_saa",
    "C77_comparable",
    "C77_rbc_never_refuted",
    "C77_all_never_refuted",
    "C77_modular_refuted",
    "C77_print_refuted",
    "C77_ratio_binary64_refuted"
   ],
   "note": "That the rule-based benchmark, all benchmarks together, a modular microgrid and print_benchmark_cost can succeed is refuted, and the number of steps of a ratio in binary64."
  },
  {
   "property": "C78",
   "status": "proved",
   "theorems": [
    "C78_new",
    "C78_new_refused",
    "C78_made",
    "C78_equal",
    "C78_frame",
    "C78_order_refuted",
    "C78_equal_refuted",
    "C78_append_refuted",
    "C78_frame_refuted"
   ],
   "note": "Ordering, comparing sums, appending and leaving the output alone are refuted."
  },
  {
   "property": "C79",
   "status": "proved",
   "theorems": [
    "C79_new",
    "C79_markov",
    "C79_naive",
    "C79_sample",
    "C79_reach",
    "C79_sample_naive",
    "C79_constant",
    "C79_short",
    "C79_one_row_refuted"
   ],
   "note": "That data of one row can be sampled is refuted."
  },
  {
   "property": "C80",
   "status": "proved",
   "theorems": [
    "C80_sample",
    "C80_whole",
    "C80_succeeds",
    "C80_certain",
    "C80_negative",
    "C80_refused",
    "C80_rows_refuted"
   ],
   "note": "That samples have as many rows as the data is refuted."
  },
  {
   "property": "C81",
   "status": "proved",
   "theorems": [
    "C81_new",
    "C81_succeeds",
    "C81_again",
    "C81_night",
    "C81_bounded",
    "C81_all_the_way",
    "C81_unnamed",
    "C81_unknown",
    "C81_dark",
    "C81_dark_refuted"
   ],
   "note": "For peaks drawn uniformly; the fitted curves are arbitrary. That all data of whole days can be sampled is refuted."
  },
  {
   "property": "C82",
   "status": "proved",
   "theorems": [
    "C82_made",
    "C82_sizes",
    "C82_samples",
    "C82_presets",
    "C82_no_preset",
    "C82_perfect",
    "C82_first_run",
    "C82_later_runs",
    "C82_not_fresh",
    "C82_error",
    "C82_dark"
   ],
   "note": ""
  },
  {
   "property": "C83",
   "status": "proved",
   "theorems": [
    "C83_created",
    "C83_sized",
    "C83_ready",
    "C83_starts"
   ],
   "note": "In exact arithmetic: the rounding of np.ceil, int and np.around is a parameter."
  },
  {
   "property": "C84",
   "status": "proved",
   "theorems": [
    "C84_grid",
    "C84_no_outages",
    "C84_lasts"
   ],
   "note": ""
  },
  {
   "property": "C85",
   "status": "proved",
   "theorems": [
    "C85_appends",
    "C85_all",
    "C85_no_files",
    "C85_plausible",
    "C85_converted"
   ],
   "note": ""
  },
  {
   "property": "C86",
   "status": "proved",
   "theorems": [
    "C86_runs",
    "C86_served"
   ],
   "note": ""
  },
  {
   "property": "C87",
   "status": "proved",
   "theorems": [
    "C87_choices",
    "C87_asks",
    "C87_served",
    "C87_returns",
    "C87_charge_within",
    "C87_genset_refuted",
    "C87_waste_refuted",
    "C87_outage_refuted",
    "C87_offered",
    "C87_offered_bare_refuted"
   ],
   "note": "The three refuted claims are part of the statement."
  },
  {
   "property": "C88",
   "status": "proved",
   "theorems": [
    "C88_step",
    "C88_scales",
    "C88_reset",
    "C88_over",
    "C88_return",
    "C88_length",
    "C88_testing_sticks",
    "C88_resampling_never",
    "C88_get_cost_never",
    "C88_root_refuted"
   ],
   "note": "Sine, cosine and root are arbitrary functions."
  },
  {
   "property": "C89",
   "status": "proved",
   "theorems": [
    "C89_continuous",
    "C89_shares",
    "C89_followed",
    "C89_discrete",
    "C89_both_refuted"
   ],
   "note": ""
  },
  {
   "property": "C90",
   "status": "proved",
   "theorems": [
    "C90_new_length",
    "C90_new",
    "C90_made",
    "C90_reset",
    "C90_step",
    "C90_return",
    "C90_lasts",
    "C90_first_row",
    "C90_stays_done",
    "C90_episode_refuted",
    "C90_start_refuted",
    "C90_over_refuted"
   ],
   "note": "The three refuted claims are part of the statement."
  },
  {
   "property": "C91",
   "status": "proved",
   "theorems": [
    "C91_stds",
    "C91_means",
    "C91_round_trip",
    "C91_new_bounds",
    "C91_plain_bounds",
    "C91_followed",
    "C91_genset_never",
    "C91_island_never",
    "C91_never_done",
    "C91_short",
    "C91_export_refuted"
   ],
   "note": "The standard deviation of numpy is an arbitrary function."
  },
  {
   "property": "C92",
   "status": "proved",
   "theorems": [
    "C92_values",
    "C92_count",
    "C92_constraints",
    "C92_balance",
    "C92_sample",
    "C92_before",
    "C92_early_values_refuted",
    "C92_late_refuted",
    "C92_next_load_refuted",
    "C92_reset_values_refuted"
   ],
   "note": "For environments after their first step, with nonzero scales if scaled."
  }
 ]
}