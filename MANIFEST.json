{
 "claims": [
  {
   "property": "C01",
   "status": "proved",
   "theorems": [
    "C01_world_model_world",
    "C01_example"
   ],
   "note": ""
  },
  {
   "property": "C02",
   "status": "proved",
   "theorems": [
    "C02_model_world_model",
    "C02_isometry",
    "C02_example"
   ],
   "note": ""
  },
  {
   "property": "C03",
   "status": "proved",
   "theorems": [
    "C03_intersect",
    "C03_crossings_unique",
    "C03_closed_even",
    "C03_example"
   ],
   "note": ""
  },
  {
   "property": "C04",
   "status": "proved",
   "theorems": [
    "C04_trimLine",
    "C04_example",
    "C04_terminates_refuted",
    "C04_succeeds",
    "C04_range",
    "C04_outside",
    "C04_straight_example"
   ],
   "note": "Termination is false (C04_terminates_refuted); the facts about the returned line are proved for increasing trim X, as documented. A coordinate can be NaN when line and trim segment are collinear; the facts are about numeric results."
  },
  {
   "property": "C05",
   "status": "proved",
   "theorems": [
    "C05_one_per_segment",
    "C05_closed_form",
    "C05_normal_waves",
    "C05_odd",
    "C05_sign_right",
    "C05_sign_left",
    "C05_bound",
    "C05_example"
   ],
   "note": ""
  },
  {
   "property": "C06",
   "status": "proved",
   "theorems": [
    "C06_offshore_transport",
    "C06_offshore_rule_refuted",
    "C06_example"
   ],
   "note": "The documented rule is refuted; the universal statement about what happens instead is proved."
  },
  {
   "property": "C07",
   "status": "proved",
   "theorems": [
    "C07_runup",
    "C07_value",
    "C07_example"
   ],
   "note": ""
  },
  {
   "property": "C08",
   "status": "proved",
   "theorems": [
    "C08_overtopping",
    "C08_flux_nonneg",
    "C08_flux_zero",
    "C08_flux_monotone",
    "C08_rule_deterministic",
    "C08_example"
   ],
   "note": ""
  },
  {
   "property": "C09",
   "status": "proved",
   "theorems": [
    "C09_uniform_coast",
    "C09_shift",
    "C09_example",
    "C09_no_movement"
   ],
   "note": ""
  },
  {
   "property": "C10",
   "status": "proved",
   "theorems": [
    "C10_discharge",
    "C10_example"
   ],
   "note": ""
  },
  {
   "property": "C11",
   "status": "proved",
   "theorems": [
    "C11_downstream",
    "C11_energy",
    "C11_depths",
    "C11_critical_unique",
    "C11_example"
   ],
   "note": ""
  },
  {
   "property": "C12",
   "status": "proved",
   "theorems": [
    "C12_terminates",
    "C12_few_updates"
   ],
   "note": ""
  },
  {
   "property": "C13",
   "status": "proved",
   "theorems": [
    "C13_negative_estimate",
    "C13_example",
    "C13_dry_end",
    "C13_dry_example",
    "C13_numbers_refuted"
   ],
   "note": ""
  },
  {
   "property": "C14",
   "status": "proved",
   "theorems": [
    "C14_positive",
    "C14_positive_exact",
    "C14_example"
   ],
   "note": ""
  },
  {
   "property": "C15",
   "status": "proved",
   "theorems": [
    "C15_setup",
    "C15_residual",
    "C15_balance",
    "C15_offline",
    "C15_example",
    "C15_example_setup"
   ],
   "note": ""
  },
  {
   "property": "C16",
   "status": "proved",
   "theorems": [
    "C16_newton",
    "C16_example"
   ],
   "note": ""
  },
  {
   "property": "C17",
   "status": "proved",
   "theorems": [
    "C17_reverse_refuted",
    "C17_example"
   ],
   "note": ""
  },
  {
   "property": "C18",
   "status": "proved",
   "theorems": [
    "C18_iterate",
    "C18_first_step_only",
    "C18_example"
   ],
   "note": ""
  },
  {
   "property": "C19",
   "status": "proved",
   "theorems": [
    "C19_first",
    "C19_later",
    "C19_compose",
    "C19_example"
   ],
   "note": ""
  },
  {
   "property": "C20",
   "status": "proved",
   "theorems": [
    "C20_layout",
    "C20_hydraulics",
    "C20_contents",
    "C20_example"
   ],
   "note": ""
  },
  {
   "property": "C21",
   "status": "proved",
   "theorems": [
    "C21_closure",
    "C21_example"
   ],
   "note": ""
  },
  {
   "property": "C22",
   "status": "proved",
   "theorems": [
    "C22_online",
    "C22_example"
   ],
   "note": ""
  },
  {
   "property": "C23",
   "status": "proved",
   "theorems": [
    "C23_storage",
    "C23_total_open",
    "C23_total_shut",
    "C23_single",
    "C23_inline",
    "C23_conserved_refuted",
    "C23_example"
   ],
   "note": ""
  },
  {
   "property": "C24",
   "status": "proved",
   "theorems": [
    "C24_numbers",
    "C24_filled",
    "C24_range",
    "C24_example"
   ],
   "note": ""
  },
  {
   "property": "C25",
   "status": "proved",
   "theorems": [
    "C25_round_trip",
    "C25_example"
   ],
   "note": ""
  },
  {
   "property": "C26",
   "status": "proved",
   "theorems": [
    "C26_stored",
    "C26_succeeds",
    "C26_example"
   ],
   "note": ""
  },
  {
   "property": "C27",
   "status": "proved",
   "theorems": [
    "C27_formula",
    "C27_transport",
    "C27_between",
    "C27_reverse",
    "C27_example"
   ],
   "note": ""
  },
  {
   "property": "C28",
   "status": "proved",
   "theorems": [
    "C28_open",
    "C28_closed",
    "C28_example"
   ],
   "note": ""
  },
  {
   "property": "C29",
   "status": "proved",
   "theorems": [
    "C29_interpolates",
    "C29_between",
    "C29_unique",
    "C29_example"
   ],
   "note": ""
  },
  {
   "property": "C30",
   "status": "proved",
   "theorems": [
    "C30_raises",
    "C30_index"
   ],
   "note": ""
  },
  {
   "property": "C31",
   "status": "proved",
   "theorems": [
    "C31_clock",
    "C31_example"
   ],
   "note": ""
  },
  {
   "property": "C32",
   "status": "proved",
   "theorems": [
    "C32_never_ends",
    "C32_example"
   ],
   "note": ""
  },
  {
   "property": "C33",
   "status": "proved",
   "theorems": [
    "C33_at_end",
    "C33_short",
    "C33_two_at_end",
    "C33_bound",
    "C33_stops",
    "C33_example"
   ],
   "note": ""
  },
  {
   "property": "C34",
   "status": "proved",
   "theorems": [
    "C34_records",
    "C34_complete_refuted",
    "C34_example"
   ],
   "note": ""
  },
  {
   "property": "C35",
   "status": "proved",
   "theorems": [
    "C35_opens",
    "C35_shuts",
    "C35_shuts_criterion",
    "C35_opens_example",
    "C35_shuts_example"
   ],
   "note": ""
  },
  {
   "property": "C36",
   "status": "proved",
   "theorems": [
    "C36_times",
    "C36_hydraulic_times",
    "C36_end_ignored",
    "C36_example",
    "C36_end_example"
   ],
   "note": ""
  },
  {
   "property": "C37",
   "status": "proved",
   "theorems": [
    "C37_range",
    "C37_quality",
    "C37_example"
   ],
   "note": ""
  },
  {
   "property": "C38",
   "status": "proved",
   "theorems": [
    "C38_terminates",
    "C38_terminates_refuted",
    "C38_forever"
   ],
   "note": ""
  },
  {
   "property": "C39",
   "status": "proved",
   "theorems": [
    "C39_limits_refuted",
    "C39_minimum_refuted",
    "C39_one_day",
    "C39_example"
   ],
   "note": ""
  },
  {
   "property": "C40",
   "status": "proved",
   "theorems": [
    "C40_transects",
    "C40_river",
    "C40_end",
    "C40_exact",
    "C40_example",
    "C40_example_exact"
   ],
   "note": ""
  },
  {
   "property": "C41",
   "status": "proved",
   "theorems": [
    "C41_supply",
    "C41_cap_refuted",
    "C41_example"
   ],
   "note": ""
  },
  {
   "property": "C42",
   "status": "proved",
   "theorems": [
    "C42_telescopes",
    "C42_example"
   ],
   "note": ""
  },
  {
   "property": "C43",
   "status": "proved",
   "theorems": [
    "C43_lagoon",
    "C43_outlet",
    "C43_river",
    "C43_end",
    "C43_elsewhere",
    "C43_example"
   ],
   "note": ""
  },
  {
   "property": "C44",
   "status": "proved",
   "theorems": [
    "C44_pointwise",
    "C44_total",
    "C44_bank",
    "C44_only",
    "C44_example"
   ],
   "note": ""
  },
  {
   "property": "C45",
   "status": "proved",
   "theorems": [
    "C45_shoreface",
    "C45_barrier",
    "C45_rest",
    "C45_present",
    "C45_example"
   ],
   "note": ""
  },
  {
   "property": "C46",
   "status": "proved",
   "theorems": [
    "C46_spread",
    "C46_total",
    "C46_ends",
    "C46_total_refuted",
    "C46_example"
   ],
   "note": ""
  },
  {
   "property": "C47",
   "status": "proved",
   "theorems": [
    "C47_ends",
    "C47_example"
   ],
   "note": ""
  },
  {
   "property": "C48",
   "status": "proved",
   "theorems": [
    "C48_within_domain",
    "C48_jump",
    "C48_clamp_refuted",
    "C48_example"
   ],
   "note": ""
  },
  {
   "property": "C49",
   "status": "proved",
   "theorems": [
    "C49_cliff",
    "C49_applied",
    "C49_example"
   ],
   "note": ""
  },
  {
   "property": "C50",
   "status": "proved",
   "theorems": [
    "C50_redistribution",
    "C50_elsewhere",
    "C50_every_transect",
    "C50_no_negative_width",
    "C50_example"
   ],
   "note": ""
  },
  {
   "property": "C51",
   "status": "proved",
   "theorems": [
    "C51_elongation",
    "C51_example"
   ],
   "note": ""
  },
  {
   "property": "C52",
   "status": "proved",
   "theorems": [
    "C52_bank",
    "C52_first_only",
    "C52_example"
   ],
   "note": ""
  },
  {
   "property": "C53",
   "status": "proved",
   "theorems": [
    "C53_untouched",
    "C53_first",
    "C53_rest_refuted",
    "C53_example"
   ],
   "note": ""
  },
  {
   "property": "C54",
   "status": "proved",
   "theorems": [
    "C54_left_to_right",
    "C54_right_to_left",
    "C54_mirror_refuted",
    "C54_example"
   ],
   "note": ""
  },
  {
   "property": "C55",
   "status": "proved",
   "theorems": [
    "C55_collision",
    "C55_applied",
    "C55_example"
   ],
   "note": ""
  },
  {
   "property": "C56",
   "status": "proved",
   "theorems": [
    "C56_channel_transects",
    "C56_success_needs_true",
    "C56_success_is_unique",
    "C56_update",
    "C56_all_true",
    "C56_deterministic_refuted"
   ],
   "note": ""
  },
  {
   "property": "C57",
   "status": "proved",
   "theorems": [
    "C57_merge",
    "C57_bed_volume_refuted",
    "C57_every_transect"
   ],
   "note": ""
  },
  {
   "property": "C58",
   "status": "proved",
   "theorems": [
    "C58_fill",
    "C58_every_transect",
    "C58_presence",
    "C58_example"
   ],
   "note": ""
  },
  {
   "property": "C59",
   "status": "proved",
   "theorems": [
    "C59_filled",
    "C59_nearest",
    "C59_index",
    "C59_open_refuted",
    "C59_example"
   ],
   "note": ""
  },
  {
   "property": "C60",
   "status": "proved",
   "theorems": [
    "C60_restored",
    "C60_every_transect",
    "C60_conservation_refuted"
   ],
   "note": ""
  },
  {
   "property": "C61",
   "status": "proved",
   "theorems": [
    "C61_crests",
    "C61_check_only_refuted"
   ],
   "note": ""
  },
  {
   "property": "C62",
   "status": "proved",
   "theorems": [
    "C62_geometry",
    "C62_open",
    "C62_example"
   ],
   "note": ""
  },
  {
   "property": "C63",
   "status": "proved",
   "theorems": [
    "C63_new_channel",
    "C63_index_one",
    "C63_index_zero",
    "C63_recognised_refuted"
   ],
   "note": ""
  },
  {
   "property": "C64",
   "status": "proved",
   "theorems": [
    "C64_shape",
    "C64_lagoon_width",
    "C64_order_corrections",
    "C64_order",
    "C64_example"
   ],
   "note": ""
  },
  {
   "property": "C65",
   "status": "proved",
   "theorems": [
    "C65_cause",
    "C65_none",
    "C65_eroded_closed",
    "C65_calm",
    "C65_levels",
    "C65_example_levels",
    "C65_erosion_place",
    "C65_spill_place",
    "C65_spill_none",
    "C65_stuck",
    "C65_example_stuck",
    "C65_example_erosion",
    "C65_example_spill",
    "C65_example_calm"
   ],
   "note": ""
  },
  {
   "property": "C66",
   "status": "proved",
   "theorems": [
    "C66_line",
    "C66_k2",
    "C66_breaker",
    "C66_derive",
    "C66_example"
   ],
   "note": ""
  },
  {
   "property": "C67",
   "status": "proved",
   "theorems": [
    "C67_bed",
    "C67_example"
   ],
   "note": ""
  },
  {
   "property": "C68",
   "status": "proved",
   "theorems": [
    "C68_grid",
    "C68_transects",
    "C68_example",
    "C68_float_refuted",
    "C68_channel_refuted"
   ],
   "note": ""
  },
  {
   "property": "C69",
   "status": "proved",
   "theorems": [
    "C69_direction",
    "C69_example"
   ],
   "note": ""
  },
  {
   "property": "C70",
   "status": "proved",
   "theorems": [
    "C70_kept",
    "C70_accepted",
    "C70_total",
    "C70_covers",
    "C70_trimmed_refuted"
   ],
   "note": ""
  },
  {
   "property": "C71",
   "status": "proved",
   "theorems": [
    "C71_same_y",
    "C71_position_refuted",
    "C71_inserted",
    "C71_overlap",
    "C71_example"
   ],
   "note": ""
  },
  {
   "property": "C72",
   "status": "proved",
   "theorems": [
    "C72_times",
    "C72_range",
    "C72_value",
    "C72_accepted",
    "C72_example",
    "C72_accepted_refuted"
   ],
   "note": ""
  },
  {
   "property": "C73",
   "status": "proved",
   "theorems": [
    "C73_default",
    "C73_never",
    "C73_short",
    "C73_whole_days",
    "C73_example"
   ],
   "note": ""
  },
  {
   "property": "C74",
   "status": "proved",
   "theorems": [
    "C74_positive",
    "C74_decay",
    "C74_total",
    "C74_example",
    "C74_fine_example"
   ],
   "note": ""
  },
  {
   "property": "C75",
   "status": "proved",
   "theorems": [
    "C75_stops",
    "C75_stops_refuted",
    "C75_example"
   ],
   "note": ""
  },
  {
   "property": "C76",
   "status": "proved",
   "theorems": [
    "C76_results",
    "C76_timeseries",
    "C76_both",
    "C76_example"
   ],
   "note": ""
  },
  {
   "property": "C77",
   "status": "proved",
   "theorems": [
    "C77_lost",
    "C77_lost_example",
    "C77_same_name",
    "C77_same_name_example"
   ],
   "note": ""
  },
  {
   "property": "C78",
   "status": "proved",
   "theorems": [
    "C78_read_back",
    "C78_earlier",
    "C78_times",
    "C78_accepts",
    "C78_rejects",
    "C78_timeseries",
    "C78_example"
   ],
   "note": ""
  },
  {
   "property": "C79",
   "status": "proved",
   "theorems": [
    "C79_ignored",
    "C79_never_stored",
    "C79_direction",
    "C79_written",
    "C79_example"
   ],
   "note": ""
  },
  {
   "property": "C80",
   "status": "proved",
   "theorems": [
    "C80_closest",
    "C80_total",
    "C80_at_most_two",
    "C80_example"
   ],
   "note": ""
  },
  {
   "property": "C81",
   "status": "proved",
   "theorems": [
    "C81_undefined_breaking_angle",
    "C81_example"
   ],
   "note": ""
  },
  {
   "property": "C84",
   "status": "proved",
   "theorems": [
    "C84_written",
    "C84_status_refuted",
    "C84_resumes",
    "C84_depth",
    "C84_no_depth",
    "C84_example",
    "C84_tie",
    "C84_tie_example",
    "C84_spacing"
   ],
   "note": ""
  },
  {
   "property": "C85",
   "status": "proved",
   "theorems": [
    "C85_origin",
    "C85_points",
    "C85_inflow",
    "C85_landward_refuted",
    "C85_flat"
   ],
   "note": ""
  },
  {
   "property": "C86",
   "status": "proved",
   "theorems": [
    "C86_fits",
    "C86_ends",
    "C86_bed",
    "C86_levels",
    "C86_example",
    "C86_fits_example",
    "C86_lines",
    "C86_shape",
    "C86_shape_example"
   ],
   "note": ""
  },
  {
   "property": "C87",
   "status": "proved",
   "theorems": [
    "C87_series",
    "C87_limb_refuted",
    "C87_example",
    "C87_end_refuted"
   ],
   "note": ""
  },
  {
   "property": "C88",
   "status": "proved",
   "theorems": [
    "C88_forced",
    "C88_hydraulics",
    "C88_discharge",
    "C88_example"
   ],
   "note": ""
  },
  {
   "property": "C89",
   "status": "proved",
   "theorems": [
    "C89_morphology",
    "C89_record",
    "C89_bedload",
    "C89_series",
    "C89_example",
    "C89_stamp_refuted"
   ],
   "note": ""
  },
  {
   "property": "C90",
   "status": "proved",
   "theorems": [
    "C90_lines",
    "C90_chainage",
    "C90_steady",
    "C90_gravity_refuted",
    "C90_axis_refuted",
    "C90_example"
   ],
   "note": ""
  },
  {
   "property": "C91",
   "status": "proved",
   "theorems": [
    "C91_nearest",
    "C91_title",
    "C91_ground",
    "C91_water",
    "C91_folds_refuted",
    "C91_example",
    "C91_nearest_example"
   ],
   "note": ""
  },
  {
   "property": "C92",
   "status": "proved",
   "theorems": [
    "C92_drawable",
    "C92_first_drawing",
    "C92_outline",
    "C92_closed",
    "C92_hatch",
    "C92_shoreline",
    "C92_lagoon",
    "C92_cliff",
    "C92_channel",
    "C92_arrow",
    "C92_interpolation",
    "C92_left_bank_refuted",
    "C92_mirror_refuted",
    "C92_hatch_refuted",
    "C92_example",
    "C92_closed_example"
   ],
   "note": ""
  },
  {
   "property": "C93",
   "status": "proved",
   "theorems": [
    "C93_frames",
    "C93_interval_zero",
    "C93_end_excluded",
    "C93_map",
    "C93_longsection",
    "C93_transect",
    "C93_parameters",
    "C93_closed_start",
    "C93_example",
    "C93_closed_refuted"
   ],
   "note": ""
  },
  {
   "property": "C94",
   "status": "proved",
   "theorems": [
    "C94_direction",
    "C94_frame",
    "C94_rows",
    "C94_minutes_refuted"
   ],
   "note": ""
  },
  {
   "property": "C95",
   "status": "proved",
   "theorems": [
    "C95_excess",
    "C95_exists",
    "C95_group",
    "C95_flux_refuted",
    "C95_grazing",
    "C95_offshore",
    "C95_example",
    "C95_grazing_example",
    "C95_offshore_example"
   ],
   "note": ""
  },
  {
   "property": "C96",
   "status": "proved",
   "theorems": [
    "C96_values",
    "C96_nan",
    "C96_bridged_refuted",
    "C96_independent_refuted",
    "C96_example"
   ],
   "note": ""
  },
  {
   "property": "C97",
   "status": "proved",
   "theorems": [
    "C97_accepted",
    "C97_meaning",
    "C97_error",
    "C97_required",
    "C97_limits",
    "C97_unknown",
    "C97_nan_refuted",
    "C97_typo_refuted",
    "C97_example"
   ],
   "note": ""
  },
  {
   "property": "C98",
   "status": "proved",
   "theorems": [
    "C98_parameters",
    "C98_example"
   ],
   "note": ""
  },
  {
   "property": "C99",
   "status": "proved",
   "theorems": [
    "C99_sound",
    "C99_missing",
    "C99_invalid",
    "C99_clock",
    "C99_run",
    "C99_stuck",
    "C99_backwards",
    "C99_runs_refuted",
    "C99_order_refuted",
    "C99_example"
   ],
   "note": ""
  },
  {
   "property": "C100",
   "status": "proved",
   "theorems": [
    "C100_names",
    "C100_differ",
    "C100_shared",
    "C100_distinct_refuted",
    "C100_two_refuted",
    "C100_example"
   ],
   "note": ""
  },
  {
   "property": "C101",
   "status": "proved",
   "theorems": [
    "C101_flow",
    "C101_sea",
    "C101_waves",
    "C101_hot",
    "C101_tide",
    "C101_range",
    "C101_shotnoise",
    "C101_cold",
    "C101_hot_only",
    "C101_continue_refuted",
    "C101_example_hot_only",
    "C101_example_shotnoise",
    "C101_straight",
    "C101_shapes",
    "C101_straight_example",
    "C101_shapes_example"
   ],
   "note": ""
  },
  {
   "property": "C102",
   "status": "proved",
   "theorems": [
    "C102_files",
    "C102_unloadable",
    "C102_refused",
    "C102_cold",
    "C102_schedule",
    "C102_ends",
    "C102_one_name",
    "C102_example",
    "C102_example_end",
    "C102_example_one_name"
   ],
   "note": ""
  },
  {
   "property": "C103",
   "status": "proved",
   "theorems": [
    "C103_files",
    "C103_schedule",
    "C103_example"
   ],
   "note": ""
  },
  {
   "property": "C104",
   "status": "proved",
   "theorems": [
    "C104_records",
    "C104_closed",
    "C104_first",
    "C104_current_refuted",
    "C104_plottable_refuted"
   ],
   "note": ""
  },
  {
   "property": "C105",
   "status": "proved",
   "theorems": [
    "C105_covered",
    "C105_tide",
    "C105_stops",
    "C105_reaches_end_refuted"
   ],
   "note": ""
  },
  {
   "property": "C106",
   "status": "proved",
   "theorems": [
    "C106_transect",
    "C106_total",
    "C106_conserved_refuted",
    "C106_example"
   ],
   "note": ""
  },
  {
   "property": "C107",
   "status": "proved",
   "theorems": [
    "C107_quiet",
    "C107_balance",
    "C107_example"
   ],
   "note": ""
  },
  {
   "property": "C108",
   "status": "proved",
   "theorems": [
    "C108_open",
    "C108_closed",
    "C108_forgotten",
    "C108_edge",
    "C108_ends",
    "C108_levels_refuted",
    "C108_example"
   ],
   "note": ""
  },
  {
   "property": "C83",
   "status": "proved",
   "theorems": [
    "C83_moved",
    "C83_elapsed_refuted",
    "C83_example"
   ],
   "note": ""
  },
  {
   "property": "C109",
   "status": "proved",
   "theorems": [
    "C109_story",
    "C109_step",
    "C109_ledger",
    "C109_movement",
    "C109_seaward",
    "C109_cliff",
    "C109_squeeze",
    "C109_conserved_refuted",
    "C109_example"
   ],
   "note": ""
  },
  {
   "property": "C110",
   "status": "proved",
   "theorems": [
    "C110_described",
    "C110_timeseries",
    "C110_created",
    "C110_parameters",
    "C110_animation",
    "C110_segments",
    "C110_coordinates",
    "C110_frame",
    "C110_resumed",
    "C110_midnight",
    "C110_time",
    "C110_first",
    "C110_parameters_refuted",
    "C110_degrees_refuted",
    "C110_described_example",
    "C110_time_example"
   ],
   "note": ""
  },
  {
   "property": "C111",
   "status": "proved",
   "theorems": [
    "C111_words",
    "C111_order",
    "C111_messages",
    "C111_name",
    "C111_runs",
    "C111_refuses",
    "C111_silent",
    "C111_logs_refuted",
    "C111_words_example",
    "C111_messages_example"
   ],
   "note": ""
  },
  {
   "property": "C112",
   "status": "proved",
   "theorems": [
    "C112_drawn",
    "C112_when",
    "C112_fails",
    "C112_river_refuted",
    "C112_example"
   ],
   "note": ""
  },
  {
   "property": "C113",
   "status": "proved",
   "theorems": [
    "C113_columns",
    "C113_untouched",
    "C113_place",
    "C113_step",
    "C113_update",
    "C113_cliff_refuted",
    "C113_crest_refuted",
    "C113_example_keep",
    "C113_example"
   ],
   "note": ""
  },
  {
   "property": "C114",
   "status": "proved",
   "theorems": [
    "C114_exact",
    "C114_double",
    "C114_update",
    "C114_steps",
    "C114_program",
    "C114_unique",
    "C114_disk",
    "C114_example"
   ],
   "note": ""
  },
  {
   "property": "C115",
   "status": "proved",
   "theorems": [
    "C115_start",
    "C115_stuck",
    "C115_update",
    "C115_breach_refuted",
    "C115_fill_refuted",
    "C115_example_calm",
    "C115_example"
   ],
   "note": ""
  },
  {
   "property": "C116",
   "status": "proved",
   "theorems": [
    "C116_grid",
    "C116_mapped",
    "C116_records",
    "C116_stood",
    "C116_stuck",
    "C116_lagoon",
    "C116_example"
   ],
   "note": ""
  },
  {
   "property": "C117",
   "status": "proved",
   "theorems": [
    "C117_through",
    "C117_seconds_refuted",
    "C117_first_refuted",
    "C117_example"
   ],
   "note": ""
  },
  {
   "property": "C118",
   "status": "proved",
   "theorems": [
    "C118_passes",
    "C118_loop",
    "C118_records",
    "C118_example"
   ],
   "note": ""
  },
  {
   "property": "C119",
   "status": "proved",
   "theorems": [
    "C119_update",
    "C119_start",
    "C119_passes",
    "C119_loop",
    "C119_rounded_refuted",
    "C119_example"
   ],
   "note": ""
  },
  {
   "property": "C120",
   "status": "proved",
   "theorems": [
    "C120_passes",
    "C120_loop",
    "C120_start",
    "C120_anyNumbers",
    "C120_nanoseconds_refuted",
    "C120_example"
   ],
   "note": ""
  },
  {
   "property": "C121",
   "status": "proved",
   "theorems": [
    "C121_steady",
    "C121_unsteady",
    "C121_channel",
    "C121_update",
    "C121_start",
    "C121_passes",
    "C121_merge",
    "C121_merge_refuted",
    "C121_low_refuted",
    "C121_example",
    "C121_calm_example"
   ],
   "note": ""
  },
  {
   "property": "C122",
   "status": "proved",
   "theorems": [
    "C122_around",
    "C122_onLine",
    "C122_passes",
    "C122_loop",
    "C122_run",
    "C122_setup",
    "C122_edge_refuted",
    "C122_rounding_refuted",
    "C122_example",
    "C122_run_example",
    "C122_line_example"
   ],
   "note": ""
  },
  {
   "property": "C123",
   "status": "proved",
   "theorems": [
    "C123_passes",
    "C123_last",
    "C123_start",
    "C123_loaded",
    "C123_program",
    "C123_final_refuted",
    "C123_example",
    "C123_example_run",
    "C123_program_example",
    "C123_program_example_ends",
    "C123_program_example_run",
    "C123_program_example_flow",
    "C123_program_example_files"
   ],
   "note": ""
  },
  {
   "property": "C124",
   "status": "proved",
   "theorems": [
    "C124_channel",
    "C124_stored",
    "C124_bedload",
    "C124_longshore",
    "C124_overtopping",
    "C124_waves",
    "C124_pass",
    "C124_facing_refuted",
    "C124_grid_refuted",
    "C124_coast_refuted",
    "C124_example",
    "C124_example_water",
    "C124_example_depths",
    "C124_example_channel"
   ],
   "note": ""
  },
  {
   "property": "C125",
   "status": "proved",
   "theorems": [
    "C125_update",
    "C125_pass",
    "C125_leftwards",
    "C125_next_refuted",
    "C125_example",
    "C125_example_pass"
   ],
   "note": ""
  },
  {
   "property": "C126",
   "status": "proved",
   "theorems": [
    "C126_pass",
    "C126_outcome",
    "C126_run",
    "C126_long_refuted",
    "C126_example"
   ],
   "note": ""
  },
  {
   "property": "C127",
   "status": "proved",
   "theorems": [
    "C127_update",
    "C127_pass",
    "C127_run",
    "C127_double",
    "C127_example",
    "C127_example_run",
    "C127_example_double"
   ],
   "note": ""
  },
  {
   "property": "C128",
   "status": "proved",
   "theorems": [
    "C128_transport",
    "C128_power",
    "C128_run",
    "C128_example",
    "C128_densities_alone_refuted"
   ],
   "note": ""
  },
  {
   "property": "C129",
   "status": "proved",
   "theorems": [
    "C129_unseen",
    "C129_target",
    "C129_example",
    "C129_height_alone_refuted"
   ],
   "note": ""
  },
  {
   "property": "C130",
   "status": "proved",
   "theorems": [
    "C130_restart",
    "C130_shows",
    "C130_example_shows",
    "C130_real",
    "C130_example_real",
    "C130_example",
    "C130_step",
    "C130_always_refuted"
   ],
   "note": ""
  }
 ]
}