{
 "claims": [
  {
   "property": "C01",
   "status": "proved",
   "theorems": [
    "C01_roman_correct",
    "C01_roman_injective"
   ],
   "note": ""
  },
  {
   "property": "C02",
   "status": "proved",
   "theorems": [
    "C02_commify_grouping",
    "C02_grouping_unique",
    "C02_commify_integer",
    "C02_commify_strip",
    "C02_decimal_text"
   ],
   "note": ""
  },
  {
   "property": "C03",
   "status": "proved",
   "theorems": [
    "C03_commify_empty_diverges",
    "C03_commify_empty_short",
    "C03_commify_digit_separator"
   ],
   "note": ""
  },
  {
   "property": "C04",
   "status": "proved",
   "theorems": [
    "C04_round_to_nearest",
    "C04_nearest_unique",
    "C04_round_double"
   ],
   "note": ""
  },
  {
   "property": "C05",
   "status": "proved",
   "theorems": [
    "C05_floor_to_nearest",
    "C05_ceil_to_nearest"
   ],
   "note": ""
  },
  {
   "property": "C06",
   "status": "proved",
   "theorems": [
    "C06_pop_round",
    "C06_pop_round_short_small",
    "C06_pop_round_short_big"
   ],
   "note": ""
  },
  {
   "property": "C07",
   "status": "proved",
   "theorems": [
    "C07_dollar_short",
    "C07_dollar_long",
    "C07_dollar_long_million",
    "C07_dollar_saturates",
    "C07_dollar_small"
   ],
   "note": ""
  },
  {
   "property": "C08",
   "status": "proved",
   "theorems": [
    "C08_elapsed",
    "C08_backwards"
   ],
   "note": ""
  },
  {
   "property": "C09",
   "status": "proved",
   "theorems": [
    "C09_elapsed_string",
    "C09_time_str",
    "C09_time_str_unknown"
   ],
   "note": ""
  },
  {
   "property": "C10",
   "status": "proved",
   "theorems": [
    "C10_modern",
    "C10_equivalent_year",
    "C10_rendering",
    "C10_other_year_directives_refuted",
    "C10_assertion",
    "C10_locale_formats",
    "C10_locale_detection_refuted"
   ],
   "note": ""
  },
  {
   "property": "C11",
   "status": "proved",
   "theorems": [
    "C11_replace_tokens",
    "C11_unchanged"
   ],
   "note": ""
  },
  {
   "property": "C12",
   "status": "proved",
   "theorems": [
    "C12_range",
    "C12_periodic",
    "C12_band"
   ],
   "note": ""
  },
  {
   "property": "C13",
   "status": "proved",
   "theorems": [
    "C13_inside_raster",
    "C13_containing_cell",
    "C13_clamped",
    "C13_first_name",
    "C13_missing_code",
    "C13_bad_method",
    "C13_required_arguments",
    "C13_conversion_ignores_method",
    "C13_roundtrip",
    "C13_index",
    "C13_offsets",
    "C13_unknown_zone"
   ],
   "note": ""
  },
  {
   "property": "C14",
   "status": "proved",
   "theorems": [
    "C14_edge_columns"
   ],
   "note": ""
  },
  {
   "property": "C15",
   "status": "proved",
   "theorems": [
    "C15_first_feature",
    "C15_fallback",
    "C15_empty",
    "C15_nautical",
    "C15_natural_earth",
    "C15_natural_earth_fallback"
   ],
   "note": ""
  },
  {
   "property": "C16",
   "status": "proved",
   "theorems": [
    "C16_five_maps",
    "C16_last_set_wins",
    "C16_plain_values",
    "C16_json_form",
    "C16_slash_names_refuted",
    "C16_absolute_names_refuted"
   ],
   "note": ""
  },
  {
   "property": "C17",
   "status": "proved",
   "theorems": [
    "C17_second_set",
    "C17_missing",
    "C17_drop_then_set",
    "C17_failed_set_stores_refuted"
   ],
   "note": ""
  },
  {
   "property": "C18",
   "status": "proved",
   "theorems": [
    "C18_paths",
    "C18_set_get"
   ],
   "note": ""
  },
  {
   "property": "C19",
   "status": "proved",
   "theorems": [
    "C19_type_stable",
    "C19_type_values",
    "C19_other_family",
    "C19_never_both"
   ],
   "note": ""
  },
  {
   "property": "C20",
   "status": "proved",
   "theorems": [
    "C20_history",
    "C20_inverse",
    "C20_components_total",
    "C20_pairs",
    "C20_stored_listed",
    "C20_listed_stored",
    "C20_failed_write_listed_refuted",
    "C20_drop"
   ],
   "note": ""
  },
  {
   "property": "C21",
   "status": "proved",
   "theorems": [
    "C21_mismatch"
   ],
   "note": ""
  },
  {
   "property": "C22",
   "status": "proved",
   "theorems": [
    "C22_last_set_wins",
    "C22_never_set",
    "C22_rejected"
   ],
   "note": ""
  },
  {
   "property": "C23",
   "status": "proved",
   "theorems": [
    "C23_every_state",
    "C23_whole_files"
   ],
   "note": ""
  },
  {
   "property": "C24",
   "status": "proved",
   "theorems": [
    "C24_directory_files",
    "C24_listed_files",
    "C24_no_other_file",
    "C24_outside",
    "C24_succeeds",
    "C24_relative_refuted",
    "C24_repeated_name_refuted"
   ],
   "note": ""
  },
  {
   "property": "C25",
   "status": "proved",
   "theorems": [
    "C25_count",
    "C25_count_listed"
   ],
   "note": ""
  },
  {
   "property": "C26",
   "status": "proved",
   "theorems": [
    "C26_marker",
    "C26_failed_send_refuted"
   ],
   "note": ""
  },
  {
   "property": "C27",
   "status": "proved",
   "theorems": [
    "C27_accepts",
    "C27_required",
    "C27_missing_property",
    "C27_no_properties",
    "C27_not_a_list",
    "C27_missing_file",
    "C27_missing_directory",
    "C27_later",
    "C27_factory",
    "C27_factory_other"
   ],
   "note": ""
  },
  {
   "property": "C28",
   "status": "proved",
   "theorems": [
    "C28_individual",
    "C28_batches",
    "C28_fuel",
    "C28_never_ends"
   ],
   "note": ""
  },
  {
   "property": "C29",
   "status": "proved",
   "theorems": [
    "C29_failover",
    "C29_once",
    "C29_twice_refuted",
    "C29_refused_refuted"
   ],
   "note": ""
  },
  {
   "property": "C30",
   "status": "proved",
   "theorems": [
    "C30_send",
    "C30_cancel",
    "C30_one_file",
    "C30_undecodable",
    "C30_brackets_refuted"
   ],
   "note": ""
  },
  {
   "property": "C31",
   "status": "proved",
   "theorems": [
    "C31_word",
    "C31_put",
    "C31_get",
    "C31_tilde_refuted",
    "C31_empty_refuted",
    "C31_dash_refuted"
   ],
   "note": ""
  },
  {
   "property": "C32",
   "status": "proved",
   "theorems": [
    "C32_sent",
    "C32_newline",
    "C32_shrunk",
    "C32_grown_refuted",
    "C32_received",
    "C32_bad_end",
    "C32_closed"
   ],
   "note": ""
  },
  {
   "property": "C33",
   "status": "proved",
   "theorems": [
    "C33_recursive",
    "C33_slash_refuted",
    "C33_root",
    "C33_newline_refuted"
   ],
   "note": ""
  },
  {
   "property": "C34",
   "status": "proved",
   "theorems": [
    "C34_filter",
    "C34_refuses",
    "C34_many",
    "C34_commute",
    "C34_idempotent",
    "C34_constructor",
    "C34_radius_column_refuted",
    "C34_get_bounds"
   ],
   "note": ""
  },
  {
   "property": "C35",
   "status": "proved",
   "theorems": [
    "C35_cells",
    "C35_exact_once",
    "C35_exact_cover",
    "C35_edge",
    "C35_one_line",
    "C35_errors",
    "C35_lost_refuted",
    "C35_twice_refuted"
   ],
   "note": ""
  },
  {
   "property": "C36",
   "status": "proved",
   "theorems": [
    "C36_disjoint",
    "C36_padded",
    "C36_survivors",
    "C36_largest",
    "C36_removed_by_removed_refuted",
    "C36_off_map_refuted",
    "C36_empty",
    "C36_draw"
   ],
   "note": ""
  },
  {
   "property": "C37",
   "status": "proved",
   "theorems": [
    "C37_sector",
    "C37_nearest",
    "C37_beyond",
    "C37_wrap_refuted",
    "C37_negative",
    "C37_errors",
    "C37_nan",
    "C37_between",
    "C37_format_refuted"
   ],
   "note": ""
  },
  {
   "property": "C38",
   "status": "proved",
   "theorems": [
    "C38_errors",
    "C38_given_length_fails",
    "C38_length",
    "C38_parts",
    "C38_bars",
    "C38_label_text",
    "C38_labels",
    "C38_corner",
    "C38_fits",
    "C38_too_long_refuted",
    "C38_units"
   ],
   "note": ""
  },
  {
   "property": "C39",
   "status": "proved",
   "theorems": [
    "C39_seamless",
    "C39_grey",
    "C39_interpolates",
    "C39_formats",
    "C39_ends",
    "C39_presets",
    "C39_nan",
    "C39_log",
    "C39_gaps",
    "C39_listed_refuted",
    "C39_from_map",
    "C39_unordered"
   ],
   "note": ""
  },
  {
   "property": "C40",
   "status": "proved",
   "theorems": [
    "C40_check",
    "C40_index",
    "C40_mismatch_refuted"
   ],
   "note": ""
  },
  {
   "property": "C41",
   "status": "proved",
   "theorems": [
    "C41_operands",
    "C41_linear",
    "C41_dot",
    "C41_cross",
    "C41_mag",
    "C41_norm",
    "C41_distance",
    "C41_tuple"
   ],
   "note": ""
  },
  {
   "property": "C42",
   "status": "proved",
   "theorems": [
    "C42_angle",
    "C42_metric",
    "C42_depth"
   ],
   "note": ""
  },
  {
   "property": "C43",
   "status": "proved",
   "theorems": [
    "C43_course",
    "C43_unique",
    "C43_cardinal"
   ],
   "note": ""
  },
  {
   "property": "C44",
   "status": "proved",
   "theorems": [
    "C44_roundtrip",
    "C44_surface",
    "C44_normal",
    "C44_point"
   ],
   "note": ""
  },
  {
   "property": "C45",
   "status": "proved",
   "theorems": [
    "C45_roundtrip",
    "C45_back",
    "C45_forward",
    "C45_reverse",
    "C45_disc"
   ],
   "note": ""
  },
  {
   "property": "C46",
   "status": "proved",
   "theorems": [
    "C46_extent",
    "C46_box",
    "C46_complete",
    "C46_half_refuted"
   ],
   "note": ""
  },
  {
   "property": "C47",
   "status": "proved",
   "theorems": [
    "C47_min",
    "C47_nearest"
   ],
   "note": ""
  },
  {
   "property": "C48",
   "status": "proved",
   "theorems": [
    "C48_rrup",
    "C48_rjb",
    "C48_any",
    "C48_rupture",
    "C48_rupture_rjb",
    "C48_vertical",
    "C48_rjb_height_refuted"
   ],
   "note": ""
  },
  {
   "property": "C49",
   "status": "proved",
   "theorems": [
    "C49_distance",
    "C49_central",
    "C49_accepts_all",
    "C49_fixed"
   ],
   "note": ""
  },
  {
   "property": "C50",
   "status": "proved",
   "theorems": [
    "C50_check",
    "C50_rotate",
    "C50_text_repaired",
    "C50_text_asis",
    "C50_text_sound",
    "C50_text_errors",
    "C50_lone_vertex",
    "C50_comma_blank"
   ],
   "note": ""
  },
  {
   "property": "C51",
   "status": "proved",
   "theorems": [
    "C51_quads",
    "C51_errors",
    "C51_moved",
    "C51_direction",
    "C51_outline",
    "C51_outline_turned"
   ],
   "note": ""
  },
  {
   "property": "C52",
   "status": "proved",
   "theorems": [
    "C52_actual",
    "C52_count",
    "C52_first",
    "C52_later_refuted",
    "C52_errors"
   ],
   "note": ""
  },
  {
   "property": "C53",
   "status": "proved",
   "theorems": [
    "C53_read",
    "C53_build",
    "C53_arrays",
    "C53_single",
    "C53_again"
   ],
   "note": ""
  },
  {
   "property": "C54",
   "status": "proved",
   "theorems": [
    "C54_length",
    "C54_unit",
    "C54_unit_refuted",
    "C54_parts"
   ],
   "note": ""
  },
  {
   "property": "C55",
   "status": "proved",
   "theorems": [
    "C55_accepts",
    "C55_errors",
    "C55_attributes",
    "C55_dictionary",
    "C55_type_lost_refuted",
    "C55_rake_refuted",
    "C55_set",
    "C55_set_refused",
    "C55_default_refuted"
   ],
   "note": ""
  },
  {
   "property": "C56",
   "status": "proved",
   "theorems": [
    "C56_bands",
    "C56_opposite",
    "C56_defaults"
   ],
   "note": ""
  },
  {
   "property": "C57",
   "status": "proved",
   "theorems": [
    "C57_accepts",
    "C57_errors",
    "C57_values",
    "C57_order"
   ],
   "note": ""
  },
  {
   "property": "C58",
   "status": "proved",
   "theorems": [
    "C58_ids",
    "C58_ids_only",
    "C58_sources",
    "C58_guarantee",
    "C58_ambiguous_refuted",
    "C58_unmatched_refuted"
   ],
   "note": ""
  },
  {
   "property": "C59",
   "status": "proved",
   "theorems": [
    "C59_fraction_exact",
    "C59_fraction_refuted"
   ],
   "note": ""
  },
  {
   "property": "C60",
   "status": "proved",
   "theorems": [
    "C60_steady_offset",
    "C60_near_change_refuted"
   ],
   "note": ""
  },
  {
   "property": "C61",
   "status": "proved",
   "theorems": [
    "C61_send",
    "C61_attachments",
    "C61_archive",
    "C61_cancel",
    "C61_bcc_visible_refuted"
   ],
   "note": ""
  },
  {
   "property": "C62",
   "status": "proved",
   "theorems": [
    "C62_area"
   ],
   "note": ""
  },
  {
   "property": "C63",
   "status": "proved",
   "theorems": [
    "C63_cross",
    "C63_lons",
    "C63_bounding",
    "C63_bounding_refuted"
   ],
   "note": ""
  },
  {
   "property": "C64",
   "status": "proved",
   "theorems": [
    "C64_point",
    "C64_eq",
    "C64_transitive_refuted",
    "C64_clean"
   ],
   "note": ""
  },
  {
   "property": "C65",
   "status": "proved",
   "theorems": [
    "C65_frame",
    "C65_size",
    "C65_vertical",
    "C65_dip",
    "C65_reverse"
   ],
   "note": ""
  },
  {
   "property": "C66",
   "status": "proved",
   "theorems": [
    "C66_points",
    "C66_corners",
    "C66_spacing",
    "C66_cells",
    "C66_centre",
    "C66_zero"
   ],
   "note": ""
  },
  {
   "property": "C67",
   "status": "proved",
   "theorems": [
    "C67_class",
    "C67_errors"
   ],
   "note": ""
  },
  {
   "property": "C68",
   "status": "proved",
   "theorems": [
    "C68_reads",
    "C68_refused",
    "C68_writes",
    "C68_round_trip",
    "C68_from_file",
    "C68_moment_refuted",
    "C68_old_refuted"
   ],
   "note": ""
  },
  {
   "property": "C69",
   "status": "proved",
   "theorems": [
    "C69_download",
    "C69_retry_refuted",
    "C69_comcat",
    "C69_geoserve",
    "C69_authoritative",
    "C69_metadata_refuted",
    "C69_grid_url",
    "C69_grid_file",
    "C69_grid_lost",
    "C69_grid_refuted"
   ],
   "note": ""
  },
  {
   "property": "C70",
   "status": "proved",
   "theorems": [
    "C70_time",
    "C70_later_refuted",
    "C70_params",
    "C70_getters"
   ],
   "note": ""
  },
  {
   "property": "C71",
   "status": "proved",
   "theorems": [
    "C71_valid",
    "C71_errors"
   ],
   "note": ""
  },
  {
   "property": "C72",
   "status": "proved",
   "theorems": [
    "C72_shape",
    "C72_reference",
    "C72_no_file",
    "C72_json",
    "C72_text",
    "C72_text_read",
    "C72_errors",
    "C72_not_json",
    "C72_object_refuted"
   ],
   "note": ""
  },
  {
   "property": "C73",
   "status": "proved",
   "theorems": [
    "C73_document",
    "C73_reread",
    "C73_mesh",
    "C73_mesh_refuted"
   ],
   "note": ""
  },
  {
   "property": "C74",
   "status": "proved",
   "theorems": [
    "C74_every_state",
    "C74_whole_files",
    "C74_outside"
   ],
   "note": ""
  },
  {
   "property": "C75",
   "status": "proved",
   "theorems": [
    "C75_listed",
    "C75_count",
    "C75_all",
    "C75_succeeds",
    "C75_missing_refuted",
    "C75_relative_refuted"
   ],
   "note": ""
  },
  {
   "property": "C76",
   "status": "proved",
   "theorems": [
    "C76_cancel",
    "C76_succeeds",
    "C76_relative_refuted",
    "C76_marker_stays",
    "C76_name_error",
    "C76_no_folder"
   ],
   "note": ""
  },
  {
   "property": "C77",
   "status": "proved",
   "theorems": [
    "C77_every_state",
    "C77_whole_files",
    "C77_outside",
    "C77_twice_refuted",
    "C77_obstacle_refuted",
    "C77_injection_refuted"
   ],
   "note": ""
  },
  {
   "property": "C78",
   "status": "proved",
   "theorems": [
    "C78_in_place",
    "C78_count",
    "C78_succeeds",
    "C78_early_refuted",
    "C78_slow_refuted",
    "C78_blank_refuted",
    "C78_swallowed_refuted",
    "C78_relative_refuted"
   ],
   "note": ""
  },
  {
   "property": "C79",
   "status": "proved",
   "theorems": [
    "C79_states",
    "C79_success",
    "C79_succeeds",
    "C79_stale_refuted",
    "C79_slow_refuted"
   ],
   "note": ""
  },
  {
   "property": "C80",
   "status": "proved",
   "theorems": [
    "C80_actual",
    "C80_joined",
    "C80_default",
    "C80_ignored",
    "C80_errors",
    "C80_gap_refuted"
   ],
   "note": ""
  },
  {
   "property": "C81",
   "status": "proved",
   "theorems": [
    "C81_trace",
    "C81_index",
    "C81_refused",
    "C81_shape",
    "C81_orientation",
    "C81_orientation_lengths"
   ],
   "note": ""
  },
  {
   "property": "C82",
   "status": "proved",
   "theorems": [
    "C82_length",
    "C82_width",
    "C82_area",
    "C82_area_true",
    "C82_area_refuted",
    "C82_strike",
    "C82_strike_between",
    "C82_strike_none",
    "C82_dip",
    "C82_top"
   ],
   "note": ""
  },
  {
   "property": "C83",
   "status": "proved",
   "theorems": [
    "C83_length",
    "C83_length_errors",
    "C83_area",
    "C83_width",
    "C83_top"
   ],
   "note": ""
  },
  {
   "property": "C84",
   "status": "proved",
   "theorems": [
    "C84_angles",
    "C84_upright",
    "C84_degenerate",
    "C84_refused"
   ],
   "note": ""
  },
  {
   "property": "C85",
   "status": "proved",
   "theorems": [
    "C85_rrup",
    "C85_rjb",
    "C85_none",
    "C85_rjb_inside_refuted"
   ],
   "note": ""
  },
  {
   "property": "C86",
   "status": "proved",
   "theorems": [
    "C86_depth",
    "C86_upright",
    "C86_place"
   ],
   "note": ""
  },
  {
   "property": "C87",
   "status": "proved",
   "theorems": [
    "C87_one_trace",
    "C87_between",
    "C87_one_segment",
    "C87_hidden",
    "C87_degenerate"
   ],
   "note": ""
  },
  {
   "property": "C88",
   "status": "proved",
   "theorems": [
    "C88_on_trace",
    "C88_single",
    "C88_along_refuted"
   ],
   "note": ""
  },
  {
   "property": "C89",
   "status": "proved",
   "theorems": [
    "C89_several"
   ],
   "note": ""
  },
  {
   "property": "C90",
   "status": "proved",
   "theorems": [
    "C90_ends",
    "C90_gap",
    "C90_short",
    "C90_edges",
    "C90_close",
    "C90_farthest",
    "C90_farthest_refuted",
    "C90_nothing"
   ],
   "note": ""
  },
  {
   "property": "C91",
   "status": "proved",
   "theorems": [
    "C91_answer",
    "C91_accepts",
    "C91_refused",
    "C91_mesh",
    "C91_order",
    "C91_none"
   ],
   "note": ""
  },
  {
   "property": "C92",
   "status": "proved",
   "theorems": [
    "C92_context",
    "C92_refused",
    "C92_accepts"
   ],
   "note": ""
  },
  {
   "property": "C93",
   "status": "proved",
   "theorems": [
    "C93_coefficients",
    "C93_origin",
    "C93_mechanism",
    "C93_unbound",
    "C93_line",
    "C93_within",
    "C93_distance",
    "C93_refused",
    "C93_gc2"
   ],
   "note": ""
  },
  {
   "property": "C94",
   "status": "proved",
   "theorems": [
    "C94_context",
    "C94_origin",
    "C94_key",
    "C94_away",
    "C94_surface",
    "C94_order",
    "C94_closer_refuted"
   ],
   "note": ""
  },
  {
   "property": "C95",
   "status": "proved",
   "theorems": [
    "C95_pieces",
    "C95_one_reading",
    "C95_commands"
   ],
   "note": ""
  },
  {
   "property": "C96",
   "status": "proved",
   "theorems": [
    "C96_shown",
    "C96_some_text",
    "C96_default",
    "C96_unknown_style",
    "C96_error",
    "C96_missing",
    "C96_pep440_faithful",
    "C96_description_back",
    "C96_pre_hides_changes_refuted",
    "C96_plus_refuted",
    "C96_bare_tag_refuted"
   ],
   "note": ""
  },
  {
   "property": "C97",
   "status": "proved",
   "theorems": [
    "C97_valid",
    "C97_git_styles",
    "C97_post_tags_refuted"
   ],
   "note": ""
  },
  {
   "property": "C98",
   "status": "proved",
   "theorems": [
    "C98_version",
    "C98_release_first",
    "C98_order",
    "C98_branch_refuted",
    "C98_latest_refuted",
    "C98_read_back",
    "C98_read_nothing"
   ],
   "note": ""
  },
  {
   "property": "C99",
   "status": "proved",
   "theorems": [
    "C99_parent",
    "C99_parent_only",
    "C99_keywords",
    "C99_git",
    "C99_directory",
    "C99_nothing",
    "C99_no_file",
    "C99_errors",
    "C99_own_keywords",
    "C99_default_refuted"
   ],
   "note": ""
  },
  {
   "property": "C100",
   "status": "proved",
   "theorems": [
    "C100_inside"
   ],
   "note": ""
  },
  {
   "property": "C101",
   "status": "proved",
   "theorems": [
    "C101_anywhere",
    "C101_refuted",
    "C101_beside_refuted"
   ],
   "note": ""
  },
  {
   "property": "C102",
   "status": "proved",
   "theorems": [
    "C102_tree",
    "C102_renamed",
    "C102_blank_name_refuted",
    "C102_epoch_refuted"
   ],
   "note": ""
  },
  {
   "property": "C103",
   "status": "proved",
   "theorems": [
    "C103_hangs",
    "C103_spoilt",
    "C103_ready",
    "C103_stale_refuted",
    "C103_refused",
    "C103_stale_directory_refuted"
   ],
   "note": ""
  },
  {
   "property": "C104",
   "status": "proved",
   "theorems": [
    "C104_reads",
    "C104_refused",
    "C104_documented_refuted"
   ],
   "note": ""
  },
  {
   "property": "C105",
   "status": "proved",
   "theorems": [
    "C105_last",
    "C105_bad",
    "C105_colon_refuted",
    "C105_begins_refuted"
   ],
   "note": ""
  },
  {
   "property": "C106",
   "status": "proved",
   "theorems": [
    "C106_stretched",
    "C106_ends",
    "C106_log",
    "C106_restored",
    "C106_resolution_refuted"
   ],
   "note": ""
  },
  {
   "property": "C107",
   "status": "proved",
   "theorems": [
    "C107_each",
    "C107_no_format",
    "C107_empty"
   ],
   "note": ""
  },
  {
   "property": "C108",
   "status": "proved",
   "theorems": [
    "C108_old",
    "C108_default_refuted",
    "C108_places",
    "C108_again",
    "C108_level",
    "C108_reference",
    "C108_reference_refuted"
   ],
   "note": ""
  },
  {
   "property": "C109",
   "status": "proved",
   "theorems": [
    "C109_outline"
   ],
   "note": ""
  },
  {
   "property": "C110",
   "status": "proved",
   "theorems": [
    "C110_unit",
    "C110_up_refuted",
    "C110_east_refuted",
    "C110_strike"
   ],
   "note": ""
  },
  {
   "property": "C111",
   "status": "proved",
   "theorems": [
    "C111_read",
    "C111_fails",
    "C111_lines",
    "C111_blank_refuted",
    "C111_web",
    "C111_web_refuted"
   ],
   "note": ""
  },
  {
   "property": "C112",
   "status": "proved",
   "theorems": [
    "C112_saved",
    "C112_same_refuted",
    "C112_namibia_refuted",
    "C112_shape",
    "C112_retyped_refuted",
    "C112_newline",
    "C112_blank"
   ],
   "note": ""
  },
  {
   "property": "C113",
   "status": "proved",
   "theorems": [
    "C113_message",
    "C113_fails",
    "C113_unique",
    "C113_newlines_refuted",
    "C113_names_refuted"
   ],
   "note": ""
  },
  {
   "property": "C114",
   "status": "proved",
   "theorems": [
    "C114_send",
    "C114_plain",
    "C114_refuted"
   ],
   "note": ""
  },
  {
   "property": "C115",
   "status": "proved",
   "theorems": [
    "C115_first",
    "C115_missing",
    "C115_others",
    "C115_unnoticed_refuted",
    "C115_page"
   ],
   "note": ""
  },
  {
   "property": "C116",
   "status": "proved",
   "theorems": [
    "C116_unpacked"
   ],
   "note": ""
  },
  {
   "property": "C117",
   "status": "proved",
   "theorems": [
    "C117_outside",
    "C117_removed",
    "C117_flat",
    "C117_flat_refuted",
    "C117_anywhere",
    "C117_anywhere_refuted",
    "C117_folder_entry",
    "C117_folder_entry_refuted",
    "C117_empty"
   ],
   "note": ""
  },
  {
   "property": "C118",
   "status": "proved",
   "theorems": [
    "C118_corner",
    "C118_fades",
    "C118_total",
    "C118_again_refuted"
   ],
   "note": ""
  },
  {
   "property": "C119",
   "status": "proved",
   "theorems": [
    "C119_middle",
    "C119_middle_refuted",
    "C119_cities",
    "C119_date_line",
    "C119_date_line_refuted"
   ],
   "note": ""
  },
  {
   "property": "C120",
   "status": "proved",
   "theorems": [
    "C120_exact",
    "C120_cell",
    "C120_cell_refuted",
    "C120_dateline"
   ],
   "note": ""
  },
  {
   "property": "C121",
   "status": "proved",
   "theorems": [
    "C121_middle",
    "C121_opposite"
   ],
   "note": ""
  },
  {
   "property": "C122",
   "status": "proved",
   "theorems": [
    "C122_vector",
    "C122_moved",
    "C122_refused",
    "C122_mesh",
    "C122_shape",
    "C122_between",
    "C122_surface"
   ],
   "note": ""
  },
  {
   "property": "C123",
   "status": "proved",
   "theorems": [
    "C123_found",
    "C123_nearest_refuted",
    "C123_error"
   ],
   "note": ""
  },
  {
   "property": "C124",
   "status": "proved",
   "theorems": [
    "C124_best",
    "C124_flat",
    "C124_few",
    "C124_error",
    "C124_normalized"
   ],
   "note": ""
  },
  {
   "property": "C125",
   "status": "proved",
   "theorems": [
    "C125_answer",
    "C125_few",
    "C125_closed_refuted"
   ],
   "note": ""
  },
  {
   "property": "C126",
   "status": "proved",
   "theorems": [
    "C126_readback",
    "C126_ascii",
    "C126_missing",
    "C126_unmarked",
    "C126_between",
    "C126_layout"
   ],
   "note": ""
  },
  {
   "property": "C127",
   "status": "proved",
   "theorems": [
    "C127_imported",
    "C127_other_texts_refuted",
    "C127_escapes"
   ],
   "note": ""
  },
  {
   "property": "C128",
   "status": "proved",
   "theorems": [
    "C128_distribution",
    "C128_order",
    "C128_unconfigured",
    "C128_agrees",
    "C128_root",
    "C128_config",
    "C128_item"
   ],
   "note": ""
  },
  {
   "property": "C129",
   "status": "proved",
   "theorems": [
    "C129_attributes",
    "C129_manifest",
    "C129_again",
    "C129_init",
    "C129_scan",
    "C129_glued_refuted"
   ],
   "note": ""
  },
  {
   "property": "C130",
   "status": "proved",
   "theorems": [
    "C130_archive",
    "C130_tree",
    "C130_installed",
    "C130_not_built",
    "C130_shown"
   ],
   "note": ""
  },
  {
   "property": "C131",
   "status": "proved",
   "theorems": [
    "C131_wires",
    "C131_refused",
    "C131_extent",
    "C131_nothing",
    "C131_path",
    "C131_joined_refuted",
    "C131_date_line_refuted"
   ],
   "note": ""
  },
  {
   "property": "C132",
   "status": "proved",
   "theorems": [
    "C132_required",
    "C132_cities",
    "C132_project",
    "C132_project_sizes",
    "C132_limit",
    "C132_sort_refuted",
    "C132_fonts",
    "C132_map_cities"
   ],
   "note": ""
  },
  {
   "property": "C133",
   "status": "proved",
   "theorems": [
    "C133_offset",
    "C133_apart",
    "C133_smaller_refuted",
    "C133_getters",
    "C133_clone_refuted",
    "C133_each"
   ],
   "note": ""
  },
  {
   "property": "C134",
   "status": "proved",
   "theorems": [
    "C134_prefix",
    "C134_granted",
    "C134_refused",
    "C134_missing",
    "C134_file",
    "C134_progress",
    "C134_mode",
    "C134_arrives",
    "C134_tree",
    "C134_dir",
    "C134_spoilt",
    "C134_times_alone_refuted",
    "C134_beyond_refuted",
    "C134_announced",
    "C134_gone",
    "C134_up",
    "C134_with"
   ],
   "note": ""
  },
  {
   "property": "C135",
   "status": "proved",
   "theorems": [
    "C135_counts",
    "C135_edges",
    "C135_arrays",
    "C135_recovered",
    "C135_outline",
    "C135_thin_refuted",
    "C135_order"
   ],
   "note": ""
  },
  {
   "property": "C136",
   "status": "proved",
   "theorems": [
    "C136_new",
    "C136_latest",
    "C136_answers",
    "C136_update",
    "C136_zone_refuted",
    "C136_stale_refuted",
    "C136_hours_refuted"
   ],
   "note": ""
  },
  {
   "property": "C137",
   "status": "proved",
   "theorems": [
    "C137_text",
    "C137_numeral",
    "C137_alike",
    "C137_ne",
    "C137_wkt",
    "C137_equal_refuted",
    "C137_wkt_text"
   ],
   "note": ""
  }
 ]
}