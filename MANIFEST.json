{
 "claims": [
  {
   "property": "C01",
   "status": "proved",
   "theorems": [
    "C01_panic_iff",
    "C01_returns"
   ],
   "note": "panics exactly when the header parses and announces dimensions make() rejects"
  },
  {
   "property": "C02",
   "status": "proved",
   "theorems": [
    "C02_negative_dimension_panics",
    "C02_errors_only_is_false"
   ],
   "note": "refutation: the desired property is false of the code"
  },
  {
   "property": "C03",
   "status": "proved",
   "theorems": [
    "C03_shape"
   ],
   "note": ""
  },
  {
   "property": "C04",
   "status": "proved",
   "theorems": [
    "C04_at_total",
    "C04_at_is_data"
   ],
   "note": ""
  },
  {
   "property": "C05",
   "status": "proved",
   "theorems": [
    "C05_layers",
    "C05_every_row_once"
   ],
   "note": ""
  },
  {
   "property": "C06",
   "status": "proved",
   "theorems": [
    "C06_two_byte_pixels"
   ],
   "note": ""
  },
  {
   "property": "C07",
   "status": "proved",
   "theorems": [
    "C07_one_byte_pixels"
   ],
   "note": ""
  },
  {
   "property": "C08",
   "status": "proved",
   "theorems": [
    "C08_runlength_rows"
   ],
   "note": ""
  },
  {
   "property": "C09",
   "status": "proved",
   "theorems": [
    "C09_two_byte_record",
    "C09_spare_bits",
    "C09_never_nan"
   ],
   "note": ""
  },
  {
   "property": "C10",
   "status": "proved",
   "theorems": [
    "C10_two_byte_round_trip",
    "C10_no_data"
   ],
   "note": ""
  },
  {
   "property": "C11",
   "status": "proved",
   "theorems": [
    "C11_one_byte_record",
    "C11_never_nan"
   ],
   "note": ""
  },
  {
   "property": "C12",
   "status": "proved",
   "theorems": [
    "C12_dbz_exact",
    "C12_dbz_inverse",
    "C12_one_byte",
    "C12_two_bytes"
   ],
   "note": ""
  },
  {
   "property": "C13",
   "status": "proved",
   "theorems": [
    "C13_accuracy",
    "C13_dbz",
    "C13_records"
   ],
   "note": ""
  },
  {
   "property": "C14",
   "status": "proved",
   "theorems": [
    "C14_monotone",
    "C14_finite_factor",
    "C14_bytes",
    "C14_two_bytes"
   ],
   "note": ""
  },
  {
   "property": "C15",
   "status": "proved",
   "theorems": [
    "C15_runlength_round_trip"
   ],
   "note": ""
  },
  {
   "property": "C16",
   "status": "proved",
   "theorems": [
    "C16_runlength_errors",
    "C16_error_kind"
   ],
   "note": ""
  },
  {
   "property": "C17",
   "status": "proved",
   "theorems": [
    "C17_values_from_table",
    "C17_indices"
   ],
   "note": ""
  },
  {
   "property": "C18",
   "status": "proved",
   "theorems": [
    "C18_unknown_encoding",
    "C06_two_byte_pixels",
    "C07_one_byte_pixels",
    "C08_runlength_rows",
    "C46_accepted_iff"
   ],
   "note": ""
  },
  {
   "property": "C19",
   "status": "proved",
   "theorems": [
    "C19_prefix",
    "C19_trailing_ignored",
    "C19_two_byte_truncated",
    "C19_one_byte_truncated"
   ],
   "note": ""
  },
  {
   "property": "C20",
   "status": "proved",
   "theorems": [
    "C20_any_reader",
    "C20_two_readers",
    "C20_stalling_reader"
   ],
   "note": "error texts are not modelled, only the error kinds"
  },
  {
   "property": "C21",
   "status": "proved",
   "theorems": [
    "C21_header_round_trip",
    "C21_two_byte_file",
    "C21_one_byte_file",
    "C21_runlength_file"
   ],
   "note": "writable states the ranges the fixed-width layout can carry"
  },
  {
   "property": "C22",
   "status": "proved",
   "theorems": [
    "C22_total",
    "C22_fields",
    "C22_no_key",
    "C22_exhaustive",
    "C22_ascii"
   ],
   "note": ""
  },
  {
   "property": "C23",
   "status": "proved",
   "theorems": [
    "C23_trailing_key_inherits",
    "C23_empty_value_is_false"
   ],
   "note": "refutation: the desired property is false of the code"
  },
  {
   "property": "C24",
   "status": "proved",
   "theorems": [
    "C24_capture_time",
    "C24_bad_time"
   ],
   "note": ""
  },
  {
   "property": "C25",
   "status": "proved",
   "theorems": [
    "C25_forecast_time"
   ],
   "note": ""
  },
  {
   "property": "C26",
   "status": "proved",
   "theorems": [
    "C26_interval"
   ],
   "note": ""
  },
  {
   "property": "C27",
   "status": "proved",
   "theorems": [
    "C27_dimensions",
    "C27_no_dimensions",
    "C27_local",
    "C27_not_local",
    "C49_header_error"
   ],
   "note": ""
  },
  {
   "property": "C28",
   "status": "proved",
   "theorems": [
    "C28_unit",
    "C28_error_iff",
    "C28_products",
    "C28_local_known"
   ],
   "note": ""
  },
  {
   "property": "C29",
   "status": "proved",
   "theorems": [
    "C29_local_resolution_lost",
    "C29_resolution_is_false"
   ],
   "note": "refutation: the desired property is false of the code"
  },
  {
   "property": "C30",
   "status": "proved",
   "theorems": [
    "C30_archive_complete",
    "C30_archive_fails",
    "C30_archive_error",
    "C30_archive_accepted"
   ],
   "note": "tar, bzip2 and sort.Slice are external: entries are given, sort.Slice by its contract"
  },
  {
   "property": "C31",
   "status": "proved",
   "theorems": [
    "C31_min_res",
    "C31_terminates"
   ],
   "note": ""
  },
  {
   "property": "C32",
   "status": "proved",
   "theorems": [
    "C32_detect_grid",
    "C32_unambiguous",
    "C33_parsed",
    "C33_dummy"
   ],
   "note": ""
  },
  {
   "property": "C33",
   "status": "proved",
   "theorems": [
    "C33_parsed",
    "C33_dummy",
    "C33_without",
    "C33_failed",
    "C33_dummy_like_file"
   ],
   "note": ""
  },
  {
   "property": "C34",
   "status": "proved",
   "theorems": [
    "C34_corners",
    "C34_stereographic",
    "C34_float_nw",
    "C34_float_nw_fused",
    "C34_float_se"
   ],
   "note": "exact arithmetic; float64 corners for every math library"
  },
  {
   "property": "C35",
   "status": "proved",
   "theorems": [
    "C35_east",
    "C35_south",
    "C35_injective",
    "C35_inverse"
   ],
   "note": "exact arithmetic"
  },
  {
   "property": "C36",
   "status": "proved",
   "theorems": [
    "C36_east",
    "C36_south",
    "C36_injective"
   ],
   "note": "exact arithmetic"
  },
  {
   "property": "C37",
   "status": "proved",
   "theorems": [
    "C37_resolution"
   ],
   "note": "exact arithmetic"
  },
  {
   "property": "C38",
   "status": "proved",
   "theorems": [
    "C38_relation",
    "C38_inverse",
    "C38_increasing",
    "C38_common"
   ],
   "note": "exact arithmetic"
  },
  {
   "property": "C39",
   "status": "proved",
   "theorems": [
    "C39_isnan"
   ],
   "note": ""
  },
  {
   "property": "C40",
   "status": "proved",
   "theorems": [
    "C40_image",
    "C40_panic_iff"
   ],
   "note": "panics only if the picture needs more than 2^48 bytes"
  },
  {
   "property": "C41",
   "status": "proved",
   "theorems": [
    "C41_below",
    "C41_above",
    "C41_between",
    "C41_monotone",
    "C41_opaque",
    "C41_portable",
    "C41_nan"
   ],
   "note": "C41_nan: for no-data the gray level is an implementation-defined conversion"
  },
  {
   "property": "C42",
   "status": "proved",
   "theorems": [
    "C42_below",
    "C42_between",
    "C42_above",
    "C42_bottom",
    "C42_opaque",
    "C42_portable",
    "C42_platforms",
    "C42_nan"
   ],
   "note": "C42_nan: for no-data the colour is an implementation-defined conversion"
  },
  {
   "property": "C43",
   "status": "proved",
   "theorems": [
    "C43_nan",
    "C43_opaque",
    "C43_mirror",
    "C43_slow",
    "C43_fast",
    "C43_monotone"
   ],
   "note": ""
  },
  {
   "property": "C44",
   "status": "proved",
   "theorems": [
    "C44_usage",
    "C44_usage_only",
    "C44_color_defined",
    "C44_no_input",
    "C44_bad_input",
    "C44_run",
    "C44_create_only",
    "C44_crash",
    "C44_mesh_ends",
    "C44_mesh"
   ],
   "note": ""
  },
  {
   "property": "C45",
   "status": "proved",
   "theorems": [
    "C45_unit_names",
    "C45_names_distinct"
   ],
   "note": ""
  },
  {
   "property": "C46",
   "status": "proved",
   "theorems": [
    "C46_accepted_iff"
   ],
   "note": ""
  },
  {
   "property": "C47",
   "status": "proved",
   "theorems": [
    "C47_two_byte_file",
    "C47_one_byte_file",
    "C47_runlength_file"
   ],
   "note": ""
  },
  {
   "property": "C48",
   "status": "proved",
   "theorems": [
    "C48_line_number_ten_loses_data"
   ],
   "note": "refutation: the desired property is false of the code"
  },
  {
   "property": "C49",
   "status": "proved",
   "theorems": [
    "C49_header_error",
    "C49_no_delimiter",
    "C49_otherwise_sound"
   ],
   "note": ""
  },
  {
   "property": "C50",
   "status": "proved",
   "theorems": [
    "C50_data_error",
    "C50_one_defect",
    "C50_all_errors",
    "C50_never"
   ],
   "note": "error texts are not modelled, only the error kinds"
  },
  {
   "property": "C51",
   "status": "proved",
   "theorems": [
    "C51_successive",
    "C51_any_bytes",
    "C51_small_buffer",
    "C51_reads_ahead"
   ],
   "note": "the reader after a call is modelled only if the data section was read"
  },
  {
   "property": "C52",
   "status": "proved",
   "theorems": [
    "C52_history",
    "C52_untouched",
    "C52_writable",
    "C52_at_z",
    "C52_progress",
    "C52_returns",
    "C52_no_race",
    "C52_no_race_caller"
   ],
   "note": "each call reads its own input; parsing of the header takes no step as it touches no shared memory"
  },
  {
   "property": "C53",
   "status": "proved",
   "theorems": [
    "C53_append_overwrites",
    "C53_append_copies"
   ],
   "note": "refuted property: the theorem states the overwriting"
  },
  {
   "property": "C54",
   "status": "proved",
   "theorems": [
    "C54_accuracy"
   ],
   "note": "the accuracy of the math library is a hypothesis; shown for the correctly rounded one"
  },
  {
   "property": "C55",
   "status": "proved",
   "theorems": [
    "C55_pixel",
    "C55_outside",
    "C55_south"
   ],
   "note": "value_at is the lookup documented in radolan.go"
  },
  {
   "property": "C56",
   "status": "proved",
   "theorems": [
    "C56_kilometres",
    "C56_resolution",
    "C56_distance"
   ],
   "note": "the accuracy of the math library is a hypothesis; shown for the correctly rounded one"
  },
  {
   "property": "C57",
   "status": "proved",
   "theorems": [
    "C57_overlay",
    "C57_extent"
   ],
   "note": "the table of borders.go is a parameter; formatting with %.1f is not modelled"
  },
  {
   "property": "C58",
   "status": "proved",
   "theorems": [
    "C58_rate",
    "C58_reflectivity",
    "C58_round_trip",
    "C58_increasing",
    "C58_named"
   ],
   "note": "the accuracy of math.Pow and math.Log10 is a hypothesis; shown for the correctly rounded ones"
  },
  {
   "property": "C59",
   "status": "proved",
   "theorems": [
    "C59_one_byte",
    "C59_two_byte"
   ],
   "note": "end to end; hypotheses on the math library only; positions within a billionth of the axis of a pixel border are excluded"
  },
  {
   "property": "C60",
   "status": "proved",
   "theorems": [
    "C60_east",
    "C60_south",
    "C60_separated",
    "C60_near"
   ],
   "note": "float64 and any accurate library; order holds from a billionth of a degree on"
  },
  {
   "property": "C61",
   "status": "proved",
   "theorems": [
    "C61_one_byte",
    "C61_two_byte",
    "C61_runlength"
   ],
   "note": "end to end for all encodings and units; positions within a billionth of the axis of a pixel border are excluded"
  },
  {
   "property": "C62",
   "status": "proved",
   "theorems": [
    "C62_reflectivity",
    "C62_level_reflectivity",
    "C62_precipitation",
    "C62_echo_top",
    "C62_velocity"
   ],
   "note": "border and mesh pixels are those of C44/C57; the logarithm is any of accuracy 2^-48 with the documented special cases"
  },
  {
   "property": "C63",
   "status": "proved",
   "theorems": [
    "C63_reflectivity_short",
    "C63_reflectivity",
    "C63_reflectivity_documented_is_false",
    "C63_reflectivity_wide",
    "C63_accumulated_hour",
    "C63_accumulated_day",
    "C63_radial_velocity",
    "C63_gray_linear",
    "C63_gray_linear_wide"
   ],
   "note": "the comment of HeatmapReflectivity (from 5 dBZ) is refuted; the logarithm is any of accuracy 2^-48 with the documented special cases"
  },
  {
   "property": "C64",
   "status": "proved",
   "theorems": [
    "C64_table",
    "C64_inside",
    "C64_cut_off",
    "C64_drawn"
   ],
   "note": "completeness is refuted for the 900 km grid (C64_cut_off) and proved south of 54.88 N there; math library of accuracy 2^-48"
  },
  {
   "property": "C65",
   "status": "proved",
   "theorems": [
    "C65_minute_unique",
    "C65_output",
    "C65_usage",
    "C65_failed"
   ],
   "note": "formatting by fmt, strconv and time is modelled in GoPrint.v from their documentation and source; math library of accuracy 2^-48"
  },
  {
   "property": "C66",
   "status": "proved",
   "theorems": [
    "C66_forward",
    "C66_inverse",
    "C66_inverse_back",
    "C66_table",
    "C66_pixels",
    "C66_points",
    "C66_distance"
   ],
   "note": "points on the central meridian itself (x = 0) are excluded from the inverse formula, which divides by x there; no pixel corner or centre is on it; math library of accuracy 2^-48"
  },
  {
   "property": "C67",
   "status": "proved",
   "theorems": [
    "C67_archive",
    "C67_series",
    "C67_order_free",
    "C67_damaged",
    "C67_broken_off",
    "C67_directory"
   ],
   "note": "bzip2 and tar are external (the archive is the list of its entries contents and whether it ends regularly); sort.Slice is any function meeting its contract"
  },
  {
   "property": "C68",
   "status": "proved",
   "theorems": [
    "C68_header",
    "C68_two_byte",
    "C68_one_byte",
    "C68_runlength"
   ],
   "note": ""
  },
  {
   "property": "C69",
   "status": "proved",
   "theorems": [
    "C69_point",
    "C69_picture",
    "C69_lookup"
   ],
   "note": ""
  },
  {
   "property": "C70",
   "status": "proved",
   "theorems": [
    "C70_read",
    "C70_archive",
    "C70_project",
    "C70_lookup",
    "C70_colors"
   ],
   "note": "two arbitrary platforms side by side"
  },
  {
   "property": "C71",
   "status": "proved",
   "theorems": [
    "C71_archive_reader",
    "C71_series",
    "C71_broken_off",
    "C71_no_end"
   ],
   "note": "the tar reader is given by its contract (holds_entries)"
  },
  {
   "property": "C72",
   "status": "proved",
   "theorems": [
    "C72_distinct",
    "C72_kind",
    "C72_message",
    "C72_header",
    "C72_data",
    "C72_unit",
    "C72_fixed",
    "C72_no_delimiter",
    "C72_cut_two_byte",
    "C72_cut_one_byte",
    "C72_cut_runlength",
    "C72_level_format"
   ],
   "note": "the texts of fmt.Sscanf and time.Parse errors are arbitrary; for the error of a reader other than EOF see C74"
  },
  {
   "property": "C73",
   "status": "proved",
   "theorems": [
    "C73_total",
    "C73_never_more",
    "C73_no_header",
    "C73_impossible",
    "C73_accepted",
    "C73_in_application",
    "C73_short_file",
    "C73_short_levels"
   ],
   "note": "the arrays of the composite (PlainData and its rows); the slice of layers, line buffers and the read buffer are not counted. The desired bound by the input size is refuted by C73_short_file and C73_short_levels"
  },
  {
   "property": "C74",
   "status": "proved",
   "theorems": [
    "C74_eof",
    "C74_read_error",
    "C74_in_header",
    "C74_otherwise",
    "C74_complete",
    "C74_stalled"
   ],
   "note": "bufio and io.ReadFull are modelled after the Go standard library; NewComposite is called on a reader that is not itself a *bufio.Reader; the texts of the reader errors are arbitrary"
  },
  {
   "property": "C75",
   "status": "proved",
   "theorems": [
    "C75_bad_entry",
    "C75_broken_data",
    "C75_broken_header",
    "C75_between",
    "C75_unknown_unit",
    "C75_message_iff_error"
   ],
   "note": "the tar and bzip2 readers are given by their contract (entries_up_to, holds_entries); the texts of their errors are arbitrary"
  },
  {
   "property": "C76",
   "status": "proved",
   "theorems": [
    "C76_end",
    "C76_usage",
    "C76_success",
    "C76_quiet",
    "C76_refused",
    "C76_unknown_product",
    "C76_no_header"
   ],
   "note": "log.Fatal is modelled after package log with any time stamp; the texts of os and png errors are arbitrary; the text of a panic is not modelled"
  }
 ]
}