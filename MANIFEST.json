{
 "claims": [
  {
   "property": "C01",
   "status": "proved",
   "theorems": [
    "C01_word_position_inverse",
    "C01_position_in_word",
    "C01_word_to_position_value"
   ],
   "note": "word/byte position conversions"
  },
  {
   "property": "C02",
   "status": "proved",
   "theorems": [
    "C02_sections_disjoint",
    "C02_sections_aligned"
   ],
   "note": "pairwise disjoint sections, alignment"
  },
  {
   "property": "C03",
   "status": "proved",
   "theorems": [
    "C03_grid_write_repeatable",
    "C03_write_repeatable",
    "C03_n_writes"
   ],
   "note": "any history of additions (accepted or rejected) and writes; sounding and surface objects Grid files: C03_grid_write_repeatable, also with precision changes between."
  },
  {
   "property": "C04",
   "status": "proved",
   "theorems": [
    "C04_sounding_round_trip"
   ],
   "note": "every history of successful additions: opening the written bytes lists exactly one entry per kept call, with its metadata and values; hypotheses: valid datetimes in 1969..2068, coordinates below 2^45, names distinct in their first four characters"
  },
  {
   "property": "C05",
   "status": "proved",
   "theorems": [
    "C05_surface_round_trip"
   ],
   "note": "as C04 for surface files in the standard layout; one value per parameter, integer priority, no parameter called TEXT or SPCL"
  },
  {
   "property": "C06",
   "status": "proved",
   "theorems": [
    "C06_grid_round_trip",
    "C06_grid_values"
   ],
   "note": "Full, for every history of successful add_grid calls, both byte orders and any precision. The listing is exact; values are those of the GRIB packing (C11-C17) with the reference value rounded to float32, the bound on that rounding is part of the statement. Grids of arrays with float values below 2^127; times, levels and names in the ranges the format can hold (call_ok)."
  },
  {
   "property": "C07",
   "status": "proved",
   "theorems": [
    "C07_grid_duplicate_replaces",
    "C07_duplicate_replaces"
   ],
   "note": "every history of successful additions; sounding and surface objects"
  },
  {
   "property": "C08",
   "status": "partial",
   "theorems": [
    "C08_grid_rejected_unchanged_refuted",
    "C08_grid_rejected_unchanged_partial",
    "C08_rejected_unchanged_refuted",
    "C08_rejected_unchanged_partial"
   ],
   "note": "false at the 32000-header limit (witness: 31999 stations, then one more); proved for every other rejection Grid files: refuted by a header that cannot be ordered next to the stored ones; every other rejection but that and the column limit leaves the object unchanged."
  },
  {
   "property": "C09",
   "status": "proved",
   "theorems": [
    "C09_stations",
    "C09_grids",
    "C09_written_stations",
    "C09_written_grids"
   ],
   "note": "every file, whoever wrote it, given as a sequence of words that are numbers or text (SpecByteOrder): both images open alike or are refused alike, and label, keys, headers, listing and every query agree. The name of a vertical coordinate counts as text, which is how the reader takes it. C09_written_*: the two files this package writes for one history agree."
  },
  {
   "property": "C10",
   "status": "proved",
   "theorems": [
    "C10_not_gempak",
    "C10_not_gempak_grid"
   ],
   "note": "every byte string Grid files: C10_not_gempak_grid."
  },
  {
   "property": "C11",
   "status": "proved",
   "theorems": [
    "C11_bits_round_trip",
    "C11_bit_layout",
    "C11_reader_fields"
   ],
   "note": "two or more output words (the packer raises for one word, see C16); layout as one bit string; reader fields for any buffer"
  },
  {
   "property": "C12",
   "status": "proved",
   "theorems": [
    "C12_packed_length"
   ],
   "note": "length and int32 range for every successful packing"
  },
  {
   "property": "C13",
   "status": "proved",
   "theorems": [
    "C13_quantization_error",
    "C13_quantization_error_flagged"
   ],
   "note": "exact rational arithmetic; the stored reference is arbitrary so the binary32 error is explicit"
  },
  {
   "property": "C14",
   "status": "proved",
   "theorems": [
    "C14_missing_stays_missing"
   ],
   "note": "all cells equal to the missing value"
  },
  {
   "property": "C15",
   "status": "partial",
   "theorems": [
    "C15_present_stays_present_refuted",
    "C15_present_stays_present_partial",
    "C15_no_collision_when_range_small_partial"
   ],
   "note": "false of the code (refuted with a witness); true for cells away from the missing value and below the top code"
  },
  {
   "property": "C16",
   "status": "partial",
   "theorems": [
    "C16_one_word_refuted",
    "C16_written_grid_is_read_partial"
   ],
   "note": "false for grids of one packed word (refuted); proved for two words or more and a 31-bit range"
  },
  {
   "property": "C17",
   "status": "proved",
   "theorems": [
    "C17_scale_terminates_and_maximal",
    "C17_widening_stays_below_missing"
   ],
   "note": "termination and maximality of the scale search"
  },
  {
   "property": "C18",
   "status": "proved",
   "theorems": [
    "C18_packed_real_fields",
    "C18_packed_real_inverse",
    "C18_length_mismatch"
   ],
   "note": "unpack_real over every buffer and every list of bit widths 1..32: each field equals its own slice of the record's little-end-first bit string; inverse and length check. Values are exact rationals (the float rounding of offset and scale is not modelled)."
  },
  {
   "property": "C19",
   "status": "proved",
   "theorems": [
    "C19_diff_grid"
   ],
   "note": "every difference-packed buffer: cell codes, missing code, running sums along and across rows. Values are exact rationals."
  },
  {
   "property": "C20",
   "status": "proved",
   "theorems": [
    "C20_bad_precision_rejected"
   ],
   "note": "all bit counts outside 1..31"
  },
  {
   "property": "C21",
   "status": "proved",
   "theorems": [
    "C21_analysis_time"
   ],
   "note": "header words written and listed; strptime/strftime modelled with backtracking; every valid datetime in 1969..2068."
  },
  {
   "property": "C22",
   "status": "proved",
   "theorems": [
    "C22_forecast_time",
    "C22_minutes_identify"
   ],
   "note": "both letter cases, every suffix form; the listed instant is pinned by its minute number, which is injective."
  },
  {
   "property": "C23",
   "status": "partial",
   "theorems": [
    "C23_refuted",
    "C23_partial"
   ],
   "note": "the English claim is false: with an explicit A the time of day is replaced by the text after the letter (midnight if none). Refuted with a witness; the partial theorem says what is stored."
  },
  {
   "property": "C24",
   "status": "partial",
   "theorems": [
    "C24_refuted",
    "C24_partial"
   ],
   "note": "the English claim is false outside 1969..2068. Refuted with a witness; the partial theorem shows the window is exact."
  },
  {
   "property": "C25",
   "status": "proved",
   "theorems": [
    "C25_ranges",
    "C25_injective"
   ],
   "note": "ranges for every valid datetime and injectivity within the window, analysis and typed times."
  },
  {
   "property": "C26",
   "status": "proved",
   "theorems": [
    "C26_row_times"
   ],
   "note": "every date of 1969..2068 and every time of day; seconds are dropped."
  },
  {
   "property": "C27",
   "status": "proved",
   "theorems": [
    "C27_vertical_coordinates",
    "C27_levels"
   ],
   "note": "nine names in any case, rejection of all others, integer levels, both byte orders."
  },
  {
   "property": "C28",
   "status": "proved",
   "theorems": [
    "C28_parameter_names",
    "C28_long_names_rejected"
   ],
   "note": "every ASCII name without white space of at most 12 characters; longer names are rejected."
  },
  {
   "property": "C29",
   "status": "partial",
   "theorems": [
    "C29_refuted",
    "C29_partial"
   ],
   "note": "the English claim is false: spaces at the edges of a four-character piece are lost and names collide. Refuted with a witness; the partial theorem gives the exact result for every ASCII name."
  },
  {
   "property": "C30",
   "status": "proved",
   "theorems": [
    "C30_coordinates",
    "C30_integer_coordinates"
   ],
   "note": "every finite binary64 value whose hundredths fit a word; the product is rounded before truncation, so the stored value may exceed the exact truncation by one hundredth (within the stated bound)."
  },
  {
   "property": "C31",
   "status": "partial",
   "theorems": [
    "C31_refuted",
    "C31_partial"
   ],
   "note": "the English claim is false (29 hundredths come back as 28). Refuted with a witness; the partial theorem bounds the drift by one hundredth per cycle for every stored word."
  },
  {
   "property": "C32",
   "status": "partial",
   "theorems": [
    "C32_surface_identifiers",
    "C32_refuted",
    "C32_partial"
   ],
   "note": "surface half proved; the sounding half is false beyond four characters (refuted, with the exact result as partial theorem)."
  },
  {
   "property": "C33",
   "status": "partial",
   "theorems": [
    "C33_unused_slots_partial",
    "C33_unused_slots_refuted"
   ],
   "note": "false when an unused slot precedes a used one (concrete file); proved when the used slots come first"
  },
  {
   "property": "C34",
   "status": "partial",
   "theorems": [
    "C34_parameter_list_refuted",
    "C34_parameter_list_partial"
   ],
   "note": "false for repeats in another letter case (witness PRES, pres); the accepted lists are characterised exactly"
  },
  {
   "property": "C35",
   "status": "proved",
   "theorems": [
    "C35_stored_by_name"
   ],
   "note": "every dict order; acceptance implies exact names, equal lengths and fewer than 500 levels"
  },
  {
   "property": "C36",
   "status": "proved",
   "theorems": [
    "C36_reads_partition",
    "C36_at_end"
   ],
   "note": "reads partition the buffer"
  },
  {
   "property": "C37",
   "status": "proved",
   "theorems": [
    "C37_marks"
   ],
   "note": "marks restore the position"
  },
  {
   "property": "C38",
   "status": "partial",
   "theorems": [
    "C38_failed_struct_read",
    "C38_failed_func_read",
    "C38_failed_array_read",
    "C38_struct_read_iff",
    "C38_ascii_read_moves_refuted"
   ],
   "note": "failed reads leave the state unchanged except read_ascii/raw read, which is refuted"
  },
  {
   "property": "C39",
   "status": "partial",
   "theorems": [
    "C39_truncate_partial",
    "C39_truncate_zero_refuted",
    "C39_truncate_zero"
   ],
   "note": "truncate; the zero case is refuted"
  },
  {
   "property": "C40",
   "status": "proved",
   "theorems": [
    "C40_ordered_set",
    "C40_init",
    "C40_equality"
   ],
   "note": "OrderedSet against the first-occurrence list"
  },
  {
   "property": "C41",
   "status": "proved",
   "theorems": [
    "C41_named_struct"
   ],
   "note": "NamedStruct pack/unpack round trip"
  },
  {
   "property": "C42",
   "status": "proved",
   "theorems": [
    "C42_grid_selection",
    "C42_grid_contents",
    "C42_case_insensitive"
   ],
   "note": "Selection, contents of what is selected and case-insensitive names; for every grid file and argument list."
  },
  {
   "property": "C43",
   "status": "partial",
   "theorems": [
    "C43_surface_selection",
    "C43_sounding_selection_partial",
    "C43_sounding_state_case_refuted",
    "C43_surface_reports",
    "C43_surface_contents"
   ],
   "note": "Surface selection is proved in full. For soundings a list of state or country names is compared without upper-casing (refuted with a written file); proved when names are single values or upper case. The selection is modelled for both readers; the unmerged sounding decoding that follows it is the subject of C77."
  },
  {
   "property": "C44",
   "status": "proved",
   "theorems": [
    "C44_first_last_grids",
    "C44_first_last_stations"
   ],
   "note": "For grids and for all three station file kinds."
  },
  {
   "property": "C45",
   "status": "proved",
   "theorems": [
    "C45_nearest_time",
    "C45_one_filter",
    "C45_area_stations"
   ],
   "note": "'order' stands for the unspecified iteration order of a Python set; the theorem holds for every order."
  },
  {
   "property": "C46",
   "status": "proved",
   "theorems": [
    "C46_record_size_is_length",
    "C46_file_is_records"
   ],
   "note": "Every element a program can build with the six constructors and any sequence of assignments and flips; the file theorem also covers a write that stops at an element that cannot be encoded."
  },
  {
   "property": "C47",
   "status": "partial",
   "theorems": [
    "C47_points",
    "C47_distance",
    "C47_places",
    "C47_round_trip_partial",
    "C47_symbol_code",
    "C47_plain_text",
    "C47_text_refuted",
    "C47_decimals_refuted",
    "C47_text_size_refuted"
   ],
   "note": "Proved for every list of elements with any histories that is written without an exception, with ASCII text and finite symbol codes: same elements in order, each attribute under its reader name with the stated conversion. C47_points says of the numbers alone that every point of a line, special line or front with coordinates within 360 degrees comes back in order, to a hundredth of a degree (at most 0.0052 away, C47_distance), and C47_places says it of bounds, positions, sizes and rotations. The literal statement is refuted: non-ASCII text makes the file unreadable, points are read to two decimals, text sizes in units of 14 points."
  },
  {
   "property": "C48",
   "status": "partial",
   "theorems": [
    "C48_terminates_partial",
    "C48_one_result",
    "C48_refuted"
   ],
   "note": "Proved for every byte sequence whose visited records have a positive size field, at most 500 list items and at most 50 track points (within as many rounds as bytes, and with a unique result). The literal statement is refuted by a 40-byte file that is read forever."
  },
  {
   "property": "C49",
   "status": "partial",
   "theorems": [
    "C49_ranges_partial",
    "C49_rejected_unchanged_partial",
    "C49_constructor_refuted",
    "C49_rejected_refuted",
    "C49_nan_refuted",
    "C49_font_refuted",
    "C49_front_width_refuted"
   ],
   "note": "False as stated; refuted with five concrete programs (Marker code 99, front code 430.0, NaN width, hardware font, front code 400). Proved: with arguments that are not NaN every validated attribute keeps its documented range through every history, except those cases, and a rejected assignment changes nothing unless a front is given a code or width that is not an integer."
  },
  {
   "property": "C50",
   "status": "partial",
   "theorems": [
    "C50_front_code_width_partial",
    "C50_width_assigned",
    "C50_float_width_refuted"
   ],
   "note": "Refuted for a float width. Proved for every history in which codes and widths assigned to fronts are integers (accepted or rejected), together with what an accepted width changes."
  },
  {
   "property": "C51",
   "status": "proved",
   "theorems": [
    "C51_flip_twice"
   ],
   "note": "For every object; the equality is of all attributes."
  },
  {
   "property": "C52",
   "status": "partial",
   "theorems": [
    "C52_lines_partial",
    "C52_special_lines_partial",
    "C52_two_points_refuted"
   ],
   "note": "Proved for every decoded line and special line of at least one point, in terms of the bytes of the file; the literal statement is refuted for closed lines of two points."
  },
  {
   "property": "C53",
   "status": "partial",
   "theorems": [
    "C53_strip",
    "C53_clean",
    "C53_terminator",
    "C53_text",
    "C53_text_elements",
    "C53_fixed_width_partial",
    "C53_full_field_refuted"
   ],
   "note": "Proved in full for text read with an explicit split at NUL (text elements, list items, track times). For fixed-width structure fields proved when a NUL is present, refuted (last character lost) for every field without one. Text is any sequence of Unicode scalar values. C53_terminator, C53_strip and C53_clean characterise the clean-up itself for every text: what precedes the first NUL, white space removed at both ends, pairs of dollar signs as line breaks."
  },
  {
   "property": "C54",
   "status": "partial",
   "theorems": [
    "C54_filter_elements",
    "C54_selectors_partial",
    "C54_predicates",
    "C54_text_refuted",
    "C54_met_refuted"
   ],
   "note": "filter_elements is proved in full (also that no filter, or nothing matching, gives None). All selectors but two are proved; get_text (returns special text too) and get_met (guarded by the wrong predicate) are refuted."
  },
  {
   "property": "C55",
   "status": "proved",
   "theorems": [
    "C55_groups"
   ],
   "note": "One group per distinct number of the type, in increasing order, each with exactly its elements in file order."
  },
  {
   "property": "C56",
   "status": "partial",
   "theorems": [
    "C56_bounds_enclose_partial",
    "C56_bounds_attained",
    "C56_zero_refuted"
   ],
   "note": "Proved for elements whose four bounds are numbers and none is zero; refuted for a bound that is exactly zero, which the code skips."
  },
  {
   "property": "C57",
   "status": "partial",
   "theorems": [
    "C57_rejects",
    "C57_between_partial",
    "C57_direction_partial",
    "C57_result_pressure_refuted"
   ],
   "note": "The rejection of target pressures outside the bracket is proved for any arithmetic. That values lie between their neighbours and directions in [0,360) is proved over the real numbers (rounding is not covered), for every parameter but the pressure itself. Refuted: the result carries an interpolated pressure instead of the one asked for."
  },
  {
   "property": "C58",
   "status": "partial",
   "theorems": [
    "C58_logp_height",
    "C58_logp_pressure",
    "C58_moist_height_partial",
    "C58_missing_data_partial",
    "C58_moist_height_refuted",
    "C58_missing_data_refuted"
   ],
   "note": "Proved for interp_logp_height and interp_logp_pressure over any arithmetic. interp_moist_height overwrites reported heights and interp_missing_data overwrites the second of a pair (refuted); what they do keep is proved as _partial."
  },
  {
   "property": "C59",
   "status": "partial",
   "theorems": [
    "C59_terminates_partial",
    "C59_logp_height_refuted",
    "C59_others"
   ],
   "note": "interp_logp_height loops forever on some soundings (refuted, in binary64); termination is proved under a stated condition, and for the other calculations without one."
  },
  {
   "property": "C60",
   "status": "partial",
   "theorems": [
    "C60_aligned_partial",
    "C60_refuted"
   ],
   "note": "Proved for parts that are dictionaries and whose levels above 100 hPa come with all six arrays; refuted for a part that lacks one."
  },
  {
   "property": "C61",
   "status": "proved",
   "theorems": [
    "C61_split",
    "C61_no_station",
    "C61_records"
   ],
   "note": "Splitting, the case of a text naming no station, and the times and values of the reports."
  },
  {
   "property": "C62",
   "status": "proved",
   "theorems": [
    "C62_splice",
    "C62_unknown_mark"
   ],
   "note": "Any history between setting the mark and splicing; the mark must still lie within the (possibly truncated) data. Unknown non-negative marks raise and change nothing."
  },
  {
   "property": "C63",
   "status": "partial",
   "theorems": [
    "C63_sounding_time_string",
    "C63_surface_time_string_refuted"
   ],
   "note": "proved for soundings; false for surface files, where every string raises"
  },
  {
   "property": "C64",
   "status": "partial",
   "theorems": [
    "C64_parameter_readable_refuted",
    "C64_parameter_readable_partial"
   ],
   "note": "false for names that share their first four characters; proved otherwise"
  },
  {
   "property": "C65",
   "status": "partial",
   "theorems": [
    "C65_small_grid_refuted",
    "C65_small_grid",
    "C65_fitting_file_written",
    "C65_written_and_read",
    "C65_wide_refuted"
   ],
   "note": "False as stated: grids with fewer than three rows or columns are accepted and then cannot be written (C65_small_grid: never), and so are grids whose cells are further apart than 2147483647 (C65_wide_refuted). Proved for everything else: three rows and columns or more, fields that fit their 32 bits: the file is written (C65_fitting_file_written) and reads back (C65_written_and_read)."
  },
  {
   "property": "C66",
   "status": "proved",
   "theorems": [
    "C66_wrong_shape"
   ],
   "note": "For every history of the file object."
  },
  {
   "property": "C67",
   "status": "partial",
   "theorems": [
    "C67_area_reports_refuted",
    "C67_area_reports_partial"
   ],
   "note": "Refuted: the area filters collect station identifiers and then look reports up by identifier, so a station of the same name elsewhere can be returned. Proved: the identifier belongs to a listed station of the area."
  },
  {
   "property": "C68",
   "status": "partial",
   "theorems": [
    "C68_special_day_refuted",
    "C68_special_day_partial"
   ],
   "note": "Refuted at a month boundary with a concrete file; proved: the report stays in the file's year and month and takes the time group of its text when that is a time of that month."
  },
  {
   "property": "C69",
   "status": "proved",
   "theorems": [
    "C69_never_open"
   ],
   "note": "For every file in which the reader comes to such a record, whatever precedes or follows it."
  },
  {
   "property": "C70",
   "status": "proved",
   "theorems": [
    "C70_log_pressure_heights"
   ],
   "note": "Proved over any arithmetic."
  },
  {
   "property": "C71",
   "status": "proved",
   "theorems": [
    "C71_missing_data_returns",
    "C71_repeated_pressure"
   ],
   "note": "Proved over any arithmetic; with a repeated pressure the call raises ValueError, shown beside it."
  },
  {
   "property": "C72",
   "status": "partial",
   "theorems": [
    "C72_heights_partial",
    "C72_refuted",
    "C72_order_partial"
   ],
   "note": "False when heights are out of order and winds are on height surfaces: a level without pressure can come first (C72_refuted). C72_order_partial: over binary64 comparisons (arithmetic operations arbitrary) for parts without NaN, a usable surface level in TTAA or TTBB and winds on pressure surfaces. C72_heights_partial: winds on height surfaces, over numbers without rounding (the reals and the fractions are shown to be such), when the heights of the merged levels rise. Missing: soundings without a surface level (these can raise ValueError), rounding with winds on height surfaces, and mandatory levels below ground in that case (their heights do not rise)."
  },
  {
   "property": "C74",
   "status": "partial",
   "theorems": [
    "C74_below_ground_partial",
    "C74_refuted"
   ],
   "note": "Proved when PPBB or PPDD has no significant winds; refuted when both have them on pressure surfaces: a length kept from an earlier loop is used and a level below ground is put before the surface."
  },
  {
   "property": "C75",
   "status": "partial",
   "theorems": [
    "C75_mandatory_levels_partial",
    "C75_height_refuted",
    "C75_wind_refuted"
   ],
   "note": "Proved over any arithmetic, for soundings with winds on pressure or on height surfaces, except two parts: the height at the pressure of a reported tropopause, refuted (it is discarded), and the wind in soundings with winds on height surfaces, refuted (a reported wind is overwritten)."
  },
  {
   "property": "C76",
   "status": "proved",
   "theorems": [
    "C76_sounding_datasets",
    "C76_returned"
   ],
   "note": "Proved for merged files over the records the reader produces: order of levels, alignment of variables, masking, attributes, names, and that complete soundings are returned. Not modelled: the xarray object itself, and the rounding of unpacked reals to float32."
  },
  {
   "property": "C77",
   "status": "proved",
   "theorems": [
    "C77_unmerged_datasets",
    "C77_returned"
   ],
   "note": "Real-packed and real parts, any endianness. Character parts (TXTA...) are carried to the attributes; parts of other types raise."
  },
  {
   "property": "C78",
   "status": "partial",
   "theorems": [
    "C78_listed_partial",
    "C78_surface_listed",
    "C78_refuted"
   ],
   "note": "Refuted for unmerged soundings: only the pointer of the first part is looked at, so a sounding with data in other parts only is neither listed nor selectable (C78_refuted). Proved: sounding files list exactly the cells whose first part is stored; surface files of all three kinds (standard, ship, climate) list exactly the cells with any part stored."
  },
  {
   "property": "C73",
   "status": "partial",
   "theorems": [
    "C73_returns_partial",
    "C73_no_data",
    "C73_size_refuted",
    "C73_refuted"
   ],
   "note": "Partial and refuted: proved for parts with a usable surface level and significant winds by pressure in at most one of PPBB and PPDD. C73_refuted: with the surface level missing a ValueError; C73_size_refuted: with PPBB and PPDD by pressure, nothing to insert and a mandatory level below ground, UnboundLocalError. Winds on height surfaces are not covered."
  },
  {
   "property": "C79",
   "status": "partial",
   "theorems": [
    "C79_temperature_partial",
    "C79_wind_partial",
    "C79_own_temperature_partial",
    "C79_own_wind_partial",
    "C79_order_refuted"
   ],
   "note": "The full statement is false: a level whose pressure is higher than one reported before it in the same parts is silently dropped (C79_order_refuted, a wind). Proved for levels reported in order (pressure not higher than the ones before), above the surface, in soundings with a usable surface level, all arrays numbers; for the winds (not for the temperatures) also significant winds not on height surfaces."
  },
  {
   "property": "C80",
   "status": "proved",
   "theorems": [
    "C80_fitting_file_written",
    "C80_written_and_read",
    "C80_written_fits"
   ],
   "note": "C80_misfits shows accepted calls outside the hypotheses (station number 10^12, value 10^39, non-ASCII state) for which to_gempak raises."
  },
  {
   "property": "C81",
   "status": "partial",
   "theorems": [
    "C81_record_shown",
    "C81_file_header",
    "C81_sigmet_status_refuted"
   ],
   "note": "Every kind of record the reader shows except tropical cyclone advisories (their text is treated in C84). False of one attribute: the status of a sigmet shows the area's text (C81_sigmet_status_refuted); the sigmet fields of the specification leave it out."
  },
  {
   "property": "C82",
   "status": "proved",
   "theorems": [
    "C82_whole_file"
   ],
   "note": "For every chain of records; tropical cyclone advisories, whose text parsing is not modelled, are not in a chain."
  },
  {
   "property": "C83",
   "status": "partial",
   "theorems": [
    "C83_refill_refuted",
    "C83_caller_refuted",
    "C83_left_alone_partial",
    "C83_arrays_kept_partial"
   ],
   "note": "False: a buffer filled again for the next grid changes the grids added before (C83_refill_refuted), and NaN cells of the caller's array become -9999 (C83_caller_refuted). Proved: programs that do not assign to an array once it was passed get the file they mean; and add_grid never changes anything but NaN cells."
  },
  {
   "property": "C84",
   "status": "partial",
   "theorems": [
    "C84_text_partial",
    "C84_usual_order",
    "C84_no_watches_refuted",
    "C84_record_partial",
    "C84_one_element_refuted",
    "C84_empty_value_refuted",
    "C84_file_refuted"
   ],
   "note": "False as stated: there is one element for each watch or warning (C84_one_element_refuted); an advisory without any makes the whole file fail with AttributeError (C84_no_watches_refuted, C84_file_refuted); an empty value shows the following tag (C84_empty_value_refuted). Proved: with non-empty values and the usual last field, as many elements as watches, each showing the whole advisory (C84_text_partial, C84_record_partial; usual order: C84_usual_order). Uses Flocq for 'nearest', hence the axioms of the real numbers."
  },
  {
   "property": "C85",
   "status": "partial",
   "theorems": [
    "C85_record_decoded",
    "C85_file_opens",
    "C85_one_bad_record",
    "C85_ccf_refuted",
    "C85_points_refuted",
    "C85_unknown_version"
   ],
   "note": "C85_record_decoded: for one record anywhere in a file, decoding succeeds iff it is sound, and raises otherwise. C85_file_opens: for whole files, iff. C85_one_bad_record: one unsound record makes opening raise. C85_ccf_refuted and C85_points_refuted: complete records whose values fit but which cannot be read. C85_unknown_version: sigmets and watch boxes of versions that are not known raise."
  },
  {
   "property": "C86",
   "status": "partial",
   "theorems": [
    "C86_below_partial",
    "C86_above_partial",
    "C86_above_ignored",
    "C86_refuted",
    "C86_dropped_refuted",
    "C86_replaced_refuted"
   ],
   "note": "Proved for winds below 100 hPa, and above it when there are two reports below, in soundings whose merged heights are given and do not fall (binary64 comparison, arbitrary arithmetic). The full claim is refuted: without winds below 100 hPa those above are ignored (C86_refuted, and for all inputs C86_above_ignored); a wind at the height of a level without wind may be dropped, and one at the height of a level with a reported wind may replace it, because the code tests the level below (C86_dropped_refuted, C86_replaced_refuted)."
  },
  {
   "property": "C87",
   "status": "partial",
   "theorems": [
    "C87_json_partial",
    "C87_text_unless_jet",
    "C87_jet_refuted",
    "C87_nan_refuted"
   ],
   "note": "Proved for files without jet streams and with finite numbers, given that repr of a float is read back by float() (C87_json_partial). C87_text_unless_jet: exactly the files with a jet stream make to_json raise TypeError (its attribute objects are not known to json.dumps), C87_jet_refuted shows such a file. C87_nan_refuted: with a NaN coordinate the text contains NaN, which is not JSON. Passing cls to to_json is a TypeError in the model as in the code."
  },
  {
   "property": "C88",
   "status": "partial",
   "theorems": [
    "C88_returned",
    "C88_failed_partial",
    "C88_vgf_partial",
    "C88_vgf_opens_partial",
    "C88_interrupted_partial",
    "C88_history",
    "C88_untouched",
    "C88_vgf_refuted",
    "C88_interrupted_refuted"
   ],
   "note": "False as stated: C88_vgf_refuted shows a to_vgf call that raises and has destroyed the old file, C88_interrupted_refuted that every writing call (of either kind) passes through a moment at which the old file is lost and the new one is not there. Proved: a call that returns wrote the whole file and nothing else; a to_gempak call that raises has changed nothing at any moment; a to_vgf call that raises leaves a file with the header and just the elements before the one that failed, which opens and reads back as these; at every point of interruption other files are untouched and the file holds its old contents or a beginning of the new ones; what a path holds after any sequence of calls. Errors of write and close are not modelled; that of open is."
  },
  {
   "property": "C89",
   "status": "proved",
   "theorems": [
    "C89_groups",
    "C89_listed",
    "C89_passed_over",
    "C89_written"
   ],
   "note": "Files of records as in C82. Records of tropical cyclone advisories, errors, tracks, breakpoints and significant weather are not part of such files (their layout is not specified)."
  },
  {
   "property": "C90",
   "status": "proved",
   "theorems": [
    "C90_stations",
    "C90_stations_file",
    "C90_grids",
    "C90_grids_file"
   ],
   "note": "The queries are modelled a second time as sequences of operations on the buffer of the object (ReaderIO); C90_stations and C90_grids compare a call in a series with the same call alone on the opened object, C90_stations_file and C90_grids_file with the answer worked out from the bytes of the file, which the other properties are about. Opening is any sequence of buffer operations after the first mark."
  },
  {
   "property": "C91",
   "status": "partial",
   "theorems": [
    "C91_own_objects",
    "C91_shared_object_refuted",
    "C91_shared_object_partial",
    "C91_turns_partial",
    "C91_grid_turns_partial"
   ],
   "note": "C91_own_objects: any schedule, objects of their own. C91_shared_object_refuted: the statement for one shared object is false (a thread switch between the jump to the pointer of a part and the reading of it). C91_turns_partial, C91_grid_turns_partial: calls that overlap on one object, under any schedule that takes the turn from a thread only when its next operation is a jump from the start of the file. C91_shared_object_partial: one call after the other. An operation of the buffer is taken as one step."
  },
  {
   "property": "C92",
   "status": "partial",
   "theorems": [
    "C92_grids",
    "C92_stations",
    "C92_grids_objects",
    "C92_stations_objects",
    "C92_grids_again",
    "C92_stations_again",
    "C92_iterators_partial",
    "C92_iterators_refuted",
    "C92_times_refuted"
   ],
   "note": "C92_grids, C92_stations: as lists (the selection of C42 and C43). C92_grids_objects, C92_stations_objects: the objects afterwards. C92_grids_again, C92_stations_again: the same call again. Refuted for iterators of levels (a grid is silently left out), tuples of time texts (TypeError) and iterators of datetimes (KeyError); C92_iterators_partial: with iterators of levels what is found is among what the list gives."
  },
  {
   "property": "C93",
   "status": "partial",
   "theorems": [
    "C93_labels_partial",
    "C93_selected_partial",
    "C93_names_refuted",
    "C93_layers_refuted",
    "C93_alike_refuted"
   ],
   "note": "False as stated: PRES and P (HGHT and Z, THTA and THETA) give arrays of the same name (C93_names_refuted); the second level is not shown, so layers cannot be told apart (C93_layers_refuted); grids of two model runs with the same valid time are listed alike and every call selects both (C93_alike_refuted). Proved: arrays of upper-case names other than P, Z, THETA with equal labels belong to grids listed alike up to second level and time (C93_labels_partial); a grid that differs from every other in a field the arguments can name is selected alone by some call (C93_selected_partial). Lists containing None as a level are not modelled."
  },
  {
   "property": "C94",
   "status": "partial",
   "theorems": [
    "C94_projection_partial",
    "C94_lost_refuted",
    "C94_rotation_refuted",
    "C94_documented_refuted",
    "C94_accepted"
   ],
   "note": "Proved from the arguments of GridFile to the dictionary the reader gives pyproj.CRS.from_dict, through the bytes. False in full: the standard parallel of Mercator, polar stereographic and equidistant cylindrical projections and the latitude of origin of Lambert conformal ones are never read back, and a Mercator standard parallel comes back as the latitude of origin; transverse Mercator, UTM, Lambert azimuthal equal area with a CF name, one-parallel Lambert conformal and scale-factor Mercator projections are refused. pyproj itself is outside: the CF dictionary, method name and operation parameters are inputs. C94_accepted: every other documented projection is taken when its parameters are there. The rotation makes no difference to what is read (C94_rotation_refuted)."
  },
  {
   "property": "C95",
   "status": "proved",
   "theorems": [
    "C95_shapes",
    "C95_written",
    "C95_written_xy"
   ],
   "note": "The projection and its inverse are arbitrary functions of the dictionary and a pair of numbers. numpy.linspace is modelled in binary64 with a final cast to binary32. The first x and y are the corner's unless they are not a number, and up to the sign of zero. Both ways of making a file are covered: longitudes and latitudes, and projected coordinates (use_xy)."
  }
 ]
}