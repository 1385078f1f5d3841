@@ C01_word_position_inverse
Closed under the global context
@@ C01_position_in_word
Closed under the global context
@@ C01_word_to_position_value
Closed under the global context
@@ C02_sections_disjoint
Closed under the global context
@@ C02_sections_aligned
Closed under the global context
@@ C03_grid_write_repeatable
Closed under the global context
@@ C03_write_repeatable
Closed under the global context
@@ C03_n_writes
Closed under the global context
@@ C04_sounding_round_trip
Closed under the global context
@@ C05_surface_round_trip
Closed under the global context
@@ C06_grid_round_trip
Closed under the global context
@@ C06_grid_values
Closed under the global context
@@ C07_grid_duplicate_replaces
Closed under the global context
@@ C07_duplicate_replaces
Closed under the global context
@@ C08_grid_rejected_unchanged_refuted
Closed under the global context
@@ C08_grid_rejected_unchanged_partial
Closed under the global context
@@ C08_rejected_unchanged_refuted
Closed under the global context
@@ C08_rejected_unchanged_partial
Closed under the global context
@@ C09_stations
Closed under the global context
@@ C09_grids
Closed under the global context
@@ C09_written_stations
Closed under the global context
@@ C09_written_grids
Closed under the global context
@@ C10_not_gempak
Closed under the global context
@@ C10_not_gempak_grid
Closed under the global context
@@ C11_bits_round_trip
Closed under the global context
@@ C11_bit_layout
Closed under the global context
@@ C11_reader_fields
Closed under the global context
@@ C12_packed_length
Closed under the global context
@@ C13_quantization_error
Closed under the global context
@@ C13_quantization_error_flagged
Closed under the global context
@@ C14_missing_stays_missing
Closed under the global context
@@ C15_present_stays_present_refuted
Closed under the global context
@@ C15_present_stays_present_partial
Closed under the global context
@@ C15_no_collision_when_range_small_partial
Closed under the global context
@@ C16_one_word_refuted
Closed under the global context
@@ C16_written_grid_is_read_partial
Closed under the global context
@@ C17_scale_terminates_and_maximal
Closed under the global context
@@ C17_widening_stays_below_missing
Closed under the global context
@@ C18_packed_real_fields
Closed under the global context
@@ C18_packed_real_inverse
Closed under the global context
@@ C18_length_mismatch
Closed under the global context
@@ C19_diff_grid
Closed under the global context
@@ C20_bad_precision_rejected
Closed under the global context
@@ C21_analysis_time
Closed under the global context
@@ C22_forecast_time
Closed under the global context
@@ C22_minutes_identify
Closed under the global context
@@ C23_refuted
Closed under the global context
@@ C23_partial
Closed under the global context
@@ C24_refuted
Closed under the global context
@@ C24_partial
Closed under the global context
@@ C25_ranges
Closed under the global context
@@ C25_injective
Closed under the global context
@@ C26_row_times
Closed under the global context
@@ C27_vertical_coordinates
Closed under the global context
@@ C27_levels
Closed under the global context
@@ C28_parameter_names
Closed under the global context
@@ C28_long_names_rejected
Closed under the global context
@@ C29_refuted
Closed under the global context
@@ C29_partial
Closed under the global context
@@ C30_coordinates
Closed under the global context
@@ C30_integer_coordinates
Closed under the global context
@@ C31_refuted
Closed under the global context
@@ C31_partial
Closed under the global context
@@ C32_surface_identifiers
Closed under the global context
@@ C32_refuted
Closed under the global context
@@ C32_partial
Closed under the global context
@@ C33_unused_slots_partial
Closed under the global context
@@ C33_unused_slots_refuted
Closed under the global context
@@ C34_parameter_list_refuted
Closed under the global context
@@ C34_parameter_list_partial
Closed under the global context
@@ C35_stored_by_name
Closed under the global context
@@ C36_reads_partition
Closed under the global context
@@ C36_at_end
Closed under the global context
@@ C37_marks
Closed under the global context
@@ C38_failed_struct_read
Closed under the global context
@@ C38_failed_func_read
Closed under the global context
@@ C38_failed_array_read
Closed under the global context
@@ C38_struct_read_iff
Closed under the global context
@@ C38_ascii_read_moves_refuted
Closed under the global context
@@ C39_truncate_partial
Closed under the global context
@@ C39_truncate_zero_refuted
Closed under the global context
@@ C39_truncate_zero
Closed under the global context
@@ C40_ordered_set
Closed under the global context
@@ C40_init
Closed under the global context
@@ C40_equality
Closed under the global context
@@ C41_named_struct
Closed under the global context
@@ C42_grid_selection
Closed under the global context
@@ C42_grid_contents
Closed under the global context
@@ C42_case_insensitive
Closed under the global context
@@ C43_surface_selection
Closed under the global context
@@ C43_sounding_selection_partial
Closed under the global context
@@ C43_sounding_state_case_refuted
Closed under the global context
@@ C43_surface_reports
Closed under the global context
@@ C43_surface_contents
Closed under the global context
@@ C44_first_last_grids
Closed under the global context
@@ C44_first_last_stations
Closed under the global context
@@ C45_nearest_time
Closed under the global context
@@ C45_one_filter
Closed under the global context
@@ C45_area_stations
Closed under the global context
@@ C46_record_size_is_length
Closed under the global context
@@ C46_file_is_records
Closed under the global context
@@ C47_points
Closed under the global context
@@ C47_distance
Closed under the global context
@@ C47_places
Closed under the global context
@@ C47_round_trip_partial
Closed under the global context
@@ C47_symbol_code
Closed under the global context
@@ C47_plain_text
Closed under the global context
@@ C47_text_refuted
Closed under the global context
@@ C47_decimals_refuted
Closed under the global context
@@ C47_text_size_refuted
Closed under the global context
@@ C48_terminates_partial
Closed under the global context
@@ C48_one_result
Closed under the global context
@@ C48_refuted
Closed under the global context
@@ C49_ranges_partial
Closed under the global context
@@ C49_rejected_unchanged_partial
Closed under the global context
@@ C49_constructor_refuted
Closed under the global context
@@ C49_rejected_refuted
Closed under the global context
@@ C49_nan_refuted
Closed under the global context
@@ C49_font_refuted
Closed under the global context
@@ C49_front_width_refuted
Closed under the global context
@@ C50_front_code_width_partial
Closed under the global context
@@ C50_width_assigned
Closed under the global context
@@ C50_float_width_refuted
Closed under the global context
@@ C51_flip_twice
Closed under the global context
@@ C52_lines_partial
Closed under the global context
@@ C52_special_lines_partial
Closed under the global context
@@ C52_two_points_refuted
Closed under the global context
@@ C53_strip
Closed under the global context
@@ C53_clean
Closed under the global context
@@ C53_terminator
Closed under the global context
@@ C53_text
Closed under the global context
@@ C53_text_elements
Closed under the global context
@@ C53_fixed_width_partial
Closed under the global context
@@ C53_full_field_refuted
Closed under the global context
@@ C54_filter_elements
Closed under the global context
@@ C54_selectors_partial
Closed under the global context
@@ C54_predicates
Closed under the global context
@@ C54_text_refuted
Closed under the global context
@@ C54_met_refuted
Closed under the global context
@@ C55_groups
Closed under the global context
@@ C56_bounds_enclose_partial
Closed under the global context
@@ C56_bounds_attained
Closed under the global context
@@ C56_zero_refuted
Closed under the global context
@@ C57_rejects
Closed under the global context
@@ C57_between_partial
Axioms:
ClassicalDedekindReals.sig_not_dec : forall P : Prop, {~ ~ P} + {~ P}
ClassicalDedekindReals.sig_forall_dec
  : forall P : nat -> Prop,
    (forall n : nat, {P n} + {~ P n}) ->
    {n : nat | ~ P n} + {forall n : nat, P n}
FunctionalExtensionality.functional_extensionality_dep
  : forall (A : Type) (B : A -> Type) (f g : forall x : A, B x),
    (forall x : A, f x = g x) -> f = g
Classical_Prop.classic : forall P : Prop, P \/ ~ P
@@ C57_direction_partial
Axioms:
ClassicalDedekindReals.sig_not_dec : forall P : Prop, {~ ~ P} + {~ P}
ClassicalDedekindReals.sig_forall_dec
  : forall P : nat -> Prop,
    (forall n : nat, {P n} + {~ P n}) ->
    {n : nat | ~ P n} + {forall n : nat, P n}
FunctionalExtensionality.functional_extensionality_dep
  : forall (A : Type) (B : A -> Type) (f g : forall x : A, B x),
    (forall x : A, f x = g x) -> f = g
Classical_Prop.classic : forall P : Prop, P \/ ~ P
@@ C57_result_pressure_refuted
Axioms:
ClassicalDedekindReals.sig_not_dec : forall P : Prop, {~ ~ P} + {~ P}
ClassicalDedekindReals.sig_forall_dec
  : forall P : nat -> Prop,
    (forall n : nat, {P n} + {~ P n}) ->
    {n : nat | ~ P n} + {forall n : nat, P n}
FunctionalExtensionality.functional_extensionality_dep
  : forall (A : Type) (B : A -> Type) (f g : forall x : A, B x),
    (forall x : A, f x = g x) -> f = g
Classical_Prop.classic : forall P : Prop, P \/ ~ P
@@ C58_logp_height
Closed under the global context
@@ C58_logp_pressure
Closed under the global context
@@ C58_moist_height_partial
Closed under the global context
@@ C58_missing_data_partial
Closed under the global context
@@ C58_moist_height_refuted
Closed under the global context
@@ C58_missing_data_refuted
Closed under the global context
@@ C59_terminates_partial
Closed under the global context
@@ C59_logp_height_refuted
Closed under the global context
@@ C59_others
Closed under the global context
@@ C60_aligned_partial
Closed under the global context
@@ C60_refuted
Closed under the global context
@@ C61_split
Closed under the global context
@@ C61_no_station
Closed under the global context
@@ C61_records
Closed under the global context
@@ C62_splice
Closed under the global context
@@ C62_unknown_mark
Closed under the global context
@@ C63_sounding_time_string
Closed under the global context
@@ C63_surface_time_string_refuted
Closed under the global context
@@ C64_parameter_readable_refuted
Closed under the global context
@@ C64_parameter_readable_partial
Closed under the global context
@@ C65_small_grid_refuted
Closed under the global context
@@ C65_small_grid
Closed under the global context
@@ C65_fitting_file_written
Closed under the global context
@@ C65_written_and_read
Closed under the global context
@@ C65_wide_refuted
Closed under the global context
@@ C66_wrong_shape
Closed under the global context
@@ C67_area_reports_refuted
Closed under the global context
@@ C67_area_reports_partial
Closed under the global context
@@ C68_special_day_refuted
Closed under the global context
@@ C68_special_day_partial
Closed under the global context
@@ C69_never_open
Closed under the global context
@@ C70_log_pressure_heights
Closed under the global context
@@ C71_missing_data_returns
Closed under the global context
@@ C71_repeated_pressure
Closed under the global context
@@ C72_heights_partial
Closed under the global context
@@ C72_refuted
Closed under the global context
@@ C72_order_partial
Closed under the global context
@@ C74_below_ground_partial
Closed under the global context
@@ C74_refuted
Closed under the global context
@@ C75_mandatory_levels_partial
Closed under the global context
@@ C75_height_refuted
Closed under the global context
@@ C75_wind_refuted
Closed under the global context
@@ C76_sounding_datasets
Closed under the global context
@@ C76_returned
Closed under the global context
@@ C77_unmerged_datasets
Closed under the global context
@@ C77_returned
Closed under the global context
@@ C78_listed_partial
Closed under the global context
@@ C78_surface_listed
Closed under the global context
@@ C78_refuted
Closed under the global context
@@ C73_returns_partial
Closed under the global context
@@ C73_no_data
Closed under the global context
@@ C73_size_refuted
Closed under the global context
@@ C73_refuted
Closed under the global context
@@ C79_temperature_partial
Closed under the global context
@@ C79_wind_partial
Closed under the global context
@@ C79_own_temperature_partial
Closed under the global context
@@ C79_own_wind_partial
Closed under the global context
@@ C79_order_refuted
Closed under the global context
@@ C80_fitting_file_written
Closed under the global context
@@ C80_written_and_read
Closed under the global context
@@ C80_written_fits
Closed under the global context
@@ C81_record_shown
Closed under the global context
@@ C81_file_header
Closed under the global context
@@ C81_sigmet_status_refuted
Closed under the global context
@@ C82_whole_file
Closed under the global context
@@ C83_refill_refuted
Closed under the global context
@@ C83_caller_refuted
Closed under the global context
@@ C83_left_alone_partial
Closed under the global context
@@ C83_arrays_kept_partial
Closed under the global context
@@ C84_text_partial
Axioms:
ClassicalDedekindReals.sig_not_dec : forall P : Prop, {~ ~ P} + {~ P}
ClassicalDedekindReals.sig_forall_dec
  : forall P : nat -> Prop,
    (forall n : nat, {P n} + {~ P n}) ->
    {n : nat | ~ P n} + {forall n : nat, P n}
FunctionalExtensionality.functional_extensionality_dep
  : forall (A : Type) (B : A -> Type) (f g : forall x : A, B x),
    (forall x : A, f x = g x) -> f = g
Classical_Prop.classic : forall P : Prop, P \/ ~ P
@@ C84_usual_order
Closed under the global context
@@ C84_no_watches_refuted
Axioms:
ClassicalDedekindReals.sig_not_dec : forall P : Prop, {~ ~ P} + {~ P}
ClassicalDedekindReals.sig_forall_dec
  : forall P : nat -> Prop,
    (forall n : nat, {P n} + {~ P n}) ->
    {n : nat | ~ P n} + {forall n : nat, P n}
FunctionalExtensionality.functional_extensionality_dep
  : forall (A : Type) (B : A -> Type) (f g : forall x : A, B x),
    (forall x : A, f x = g x) -> f = g
Classical_Prop.classic : forall P : Prop, P \/ ~ P
@@ C84_record_partial
Axioms:
ClassicalDedekindReals.sig_not_dec : forall P : Prop, {~ ~ P} + {~ P}
ClassicalDedekindReals.sig_forall_dec
  : forall P : nat -> Prop,
    (forall n : nat, {P n} + {~ P n}) ->
    {n : nat | ~ P n} + {forall n : nat, P n}
FunctionalExtensionality.functional_extensionality_dep
  : forall (A : Type) (B : A -> Type) (f g : forall x : A, B x),
    (forall x : A, f x = g x) -> f = g
Classical_Prop.classic : forall P : Prop, P \/ ~ P
@@ C84_one_element_refuted
Closed under the global context
@@ C84_empty_value_refuted
Closed under the global context
@@ C84_file_refuted
Closed under the global context
@@ C85_record_decoded
Closed under the global context
@@ C85_file_opens
Closed under the global context
@@ C85_one_bad_record
Closed under the global context
@@ C85_ccf_refuted
Closed under the global context
@@ C85_points_refuted
Closed under the global context
@@ C85_unknown_version
Closed under the global context
@@ C86_below_partial
Closed under the global context
@@ C86_above_partial
Closed under the global context
@@ C86_above_ignored
Closed under the global context
@@ C86_refuted
Closed under the global context
@@ C86_dropped_refuted
Closed under the global context
@@ C86_replaced_refuted
Closed under the global context
@@ C87_json_partial
Closed under the global context
@@ C87_text_unless_jet
Closed under the global context
@@ C87_jet_refuted
Closed under the global context
@@ C87_nan_refuted
Closed under the global context
@@ C88_returned
Closed under the global context
@@ C88_failed_partial
Closed under the global context
@@ C88_vgf_partial
Closed under the global context
@@ C88_vgf_opens_partial
Closed under the global context
@@ C88_interrupted_partial
Closed under the global context
@@ C88_history
Closed under the global context
@@ C88_untouched
Closed under the global context
@@ C88_vgf_refuted
Closed under the global context
@@ C88_interrupted_refuted
Closed under the global context
@@ C89_groups
Closed under the global context
@@ C89_listed
Closed under the global context
@@ C89_passed_over
Closed under the global context
@@ C89_written
Closed under the global context
@@ C90_stations
Closed under the global context
@@ C90_stations_file
Closed under the global context
@@ C90_grids
Closed under the global context
@@ C90_grids_file
Closed under the global context
@@ C91_own_objects
Closed under the global context
@@ C91_shared_object_refuted
Closed under the global context
@@ C91_shared_object_partial
Closed under the global context
@@ C91_turns_partial
Closed under the global context
@@ C91_grid_turns_partial
Closed under the global context
@@ C92_grids
Closed under the global context
@@ C92_stations
Closed under the global context
@@ C92_grids_objects
Closed under the global context
@@ C92_stations_objects
Closed under the global context
@@ C92_grids_again
Closed under the global context
@@ C92_stations_again
Closed under the global context
@@ C92_iterators_partial
Closed under the global context
@@ C92_iterators_refuted
Closed under the global context
@@ C92_times_refuted
Closed under the global context
@@ C93_labels_partial
Closed under the global context
@@ C93_selected_partial
Closed under the global context
@@ C93_names_refuted
Closed under the global context
@@ C93_layers_refuted
Closed under the global context
@@ C93_alike_refuted
Closed under the global context
@@ C94_projection_partial
Closed under the global context
@@ C94_lost_refuted
Closed under the global context
@@ C94_rotation_refuted
Closed under the global context
@@ C94_documented_refuted
Closed under the global context
@@ C94_accepted
Closed under the global context
@@ C95_shapes
Closed under the global context
@@ C95_written
Closed under the global context
@@ C95_written_xy
Closed under the global context
