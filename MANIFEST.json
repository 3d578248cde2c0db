{
 "claims": [
  {
   "property": "C01",
   "status": "partial",
   "theorems": [
    "C01_listdict_refines_ordered_map",
    "C01_keys_stay_unique",
    "C01_lookup_is_last_write",
    "C01_raise_leaves_unchanged",
    "C01_update_atomic_refuted",
    "C01_fallback_key_is_decimal"
   ],
   "note": "Refinement to an ordered map, key uniqueness and last-write proved for all histories. The clause \"an operation that raises leaves the container unchanged\" is refuted for update() from a ListDict holding a None key (C01_update_atomic_refuted) and proved otherwise."
  },
  {
   "property": "C02",
   "status": "proved",
   "theorems": [
    "C02_position_agrees_with_key",
    "C02_integer_out_of_range_raises",
    "C02_slice_is_position_range",
    "C02_slice_bad_endpoint_raises"
   ],
   "note": ""
  },
  {
   "property": "C03",
   "status": "proved",
   "theorems": [
    "C03_sort_permutes_into_key_order",
    "C03_sort_idempotent",
    "C03_sort_none_key_raises"
   ],
   "note": "Sorting raises TypeError (container unchanged) when a None key sits next to another key; proved separately."
  },
  {
   "property": "C04",
   "status": "partial",
   "theorems": [
    "C04_pop_removes_requested_refuted",
    "C04_pop_returns_last_item",
    "C04_pop_empty_key_returns_first",
    "C04_pop_removes_requested_iff_last_partial",
    "C04_pop_missing_raises"
   ],
   "note": "Refuted as stated: pop(key) passes the key as OrderedDict.popitem(last=...), so any non-empty key pops the last item. Exact behaviour and the iff-condition under which the property holds are proved."
  },
  {
   "property": "C05",
   "status": "proved",
   "theorems": [
    "C05_update_keys_rekeys",
    "C05_update_keys_reports_renames",
    "C05_update_keys_loses_colliding_refuted",
    "C05_update_keys_last_carrier_wins",
    "C05_copy_keeps_items"
   ],
   "note": "Proved for distinct current names, as stated. With colliding names an object is silently lost (refuted witness); the survivor is characterised."
  },
  {
   "property": "C06",
   "status": "proved",
   "theorems": [
    "C06_structure_inverts_flatten",
    "C06_flatten_lists_every_leaf",
    "C06_flatten_names_distinct",
    "C06_dotted_names_unambiguous",
    "C06_empty_subdict_lost_refuted",
    "C06_separator_in_key_refuted",
    "C06_other_separator_refuted"
   ],
   "note": "Refutations mark the boundary: empty sub-dictionaries, separators in keys, and a separator other than \".\" (structure_dict always splits on \".\")."
  },
  {
   "property": "C07",
   "status": "proved",
   "theorems": [
    "C07_get_returns_what_set_stored",
    "C07_set_disturbs_nothing_else",
    "C07_update_attribute_agrees",
    "C07_missing_level_raises",
    "C07_nested_set_get",
    "C07_nested_set_frame"
   ],
   "note": ""
  },
  {
   "property": "C08",
   "status": "partial",
   "theorems": [
    "C08_result_lower_case_no_slash",
    "C08_idempotent_partial",
    "C08_idempotent_refuted",
    "C08_rejects_leading_digit",
    "C08_letters_preserved"
   ],
   "note": "Lower case, no slash, letters preserved: proved for every string. Idempotence proved unless the name starts with a newline; refuted for \"\\n1A\" -> \"1_a\", which is itself rejected."
  },
  {
   "property": "C09",
   "status": "proved",
   "theorems": [
    "C09_tag_names_convert_back",
    "C09_tags_distinct",
    "C09_other_names_refuted"
   ],
   "note": "For words of letters followed by optional digits. Names such as \"a1b\", \"channel_1\" or \"two__bars\" do not convert back (C09_other_names_refuted)."
  },
  {
   "property": "C10",
   "status": "partial",
   "theorems": [
    "C10_leap_seconds_correct_partial",
    "C10_total_refuted",
    "C10_before_table_raises",
    "C10_never_wrong",
    "C10_nondecreasing"
   ],
   "note": "Never wrong and nondecreasing when it answers; correct on 1980-01-01..2026-06-30 except 2012-06-30 and 2016-12-31, which raise (table gaps), as does every date from 2026-07-01 (C10_total_refuted)."
  },
  {
   "property": "C11",
   "status": "partial",
   "theorems": [
    "C11_order_without_gt_partial",
    "C11_trichotomy_refuted",
    "C11_gt_wrong_exactly_on_equal_times"
   ],
   "note": "__gt__ is \"not <\", so a > a is True: trichotomy refuted; every clause not involving > proved, and > shown wrong exactly on equal times."
  },
  {
   "property": "C12",
   "status": "partial",
   "theorems": [
    "C12_parsed_number_in_range",
    "C12_parsed_stamp_in_range",
    "C12_in_range_seconds_kept",
    "C12_monotone_seconds_partial",
    "C12_monotone_refuted",
    "C12_total_refuted",
    "C12_nanoseconds_kept"
   ],
   "note": "Range, precision and fixed point proved for every number. Monotonicity proved up to 3e11 and refuted beyond (read as nanoseconds); 253402300800..3e11 raises instead of clamping (C12_total_refuted)."
  },
  {
   "property": "C13",
   "status": "partial",
   "theorems": [
    "C13_add_subtract_partial",
    "C13_add_error_bound",
    "C13_nanoseconds_refuted",
    "C13_overflow_raises",
    "C13_add_monotone"
   ],
   "note": "Proved for durations of whole microseconds; refuted at nanosecond level because parse rounds a nanosecond part above 500; error bound 499 ns proved."
  },
  {
   "property": "C14",
   "status": "partial",
   "theorems": [
    "C14_idempotent_partial",
    "C14_idempotent_refuted",
    "C14_channel_idempotent_partial",
    "C14_errors"
   ],
   "note": "Proved: an accepted value is a fixed point exactly when it is \"digital counts\" or does not mention it. Refuted otherwise: \"counts/second\" is stored as \"digital counts per second\", which re-validates to \"unknown digital counts per second\" (channel) or raises KeyError (filter)."
  },
  {
   "property": "C15",
   "status": "proved",
   "theorems": [
    "C15_indices_exact",
    "C15_set_indices_total",
    "C15_in_band_harmonics",
    "C15_fft_harmonics_of_band",
    "C15_unsorted_axis_refuted"
   ],
   "note": "Also proved for the FFT axis; without an ordered axis the claim fails (C15_unsorted_axis_refuted marks the boundary of the quantifier)."
  },
  {
   "property": "C16",
   "status": "partial",
   "theorems": [
    "C16_overlaps_symmetric",
    "C16_overlaps_is_common_point",
    "C16_nonempty",
    "C16_contains",
    "C16_contains_implies_overlaps",
    "C16_contains_self_exactly",
    "C16_contains_self_refuted"
   ],
   "note": "overlaps is symmetric and means a common frequency; contains implies overlaps. \"Every band contains itself\" is refuted: it holds exactly for bands closed at both ends (C16_contains_self_exactly)."
  },
  {
   "property": "C17",
   "status": "partial",
   "theorems": [
    "C17_sort_ascending",
    "C17_sort_descending",
    "C17_band_lookup",
    "C17_bands",
    "C17_bands_default_refuted",
    "C17_validate"
   ],
   "note": "Sorting, lookup, sorted listing and validate proved (order of equal keys left open). The default bands() call named increasing_frequency keeps table order: refuted."
  },
  {
   "property": "C18",
   "status": "partial",
   "theorems": [
    "C18_accepts",
    "C18_history",
    "C18_cleared_units_refuted",
    "C18_in_place_refuted"
   ],
   "note": "Every history of attribute assignments keeps the chain and the end units; changing the list in place is not validated, and clearing it keeps the old units (refuted parts)."
  },
  {
   "property": "C19",
   "status": "proved",
   "theorems": [
    "C19_product",
    "C19_product_given",
    "C19_order",
    "C19_append",
    "C19_split",
    "C19_delay_lists",
    "C19_total_delay",
    "C19_normalised"
   ],
   "note": "Product, order independence, append, delay split, total delay and normalisation; the interpolation of scipy is modelled piecewise linearly and pole-zero responses by the rational function."
  },
  {
   "property": "C20",
   "status": "partial",
   "theorems": [
    "C20_even",
    "C20_even_linear_phase",
    "C20_odd_length",
    "C20_odd_symmetric_exactly",
    "C20_odd_refuted",
    "C20_none"
   ],
   "note": "EVEN proved (with linear phase); ODD has the right length but is symmetric exactly when all coefficients are equal (refuted)."
  },
  {
   "property": "C21",
   "status": "partial",
   "theorems": [
    "C21_stage_order_partial",
    "C21_stage_order_refuted",
    "C21_remove",
    "C21_remove_keeping_stages",
    "C21_no_duplicates_partial",
    "C21_no_duplicates_refuted",
    "C21_add_name",
    "C21_blank_refused",
    "C21_get_filter",
    "C21_channel_response"
   ],
   "note": "Removal, lookup, addition and channel_response proved. Stage order proved for histories adding by name, refuted for filters added as objects (appended unsorted). Uniqueness proved for plain names, refuted for names changed by normalisation."
  },
  {
   "property": "C22",
   "status": "partial",
   "theorems": [
    "C22_history",
    "C22_get",
    "C22_recorded_lists",
    "C22_partition",
    "C22_no_duplicates",
    "C22_readd",
    "C22_placeholder_refuted",
    "C22_assignment_refuted",
    "C22_assignment_adds",
    "C22_update_union",
    "C22_class_from_name",
    "C22_class_from_dict_refuted",
    "C22_class_from_dict_partial"
   ],
   "note": "Proved for all histories of add/merge/remove on any run a user can build (C22_history, C22_get, C22_recorded_lists, C22_partition, C22_no_duplicates, C22_readd, C22_assignment_adds, C22_update_union). Refuted: a channel with the placeholder name (e_default, h_default, auxiliary_default) is in no recorded list; assigning a shorter recorded list leaves the channel in the run; a dictionary with component 'hx' and type None becomes Auxiliary."
  },
  {
   "property": "C23",
   "status": "partial",
   "theorems": [
    "C23_update_period",
    "C23_default_ignored",
    "C23_order_irrelevant",
    "C23_idempotent",
    "C23_run",
    "C23_run_never_shrinks",
    "C23_update_run_refuted",
    "C23_station",
    "C23_survey",
    "C23_survey_history"
   ],
   "note": "Proved for every list of children (covers, never shrinks, default ignored, order irrelevant, idempotent), for every history of updating calls on a run, and for add_run on any consistent station. Refuted for Run.update, which takes over the other run's times (C23_update_run_refuted). The survey's dates are in C23_survey."
  },
  {
   "property": "C24",
   "status": "partial",
   "theorems": [
    "C24_remove_run_partial",
    "C24_phantom_channel_refuted",
    "C24_phantom_channel_always",
    "C24_recorded_after_last_run_refuted",
    "C24_remove_raises_refuted"
   ],
   "note": "Proved: the run is gone, run_list equals the remaining ids, all runs but the first remaining one are untouched; everything is untouched when no channel is lost. Refuted in general: a channel only the removed run had reappears in the first remaining run (C24_phantom_channel_always shows it always does), recorded channels go stale when the last run is removed, and removal can raise."
  },
  {
   "property": "C25",
   "status": "proved",
   "theorems": [
    "C25_add_runs",
    "C25_add_run_effect",
    "C25_add_after_removal_refuted"
   ],
   "note": "C25_add_runs for every sequence of add_run on a new station, C25_add_run_effect per call. Outside the property as stated: after a removal that emptied the station the next added run receives channels it never had (C25_add_after_removal_refuted)."
  },
  {
   "property": "C26",
   "status": "partial",
   "theorems": [
    "C26_every_call",
    "C26_history",
    "C26_added_station_in_box",
    "C26_box_is_determined",
    "C26_order_irrelevant",
    "C26_unknown_positions_ignored",
    "C26_position_never_set_refuted",
    "C26_last_station_removed_refuted",
    "C26_moved_to_zero_refuted"
   ],
   "note": "After any add/remove/merge with update, and at every point of any history from an empty survey, the box is tight (min/max attained) for the known coordinates; determined by the set of stations, so independent of insertion order. As stated it fails in three ways, each refuted with a witness: a never-set position counts as (0,0); the box stays when the last station is removed; a station re-added at latitude 0 keeps the old one."
  },
  {
   "property": "C27",
   "status": "partial",
   "theorems": [
    "C27_merge_ids",
    "C27_merge_get",
    "C27_merge_disjoint",
    "C27_shared_survey_refuted",
    "C27_add_survey_again_refuted",
    "C27_add_survey_again_keeps_stations",
    "C27_add_remove"
   ],
   "note": "ids of the merge are the first's in order then the new ones of the second, no duplicates, lookups are determined; refuted: a survey id present in both is replaced wholesale (stations of the first are lost), and add_survey of an existing id never brings its stations."
  },
  {
   "property": "C28",
   "status": "partial",
   "theorems": [
    "C28_ordinary_values_arrive",
    "C28_unset_values_keep",
    "C28_one_of_the_two",
    "C28_exact_rule",
    "C28_comment_parts",
    "C28_comment_text",
    "C28_blank_comment_keeps",
    "C28_other_class_ignored",
    "C28_zero_refuted",
    "C28_false_refuted",
    "C28_word_refuted",
    "C28_array_with_zero_refuted",
    "C28_author_erased_refuted"
   ],
   "note": "Proved for all classes and objects: every ordinary value and every part of a comment of y arrives, every unset one leaves x alone, the result is always x's or y's value, another class changes nothing. Refuted as stated: zero, False, the words of NULL_VALUES and arrays containing a zero do not arrive, and a plain text comment in y erases the author and time of x's comment."
  },
  {
   "property": "C29",
   "status": "partial",
   "theorems": [
    "C29_meaning",
    "C29_reflexive",
    "C29_difference_found",
    "C29_symmetric_partial",
    "C29_coordinate_symmetry_refuted",
    "C29_tolerance_symmetry_refuted",
    "C29_transitivity_refuted",
    "C29_comment_difference_refuted"
   ],
   "note": "Proved for all classes and objects: equality always answers, its exact meaning, reflexivity, and symmetry when numbers are equal or clearly apart and no coordinate is set against an unset one. Refuted in general: 0.0 equals an unset coordinate in one direction only, numpy.isclose is relative to the right object, transitivity fails, and a comment text is never compared with an absent one."
  },
  {
   "property": "C30",
   "status": "partial",
   "theorems": [
    "C30_full_round_trip",
    "C30_required_round_trip_partial",
    "C30_required_comment",
    "C30_array_with_zero_refuted",
    "C30_emptied_text_refuted",
    "C30_unset_coordinate_refuted"
   ],
   "note": "Proved for all classes and objects: the full round trip of to_dict(required=False), and which values and comments come back from the default to_dict(required=True). Refuted for required=True: arrays with a zero are lost, an emptied text returns as its default, an unset coordinate returns as 0.0."
  },
  {
   "property": "C31",
   "status": "proved",
   "theorems": [
    "C31_round_trip",
    "C31_reread",
    "C31_dictionary",
    "C31_equality",
    "C31_bar_refuted",
    "C31_blank_refuted",
    "C31_author_read_as_time_refuted",
    "C31_no_text_refuted",
    "C31_four_parts_refuted",
    "C31_equals_none_refuted"
   ],
   "note": "Proved for every reader and writer of times that are inverse (ISO texts are one such pair): a comment whose author and text hold no bar and no outer blanks comes back, what was understood from any text is understood again, the dictionary form restores all parts. Refuted as stated: bars, outer blanks, an author that reads as a time, a missing text, more than three parts; comparison with None counts as true."
  },
  {
   "property": "C32",
   "status": "partial",
   "theorems": [
    "C32_round_trip_partial",
    "C32_minutes_and_seconds_below_60",
    "C32_sign_refuted",
    "C32_same_text",
    "C32_three_parts"
   ],
   "note": "Round trip with sign proved for q <= -1 and q >= 0; for every position strictly between -1 and 0 the sign is lost (C32_sign_refuted). Minutes and seconds below 60 proved for all."
  },
  {
   "property": "C33",
   "status": "proved",
   "theorems": [
    "C33_accepted_is_in_range",
    "C33_in_range_number_unchanged",
    "C33_out_of_range_refused",
    "C33_none_is_zero",
    "C33_text_counts_as_its_number",
    "C33_written_position_is_accepted_partial"
   ],
   "note": "Whatever is accepted is in range; in-range numbers unchanged; out-of-range, nan/inf and non-numbers refused; None is 0. The text of a position is accepted (outside (-1,0), see C32)."
  },
  {
   "property": "C34",
   "status": "partial",
   "theorems": [
    "C34_letter_of_rate",
    "C34_letter_is_read_as_its_band",
    "C34_one_letter",
    "C34_bands_follow_the_rate",
    "C34_uncovered_rates_refuted",
    "C34_letters_never_given"
   ],
   "note": "The letter is given exactly by the table in FdsnSpec; refuted that no positive rate is left out (0.5, 8192, 24000 get the letter A) and letters D, G, H, S are never given."
  },
  {
   "property": "C35",
   "status": "partial",
   "theorems": [
    "C35_horizontal",
    "C35_vertical",
    "C35_every_azimuth",
    "C35_direction_insensitive",
    "C35_other_orientation_refuted"
   ],
   "note": "Proved for horizontal and vertical channels; for any other orientation word no code is given (refuted)."
  },
  {
   "property": "C36",
   "status": "partial",
   "theorems": [
    "C36_round_trip_partial",
    "C36_named_direction",
    "C36_channel_name",
    "C36_three_characters",
    "C36_location_code",
    "C36_losses_refuted",
    "C36_tilted_vertical_refuted"
   ],
   "note": "Proved for horizontal channels, covered rates and full measurement names; refuted for tide, parts of names, uncovered rates, unknown measurements and tilted vertical channels."
  },
  {
   "property": "C37",
   "status": "partial",
   "theorems": [
    "C37_case_variant",
    "C37_accepted",
    "C37_others_refused",
    "C37_not_a_text",
    "C37_geomagnetic_kept",
    "C37_geomagnetic_accepts",
    "C37_geomagnetic_refuted"
   ],
   "note": "Proved for all enumerations derived from StrEnumerationBase; geomagnetic models are accepted but not normalised (refuted)."
  },
  {
   "property": "C38",
   "status": "partial",
   "theorems": [
    "C38_single_and_dictionary",
    "C38_list_of_dictionaries",
    "C38_list_of_levels_doubled",
    "C38_kept_once_refuted",
    "C38_lookup_of_given_levels",
    "C38_lookup",
    "C38_add",
    "C38_add_dictionary",
    "C38_other_values"
   ],
   "note": "One level, dictionaries and lists of dictionaries are kept once each, lookup and adding proved; refuted for a list of level objects, which is stored twice (C38_list_of_levels_doubled)."
  },
  {
   "property": "C39",
   "status": "partial",
   "theorems": [
    "C39_cascade",
    "C39_cascade_default",
    "C39_zero_factor",
    "C39_assigned_rate",
    "C39_assign_bands_uniform",
    "C39_assign_bands_refuted",
    "C39_emtf"
   ],
   "note": "Proved for fc_decimations_creator, for assign_decimation_level_data_emtf and for assign_bands with one factor; refuted for assign_bands with different factors (it divides by the k-th power of the last factor)."
  },
  {
   "property": "C40",
   "status": "partial",
   "theorems": [
    "C40_own_archive",
    "C40_own_archive_refuted"
   ],
   "note": "Exact result proved: accepted iff min_num_stft_windows is 0; refuted otherwise, because the archive does not receive that parameter."
  },
  {
   "property": "C41",
   "status": "proved",
   "theorems": [
    "C41_valid_iff_windows_fit",
    "C41_number_of_windows",
    "C41_monotone",
    "C41_no_window_required_refuted",
    "C41_overlap_too_long_refuted"
   ],
   "note": "Proved for at least one required window and an overlap not longer than the window; refuted for no required window (the default) and for longer overlaps."
  },
  {
   "property": "C42",
   "status": "partial",
   "theorems": [
    "C42_added_channel_not_reported",
    "C42_added_channel_present_refuted",
    "C42_found_after_an_assignment",
    "C42_assignment_synchronises",
    "C42_listed_channel_updated",
    "C42_remove_channel",
    "C42_repeated_name_refuted",
    "C42_levels_history",
    "C42_level_added",
    "C42_level_removed",
    "C42_repeated_level_refuted"
   ],
   "note": "Proved for the levels of an FC over all histories and for listed channels; refuted for a channel just added to a Decimation (not listed until the next assignment) and for names listed twice."
  },
  {
   "property": "C43",
   "status": "proved",
   "theorems": [
    "C43_station_round_trip",
    "C43_stations_round_trip",
    "C43_any_table",
    "C43_reading_succeeds",
    "C43_get_station",
    "C43_run_without_period_refuted",
    "C43_repeated_run_refuted",
    "C43_shared_channel_refuted",
    "C43_empty_station_refuted",
    "C43_read_twice_refuted",
    "C43_unflagged_remote_refuted",
    "C43_only_remote_raises"
   ],
   "note": "Proved for every run summary: one station (dictionary and table) and several stations come back row by row; C43_any_table holds with no hypotheses. Refuted at the boundaries with witnesses: a run without a time period, a run listed twice in one station, channels shared between rows, a station without runs, a table read twice into one object, a remote station whose flag is not set; a table with only remote rows raises."
  },
  {
   "property": "C44",
   "status": "partial",
   "theorems": [
    "C44_keyword_sets_all_labels",
    "C44_accepted_keyword",
    "C44_none_is_default",
    "C44_other_keywords_refused",
    "C44_labels_distinct",
    "C44_electric_labels",
    "C44_unpack",
    "C44_channels",
    "C44_history_after_keyword",
    "C44_history_last_label",
    "C44_history_valid",
    "C44_round_trip_partial",
    "C44_custom_labels_refuted",
    "C44_channels_refuted",
    "C44_given_label_refuted",
    "C44_construct_accepts",
    "C44_constructor",
    "C44_round_trip_refuted",
    "C44_every_map_refuted",
    "C44_allowed_names",
    "C44_allowed_names_total"
   ],
   "note": "Proved: the six keywords set all five labels; other keywords are refused; labels of a keyword are distinct; after any history the object is valid and shows the last keyword or label. Refuted: hand-set labels survive a round trip only if they come after the keyword (C44_round_trip_refuted / C44_given_label_refuted), the keyword of the constructor overrides given labels, the map \"nims\" repeats a label (C44_every_map_refuted)."
  },
  {
   "property": "C45",
   "status": "partial",
   "theorems": [
    "C45_weights",
    "C45_monotone",
    "C45_extremes",
    "C45_least",
    "C45_composite",
    "C45_composite_style_refuted",
    "C45_infinite_bound_refuted",
    "C45_nan_value_refuted",
    "C45_exchanged_bounds_refuted",
    "C45_cut_is_zero_refuted",
    "C45_threshold_kernel_refuted"
   ],
   "note": "Proved for finite bounds in order and every value but nan: weights in [0,1], monotone in the direction, extremes outside the transition, product kernel. Refuted: an infinite bound (which the documentation offers) gives nan, a rectangle weights nan with 1, exchanged bounds reverse, a Hamming cut keeps 0.08, threshold kernels raise on every input, window styles that raise. Reals instead of binary64."
  },
  {
   "property": "C46",
   "status": "partial",
   "theorems": [
    "C46_weights",
    "C46_monotone",
    "C46_extremes",
    "C46_infinite_bounds",
    "C46_cut_is_zero_refuted",
    "C46_equal_bounds_refuted",
    "C46_negative_steepness_refuted"
   ],
   "note": "Proved for finite bounds a<b: weights in [0,1], monotone for steepness >= 0, exact extremes; infinite bounds give 1/2 everywhere. Refuted: cut values keep more than 1/3 by default, equal bounds give nan, negative steepness reverses. Reals instead of binary64."
  },
  {
   "property": "C47",
   "status": "partial",
   "theorems": [
    "C47_feature_weight",
    "C47_no_kernels",
    "C47_each_kernel",
    "C47_channel_weight",
    "C47_order",
    "C47_combination",
    "C47_kernels",
    "C47_missing_values",
    "C47_inactive_kernel_refuted",
    "C47_mixed_refuted",
    "C47_dictionaries",
    "C47_default_dictionary_refuted"
   ],
   "note": "Proved for all kernels, values (number or array) and combinations: result is a weight of the same form; product <= minimum <= mean <= maximum in every place; no kernel gives 1; missing values are reported; each kernel only lowers the weight. Refuted: inactive kernels are still used, a feature without kernels beside an array raises, a dictionary with the default weight type makes a kernel that cannot be evaluated."
  },
  {
   "property": "C48",
   "status": "proved",
   "theorems": [
    "C48_block",
    "C48_file",
    "C48_file_rising",
    "C48_same_file",
    "C48_marker_refuted",
    "C48_tipper_errors_refuted"
   ],
   "note": "Proved for one block of any length (C48_block), for the whole data part in falling and rising order (C48_file, C48_file_rising), and that writing what was read gives the same file (C48_same_file), each number to half a unit of its seventh digit, under: the marker has at most seven digits, no number prints like it, and a zero tipper has no errors. Refuted without these: C48_marker_refuted, C48_tipper_errors_refuted. Errors are modelled by their squares; nan and the metadata sections are not modelled."
  },
  {
   "property": "C49",
   "status": "partial",
   "theorems": [
    "C49_least_squares",
    "C49_exact",
    "C49_residual_covariance",
    "C49_no_tipper_refuted",
    "C49_uncorrelated_refuted"
   ],
   "note": "Proved for every finite set of samples with invertible cross powers, for files with a vertical channel (5 or 7 channels): the result satisfies the normal equations (C49_least_squares), equals Z for data obeying E = Z H (C49_exact) and the residual covariance is the one of the fit (C49_residual_covariance). Refuted: without a vertical channel the second row is wrong for all usable data (C49_no_tipper_refuted); uncorrelated references give nan (C49_uncorrelated_refuted). Reals instead of binary64."
  },
  {
   "property": "C50",
   "status": "proved",
   "theorems": [
    "C50_pairs",
    "C50_descending",
    "C50_rotation_refuted",
    "C50_unsorted_refuted",
    "C50_single_refuted"
   ],
   "note": "Proved for every file: C50_pairs (frequency, z, t and their errors at one index come from one place of the file) and C50_descending (monotone files are read from high to low). Refuted: C50_rotation_refuted (angles are not turned round), C50_unsorted_refuted, C50_single_refuted (one frequency raises IndexError)."
  },
  {
   "property": "C51",
   "status": "partial",
   "theorems": [
    "C51_file",
    "C51_any_block",
    "C51_hermitian",
    "C51_again",
    "C51_period_refuted",
    "C51_exponent_refuted",
    "C51_header_refuted"
   ],
   "note": "Proved at the level of characters for every list of periods, every number of output channels and every header without the word \"period\", for numbers with a two-digit power of ten: everything is read back to the printed precision (C51_file), matrices are Hermitian (C51_hermitian; C51_any_block for any readable block), and writing again gives the same file (C51_again). Refuted: periods below 1e-5 s come back as zero and short ones as others (C51_period_refuted); exponents of three digits (C51_exponent_refuted) and the word \"period\" in a header (C51_header_refuted) make the file unreadable. Header contents are not modelled here; -0.0 is not modelled."
  },
  {
   "property": "C52",
   "status": "partial",
   "theorems": [
    "C52_impedance",
    "C52_error",
    "C52_tipper",
    "C52_aligned",
    "C52_skew_magnetic_refuted",
    "C52_skew_electric_refuted",
    "C52_parallel_refuted",
    "C52_read_again_refuted",
    "C52_declination"
   ],
   "note": "Proved over the reals: for magnetic and electric sensors at right angles, the rotated impedance is consistent with the measured transfer function and unique, likewise the tipper and the covariance; aligned sensors give the identity. Refuted: for non-orthogonal magnetic sensors (C52_skew_magnetic_refuted) and electric sensors (C52_skew_electric_refuted) the result is wrong; parallel sensors are not refused (C52_parallel_refuted); filling the data set and reading it again rotates twice (C52_read_again_refuted)."
  },
  {
   "property": "C53",
   "status": "partial",
   "theorems": [
    "C53_values",
    "C53_periods",
    "C53_order_partial",
    "C53_order_refuted",
    "C53_blank_line_refuted",
    "C53_tipper_refuted"
   ],
   "note": "Each value at a period is the one of the last line listed for its component, and the periods are exactly the non-zero ones listed (proved). They are increasing only if all have the same number of digits before the point (C53_order_partial): they are sorted as texts, so 10.0 comes before 2.0 (C53_order_refuted). Also: a blank line among the values makes the file unreadable, and values of tzy are dropped without values of tzx."
  },
  {
   "property": "C54",
   "status": "proved",
   "theorems": [
    "C54_pairs",
    "C54_written",
    "C54_many_refuted",
    "C54_author",
    "C54_author_refuted",
    "C54_colon_refuted",
    "C54_comma_refuted",
    "C54_text",
    "C54_subject"
   ],
   "note": "Proved: up to 21 pairs of keys and values without ':' and ',' (the last value may have ',') are read back exactly, and an author with comments of any text. Refuted: after 21 pairs the rest is lost; a value with ':' is cut there; a value with ',' before another pair is cut and its rest becomes part of the next key; text with ':' is never kept as text; subjects are kept exactly when they have no capitals or blanks."
  },
  {
   "property": "C55",
   "status": "proved",
   "theorems": [
    "C55_last",
    "C55_inverse",
    "C55_sound",
    "C55_duplicate"
   ],
   "note": "The flipped dictionary is characterised exactly: last entry wins, \"special\" and None left out, lists spread. A name that two keys have leads back to the last only (start_date/creation_date)."
  },
  {
   "property": "C56",
   "status": "proved",
   "theorems": [
    "C56_pairs",
    "C56_tagged",
    "C56_words",
    "C56_empty_refuted",
    "C56_blank_refuted"
   ],
   "note": "Proved for every list of pairs with any white space around \"=\", after a tag and before a comment or not; in general the words between white space and \"=\" are taken two by two when their number is even and returned alone when it is odd. Refuted: one key without value makes every word come back alone; two values with a blank shift keys into values."
  },
  {
   "property": "C57",
   "status": "proved",
   "theorems": [
    "C57_level_harmonics",
    "C57_bounds",
    "C57_bounds_pairing_refuted"
   ],
   "note": "Multiplicities proved: a harmonic shared by two bands is listed twice. lower_bounds/upper_bounds are sorted separately, so their pairing is lost for nested bands (refuted)."
  },
  {
   "property": "C58",
   "status": "partial",
   "theorems": [
    "C58_fft_harmonics",
    "C58_all_below_nyquist_partial",
    "C58_odd_length_refuted"
   ],
   "note": "Even lengths proved; for every odd length the last harmonic below Nyquist is missing (C58_odd_length_refuted), against the docstring."
  },
  {
   "property": "C59",
   "status": "partial",
   "theorems": [
    "C59_set",
    "C59_set_good",
    "C59_add_dict",
    "C59_update_stops",
    "C59_delete",
    "C59_missing_refuted",
    "C59_name_refuted",
    "C59_default_refuted",
    "C59_bool_refuted",
    "C59_latex_refuted",
    "C59_csv",
    "C59_csv_options_refuted",
    "C59_csv_many_options_refuted",
    "C59_list_default",
    "C59_csv_comma_refuted"
   ],
   "note": "Proved: storing, deleting and looking up, prefixed add_dict keeps both dictionaries, accepted entries are stable, an update that meets a bad entry keeps those before it, and the csv written for any dictionary of good entries reads back to the same entries. Refuted: every key is \"in\" the dictionary and get never returns its default; the name of an empty dictionary raises IndexError; a required string default none/None flips each time the entry is validated; a required boolean without a default raises UnboundLocalError; to_latex lengthens the stored descriptions at each call; options read from csv keep the quotes written around the list; a comma in a description shifts the rest of the row into the next columns."
  },
  {
   "property": "C60",
   "status": "partial",
   "theorems": [
    "C60_values",
    "C60_exact",
    "C60_exact_printed",
    "C60_single_refuted",
    "C60_empty_refuted",
    "C60_item_refuted",
    "C60_units_refuted",
    "C60_units_read",
    "C60_units_only",
    "C60_units_other",
    "C60_children",
    "C60_attribs",
    "C60_attribs_text",
    "C60_attribs_children",
    "C60_attribs_item_refuted"
   ],
   "note": "Proved: exactly what every nested dictionary of texts, None, lists and dictionaries comes back as, from the element or a printed and re-parsed copy, that it is the same dictionary when no text is empty or padded, no list has one value and no key is \"item\", and what an element with attributes and repeated children is read as. Refuted: a one-element list comes back as its element, empty texts, lists and dictionaries as None, a key \"item\" swallows its siblings and attributes, and units are never written because they are looked up under a key that cannot be there."
  },
  {
   "property": "C61",
   "status": "partial",
   "theorems": [
    "C61_keywords_all_reach_object_refuted",
    "C61_plain_keyword_reaches_object_partial",
    "C61_dotted_keyword_reaches_object_partial",
    "C61_class_key_unpacked"
   ],
   "note": "Refuted when a dotted keyword and a dict keyword share their root: the later one discards the earlier."
  },
  {
   "property": "C62",
   "status": "proved",
   "theorems": [
    "C62_accepted_station_names",
    "C62_bad_character_rejected"
   ],
   "note": ""
  },
  {
   "property": "C63",
   "status": "partial",
   "theorems": [
    "C63_options_trimmed_and_clean",
    "C63_options_read_back",
    "C63_options_never_blank_refuted",
    "C63_type_idempotent_partial",
    "C63_type_idempotent_refuted",
    "C63_units_idempotent",
    "C63_style_canonical",
    "C63_required_accepts_case_variants"
   ],
   "note": "Options read back, style/units/required fixed points proved. validate_type idempotence proved for strings without \"<\", refuted in general; blank and padded none options survive (refuted)."
  },
  {
   "property": "C64",
   "status": "proved",
   "theorems": [
    "C64_day_arithmetic",
    "C64_self_difference_refuted"
   ],
   "note": "Proved for date-only stamps; a date constructed with a time of day minus itself is not zero (refuted)."
  },
  {
   "property": "C65",
   "status": "partial",
   "theorems": [
    "C65_compound_partial",
    "C65_compound_refuted",
    "C65_counts_case_refuted",
    "C65_name_any_case",
    "C65_symbol",
    "C65_symbol_refuted"
   ],
   "note": "Proved for any number of parts with no extra blank before the operator. Refuted: \"V / m\" is stored as the product \"Volt meter\"; \"COUNTS\" alone is digital counts but unknown inside a compound; symbol C gives celsius, not Coulomb."
  },
  {
   "property": "C66",
   "status": "proved",
   "theorems": [
    "C66_gain_at_zero",
    "C66_gain_at_reference"
   ],
   "note": "Zero and non-zero reference frequencies; hypotheses exclude cancelling coefficients, where the code divides by zero."
  },
  {
   "property": "C67",
   "status": "partial",
   "theorems": [
    "C67_round_trip_partial",
    "C67_coefficient_in_channel",
    "C67_delay_exactly",
    "C67_fir_refuted",
    "C67_empty_pole_zero_refuted"
   ],
   "note": "Proved for the filters of [survives]; refuted for FIR filters with another reference frequency, delays with gain other than 1 (exact), and pole-zero filters without poles and zeros."
  },
  {
   "property": "C68",
   "status": "partial",
   "theorems": [
    "C68_table_points",
    "C68_phases_kept",
    "C68_phases_idempotent_refuted"
   ],
   "note": "Table points and phases within 6 pi proved; idempotence of the phase conversion refuted."
  },
  {
   "property": "C69",
   "status": "partial",
   "theorems": [
    "C69_sort_runs_by_time_refuted"
   ],
   "note": "Refuted: sort_runs_by_time raises AttributeError for every station with a run (C69_sort_runs_by_time_refuted)."
  },
  {
   "property": "C70",
   "status": "partial",
   "theorems": [
    "C70_update_keeps_runs",
    "C70_runs_arrive_refuted",
    "C70_runs_unchanged_refuted"
   ],
   "note": "No run name is lost; refuted: the runs only the new station has arrive empty, and channels only the new one recorded are added to the old station's first run."
  },
  {
   "property": "C71",
   "status": "proved",
   "theorems": [
    "C71_written_time_reads_back",
    "C71_number_reads_back",
    "C71_different_times_different_text",
    "C71_calendar",
    "C71_text_is_read",
    "C71_no_such_day_refused",
    "C71_beyond_the_range",
    "C71_date_reads_back",
    "C71_nanoseconds_refuted",
    "C71_from_dict_refuted"
   ],
   "note": "Proved: every time made by MTime reads back from isoformat and iso_no_tz, texts are injective, dates are the Gregorian calendar. Refuted: a stamp given more than 500 ns by its setter is rounded on reading, and MTime.from_dict stores the text unparsed, so the object cannot be written again."
  },
  {
   "property": "C72",
   "status": "proved",
   "theorems": [
    "C72_set_one_component",
    "C72_components_determine",
    "C72_set_same_value",
    "C72_ranges",
    "C72_out_of_range_refused",
    "C72_set_succeeds",
    "C72_order_of_setters"
   ],
   "note": "For all components, values and times. Values outside the range, and dates that do not exist, are refused."
  },
  {
   "property": "C73",
   "status": "partial",
   "theorems": [
    "C73_every_spelling",
    "C73_every_spelling_of_any_list",
    "C73_accepted_again_partial",
    "C73_others_refused",
    "C73_nc_sa_refuted",
    "C73_unset_refuted",
    "C73_release_status"
   ],
   "note": "Proved for all identifiers and spellings; refuted for CC BY-NC-SA and for an unset licence."
  },
  {
   "property": "C74",
   "status": "partial",
   "theorems": [
    "C74_accepted_iff_same_parameters",
    "C74_raises",
    "C74_filter_mismatch",
    "C74_decimation_method_refuted"
   ],
   "note": "Acceptance characterised exactly; the documented comparison of the decimation method is missing (refuted)."
  },
  {
   "property": "C75",
   "status": "partial",
   "theorems": [
    "C75_edges_round_trip",
    "C75_harmonics",
    "C75_keys_are_positions_refuted"
   ],
   "note": "Round trip and harmonics proved; keys of band_edges_dict are positions, not level numbers (refuted)."
  },
  {
   "property": "C76",
   "status": "partial",
   "theorems": [
    "C76_covers",
    "C76_tight",
    "C76_never_shrinks",
    "C76_end_without_start_refuted",
    "C76_parents"
   ],
   "note": "Proved for parts with a start time; refuted for a part with only an end time."
  },
  {
   "property": "C77",
   "status": "partial",
   "theorems": [
    "C77_resistivity_and_phase",
    "C77_yx_first_quadrant",
    "C77_impedance_kept",
    "C77_second_quadrant_refuted",
    "C77_yx_third_quadrant_refuted",
    "C77_error"
   ],
   "note": "Proved over the reals for phases in (-90,90) for xx, xy, yy, for yx in the first quadrant (turned by 180 degrees), and that given impedances are kept. Refuted: phases between 90 and 270 degrees lose their sign; yx phases whose mean is outside (0,90) leave the component zero."
  },
  {
   "property": "C78",
   "status": "partial",
   "theorems": [
    "C78_key",
    "C78_value_refuted",
    "C78_file_refuted",
    "C78_rewritten",
    "C78_comment_refuted"
   ],
   "note": "Finding: read_metadata takes the number from the text before \"=\", so every station line gives 0 (C78_value_refuted, C78_file_refuted). A comment such as \"# calculated ...\" (it contains \"lat\") makes the file unreadable (C78_comment_refuted). Keys and the rewriting of lines are proved."
  },
  {
   "property": "C79",
   "status": "proved",
   "theorems": [
    "C79_values",
    "C79_list_refuted",
    "C79_blank_refuted",
    "C79_letter_refuted"
   ],
   "note": "Proved for pairs written \"key= value\" or \"key=value\" with other words between them. Refuted: only the first value of a list is read; a blank before \"=\" loses the key; a single letter at the beginning becomes part of the key."
  },
  {
   "property": "C80",
   "status": "proved",
   "theorems": [
    "C80_read",
    "C80_status",
    "C80_licence_kept"
   ],
   "note": "The status is kept for every licence of the repository's list; the licence becomes CC0-1.0, CC-BY-ND-4.0 or ZPL-2.1 and so is kept for those three only."
  },
  {
   "property": "C81",
   "status": "partial",
   "theorems": [
    "C81_person",
    "C81_only",
    "C81_capital_refuted",
    "C81_text_refuted"
   ],
   "note": "Proved for run ids without capital letters, blanks and dots; no comment reaches another run. Refuted: comments of a run whose id has capital letters are lost (the subject is read in lower case); comments without ':' are lost."
  },
  {
   "property": "C82",
   "status": "proved",
   "theorems": [
    "C82_description",
    "C82_description_written",
    "C82_empty_refuted",
    "C82_colon_refuted",
    "C82_comma_refuted",
    "C82_run_id"
   ],
   "note": "Proved for values without ':' and ','; the run id is read back exactly when it has no ':'. Refuted: a run without data logger values gets an empty description that raises ValueError when read; so does any value with ':' or ','."
  },
  {
   "property": "C83",
   "status": "partial",
   "theorems": [
    "C83_electrodes",
    "C83_electrodes_refuted",
    "C83_dipole",
    "C83_runs_read",
    "C83_runs",
    "C83_comment_refuted",
    "C83_colons_refuted"
   ],
   "note": "Proved for electrode ids without ':' and ',', decimal lengths and lists of runs. Refuted: ids with ',' raise ValueError; other comments of a channel are lost, or raise ValueError with two colons."
  },
  {
   "property": "C84",
   "status": "proved",
   "theorems": [
    "C84_listed",
    "C84_only",
    "C84_one_at_a_time",
    "C84_unsorted_refuted",
    "C84_first_only_refuted",
    "C84_hidden_refuted",
    "C84_direction_refuted"
   ],
   "note": "Statement given with its exact domain; the refutations are its boundaries (C84_unsorted_refuted, C84_first_only_refuted, C84_hidden_refuted, C84_direction_refuted). Finding: runs are not sorted by time although a comment in the code says they must be; filters and components are not compared, so the second channel's are lost."
  },
  {
   "property": "C86",
   "status": "proved",
   "theorems": [
    "C86_section",
    "C86_empty_refuted",
    "C86_empty_section_refuted",
    "C86_b_refuted",
    "C86_b_first_refuted"
   ],
   "note": "C86_section: the written section, read through the file's line clean-up, gives back every attribute and under every channel name its measurement (id kept or numbered when 0, type and acquisition channel kept, coordinates within 0.005 and multiples of 0.01), for acquisition channels that are non-empty words without the marks of the format; a dipole whose azimuth rounds to 0 gets the azimuth of its electrodes. C86_empty_refuted / C86_empty_section_refuted: a measurement with an empty acquisition channel makes the whole section unreadable (IndexError). C86_b_refuted / C86_b_first_refuted: a magnetic channel called b.. (accepted by HMeasurement) is given the previous measurement, or a text if it is the first. The azimuth function (arctan) is a parameter."
  },
  {
   "property": "C87",
   "status": "partial",
   "theorems": [
    "C87_header",
    "C87_declination_refuted",
    "C87_gt_refuted",
    "C87_no_station_refuted",
    "C87_declination_line"
   ],
   "note": "What becomes of every attribute is proved (C87_header). The claim as stated is refuted: the declination is written as DECLINATION.VALUE, which the reader stores as an extra attribute, so it never comes back (C87_declination_refuted), although a line DECLINATION= would be read (C87_declination_line); a \">\" in a text ends the section and every later attribute is lost (C87_gt_refuted); a text with \"=\" is lost (the case lost of C87_header); a header without station name is written but cannot be read (C87_no_station_refuted). Quotes and brackets are dropped, lists come back as one text, and positions between -1 and 0 degrees lose their sign in the degree:minute:second format."
  },
  {
   "property": "C88",
   "status": "proved",
   "theorems": [
    "C88_info",
    "C88_key_refuted",
    "C88_parameters_refuted",
    "C88_magnetics_refuted",
    "C88_run_information_refuted"
   ],
   "note": "The round trip of the standard format is proved for every dictionary, from a file and from the lines (C88_info). As a claim that every entry comes back under its own key it is refuted: known keys and keys in upper case come back under another key (C88_key_refuted); parameters such as nfft are dropped by a later entry remoteref (C88_parameters_refuted); a value with the word magnetics makes the whole section be read in another format, entries without value are lost and \" m\" is cut out of values (C88_magnetics_refuted); a value with \"run information\" puts all other entries under one key and only the last stays (C88_run_information_refuted). Lists come back as one text from a file. The modelled readers of the Phoenix and Empower formats are only used for these refutations."
  },
  {
   "property": "C89",
   "status": "proved",
   "theorems": [
    "C89_set",
    "C89_get",
    "C89_history",
    "C89_labelled",
    "C89_refused",
    "C89_raises",
    "C89_new",
    "C89_model_error_refuted",
    "C89_first_labelled_refuted",
    "C89_period_one_refuted",
    "C89_periods",
    "C89_names_refuted",
    "C89_inverse_names_refuted",
    "C89_constructor_refuted"
   ],
   "note": "Set and read for arrays (C89_set, C89_get), labelled arrays (C89_labelled), refusals (C89_refused, C89_raises), new objects (C89_new), exchange of periods (C89_periods) and any program afterwards (C89_history). Refuted beyond this domain: transfer_function_model_error always raises KeyError (C89_model_error_refuted); the first labelled array of an object of one period erases errors and covariances set before (C89_first_labelled_refuted); the period setter erases the data when the period is 1 (C89_period_one_refuted); channel names given after, or together with, the periods make arrays raise KeyError and the impedance None (C89_names_refuted); the inverse names are stale (C89_inverse_names_refuted); TF(impedance=z) without period raises AttributeError (C89_constructor_refuted). Numbers are abstract (zero test, nan test, real part)."
  },
  {
   "property": "C90",
   "status": "proved",
   "theorems": [
    "C90_errors",
    "C90_order",
    "C90_none_refuted",
    "C90_complex"
   ],
   "note": "Over any numbers (C90_errors), in both orders (C90_order), and for complex numbers with nan over the reals (C90_complex). None, or zeros, for the inverse signal power beside a residual covariance raises AttributeError (C90_none_refuted, C89_set)."
  },
  {
   "property": "C91",
   "status": "proved",
   "theorems": [
    "C91_merge",
    "C91_when",
    "C91_apart",
    "C91_same_refuted",
    "C91_order_refuted",
    "C91_tuple_refuted",
    "C91_other_changed_refuted",
    "C91_replaced_refuted"
   ],
   "note": "C91_merge (content and order of every result), C91_when (exactly when it succeeds, if the inputs do not all begin at the same period), C91_apart (inputs apart from each other are all merged). Refuted beyond this: a TF that begins at the same period as a later one is lost without any message (C91_replaced_refuted); TFs with the same periods raise ValueError (C91_same_refuted); an object whose periods do not rise is not put in order and raises (C91_order_refuted); a tuple of TFs, allowed by the documentation, raises TypeError (C91_tuple_refuted); the TF given in a dictionary is reordered (C91_other_changed_refuted). pandas and xarray are modelled as read from their documentation and sources by heart, not from /repo."
  },
  {
   "property": "C92",
   "status": "proved",
   "theorems": [
    "C92_file",
    "C92_alone",
    "C92_again",
    "C92_one_refuted",
    "C92_none_refuted",
    "C92_zero_refuted",
    "C92_absent_refuted",
    "C92_texts_refuted"
   ],
   "note": "Round trip through XML trees (C92_file, C92_alone, C92_again). Boundaries proved universally: one period raises TypeError (the single Period element is a dictionary, not a list), no period raises KeyError, zeros and nan become 1e32, absent arrays become zeros and then 1e32, repeated elements with text only lose their text in _convert_keys_to_lower_case."
  },
  {
   "property": "C93",
   "status": "proved",
   "theorems": [
    "C93_to",
    "C93_file",
    "C93_held",
    "C93_object",
    "C93_object_refuted",
    "C93_names_refuted",
    "C93_signal_refuted"
   ],
   "note": "C93_to, C93_file, C93_held, C93_object; boundaries C93_object_refuted (a quantity missing and no file between: raises), C93_names_refuted (labels hx, hy, ex, ey, hz are fixed in from_emtfxml: KeyError for other names), C93_signal_refuted (inverse signal power of the tipper overwrites that of the impedance). Metadata not modelled."
  },
  {
   "property": "C94",
   "status": "proved",
   "theorems": [
    "C94_object",
    "C94_file",
    "C94_file_falling",
    "C94_angles_refuted"
   ],
   "note": "C94_object, C94_file, C94_file_falling; boundary C94_angles_refuted. With falling periods the rotation angles stay in the old order while everything else is turned round (stated in C94_file_falling). Metadata and spectra files not modelled here."
  },
  {
   "property": "C95",
   "status": "proved",
   "theorems": [
    "C95_header",
    "C95_written",
    "C95_longitude",
    "C95_order",
    "C95_order_kept",
    "C95_file",
    "C95_count",
    "C95_no_periods_refuted",
    "C95_unnumbered_refuted",
    "C95_unnumbered_lost_refuted",
    "C95_write_numbers",
    "C95_station_refuted",
    "C95_case_refuted"
   ],
   "note": "Header writer and reader composed with the data of C51. The statement names the domain: ids with the words of the format, files without periods, and channels without numbers are refuted in the _refuted theorems."
  },
  {
   "property": "C96",
   "status": "proved",
   "theorems": [
    "C96_file",
    "C96_default",
    "C96_bare_refuted",
    "C96_no_covariance_refuted",
    "C96_nothing_refuted",
    "C96_foreign_refuted",
    "C96_missing_refuted",
    "C96_object_refuted"
   ],
   "note": "Restated with its domain. Findings: the object returned by to_zmm has no periods, so from_zmm on it always raises; make_zmm_run leaves all azimuths zero, so by default (rotation on) a file of such an object raises LinAlgError when there is a tipper and gives a nan impedance otherwise; files without covariances raise AttributeError in from_zmm; auxiliary channels in the first run raise KeyError; a channel missing from the run is counted in the header but not written."
  },
  {
   "property": "C97",
   "status": "proved",
   "theorems": [
    "C97_header",
    "C97_no_smoothing_refuted",
    "C97_few_angles_refuted",
    "C97_new_refuted",
    "C97_equals_refuted",
    "C97_capital_refuted",
    "C97_component_refuted",
    "C97_length_with_unit"
   ],
   "note": "C97_header holds for every header that names a smoothing and has two angles or more. Boundaries: C97_no_smoothing_refuted, C97_few_angles_refuted and C97_new_refuted (the default header is written as Smooth=None and HPR= with nothing, both refused by the reader), C97_equals_refuted, C97_capital_refuted (names come back in lower case), C97_component_refuted ($Rx.Cmp=Tzx is refused, $Rx.Cmp = Tzx is not)."
  },
  {
   "property": "C98",
   "status": "proved",
   "theorems": [
    "C98_file",
    "C98_up_tipper_refuted",
    "C98_error_refuted",
    "C98_small_error_refuted",
    "C98_tipper_error_refuted",
    "C98_again",
    "C98_stale_refuted",
    "C98_no_impedance_refuted",
    "C98_new_refuted",
    "C98_frame",
    "C98_merge_refuted"
   ],
   "note": "Statement restated with its exact domain; the refutations are its boundaries (C98_up_tipper_refuted, C98_error_refuted, C98_small_error_refuted, C98_tipper_error_refuted, C98_merge_refuted, C98_stale_refuted, C98_no_impedance_refuted, C98_new_refuted). Uses the axioms of the Coq reals (sig_not_dec, sig_forall_dec, functional_extensionality_dep) and classic, which sin_lt_x of the standard library needs."
  },
  {
   "property": "C99",
   "status": "proved",
   "theorems": [
    "C99_round",
    "C99_rate_refuted",
    "C99_unknown_run_refuted",
    "C99_auxiliary_refuted",
    "C99_no_list_refuted",
    "C99_no_list"
   ],
   "note": "Statement given with its exact domain; the refutations are its boundaries (C99_rate_refuted, C99_unknown_run_refuted, C99_auxiliary_refuted, C99_no_list_refuted). Finding: the sample rate of a run stays 0, unknown runs raise AttributeError, and channels without a run list are dropped silently."
  },
  {
   "property": "C85",
   "status": "proved",
   "theorems": [
    "C85_ends",
    "C85_windows",
    "C85_constant",
    "C85_last_refuted",
    "C85_unit_gain_refuted",
    "C85_average_refuted",
    "C85_constant_filters",
    "C85_channel",
    "C85_disjoint_refuted",
    "C85_middle",
    "C85_long_periods_refuted",
    "C85_first_frequencies_refuted"
   ],
   "note": "Statement given with its exact domain; the refutations are its boundaries. Findings: np.round(amp, 6).all() == mean compares a truth value with a number, so only responses with average one count as flat; windows with amplitude one never pass, so the band of a filter of unit gain is found outside its flat part; normalization frequencies of long periods round to zero; the normalization frequency is never computed again."
  },
  {
   "property": "C100",
   "status": "proved",
   "theorems": [
    "C100_sensitivity",
    "C100_written",
    "C100_frequency_refuted"
   ],
   "note": "Statement given with its exact domain. Findings: the sensitivity at the normalization frequency is computed but never written, because to_obspy replaces it by the product of gains whenever they differ; a gain of zero raises OverflowError."
  },
  {
   "property": "C101",
   "status": "proved",
   "theorems": [
    "C101_filters",
    "C101_order",
    "C101_same_size_refuted",
    "C101_type_in_name_refuted",
    "C101_decimating_refuted",
    "C101_same_name_refuted",
    "C101_hundred_refuted"
   ],
   "note": "The exact domain is in the statement; the refuted theorems show that each condition is needed: unnamed filters of the same type and rounded amplitude (any two time delays) become one, the last read; a name with a type in it restarts the numbering and overwrites a filter; decimating unnamed filters collide; equal names (up to case) in two channels: the last read wins; the 102nd unnamed filter of a type overwrites the 101st."
  },
  {
   "property": "C102",
   "status": "proved",
   "theorems": [
    "C102_round_trip",
    "C102_again",
    "C102_update",
    "C102_whole",
    "C102_order_refuted",
    "C102_double_refuted",
    "C102_no_array_refuted"
   ],
   "note": "C102_round_trip and C102_whole for every layout and file; C102_again: the second cycle; C102_update: the channels the data need. Boundaries: C102_order_refuted (hz before ex, ey), C102_double_refuted (two channels of one name), C102_no_array_refuted (None for an array raises AttributeError). Numbers are rational; the texts of attributes are those of C104."
  },
  {
   "property": "C103",
   "status": "proved",
   "theorems": [
    "C103_estimates",
    "C103_types",
    "C103_no_estimates_refuted",
    "C103_no_types_refuted",
    "C103_tipper_refuted"
   ],
   "note": "C103_estimates, C103_types. Boundaries as stated: C103_no_estimates_refuted and C103_no_types_refuted (a written file that cannot be read: TypeError), C103_tipper_refuted (errors of the tipper not told)."
  },
  {
   "property": "C104",
   "status": "proved",
   "theorems": [
    "C104_text",
    "C104_same",
    "C104_again",
    "C104_different_refuted",
    "C104_nothing"
   ],
   "note": "C104_text gives the text that comes back for every text; C104_same, C104_again, C104_nothing; C104_different_refuted: two texts become one. Carriage returns and attribute values (white space becomes blanks) are not modelled."
  },
  {
   "property": "C105",
   "status": "proved",
   "theorems": [
    "C105_round_trip",
    "C105_again",
    "C105_lines",
    "C105_list",
    "C105_match",
    "C105_spectra_refuted",
    "C105_order_refuted",
    "C105_zero_refuted",
    "C105_stale_refuted",
    "C105_short_list_refuted"
   ],
   "note": "Boundaries, refuted as theorems: a section written for spectra is not found again (C105_spectra_refuted), channels are not in the order of their numbers (C105_order_refuted), an id \"00\" becomes \"0\" and is lost by the next file (C105_zero_refuted), ids of channels the new section does not have stay when an object is read into again (C105_stale_refuted), ids on a short line are taken for one id and those of two characters are lost (C105_short_list_refuted)."
  },
  {
   "property": "C106",
   "status": "partial",
   "theorems": [
    "C106_answers",
    "C106_every_answer",
    "C106_torn_file",
    "C106_release",
    "C106_nested_change_refuted",
    "C106_description_change_refuted",
    "C106_interrupted_refuted",
    "C106_cyclic_refuted"
   ],
   "note": "Proved for every set of classes no class of which contains itself, every history, every interference that leaves unfinished copies, every write outcome: while no exception has struck, or since the caches were cleared right after one, each answer is the tree (C106_answers, C106_every_answer); a torn file is refused (C106_torn_file); a release that changes trees only with the class's own name, defaults, annotations or extras is safe (C106_release). Refuted as stated: after an exception the placeholder {} stays and spoils the disk cache of enclosing classes (C106_interrupted_refuted); the fingerprint misses changes in held classes and in descriptions (C106_nested_change_refuted, C106_description_change_refuted); for classes containing each other the answer depends on the order (C106_cyclic_refuted). Not modelled: how a summary is made, threads (one lock is held throughout), changing a returned dictionary."
  },
  {
   "property": "C107",
   "status": "proved",
   "theorems": [
    "C107_all_fields",
    "C107_names_differ"
   ],
   "note": "All sets of classes with plain field names; the summary of a field carries the mark __field__."
  },
  {
   "property": "C108",
   "status": "partial",
   "theorems": [
    "C108_writes",
    "C108_round_trip",
    "C108_file_round_trip",
    "C108_ascii",
    "C108_str_path_refuted",
    "C108_missing_file_refuted",
    "C108_numpy_bool_refuted"
   ],
   "note": "Round trip as text and as file, exact domain of what can be written, ASCII only: proved for all values (C108_writes, C108_round_trip, C108_file_round_trip, C108_ascii). Refuted as stated: a path given as a text always raises (C108_str_path_refuted), a missing file raises UnboundLocalError (C108_missing_file_refuted), a numpy bool or complex number raises TypeError (C108_numpy_bool_refuted). A float is modelled by its repr text; from_dict is a parameter (see C03 and the dictionary properties)."
  },
  {
   "property": "C109",
   "status": "proved",
   "theorems": [
    "C109_read_back",
    "C109_stable",
    "C109_no_runs",
    "C109_missing_channel_refuted",
    "C109_negative_electrode_refuted",
    "C109_one_sensor_refuted",
    "C109_places_refuted",
    "C109_remark_refuted",
    "C109_electrode_number_refuted",
    "C109_example_back"
   ],
   "note": "Proved on the exact domain stated. Boundaries, each refuted by a theorem: get_channel returns None for an absent channel, so the branch that would create it is dead and the getter raises AttributeError when one run lacks a channel of the layout; the second electrode is given the type of the first; a single magnetometer comes back as three channels; the layout has one entry per channel for all the runs, so the positions of the last run win; a remark without a label is lost, \"run: x\" renames the run and an unknown label stops the writing; an electrode without a number is refused. Runs with rate 0 are dropped, the names of sensors and loggers and the measured azimuth are not kept."
  },
  {
   "property": "C110",
   "status": "proved",
   "theorems": [
    "C110_station_comment",
    "C110_survey_comment",
    "C110_again",
    "C110_accepted",
    "C110_free_text",
    "C110_lost_refuted",
    "C110_cut_refuted",
    "C110_raises_refuted",
    "C110_misplaced_refuted"
   ],
   "note": "Proved on the exact domain stated. Boundaries, each refuted by a theorem: a station comment without a label, or with a label without a dot, goes to the comment of the site, which the getter never reads, so it does not come back; a semicolon cuts a text off, and a newline beside an equals sign does too; \"datalogger: x\" raises IndexError, a rating that is not a number ValueError, an electrode in upper case ValueError, an electrode or a magnetic position with nothing to attach to IndexError; a new dipole is appended to the magnetometers and its azimuth given to the last dipole; the position of hx or hy goes to the first output channel."
  },
  {
   "property": "C111",
   "status": "proved",
   "theorems": [
    "C111_runs_and_reference",
    "C111_tag",
    "C111_remote_site",
    "C111_run_list",
    "C111_references_refuted",
    "C111_several_refuted",
    "C111_parameters_refuted",
    "C111_remote_runs_refuted",
    "C111_coordinates_refuted"
   ],
   "note": "Proved as stated, which is what the code does; what a user would expect is refuted beside it: the id of the remote site is a text and never None, so the branch that reads the references from the tag is dead; without a parameter naming the remote site every reference is lost and [\"\"] comes back; of several references at most one comes back; parameters such as nfft=4096 do not come back; the remote site's run list gains quotes and blanks with every trip; its coordinates are never written, because the test for other values is the else-branch of the test for coordinates."
  },
  {
   "property": "C112",
   "status": "proved",
   "theorems": [
    "C112_a_survey_comes_back",
    "C112_the_identifier_grows",
    "C112_a_long_identifier_is_refused",
    "C112_the_code_and_the_comment_are_ignored",
    "C112_a_lead_needs_an_address",
    "C112_a_lead_needs_an_organization",
    "C112_a_journal_cannot_be_read",
    "C112_a_name_is_needed"
   ],
   "note": "Closed under the global context. The statement gives the exact domain and what is lost; findings: the DOI is prefixed again on every trip (read_xml_identifier replaces the mark DOI: by a head the DOI already has), a missing DOI becomes https://doi.org/None, the journal DOI's comment is parsed into a dictionary and reading raises AttributeError, the survey's own comment is overwritten by the list of mt comments, the code argument is overwritten. URLs other than plain ones below doi.org, values with a bar and attributes other than those written are parameters of the model."
  },
  {
   "property": "C113",
   "status": "proved",
   "theorems": [
    "C113_a_station_is_always_there",
    "C113_a_survey_brings_its_stations",
    "C113_a_further_survey_is_added",
    "C113_a_given_station",
    "C113_given_again",
    "C113_the_first_run_stays",
    "C113_runs_refuted",
    "C113_stations_are_shared",
    "C113_a_new_name_is_not_a_key",
    "C113_no_run_no_station",
    "C113_a_plain_station",
    "C113_runs_cannot_be_set_refuted"
   ],
   "note": "Closed under the global context. The statement says what the setters do, including what a user would not expect: C113_runs_refuted (a station gets a run of the previous one, so reading a second file into the same object leaves the first file's run as run_metadata), C113_no_run_no_station, C113_a_plain_station, C113_a_new_name_is_not_a_key and C113_runs_cannot_be_set_refuted (the setter of run_metadata reads an attribute component that the class does not have). The other attributes of survey and station, dictionaries and time periods of the survey are left out."
  },
  {
   "property": "C114",
   "status": "proved",
   "theorems": [
    "C114_a_survey_is_read",
    "C114_filters_class_by_class",
    "C114_the_last_of_a_name",
    "C114_an_experiment_is_read",
    "C114_one_of_a_class_refuted",
    "C114_fir_refuted",
    "C114_no_station_refuted",
    "C114_no_run_refuted",
    "C114_all_fields_refuted"
   ],
   "note": "Closed under the global context. Stated with its exact domain; the boundaries are theorems for every such survey: C114_one_of_a_class_refuted (one filter of a class: AttributeError), C114_fir_refuted, C114_no_station_refuted, C114_no_run_refuted, C114_all_fields_refuted (required=False). What the objects do with the fields they are given, sorting, and the positions and periods brought up to date before writing are left out."
  },
  {
   "property": "C115",
   "status": "proved",
   "theorems": [
    "C115_an_experiment_is_read",
    "C115_the_last_of_a_name",
    "C115_tables_refuted",
    "C115_a_list_is_taken",
    "C115_filters_in_a_list",
    "C115_filters_in_a_dictionary",
    "C115_only_filters",
    "C115_given_again_refuted"
   ],
   "note": "Statement gives the exact domain. Findings: frequency tables write the type 'fap', which validate_filters does not accept, so such experiments cannot be read from dict or JSON (nor sorted with inplace=False); the first unsupported type raises UnboundLocalError; assigning survey.filters to itself lower-cases all keys."
  },
  {
   "property": "C116",
   "status": "proved",
   "theorems": [
    "C116_a_name_is_a_channel",
    "C116_a_channel_comes_back",
    "C116_h_without_type_refuted",
    "C116_words_of_types_refuted",
    "C116_r_refuted",
    "C116_a_type_is_needed"
   ],
   "note": "Statement gives the exact domain. Findings: the branch for dictionaries tests 'b' twice and never 'h', so that type None with component 'hx' yields an auxiliary channel; types such as 'battery' or 'environment' are taken for magnetic or electric."
  },
  {
   "property": "C117",
   "status": "proved",
   "theorems": [
    "C117_legacy_read",
    "C117_legacy_new",
    "C117_three_formats",
    "C117_nothing_changes",
    "C117_text_replaces_refuted",
    "C117_text_read",
    "C117_text_twice_refuted",
    "C117_blank_text",
    "C117_flag_not_updated_refuted",
    "C117_trip",
    "C117_one_dictionary",
    "C117_incomplete",
    "C117_lengths",
    "C117_one_side_empty",
    "C117_none_alone"
   ],
   "note": "Proved for every list of filters and every way to give names and flags. The two refuted theorems and those on texts record boundaries that the statement names: a text as filters replaces everything (C117_text_replaces_refuted), a name may occur twice after a text (C117_text_twice_refuted), a flag in a dictionary does not update the one there is (C117_flag_not_updated_refuted). Parsing of the text of filters (JSON or a Python literal) is not modelled: its items are given."
  },
  {
   "property": "C118",
   "status": "partial",
   "theorems": [
    "C118_station",
    "C118_capitals_refuted",
    "C118_runs_refuted",
    "C118_processed_date_refuted",
    "C118_no_equals_refuted",
    "C118_run_provenance_refuted",
    "C118_null_parameter_refuted",
    "C118_dots_refuted",
    "C118_same_name_refuted",
    "C118_program_refuted",
    "C118_survey",
    "C118_survey_beside_station"
   ],
   "note": "Proved for names in small letters, without dots, distinct and with given values, and for runs whose notes contain none of the words the reader looks for (C118_station); surveys completely (C118_survey, C118_survey_beside_station). As stated for every station it is false: capitals in names of parameters come back small; of dotted names only the last part comes back; a parameter without \"=\" raises; a parameter whose value is a word for nothing is dropped; of two with one name one comes back; runs, their fields and runs_processed never come back (one run named after the station); the date of processing is always the file's; a run with anything in its provenance makes the station unreadable; a run named after a program (emtf) adds parameters."
  },
  {
   "property": "C119",
   "status": "proved",
   "theorems": [
    "C119_trip",
    "C119_again",
    "C119_fdsn_refuted",
    "C119_operator_refuted",
    "C119_period_refuted",
    "C119_colon_refuted",
    "C119_declination_refuted",
    "C119_no_logger_refuted",
    "C119_no_name_refuted"
   ],
   "note": "C119_trip for every writable station; C119_again: a second trip changes nothing. Boundaries, as separate theorems: the FDSN id given is replaced (C119_fdsn_refuted), the operator is written but not read (C119_operator_refuted), the station's period grows to that of its runs (C119_period_refuted), a note with a colon makes the file unreadable (C119_colon_refuted) or, for the comment on the declination, is lost (C119_declination_refuted), a run without data-logger values makes the file unreadable (C119_no_logger_refuted), and so does a single run called None or null (C119_no_name_refuted). Restricted status and times of comments are not modelled."
  },
  {
   "property": "C120",
   "status": "proved",
   "theorems": [
    "C120_electric",
    "C120_negative_refuted",
    "C120_magnetic",
    "C120_magnetic_kept",
    "C120_unknown_type_refuted",
    "C120_bartington",
    "C120_no_type_refuted",
    "C120_auxiliary_refuted",
    "C120_numbered_refuted",
    "C120_blank_model_refuted",
    "C120_period",
    "C120_electric_again",
    "C120_magnetic_again",
    "C120_comment_refuted",
    "C120_tilt_refuted",
    "C120_units"
   ],
   "note": "Restated with its exact domain. Boundaries: C120_auxiliary_refuted (no auxiliary channel survives: its type is always \"auxiliary\", its code has the letter Y, which reading refuses), C120_numbered_refuted (names such as ex01 cannot be written), C120_unknown_type_refuted (a magnetic sensor of another type, such as \"fluxgate\", makes the written channel unreadable), C120_no_type_refuted (without a type the sensor is lost), C120_negative_refuted (place and maker of the negative electrode are lost; the code repeats the test of the positive one), C120_blank_model_refuted, C120_comment_refuted (other comments are lost), C120_tilt_refuted (tilt -90 comes back as 270; an attribute \"special\" appears). The response and obspy's own limits on angles are not modelled."
  },
  {
   "property": "C121",
   "status": "proved",
   "theorems": [
    "C121_kinds",
    "C121_one_kind",
    "C121_sortable",
    "C121_stations",
    "C121_runs",
    "C121_channels_own",
    "C121_channels",
    "C121_other_refuted",
    "C121_run_name_refuted",
    "C121_orphan_refuted",
    "C121_same_name_refuted"
   ],
   "note": "Restated with its exact domain. Boundaries: C121_other_refuted (other components are left out), C121_run_name_refuted (a run named ex1: one channel twice, another not at all), C121_orphan_refuted (files without their run or station are left out silently), C121_same_name_refuted (two stations of the same name in different folders: the first is read twice). Reading the files is not modelled."
  },
  {
   "property": "C122",
   "status": "proved",
   "theorems": [
    "C122_electric",
    "C122_magnetic",
    "C122_measurement",
    "C122_two_runs_refuted",
    "C122_electrode_type_refuted",
    "C122_azimuth_refuted",
    "C122_tilt_refuted",
    "C122_number_refuted",
    "C122_sensor_type_refuted",
    "C122_remote_refuted",
    "C122_letter_refuted",
    "C122_id_refuted",
    "C122_b_refuted"
   ],
   "note": "Boundaries, all refuted: channels of the same component in two runs (the later run's notes are reported for both), the type of electrodes and of sensors (replaced by the type of the channel), the azimuth of a magnetic channel without translated azimuth (0), its tilt and other fields, negative channel numbers, the sensor of hx when there is an rrhx (its note is found too), and stations that cannot be given at all: a channel that is not electric with an e in its name (temperature) or an id that is not a number raises. Magnetic channels called bx, by, bz are not kept. The conversion of a note's value to the type of the attribute is not modelled."
  },
  {
   "property": "C123",
   "status": "proved",
   "theorems": [
    "C123_two_columns",
    "C123_one_column",
    "C123_section",
    "C123_left_title_refuted",
    "C123_right_title_refuted",
    "C123_lost_column_refuted",
    "C123_other_keys_refuted",
    "C123_resistance_refuted",
    "C123_sensor_refuted"
   ],
   "note": "The section theorem gives the dictionary exactly. Boundaries, each a theorem: an entry to the right of a title without a separator goes to phoenix_attribute instead of its name (the station id of the sample file is lost that way); an entry to the left of such a title keeps only the first word of its value (the end time of the sample file loses its time of day); a second column closer than four blanks, or in a line of fewer than four words, is lost; of all keys that are not in the table only the last value is kept; a resistance without a value raises an IndexError for the whole file; the type and maker of a sensor are stored without run, as hx.sensor.type (the channel reader of C122 finds that all the same, but those of rx and ry, whose id goes to run.rrhx and run.rrhy, stay under rx and ry)."
  },
  {
   "property": "C124",
   "status": "proved",
   "theorems": [
    "C124_section",
    "C124_value",
    "C124_next_block_refuted",
    "C124_reference_id_refuted",
    "C124_short_number_refuted",
    "C124_other_titles_refuted",
    "C124_cut_key_refuted"
   ],
   "note": "All lines, blocks, channels and values of the specified forms; the dictionary is determined for every key. Boundaries shown by refutations: a new block keeps the channel before it, so the azimuth of MAGNETICS lands on ey; the reference's RECORDING ID replaces run.id; \"5 [m]\" keeps its unit; \"manufacturer\" of a magnetic channel is stored as the remark \"manufcommentsturer\"; PROJECT, SURVEY and others are not renamed."
  },
  {
   "property": "C125",
   "status": "proved",
   "theorems": [
    "C125_bounds",
    "C125_shapes",
    "C125_one",
    "C125_zero",
    "C125_value",
    "C125_swap",
    "C125_filtered",
    "C125_order",
    "C125_minimum_refuted"
   ],
   "note": "All shapes; floats are modelled by reals and arrays that numpy would broadcast are left out. Boundary: minimum_fcs is ignored, so a single window is fully coherent (C125_minimum_refuted)."
  },
  {
   "property": "C126",
   "status": "proved",
   "theorems": [
    "C126_windows",
    "C126_complete",
    "C126_error",
    "C126_parallel",
    "C126_short_refuted",
    "C126_full_overlap_refuted",
    "C126_more_overlap_refuted",
    "C126_subwindow",
    "C126_empty_subwindow_refuted"
   ],
   "note": "scipy's coherence is a parameter that may fail; the workers finish in any order. Boundaries: series shorter than a window raise UnboundLocalError or IndexError, full overlap raises ValueError, a larger overlap turns a short series into a window, and windows of fewer than five samples have an empty subwindow at the default fraction."
  },
  {
   "property": "C127",
   "status": "proved",
   "theorems": [
    "C127_stations",
    "C127_again",
    "C127_named",
    "C127_unset_refuted",
    "C127_roles_refuted",
    "C127_contradiction_refuted"
   ],
   "note": "All names. Boundaries: a remote channel without a remote station stays without station and without an error; deduced stations survive a swap of roles; stations that contradict the channel are kept."
  },
  {
   "property": "C128",
   "status": "proved",
   "theorems": [
    "C128_fn",
    "C128_fn_unsupported",
    "C128_fn_bare",
    "C128_fn_j",
    "C128_base",
    "C128_base_ext",
    "C128_base_untyped",
    "C128_default",
    "C128_unsupported",
    "C128_directory",
    "C128_read",
    "C128_read_fn",
    "C128_other_extension_refuted",
    "C128_dotted_base_refuted",
    "C128_moved_refuted",
    "C128_failed_write_refuted",
    "C128_unnamed_station_refuted",
    "C128_case_refuted"
   ],
   "note": "Quantified over all names, types and directories. Boundaries, each with a counterexample: base name with another extension (C128_other_extension_refuted) or with a dot (C128_dotted_base_refuted), save_dir with a full path (C128_moved_refuted), effect of a failed call (C128_failed_write_refuted), station without a name (C128_unnamed_station_refuted), case of types and of .J (C128_case_refuted). The contents of the files are the subject of other claims."
  },
  {
   "property": "C129",
   "status": "proved",
   "theorems": [
    "C129_text",
    "C129_no_digits",
    "C129_list",
    "C129_complex_refuted",
    "C129_nan_refuted",
    "C129_point_refuted",
    "C129_names_refuted"
   ],
   "note": "Proved for all texts of the stated form. Boundaries, each with a counterexample: complex numbers in texts (C129_complex_refuted, for all numerals), nan and inf among other numbers (C129_nan_refuted), 5.e3 (C129_point_refuted), digits in names (C129_names_refuted). Not modelled: bytes and numpy arrays; rounding of floats."
  },
  {
   "property": "C130",
   "status": "proved",
   "theorems": [
    "C130_dictionary",
    "C130_dictionary_refused",
    "C130_bars",
    "C130_text",
    "C130_other",
    "C130_no_bar",
    "C130_lone_author_refuted",
    "C130_lone_list_refuted",
    "C130_time_lost_refuted",
    "C130_read_dict",
    "C130_read_dict_text",
    "C130_read_dict_refused",
    "C130_empty_element_refuted",
    "C130_xml",
    "C130_xml_time_refuted",
    "C130_xml_changes_refuted"
   ],
   "note": "All dictionaries, all comments. Boundaries proved beside: C130_lone_author_refuted, C130_lone_list_refuted, C130_time_lost_refuted, C130_empty_element_refuted, C130_xml_time_refuted, C130_xml_changes_refuted. MTime is an argument."
  },
  {
   "property": "C131",
   "status": "proved",
   "theorems": [
    "C131_equal",
    "C131_equivalence",
    "C131_errors_refuted",
    "C131_periods_refuted",
    "C131_other_refuted"
   ],
   "note": "All TF objects whose channel names are those of their data. Boundaries proved beside: C131_errors_refuted (errors and covariances are not compared), C131_periods_refuted, C131_other_refuted (AttributeError). The comparisons of metadata are arguments (C29)."
  },
  {
   "property": "C132",
   "status": "proved",
   "theorems": [
    "C132_distinct",
    "C132_taken",
    "C132_refused",
    "C132_accepts",
    "C132_again",
    "C132_other",
    "C132_text_refuted",
    "C132_lost_refuted",
    "C132_errors"
   ],
   "note": "All six collections, all lists. Boundaries proved beside: C132_lost_refuted, C132_text_refuted. What a dictionary is made into is an argument of the entry."
  },
  {
   "property": "C133",
   "status": "proved",
   "theorems": [
    "C133_jfile",
    "C133_avg",
    "C133_reads",
    "C133_refused",
    "C133_refused_refuted",
    "C133_stale_refuted"
   ],
   "note": "TF.from_jfile and TF.from_avg on the object model of C89, for all objects and all TFs with consistent labels: C133_jfile, _avg, _reads, _refused. Boundaries of the statement proved beside it: C133_refused_refuted (a refused AVG file has replaced the metadata), C133_stale_refuted (tipper, covariances and model errors of the former station remain in a used TF)."
  },
  {
   "property": "C134",
   "status": "proved",
   "theorems": [
    "C134_dipole",
    "C134_again",
    "C134_values_refuted",
    "C134_one_electrode_refuted",
    "C134_none_refuted"
   ],
   "note": "Write to an element (nulls removed, white space between elements arbitrary) and read: C134_dipole, C134_again for all dipoles with none or at least two electrodes. Boundaries proved beside it: C134_one_electrode_refuted (AttributeError for exactly one electrode), C134_values_refuted (values of electrodes are lost), C134_none_refuted. Texts hold no character that XML escapes."
  },
  {
   "property": "C135",
   "status": "proved",
   "theorems": [
    "C135_feature",
    "C135_channel",
    "C135_level",
    "C135_refused",
    "C135_wrapped_object_refuted",
    "C135_written_refuted",
    "C135_written_feature_refuted",
    "C135_written_kernels_refuted",
    "C135_name_refuted"
   ],
   "note": "proved as an equivalence with an independent relation at each level (feature, channel, decimation level). Boundaries: a specification written by to_dict, or in the form of the example file test_helpers/channel_weight_specs_example.json ({\"channel_weight_spec\": {...}}), loses all it holds without any message (C135_written_refuted, C135_written_feature_refuted, C135_written_kernels_refuted); a feature object inside a dictionary is lost (C135_wrapped_object_refuted); a name that is a list raises TypeError (C135_name_refuted)."
  },
  {
   "property": "C136",
   "status": "proved",
   "theorems": [
    "C136_text",
    "C136_text_always",
    "C136_fc",
    "C136_zonge",
    "C136_list",
    "C136_again",
    "C136_nothing",
    "C136_station_nothing_refuted",
    "C136_run_nothing_refuted",
    "C136_array",
    "C136_array_refuted",
    "C136_array_one",
    "C136_fc_refuted",
    "C136_zonge_refuted",
    "C136_indices",
    "C136_indices_all",
    "C136_indices_refuted"
   ],
   "note": "proved as an equivalence for all texts. Boundaries: C136_array_refuted (numpy arrays with two or more names raise ValueError in Run, Station and Survey: `value in [None, ...]` asks for the truth of an array), C136_station_nothing_refuted, C136_run_nothing_refuted, C136_fc_refuted, C136_zonge_refuted, C136_indices_refuted."
  },
  {
   "property": "C137",
   "status": "proved",
   "theorems": [
    "C137_channels",
    "C137_plain",
    "C137_tipper",
    "C137_none",
    "C137_no_orientation",
    "C137_single_refuted",
    "C137_missing_refuted",
    "C137_zxx_refuted",
    "C137_hz_refuted"
   ],
   "note": "Channels of AVG objects. Boundaries proved as refutations: C137_single_refuted (first character of a single value), C137_missing_refuted, C137_zxx_refuted (_has_channel looks only at zxx), C137_hz_refuted (hz never gets orientation or sensor from the texts of a file)."
  },
  {
   "property": "C138",
   "status": "proved",
   "theorems": [
    "C138_section",
    "C138_total",
    "C138_empty",
    "C138_objects",
    "C138_others_refuted",
    "C138_runs",
    "C138_no_runs",
    "C138_runs_refuted",
    "C138_attachments",
    "C138_attachment",
    "C138_attachments_again",
    "C138_twice_refuted",
    "C138_stale_refuted",
    "C138_remote",
    "C138_remote_refuted"
   ],
   "note": "Sections of EMTF XML files. Boundaries proved as refutations: C138_others_refuted, C138_runs_refuted, C138_twice_refuted and C138_stale_refuted (attachments of a used object), C138_remote_refuted (what was left out once stays out)."
  },
  {
   "property": "C139",
   "status": "proved",
   "theorems": [
    "C139_experiment",
    "C139_made",
    "C139_channel_refuted",
    "C139_channel_error",
    "C139_with_channels_refuted",
    "C139_look_refuted",
    "C139_empty_runs_refuted",
    "C139_elevation_refuted",
    "C139_types_refuted"
   ],
   "note": "Findings: no channel file can ever be made into a channel (C139_channel_refuted), so any directory with channels of the wanted stations raises (C139_with_channels_refuted), as does get_mt_channel (C139_look_refuted); runs listed by a station without a file stay as empty runs although the runs are reset (C139_empty_runs_refuted); a channel with coordinates but elevation 0 keeps 0 (C139_elevation_refuted); the filter types time_delay and fap the package writes are refused (C139_types_refuted). Time periods and bounding boxes are in C-entries of Container/Survey models."
  },
  {
   "property": "C140",
   "status": "proved",
   "theorems": [
    "C140_station",
    "C140_no_impedance",
    "C140_cases",
    "C140_fails",
    "C140_no_interval_refuted",
    "C140_not_read_refuted"
   ],
   "note": "Findings: a J file without the sampling interval of BIRRP has no station metadata at all (C140_no_interval_refuted: ZeroDivisionError), so it cannot be read into a transfer function; a JFile that was never read lists all five channels (C140_not_read_refuted); a station name such as MT-01 is refused (C140_fails). The date of the file and the software names are not modelled."
  },
  {
   "property": "C141",
   "status": "proved",
   "theorems": [
    "C141_set",
    "C141_missing",
    "C141_keeps",
    "C141_fresh",
    "C141_labels",
    "C141_new_labels",
    "C141_inverse",
    "C141_zmm",
    "C141_alias_refuted",
    "C141_cache_refuted",
    "C141_stale_refuted",
    "C141_failed_refuted",
    "C141_caller_refuted"
   ],
   "note": "Findings: the nomenclature of a new TF is the module's default dictionary itself, so renaming a channel in one object's dictionary renames it in every later object (C141_alias_refuted), and if periods are set in between the template cache hands out datasets whose labels are not the names (C141_cache_refuted); the inverse nomenclature is not renewed when names are set again (C141_stale_refuted), a setting that fails leaves the object half changed (C141_failed_refuted), and a ZMM changes the dictionary of the caller (C141_caller_refuted)."
  },
  {
   "property": "C142",
   "status": "proved",
   "theorems": [
    "C142_text",
    "C142_file",
    "C142_stopped",
    "C142_not_opened",
    "C142_table_refuted",
    "C142_other_json",
    "C142_name_refuted",
    "C142_absolute_name_refuted",
    "C142_missing_refuted",
    "C142_neither_refuted"
   ],
   "note": "Findings: the name of a file given as a text never gives the contents of the file (C142_name_refuted, C142_absolute_name_refuted), a path without a file is an UnboundLocalError (C142_missing_refuted), what is neither text nor path is a ValueError from formatting the message and not the TypeError that is meant (C142_neither_refuted), and an experiment with a frequency table is written but cannot be read (C142_table_refuted)."
  },
  {
   "property": "C143",
   "status": "proved",
   "theorems": [
    "C143_table",
    "C143_no_level",
    "C143_unique",
    "C143_edges",
    "C143_frequency_order",
    "C143_columns",
    "C143_set_array",
    "C143_set_frame",
    "C143_closed_refuted",
    "C143_ties_refuted"
   ],
   "note": "Findings: which end of a band is closed is lost in frequency_bands_obj, so a frequency of a right closed band is in none of its bands (C143_closed_refuted); with two bands that begin with the same harmonic the table need not be in order of frequency (C143_ties_refuted); a band without a decimation level makes the table a TypeError (C143_no_level)."
  },
  {
   "property": "C144",
   "status": "proved",
   "theorems": [
    "C144_centre",
    "C144_nearest",
    "C144_errors",
    "C144_monotone",
    "C144_arithmetic",
    "C144_geometric_refuted",
    "C144_array_refuted",
    "C144_array"
   ],
   "note": "Findings: with the geometric centre, the default, the weights can be those of a frequency outside of the band although the axis has one in it (C144_geometric_refuted); with a plain array the number of a row is compared with a frequency in Hertz, so all bands below half a Hertz have the first row (C144_array_refuted)."
  },
  {
   "property": "C145",
   "status": "proved",
   "theorems": [
    "C145_hour_24",
    "C145_other_hours",
    "C145_refused",
    "C145_order",
    "C145_words",
    "C145_past_midnight_refuted",
    "C145_other_years_refuted",
    "C145_last_midnight_refuted"
   ],
   "note": "Findings: times after midnight at hour 24 are read although only midnight is legal (C145_past_midnight_refuted); before 1900 and after 2200 the hour 24 gives the least or the greatest time there is although the midnight it stands for is read as it is (C145_other_years_refuted); the last midnight of the year 9999 is an OverflowError (C145_last_midnight_refuted)."
  },
  {
   "property": "C146",
   "status": "proved",
   "theorems": [
    "C146_copy",
    "C146_separate",
    "C146_storage",
    "C146_unset",
    "C146_kind_refuted",
    "C146_shared",
    "C146_shallow",
    "C146_cannot",
    "C146_reference_refuted",
    "C146_new_names_refuted"
   ],
   "note": "Findings: an update of mth5_type is lost (C146_kind_refuted); setting hdf5_reference to None in the updates does not keep the reference from being copied, so with one that cannot be copied the copy is always made from the dictionary (C146_reference_refuted), where updates with new names, which an ordinary copy keeps, are lost (C146_new_names_refuted). Nested objects have plain attributes only in the model."
  },
  {
   "property": "C147",
   "status": "proved",
   "theorems": [
    "C147_fresh",
    "C147_settings",
    "C147_error",
    "C147_before",
    "C147_same",
    "C147_after_setting_refuted",
    "C147_normalized_refuted"
   ],
   "note": "Findings: settings made after the coefficients have been asked for do not count: their number is not the number of samples (C147_after_setting_refuted) and their sum not one (C147_normalized_refuted)."
  },
  {
   "property": "C148",
   "status": "proved",
   "theorems": [
    "C148_read",
    "C148_missing",
    "C148_dictionary",
    "C148_second_object_refuted",
    "C148_same_object",
    "C148_site",
    "C148_site_changed_refuted",
    "C148_orientation",
    "C148_orientation_changed_refuted"
   ],
   "note": "Findings: the caller's dictionary loses its sections, so a second object read from it has none of them (C148_second_object_refuted); writing changes a site that ends before it starts (C148_site_changed_refuted) and an orthogonal orientation without an angle (C148_orientation_changed_refuted)."
  },
  {
   "property": "C149",
   "status": "proved",
   "theorems": [
    "C149_given",
    "C149_automatic",
    "C149_blank",
    "C149_frequencies",
    "C149_has_name",
    "C149_different",
    "C149_stale_refuted",
    "C149_blank_refuted",
    "C149_empty_band_refuted",
    "C149_centre_refuted",
    "C149_same_refuted"
   ],
   "note": "Proved for all histories. Findings: C149_stale_refuted (a generated name does not follow later changes of the frequencies), C149_blank_refuted (a band made with name=\"\" is \"0.000000\" for ever, one made without a name gets its mean), C149_empty_band_refuted (the given name \"empty_band\" is replaced), C149_centre_refuted (the name is the arithmetic mean although the centre is the geometric one by default), C149_same_refuted (bands one above the other at long periods have the same name)."
  },
  {
   "property": "C150",
   "status": "proved",
   "theorems": [
    "C150_range",
    "C150_error",
    "C150_integers",
    "C150_nothing",
    "C150_other_texts",
    "C150_floats",
    "C150_outside_refuted",
    "C150_text_refuted",
    "C150_invalid_refuted"
   ],
   "note": "Proved for all values and histories. Findings: C150_outside_refuted (-0.5 is taken as 0 and 5.9 as 5), C150_text_refuted (4.0 is taken, the text 4.0 refused), C150_invalid_refuted (an infinite float raises OverflowError and no ValidationError)."
  },
  {
   "property": "C151",
   "status": "proved",
   "theorems": [
    "C151_estimate",
    "C151_one",
    "C151_unknown",
    "C151_none",
    "C151_above_middle",
    "C151_member_refuted"
   ],
   "note": "Proved for all amplitudes. Findings: C151_none (np.NAN is not there in numpy 2: AttributeError instead of nan), C151_unknown (a wrong name of an estimate is not reported), C151_above_middle (the default is above the geometric mean that channel responses take), C151_member_refuted (it need not be one of the frequencies); mean and median are always the same."
  },
  {
   "property": "C152",
   "status": "proved",
   "theorems": [
    "C152_engines",
    "C152_stations",
    "C152_only_remote",
    "C152_again",
    "C152_remote_refuted",
    "C152_remote_lost"
   ],
   "note": "Proved for all configurations and datasets. Findings: C152_remote_refuted and C152_remote_lost (the engines are switched to those of one station before the stations are taken from the dataset, so a new configuration loses RME_RR for every dataset with remote stations), C152_only_remote (an IndexError after the engines were switched)."
  },
  {
   "property": "C153",
   "status": "proved",
   "theorems": [
    "C153_rows",
    "C153_room",
    "C153_missing",
    "C153_no_names",
    "C153_columns",
    "C153_outcome",
    "C153_file",
    "C153_columns_of_frames",
    "C153_file_refuted",
    "C153_distinct_refuted"
   ],
   "note": "Findings: output_type=\"array\" with csv_fn returns without writing the file (C153_file_refuted); any other type without csv_fn, and csv_fn=\"\", end in UnboundLocalError for summary_df; dtype is ignored for data frames; texts longer than their column are cut without a warning, and options with commas are not told apart (C153_distinct_refuted). The summary dictionary is given; texts with NUL and values other than truth values under 'required' are not modelled."
  }
 ]
}