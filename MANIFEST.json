{
 "claims": [
  {
   "property": "C01",
   "status": "proved",
   "theorems": [
    "C01_leap_ops_preserve_time",
    "C01_leap_marks_read_back"
   ],
   "note": ""
  },
  {
   "property": "C02",
   "status": "proved",
   "theorems": [
    "C02_unix_round_trip",
    "C02_count_since_year1",
    "C02_order_preserved",
    "C02_ticks_round_trip"
   ],
   "note": ""
  },
  {
   "property": "C03",
   "status": "partial",
   "theorems": [
    "C03_FromTime_correct_iff_not_before_epoch",
    "C03_FromTime_ToTime_partial",
    "C03_FromTime_refuted"
   ],
   "note": "The full property is false of the code: refuted for instants before 1970; exact domain proved."
  },
  {
   "property": "C04",
   "status": "proved",
   "theorems": [
    "C04_compare_is_lexicographic",
    "C04_compare_total_order",
    "C04_equal_iff",
    "C04_empty"
   ],
   "note": ""
  },
  {
   "property": "C05",
   "status": "proved",
   "theorems": [
    "C05_bytes_round_trip",
    "C05_opposite_order_swaps_fields",
    "C05_error_iff_short",
    "C05_argument_unmodified",
    "C05_result_owned"
   ],
   "note": ""
  },
  {
   "property": "C06",
   "status": "proved",
   "theorems": [
    "C06_call_sequences",
    "C06_add_remove_report",
    "C06_remove_where_count"
   ],
   "note": "Every legal map iteration order is quantified over, per call."
  },
  {
   "property": "C07",
   "status": "proved",
   "theorems": [
    "C07_set_relations"
   ],
   "note": "The statement already excludes IsProperSupersetOfSet on an empty receiver; that case is refuted under C08."
  },
  {
   "property": "C08",
   "status": "partial",
   "theorems": [
    "C08_slice_relations_partial",
    "C08_SetEquals_refuted",
    "C08_IsSupersetOf_refuted",
    "C08_IsProperSupersetOf_empty_refuted",
    "C08_SymmetricExceptWith_refuted"
   ],
   "note": "False of the code for slices with repeated elements and for the empty receiver; proved exactly for duplicate-free slices."
  },
  {
   "property": "C09",
   "status": "proved",
   "theorems": [
    "C09_unsigned_faithful",
    "C09_signed_faithful"
   ],
   "note": ""
  },
  {
   "property": "C10",
   "status": "proved",
   "theorems": [
    "C10_full_to_compact_to_full",
    "C10_compact_bit_iff_category",
    "C10_full_bit_iff_compact_bit",
    "C10_compact_to_full_to_compact"
   ],
   "note": ""
  },
  {
   "property": "C11",
   "status": "proved",
   "theorems": [
    "C11_decode_wire",
    "C11_publisher_round_trip",
    "C11_exact_time"
   ],
   "note": ""
  },
  {
   "property": "C12",
   "status": "proved",
   "theorems": [
    "C12_stream"
   ],
   "note": ""
  },
  {
   "property": "C13",
   "status": "partial",
   "theorems": [
    "C13_compact_decode_panics_iff",
    "C13_truncated_compact_refuted",
    "C13_message_crashes_iff",
    "C13_short_packet_refuted",
    "C13_encrypted_packet_refuted",
    "C13_count_too_small_refuted",
    "C13_data_packet_crashes_iff",
    "C13_cache_update_crashes_iff",
    "C13_cipher_keys_crashes_iff"
   ],
   "note": "False of the code: many malformed packets crash the process. The exact crash condition is proved, in every reachable state, for every message kind."
  },
  {
   "property": "C14",
   "status": "proved",
   "theorems": [
    "C14_lookup_by_index",
    "C14_lookup_by_signal",
    "C14_signal_ids",
    "C14_count",
    "C14_distinct_records",
    "C14_binary_length"
   ],
   "note": ""
  },
  {
   "property": "C15",
   "status": "partial",
   "theorems": [
    "C15_decode_wire",
    "C15_short_message_rejected",
    "C15_truncated_message_refuted",
    "C15_bad_source_length_refuted"
   ],
   "note": "Well-formed messages decode exactly and short messages are rejected; but the no-crash part is false: truncated bodies panic."
  },
  {
   "property": "C16",
   "status": "proved",
   "theorems": [
    "C16_frame_written",
    "C16_sequence_recovered",
    "C16_not_connected_sends_nothing"
   ],
   "note": "Sends from one goroutine; concurrent senders are a separate property."
  },
  {
   "property": "C17",
   "status": "partial",
   "theorems": [
    "C17_send_panics_iff",
    "C17_long_payload_refuted",
    "C17_subscribe_long_filter_refuted"
   ],
   "note": "False of the code: panics exactly when the payload exceeds 32763 bytes."
  },
  {
   "property": "C18",
   "status": "proved",
   "theorems": [
    "C18_chunking_irrelevant",
    "C18_whole_packets",
    "C18_incomplete_never_processed"
   ],
   "note": "For every packet handler; the loop ends at the first termination request (asynchronous shutdown is not modelled here)."
  },
  {
   "property": "C19",
   "status": "partial",
   "theorems": [
    "C19_fields_partial",
    "C19_version_refuted",
    "C19_version_five_bits_partial"
   ],
   "note": "All fields except the version are exact; for versions below 10 the compression bits overlap the API's own version mask, so the masked version is wrong."
  },
  {
   "property": "C20",
   "status": "partial",
   "theorems": [
    "C20_parameters_partial",
    "C20_nan_filter_refuted",
    "C20_filter_injection_refuted"
   ],
   "note": "False of the code: the NaN filter setting lacks its = sign; all other settings parse back for brace-safe texts."
  },
  {
   "property": "C21",
   "status": "proved",
   "theorems": [
    "C21_codes_round_trip"
   ],
   "note": ""
  },
  {
   "property": "C22",
   "status": "proved",
   "theorems": [
    "C22_adaptation_optimal",
    "C22_stable_within_segment",
    "C22_never_fails",
    "C22_cost_is_bits_written"
   ],
   "note": ""
  },
  {
   "property": "C23",
   "status": "proved",
   "theorems": [
    "C23_uint32",
    "C23_uint64"
   ],
   "note": ""
  },
  {
   "property": "C24",
   "status": "proved",
   "theorems": [
    "C24_lossless",
    "C24_encodable"
   ],
   "note": "The encoder is a specification written from the wire format, with any choice of code words per field."
  },
  {
   "property": "C25",
   "status": "proved",
   "theorems": [
    "C25_deltas"
   ],
   "note": ""
  },
  {
   "property": "C26",
   "status": "partial",
   "theorems": [
    "C26_refuted",
    "C26_panics_iff_cut_short_partial",
    "C26_rest_irrelevant_partial",
    "C26_stays_inside_partial",
    "C26_panics_only_at_end_partial",
    "C26_commands_never_refused_partial",
    "C26_terminates_partial"
   ],
   "note": "False of the code: a truncated packet panics (Go bounds check). Proved: a call panics exactly when the packet ends inside what it reads, otherwise the position stays inside, nothing that follows matters, and decoding ends."
  },
  {
   "property": "C27",
   "status": "partial",
   "theorems": [
    "C27_sequencing_partial",
    "C27_stray_packet_refuted"
   ],
   "note": "Decoding is gated by sequence numbers and strays leave it undisturbed (proved); but a stray packet still calls the callback with as many stale or zero measurements as it claims."
  },
  {
   "property": "C28",
   "status": "partial",
   "theorems": [
    "C28_invented_measurements_refuted",
    "C28_exact_partial"
   ],
   "note": "False of the code: the callback gets as many entries as the packet claims. Proved when the claimed count is right."
  },
  {
   "property": "C29",
   "status": "proved",
   "theorems": [
    "C29_total",
    "C29_reset"
   ],
   "note": "Modulo 2^64, for all histories between resets."
  },
  {
   "property": "C30",
   "status": "partial",
   "theorems": [
    "C30_payload_refuted",
    "C30_reordered_block_refuted",
    "C30_duplicate_block_refuted",
    "C30_in_order_partial"
   ],
   "note": "False of the code: payloads are never delivered, reordered blocks are lost, a duplicate fills the queue with 2^32 entries. In-order delivery with signal IDs and confirmations is proved."
  },
  {
   "property": "C31",
   "status": "proved",
   "theorems": [
    "C31_packet_uses_its_cache",
    "C31_update_installed",
    "C31_active_is_latest"
   ],
   "note": ""
  },
  {
   "property": "C32",
   "status": "proved",
   "theorems": [
    "C32_base_times"
   ],
   "note": ""
  },
  {
   "property": "C33",
   "status": "partial",
   "theorems": [
    "C33_first_connection_refuted",
    "C33_reconnection_partial"
   ],
   "note": "False of the code on the first connection (the validated flag starts true); proved for every later connection and packets of at least six bytes."
  },
  {
   "property": "C34",
   "status": "proved",
   "theorems": [
    "C34_becomes_subscribed",
    "C34_becomes_unsubscribed",
    "C34_acknowledged",
    "C34_disconnected_unsubscribed"
   ],
   "note": ""
  },
  {
   "property": "C35",
   "status": "proved",
   "theorems": [
    "C35_counters",
    "C35_start_at_zero"
   ],
   "note": "Modulo 2^64. While a connection is being validated a packet of more than 8198 bytes is refused unread; the theorem excludes it."
  },
  {
   "property": "C36",
   "status": "partial",
   "theorems": [
    "C36_delay_is_capped_backoff_partial",
    "C36_delay_range",
    "C36_delay_not_monotone_refuted",
    "C36_delay_overflow_refuted",
    "C36_delay_above_max_refuted"
   ],
   "note": "False for some settings: the exponent drops from 13 to 12, the int32 product overflows, and an interval above the maximum is used uncapped. Proved for all settings without these, including the defaults."
  },
  {
   "property": "C37",
   "status": "partial",
   "theorems": [
    "C37_gives_up_partial",
    "C37_connects_within_limit",
    "C37_never_more_dials_partial",
    "C37_unlimited",
    "C37_refusals_bounded",
    "C37_lost_connections_restart_count",
    "C37_zero_retries_never_dials_refuted",
    "C37_second_connect_never_dials_refuted",
    "C37_no_interval_never_gives_up_refuted"
   ],
   "note": "Proved for m >= 1, a positive interval and a counter below m; false for MaxRetries = 0, for RetryInterval <= 0 and for the Connect after a sequence that gave up."
  },
  {
   "property": "C38",
   "status": "partial",
   "theorems": [
    "C38_cancel_can_hang_refuted",
    "C38_stopped_wait_hangs_refuted",
    "C38_no_other_hang_partial",
    "C38_cancel_during_wait_no_dial_partial",
    "C38_cancel_forgotten_refuted",
    "C38_cancel_after_wait_forgotten_refuted"
   ],
   "note": "False of the code: stopping the retry timer leaves the waiter and Cancel blocked for ever, and a Cancel outside the wait is forgotten. Proved: these are the only failures."
  },
  {
   "property": "C39",
   "status": "partial",
   "theorems": [
    "C39_runs_once_per_start",
    "C39_thread_never_deadlocks",
    "C39_join_waits_partial",
    "C39_start_while_executing_partial",
    "C39_join_after_start_returns_early_refuted",
    "C39_join_returns_during_execution_refuted"
   ],
   "note": "False of the code: Join can return before the function has begun or while it runs. Proved: one run per Start; a Join that saw the running flag waits."
  },
  {
   "property": "C40",
   "status": "proved",
   "theorems": [
    "C40_one_execution_at_a_time"
   ],
   "note": ""
  },
  {
   "property": "C41",
   "status": "partial",
   "theorems": [
    "C41_report_in_callback_deadlocks_refuted",
    "C41_setter_in_callback_always_deadlocks_refuted",
    "C41_flat_code_never_deadlocks_partial"
   ],
   "note": "False of the code: the lock is acquired recursively. Proved for code that does not."
  },
  {
   "property": "C42",
   "status": "partial",
   "theorems": [
    "C42_order_no_loss_partial",
    "C42_no_nil_until_close_partial",
    "C42_completed",
    "C42_everything_arrives_partial",
    "C42_meets",
    "C42_after_close_refuted"
   ],
   "note": "Proved until Close; after Close nil measurements are returned as if received and the next arrival panics."
  },
  {
   "property": "C43",
   "status": "partial",
   "theorems": [
    "C43_racing_lookups_differ_refuted",
    "C43_registered_record_shared_partial",
    "C43_single_goroutine_partial"
   ],
   "note": "False of the code for racing first lookups; proved after registration and for one goroutine."
  },
  {
   "property": "C44",
   "status": "proved",
   "theorems": [
    "C44_acronym_round_trip",
    "C44_acronyms_documented",
    "C44_parse_iff",
    "C44_otherwise_unknown",
    "C44_unknown_acronym"
   ],
   "note": ""
  },
  {
   "property": "C45",
   "status": "partial",
   "theorems": [
    "C45_reference_decodes_partial",
    "C45_panics_iff",
    "C45_position_fits",
    "C45_exactly",
    "C45_short_type_refuted",
    "C45_no_dash_is_angle_refuted"
   ],
   "note": "Well-formed references decode; false of the code for arbitrary strings: it panics exactly when fewer than two bytes follow the last dash."
  },
  {
   "property": "C46",
   "status": "proved",
   "theorems": [
    "C46_operators",
    "C46_unary_and_in",
    "C46_null_tests"
   ],
   "note": ""
  },
  {
   "property": "C47",
   "status": "partial",
   "theorems": [
    "C47_comparison_with_null_refuted",
    "C47_boolean_null_partial",
    "C47_like_is_null_partial",
    "C47_statement_partial"
   ],
   "note": "False of the code: a comparison with a NULL column makes the selection fail unless both operands are Boolean (or Boolean and String). Proved for the conditions that do yield NULL, which exclude the row."
  },
  {
   "property": "C48",
   "status": "partial",
   "theorems": [
    "C48_well_typed",
    "C48_panics_only_if_partial",
    "C48_operator_panics_iff",
    "C48_function_panics_iff",
    "C48_in_panics_iff",
    "C48_unary_never_panics",
    "C48_boolean_with_integer_refuted",
    "C48_text_functions_refuted"
   ],
   "note": "Values always have their declared dynamic type. False of the code: operations mixing a Boolean with an Int32 panic. Every panic comes from one of a list of operations, and for each operator, function and IN list whose operands have values the exact condition is proved (PanicSpec.v)."
  },
  {
   "property": "C49",
   "status": "proved",
   "theorems": [
    "C49_result_type",
    "C49_comparison_type",
    "C49_bitwise_integers_only"
   ],
   "note": ""
  },
  {
   "property": "C50",
   "status": "partial",
   "theorems": [
    "C50_operators_agree",
    "C50_exact_operators_agree",
    "C50_trichotomy_partial",
    "C50_derived_operators_partial",
    "C50_kelvin_sign_refuted"
   ],
   "note": "Proved for integers and decimals of any types, Booleans, times, GUIDs and ASCII strings. False of the code for strings with non-ASCII letters, whose equality (case folding) and order (upper-casing) disagree."
  },
  {
   "property": "C51",
   "status": "partial",
   "theorems": [
    "C51_division_by_zero_refuted",
    "C51_other_divisors_partial"
   ],
   "note": "False of the code: every division or remainder by an integer zero panics. Proved for other divisors."
  },
  {
   "property": "C52",
   "status": "proved",
   "theorems": [
    "C52_and_or_not",
    "C52_null",
    "C52_not_null",
    "C52_only_booleans"
   ],
   "note": ""
  },
  {
   "property": "C53",
   "status": "partial",
   "theorems": [
    "C53_what_iif_does_partial",
    "C53_wrong_branch_refuted"
   ],
   "note": "False of the code: the second argument is evaluated as the condition."
  },
  {
   "property": "C54",
   "status": "partial",
   "theorems": [
    "C54_exponent_ignored_refuted",
    "C54_exponent_ignored_any_refuted",
    "C54_power_2_3_refuted",
    "C54_power_partial",
    "C54_decimal_total",
    "C54_decimal_partial",
    "C54_fraction_refuted"
   ],
   "note": "False of the code: the exponent is replaced by the base. Of decimals, whose powers are written out, proved: the result always exists and is the base raised to the whole part of the base (up to 15 digits, not negative); so the fraction of an exponent is dropped."
  },
  {
   "property": "C55",
   "status": "partial",
   "theorems": [
    "C55_like_exact_partial",
    "C55_like_partial",
    "C55_no_wildcard_refuted",
    "C55_empty_pattern_refuted"
   ],
   "note": "Proved for patterns with a wildcard at one or both ends (letter case ignored: ASCII). False of the code for patterns without wildcard, which match nothing, and the empty pattern, which matches everything."
  },
  {
   "property": "C56",
   "status": "proved",
   "theorems": [
    "C56_in_is_disjunction"
   ],
   "note": ""
  },
  {
   "property": "C57",
   "status": "proved",
   "theorems": [
    "C57_coalesce",
    "C57_max_min"
   ],
   "note": ""
  },
  {
   "property": "C58",
   "status": "partial",
   "theorems": [
    "C58_shift_left",
    "C58_shift_right_partial",
    "C58_int64_sign_refuted"
   ],
   "note": "False of the code for Int64 >>, which loses the sign."
  },
  {
   "property": "C59",
   "status": "partial",
   "theorems": [
    "C59_contains_starts_ends",
    "C59_index_of",
    "C59_str_count",
    "C59_nth_index_of_partial",
    "C59_len",
    "C59_substr_partial",
    "C59_substr_to_end",
    "C59_substr_overflow_refuted",
    "C59_reverse",
    "C59_split_partial",
    "C59_split_exact",
    "C59_split_absent_refuted",
    "C59_split_refuted",
    "C59_nth_index_of_empty_refuted"
   ],
   "note": "False of the code: SubStr with a huge length, NthIndexOf of an empty text and Split with overlapping delimiters panic; Split returns an empty piece when the delimiter is absent or leads (C59_split_exact says what it returns whenever delimiters do not overlap). Proved for the remaining cases."
  },
  {
   "property": "C60",
   "status": "proved",
   "theorems": [
    "C60_selected_rows",
    "C60_selection_succeeds",
    "C60_ordered_permutation",
    "C60_table_select_limit"
   ],
   "note": ""
  },
  {
   "property": "C61",
   "status": "partial",
   "theorems": [
    "C61_top_before_order_refuted",
    "C61_first_matches_sorted_partial",
    "C61_no_cut_partial"
   ],
   "note": "False of the code: TOP is applied before ORDER BY. Proved: the first n matches in table order are returned, sorted; the property holds when at most n rows match."
  },
  {
   "property": "C62",
   "status": "partial",
   "theorems": [
    "C62_less_than",
    "C62_strict_weak_order_partial",
    "C62_null_first",
    "C62_nan_refuted",
    "C62_boolean_order_refuted",
    "C62_exact_match_refuted"
   ],
   "note": "False of the code with NaN values; TRUE sorts before FALSE; the exact-match flag of an order term is inverted. Proved for all rows without NaN."
  },
  {
   "property": "C63",
   "status": "partial",
   "theorems": [
    "C63_selected_rows",
    "C63_each_row_once",
    "C63_union",
    "C63_order_refuted"
   ],
   "note": "Proved except for the order: rows named by identifiers precede the rows of FILTER statements wherever they are written."
  },
  {
   "property": "C64",
   "status": "proved",
   "theorems": [
    "C64_table_found",
    "C64_tables",
    "C64_remove_result",
    "C64_letter_case",
    "C64_columns",
    "C64_column_by_name",
    "C64_column_index"
   ],
   "note": ""
  },
  {
   "property": "C65",
   "status": "partial",
   "theorems": [
    "C65_assignments",
    "C65_assignment_refused_iff",
    "C65_wrong_index_or_type",
    "C65_typed_read_partial",
    "C65_unchecked_value_refuted",
    "C65_column_added_later_refuted",
    "C65_value_text",
    "C65_by_name",
    "C65_value_by_name_refuted"
   ],
   "note": "False of the code: a value of another type is stored and the getter then panics; rows created before a column was added panic; ValueByName returns the raw slot of a computed column. Proved for values of the type of their column."
  },
  {
   "property": "C66",
   "status": "partial",
   "theorems": [
    "C66_limit_zero_refuted",
    "C66_limits_partial"
   ],
   "note": "False of the code for limit 0, which returns one row. Proved for every other limit."
  },
  {
   "property": "C67",
   "status": "partial",
   "theorems": [
    "C67_selection_partial",
    "C67_no_panic_partial",
    "C67_path_of_node",
    "C67_panic_refuted",
    "C67_any_attribute_refuted",
    "C67_equals_in_value_refuted",
    "C67_empty_value_refuted",
    "C67_path_of_root_refuted"
   ],
   "note": "False of the code: an empty predicate panics, [@*] holds of elements without attributes, values that are empty or contain = are compared wrongly, the path of the root finds nothing. Proved for every path of names, wildcards and other predicates."
  },
  {
   "property": "C68",
   "status": "partial",
   "theorems": [
    "C68_links_partial",
    "C68_path",
    "C68_reload_refuted"
   ],
   "note": "False of the code when a second document is loaded into the same XmlDocument: children and depth of the first remain. Proved for the first load of any tree."
  },
  {
   "property": "C69",
   "status": "partial",
   "theorems": [
    "C69_float_grouping",
    "C69_values",
    "C69_positive_infinity_refuted",
    "C69_infinity_refuted"
   ],
   "note": "Proved for every finite number, precision and pair of symbols that are neither digits nor the minus sign, and for every decimal text; the code prints +Inf as +,Inf."
  },
  {
   "property": "C70",
   "status": "proved",
   "theorems": [
    "C70_registry",
    "C70_registry_any_source",
    "C70_lookup"
   ],
   "note": ""
  },
  {
   "property": "C71",
   "status": "proved",
   "theorems": [
    "C71_confirmations"
   ],
   "note": ""
  },
  {
   "property": "C72",
   "status": "proved",
   "theorems": [
    "C72_encryption_transparent"
   ],
   "note": "AES-CBC itself is a parameter of the model."
  },
  {
   "property": "C73",
   "status": "partial",
   "theorems": [
    "C73_stale_state_refuted",
    "C73_misattributed_data_refuted",
    "C73_fresh_partial"
   ],
   "note": "False of the code: caches, decoders, base times and the block queue survive a reconnection. Proved: nothing else does; whenever packets refer only to tables, base times and blocks sent on the new connection, what the application sees does not depend on the past."
  },
  {
   "property": "C74",
   "status": "partial",
   "theorems": [
    "C74_data_while_unsubscribed_refuted",
    "C74_connected_partial",
    "C74_disconnected_partial"
   ],
   "note": "False of the code: the subscription state is not consulted when data arrives. Proved: data is delivered only within a connection, after the publisher has answered on it, one delivery for each data packet."
  },
  {
   "property": "C75",
   "status": "proved",
   "theorems": [
    "C75_messages"
   ],
   "note": "Decompression is a parameter of the model."
  },
  {
   "property": "C76",
   "status": "partial",
   "theorems": [
    "C76_concurrent_sends_corrupt_refuted",
    "C76_concurrent_sends_mix_refuted",
    "C76_one_sender_partial"
   ],
   "note": "False of the code: the send buffer is shared without a lock."
  },
  {
   "property": "C77",
   "status": "partial",
   "theorems": [
    "C77_unsubscribe_loses_framing_refuted",
    "C77_unsubscribe_loses_packet_refuted",
    "C77_undisturbed_framing_partial"
   ],
   "note": "False of the code: a header or packet read while Unsubscribe is under way is dropped."
  },
  {
   "property": "C78",
   "status": "proved",
   "theorems": [
    "C78_integers",
    "C78_decimals"
   ],
   "note": ""
  },
  {
   "property": "C79",
   "status": "partial",
   "theorems": [
    "C79_signal_ids",
    "C79_id_list",
    "C79_table_spelling_refuted"
   ],
   "note": "False of the code when a FILTER statement does not spell the table exactly as the primary table name. Proved for every selection that succeeds."
  },
  {
   "property": "C80",
   "status": "partial",
   "theorems": [
    "C80_computed_value",
    "C80_same_type",
    "C80_null_becomes_zero_refuted",
    "C80_datetime_boolean_refuted",
    "C80_self_reference_refuted"
   ],
   "note": "False of the code: NULL reads as the zero value, a DateTime as an inverted Boolean, and a self-referencing column recurses for ever. Proved otherwise."
  },
  {
   "property": "C81",
   "status": "proved",
   "theorems": [
    "C81_clone"
   ],
   "note": ""
  },
  {
   "property": "C82",
   "status": "proved",
   "theorems": [
    "C82_failure_response",
    "C82_refused_iff"
   ],
   "note": "The session theorem asks for a connection that has been validated for the direction from a refusal to the mark, because an unvalidated connection rejects the packet first."
  },
  {
   "property": "C83",
   "status": "partial",
   "theorems": [
    "C83_loadable",
    "C83_document",
    "C83_foreign_attributes",
    "C83_schema_table_refuted"
   ],
   "note": "False of the code only for a table called \"schema\", which gets the schema element as a record. Proved: accepted exactly when loadable, and the tables, columns and rows of every well-formed document."
  },
  {
   "property": "C84",
   "status": "partial",
   "theorems": [
    "C84_field_values_partial",
    "C84_plain_strings_partial",
    "C84_escaped_string_refuted",
    "C84_boolean_one_refuted",
    "C84_leading_zero_refuted",
    "C84_no_value_refuted"
   ],
   "note": "False of the code: escapes are not undone, Boolean \"1\" reads as FALSE, leading zeros as octal, and texts that are no values as zero or the nearest limit. Proved for decimal integers, true/false and plain strings."
  },
  {
   "property": "C85",
   "status": "partial",
   "theorems": [
    "C85_targets",
    "C85_bad_address",
    "C85_busy",
    "C85_listen",
    "C85_address_unique",
    "C85_ipv6_refuted"
   ],
   "note": "False of the code for hosts that contain a colon, which are dialled without brackets. Everything else is proved."
  },
  {
   "property": "C86",
   "status": "partial",
   "theorems": [
    "C86_first_dial",
    "C86_dial",
    "C86_reconnect",
    "C86_accept",
    "C86_after_metadata",
    "C86_frames",
    "C86_resubscribe_refuted",
    "C86_twice_refuted"
   ],
   "note": "False of the code: after a reconnection of protocol 2 the subscription request without metadata is left out, and after a failed Listen a Dial announces and requests twice. The other theorems give the exact frames of every connection, with that request the only one that may be missing."
  },
  {
   "property": "C87",
   "status": "partial",
   "theorems": [
    "C87_dial_partial",
    "C87_after_disconnect_refuted",
    "C87_second_dial_refuted"
   ],
   "note": "False of the code after Disconnect and after a Dial that used up its retries. Proved for histories without either."
  },
  {
   "property": "C88",
   "status": "proved",
   "theorems": [
    "C88_metadata",
    "C88_delivery",
    "C88_callbacks",
    "C88_fresh",
    "C88_start_time"
   ],
   "note": "Values of the rows are those of the row functions of DataRow (C65, C80); the XML tokenizer is a parameter."
  },
  {
   "property": "C89",
   "status": "partial",
   "theorems": [
    "C89_in_force",
    "C89_request_unique",
    "C89_sent_partial",
    "C89_dropped_refuted"
   ],
   "note": "False of the code between a reconnection and the answer to the operational modes, when the call is dropped. Proved otherwise."
  },
  {
   "property": "C90",
   "status": "partial",
   "theorems": [
    "C90_no_reconnect_partial",
    "C90_sticky_refuted",
    "C90_nil_refuted",
    "C90_nil_first",
    "C86_dial",
    "C86_reconnect"
   ],
   "note": "False of the code: nil keeps an earlier configuration and AutoReconnect cannot be switched off again. Proved: the frames follow the configuration given, nil is the default as long as none was given, and no reconnection when every configuration switches it off."
  },
  {
   "property": "C91",
   "status": "partial",
   "theorems": [
    "C91_floor",
    "C91_ceiling",
    "C91_round",
    "C91_abs_partial",
    "C91_sqrt",
    "C91_unique",
    "C91_abs_least_refuted"
   ],
   "note": "False of the code only for Abs of the least Int32 and Int64, which wraps. Everything else is proved."
  },
  {
   "property": "C92",
   "status": "partial",
   "theorems": [
    "C92_calendar",
    "C92_every_date",
    "C92_date_part",
    "C92_date_add_partial",
    "C92_date_diff_months",
    "C92_date_diff_partial",
    "C92_units_exist",
    "C92_unknown_interval",
    "C92_date_add_refuted",
    "C92_date_diff_refuted",
    "C92_date_diff_wraps_refuted",
    "C92_date_diff_far_refuted",
    "C92_bad_date_refuted"
   ],
   "note": "False of the code: adding hours or shorter intervals wraps beyond an int64 of nanoseconds, DateDiff can count one interval too many when less than a millisecond is missing, wraps for more than 2^31 milliseconds or seconds and counts at most 292 years, and text that is no date counts as the year 1. Proved otherwise."
  },
  {
   "property": "C93",
   "status": "partial",
   "theorems": [
    "C93_trim",
    "C93_trim_left_partial",
    "C93_trim_right_partial",
    "C93_upper_lower",
    "C93_replace",
    "C93_replace_fold_partial",
    "C93_replace_empty",
    "C93_replace_empty_fold_partial",
    "C93_str_cmp",
    "C93_nulls",
    "C93_no_break_space_refuted",
    "C93_replace_dollar_refuted"
   ],
   "note": "False of the code: TrimLeft and TrimRight keep no-break spaces and remove U+FFFD; in Replace without regard to case a dollar sign before a letter, digit, underscore, brace or dollar sign in the replacement is taken for a group of the regular expression. Upper, Lower and Replace without regard to case are proved for ASCII text, given that the case tables map ASCII letters as usual."
  },
  {
   "property": "C94",
   "status": "partial",
   "theorems": [
    "C94_integers_partial",
    "C94_booleans",
    "C94_decimals",
    "C94_doubles",
    "C94_same_type",
    "C94_null",
    "C94_impossible",
    "C94_text",
    "C94_unknown_type_partial",
    "C94_is_null",
    "C94_type_tests",
    "C94_type_tests_null",
    "C94_interval_refuted",
    "C94_bad_text_refuted"
   ],
   "note": "False of the code: every name that begins with INT, UINT or FLOAT is taken for a type, texts that read as no value give zero, and a Boolean converted to Int32 holds a value of another Go type. Proved otherwise for whole parts within the range of the type; the texts that values show as and read from are C123 to C125."
  },
  {
   "property": "C95",
   "status": "proved",
   "theorems": [
    "C95_arithmetic",
    "C95_order",
    "C95_exact_integers"
   ],
   "note": "Go is taken to compute each operation of the specification of float64 (IEEE 754 binary64, round to nearest even) without fusing."
  },
  {
   "property": "C96",
   "status": "proved",
   "theorems": [
    "C96_tokens",
    "C96_one_token_list",
    "C96_parse",
    "C96_one_reading",
    "C96_every_tree"
   ],
   "note": "The model reads the grammar file; the Go code ANTLR generated from it is taken to implement it (longest match, adaptive prediction, precedence by order of alternatives). Texts outside the grammar are rejected here; ANTLR reports them to a callback and recovers, which is not modelled."
  },
  {
   "property": "C97",
   "status": "partial",
   "theorems": [
    "C97_two_operators_partial",
    "C97_documented_partial",
    "C97_not",
    "C97_documented_refuted",
    "C97_values_refuted",
    "C97_is_null_refuted"
   ],
   "note": "False of the code within a group: + and * have one precedence (1+2*3 is 9), AND and OR have one, IS NULL and IN bind tighter than comparisons. Proved: the actual grouping, and that it is the documented one for operators of different groups."
  },
  {
   "property": "C98",
   "status": "partial",
   "theorems": [
    "C98_literal",
    "C98_integer",
    "C98_string",
    "C98_quote_refuted",
    "C98_octal_refuted",
    "C98_bracket_refuted",
    "C98_hexadecimal_refuted",
    "C98_plain_guid_refuted",
    "C98_top_refuted"
   ],
   "note": "False of the code: doubled quotes stay doubled, a leading zero makes octal, brackets stay part of the name, hexadecimal numbers of 64 bits become text, TOP with a hexadecimal number has no effect. Proved otherwise."
  },
  {
   "property": "C99",
   "status": "partial",
   "theorems": [
    "C99_layout",
    "C99_layout_tokens",
    "C99_comment_refuted"
   ],
   "note": "Proved for layouts in the sense of LexSpec: a token that could run on is followed by a space, an operator or the end. False of the code for comments that begin like a measurement key (--PPA:12)."
  },
  {
   "property": "C100",
   "status": "proved",
   "theorems": [
    "C100_evaluate",
    "C100_evaluate_statements",
    "C100_select",
    "C100_trees",
    "C100_row",
    "C100_unknown_column",
    "C100_column_without_set",
    "C100_unexpected"
   ],
   "note": "What the statements select is C60 to C67. Data sets with tables and columns under distinct names are not required."
  },
  {
   "property": "C101",
   "status": "partial",
   "theorems": [
    "C101_select_partial",
    "C101_comment_refuted",
    "C101_name_refuted"
   ],
   "note": "False of the code for conditions that end with a comment and for tables whose name is not a plain name. Proved otherwise; which rows that are is C60, C61."
  },
  {
   "property": "C102",
   "status": "partial",
   "theorems": [
    "C102_disconnect_partial",
    "C102_one_call_partial",
    "C102_crash_refuted",
    "C102_twice_refuted",
    "C102_again_refuted"
   ],
   "note": "Proved for every number of callers and every schedule while the publisher keeps the connection: no crash, no blocking, at most 20 steps for each call and 8 more, at rest all is down and closed; exactly one callback for one call. False of the code when the publisher closes the connection meanwhile (nil pointer; two callbacks), for later calls and for calls without a connection (the callback is called again)."
  },
  {
   "property": "C103",
   "status": "partial",
   "theorems": [
    "C103_lost_partial",
    "C103_once_refuted"
   ],
   "note": "Proved for all schedules: no crash, one or two callbacks, none before the publisher leaves, at rest all is down, and rest can always be reached (all 1079 reachable states are enumerated by the kernel and shown closed under steps). False of the code: the termination thread can run twice and then calls the callback twice."
  },
  {
   "property": "C104",
   "status": "partial",
   "theorems": [
    "C104_after_disconnect_partial",
    "C104_after_loss_partial",
    "C104_sequential_refuted",
    "C104_new_connection_refuted",
    "C104_late_run_refuted"
   ],
   "note": "Proved when everything of the last connection has come to rest before Connect is called. False of the code otherwise: Disconnect followed by Connect can close the new connection and leave the old one open; a second run of the termination thread closes the new connection."
  },
  {
   "property": "C105",
   "status": "partial",
   "theorems": [
    "C105_open_partial",
    "C105_returns_partial",
    "C105_subscribe_twice_refuted",
    "C105_disconnect_blocks_refuted",
    "C105_leak_refuted",
    "C105_callback_refuted",
    "C105_two_readers_refuted",
    "C105_data_after_unsubscribe_refuted"
   ],
   "note": "Proved for every history and schedule of programs that subscribe only while subscribed or with no channel open and never from the data callback: the open channel is the wanted one, every call returns, goroutines end. False of the code otherwise: Subscribe twice before the answer makes Unsubscribe and Disconnect block for ever or leaks socket and goroutine; Unsubscribe from the callback blocks for ever; a goroutine scheduled late reads the next socket."
  },
  {
   "property": "C106",
   "status": "proved",
   "theorems": [
    "C106_end_to_end",
    "C106_over_tcp"
   ],
   "note": "For compressed packets that are encrypted the plaintext is taken unpadded, or padded after an end-of-stream code; see C107."
  },
  {
   "property": "C107",
   "status": "partial",
   "theorems": [
    "C107_compact_partial",
    "C107_compressed_partial",
    "C107_compressed_refuted"
   ],
   "note": "False of the code: padding is not removed, and a compressed packet whose bits fill whole bytes has no end-of-stream code, so its padding is read as measurements; a concrete padded packet crashes the subscriber. Proved for compact packets and for compressed packets that end with the code."
  },
  {
   "property": "C108",
   "status": "partial",
   "theorems": [
    "C108_disconnect_partial",
    "C108_waiting_refuted",
    "C108_reconnects_refuted",
    "C108_crash_refuted"
   ],
   "note": "False of the code in general: Disconnect while the subscriber waits to retry hangs for ever, and Disconnect while the connection is being lost can be followed by a reconnection or crash. Proved for Disconnect calls on a subscriber at rest, after any history of losses as in C109."
  },
  {
   "property": "C109",
   "status": "partial",
   "theorems": [
    "C109_reconnects_partial",
    "C109_deadlock_refuted",
    "C109_gives_up_refuted",
    "C109_hangs_refuted",
    "C109_order_refuted",
    "C109_crash_refuted"
   ],
   "note": "False of the code in general: a second run of the termination thread deadlocks with the reconnect thread or makes it crash; with handleReconnect a new connection that is lost at once makes the subscriber give up or hang; the callbacks can come in the wrong order. Proved, for any number of losses and failed attempts, for schedules in which the termination thread sets its flags before the reader reads again and, with handleReconnect, connections last until it has returned."
  },
  {
   "property": "C110",
   "status": "partial",
   "theorems": [
    "C110_life_partial",
    "C110_accepts_partial",
    "C110_loss_partial",
    "C110_callbacks_partial",
    "C110_crash_refuted",
    "C110_deaf_refuted",
    "C110_callbacks_refuted"
   ],
   "note": "False of the code in general: a publisher that is accepted while its lost connection is still being ended can crash the subscriber or leave two readers on one connection with Disconnect without effect for ever; a quick reader has a loss reported twice. Proved for any history in which such publishers are made to wait, Disconnect is called at rest and Listen at any time once a disconnection asked for has begun, for one application goroutine."
  },
  {
   "property": "C111",
   "status": "partial",
   "theorems": [
    "C111_disconnect_partial",
    "C111_deadlock_refuted",
    "C111_ignored_refuted"
   ],
   "note": "False of the code in general: a publisher that connects during Disconnect deadlocks the accept and the disconnect thread; a connection that is lost just then makes Disconnect do nothing. Proved for calls at rest without publishers meanwhile."
  },
  {
   "property": "C112",
   "status": "partial",
   "theorems": [
    "C112_listen_partial",
    "C112_crash_refuted",
    "C112_orphan_refuted",
    "C112_deaf_refuted"
   ],
   "note": "False of the code for Listen right after Disconnect: it can crash, leave the port open for ever, or leave a subscriber that cannot be disconnected. Proved otherwise, after any history as in C110: a Listen during a Disconnect that has begun waits for it."
  },
  {
   "property": "C113",
   "status": "partial",
   "theorems": [
    "C113_alone",
    "C113_stores",
    "C113_new_connection",
    "C113_any_stores_partial",
    "C113_unrelated_partial",
    "C113_torn_refuted",
    "C113_crash_refuted",
    "C113_compressed",
    "C113_compressed_unrelated",
    "C113_put"
   ],
   "note": "False of the code in general: base times are read from the shared array for each measurement, so one packet can be decoded with old and new base times; keys are tested and then read again, so a new connection crashes the goroutine. Proved: whatever is stored, as long as the packet's key is not replaced, nothing crashes, one table is used, values and flags are right and each time whose base time is not replaced; with updates that concern nothing the packet refers to everything is right. The steps of the data goroutine are proved to be those of the packet handler of SubscriberModel when alone (C113_alone), the stores those of the response handlers (C113_stores). A compressed packet is decoded as at one moment between the stores (C113_compressed) if its key is not replaced. Words are read and written atomically and in program order."
  },
  {
   "property": "C114",
   "status": "partial",
   "theorems": [
    "C114_string_exactly",
    "C114_one_time",
    "C114_distinct_partial",
    "C114_short_partial",
    "C114_other_time",
    "C114_zero_refuted"
   ],
   "note": "False of the code outside 1677-09-21 to 2262-04-11, where another time is shown; the zero timestamp shows as 1754. Proved: the text is right exactly within that span. The text is specified by its fields: decimal digits of fixed width, a calendar date, no zeros at the end of the fraction."
  },
  {
   "property": "C115",
   "status": "partial",
   "theorems": [
    "C115_reads_partial",
    "C115_cell_partial",
    "C115_exactly",
    "C115_zero_time",
    "C115_utc_refuted",
    "C115_no_zone_refuted",
    "C115_text_partial",
    "C115_round_trip_partial",
    "C115_milliseconds_refuted"
   ],
   "note": "False of the code: texts in UTC with Z and texts without a zone, both valid in XML Schema, are read as the beginning of year 1, and the text of a value is cut to 10 ms. Proved: numeric zones, any number of digits (nanoseconds kept), exactly which texts are read, and the round trip to 10 ms."
  },
  {
   "property": "C116",
   "status": "partial",
   "theorems": [
    "C116_parse",
    "C116_string",
    "C116_round_trip",
    "C116_distinct",
    "C116_field",
    "C116_field_refuted",
    "C116_braces_refuted"
   ],
   "note": "False of the code: a metadata field that is no Guid is read as the empty Guid or as the bytes before the mistake, and 38 bytes with anything in place of the braces are accepted. Proved otherwise, for all identifiers and texts."
  },
  {
   "property": "C117",
   "status": "partial",
   "theorems": [
    "C117_plain",
    "C117_quotes",
    "C117_braces",
    "C117_some_dashes_refuted"
   ],
   "note": "False of the code for tokens with some of the dashes, and for 32 digits in braces: parsing the expression fails. Proved otherwise for every GUID and every form."
  },
  {
   "property": "C118",
   "status": "proved",
   "theorems": [
    "C118_text",
    "C118_one_nearest",
    "C118_exact",
    "C118_order",
    "C118_determines",
    "C118_special",
    "C118_expression_text"
   ],
   "note": "strconv.FormatFloat is modelled as exact decimal expansion rounded half to even; its fast paths are not modelled."
  },
  {
   "property": "C119",
   "status": "proved",
   "theorems": [
    "C119_text",
    "C119_distinct"
   ],
   "note": "All 32 names are in the specification."
  },
  {
   "property": "C120",
   "status": "partial",
   "theorems": [
    "C120_text",
    "C120_value",
    "C120_special",
    "C120_distinct",
    "C120_time_partial",
    "C120_time_refuted"
   ],
   "note": "False of the code for timestamps outside 1677 to 2262, in particular 0, which show another time of day (C114). Proved otherwise, with C118_determines for what the text of the value determines."
  },
  {
   "property": "C121",
   "status": "partial",
   "theorems": [
    "C121_linear",
    "C121_unregistered",
    "C121_default_partial",
    "C121_default_refuted",
    "C121_written",
    "C121_connection_refuted"
   ],
   "note": "False of the code: every connection, also an automatic reconnection, forgets all records; negative zero becomes positive zero. Proved otherwise; a product beyond the greatest double is left out of C121_linear."
  },
  {
   "property": "C122",
   "status": "partial",
   "theorems": [
    "C122_one_record_partial",
    "C122_registered",
    "C122_first",
    "C122_race_refuted"
   ],
   "note": "False of the code: LookupMetadata ignores what LoadOrStore returns, so goroutines that look up a new signal at the same time get different records and writes to all but one are lost. Proved when they do not, and that a registered record stays the one until a connection is set up."
  },
  {
   "property": "C123",
   "status": "partial",
   "theorems": [
    "C123_field",
    "C123_convert",
    "C123_literal",
    "C123_fits",
    "C123_only",
    "C123_special",
    "C123_no_number_refuted"
   ],
   "note": "False of the code: a field that is no number is read as zero. Proved otherwise for exponents below 100000 (strconv stops counting there); texts with underscores or hexadecimal digits, which Go also accepts, are left out of C123_only."
  },
  {
   "property": "C124",
   "status": "partial",
   "theorems": [
    "C124_field",
    "C124_convert",
    "C124_literal",
    "C124_only_partial",
    "C124_sign_refuted"
   ],
   "note": "False of the code: a sign between point and digits is accepted and shifts the number, and a field that is no number is read as zero. Proved otherwise, for exponents of 32 bits."
  },
  {
   "property": "C125",
   "status": "proved",
   "theorems": [
    "C125_text",
    "C125_same",
    "C125_round_trip",
    "C125_as_double"
   ],
   "note": "The round trip holds for exponents of 32 bits, which is what a Decimal has."
  },
  {
   "property": "C126",
   "status": "proved",
   "theorems": [
    "C126_quotient",
    "C126_exact"
   ],
   "note": "shopspring/decimal with its default DivisionPrecision of 16."
  },
  {
   "property": "C127",
   "status": "proved",
   "theorems": [
    "C127_kept",
    "C127_delivered",
    "C127_full",
    "C127_rule_needed"
   ],
   "note": "Slices the application makes itself have arrays of their own: a part of a delivered slice given back as a slice of its own is not modelled."
  },
  {
   "property": "C128",
   "status": "partial",
   "theorems": [
    "C128_close_partial",
    "C128_one_call_partial",
    "C128_stays_down",
    "C128_early_refuted",
    "C128_in_callback_refuted",
    "C128_in_terminated_refuted",
    "C128_dial_refuted",
    "C128_again_refuted"
   ],
   "note": "False of the code: Join does not wait for a thread that has been started but does not run yet, so Close may return with the connection open; called in a callback it deadlocks; a Dial that is under way connects afterwards; after Disconnect the callback is called again. Proved: any number of calls return, within a bound on steps, and leave the subscriber down, a call that waited returns after the end, and no later Dial connects. A publisher that closes the connection meanwhile is left out (C102_crash_refuted), and so is automatic reconnection, where Close may hang (C38, C108)."
  },
  {
   "property": "C129",
   "status": "partial",
   "theorems": [
    "C129_column",
    "C129_column_determined",
    "C129_row",
    "C129_row_determined_partial",
    "C129_row_determined_refuted",
    "C129_null_refuted",
    "C129_table",
    "C129_data_set",
    "C129_data_set_repeated_refuted",
    "C129_commands",
    "C129_responses",
    "C129_kinds",
    "C129_response_names",
    "C129_kind_names",
    "C129_command_names_partial",
    "C129_command_names_refuted",
    "C129_other_codes",
    "C129_operators",
    "C129_null_tests",
    "C129_signs",
    "C129_functions",
    "C129_names"
   ],
   "note": "False of the code: quotes in strings of a row are not escaped and a missing string shows like the string <NULL>, so different rows can show alike; a data set lists its tables in the order of a map, another one each time; ConfirmUpdateBaseTimes shows as 0x9. The rest is proved; a row determines the texts of its columns where these have no comma."
  },
  {
   "property": "C130",
   "status": "partial",
   "theorems": [
    "C130_stays",
    "C130_lost_partial",
    "C130_once_refuted",
    "C130_next_refuted",
    "C130_wrong_connection_refuted"
   ],
   "note": "False of the code: a command that fails while the reader fails too ends the connection a second time, or the next connection if the application has connected again; a command begun on one connection can be written to the next. Proved: on a connection that stays every command is written once and nothing ends; after a loss everything comes to an end, with at least one callback and at most two and one for each failed command."
  },
  {
   "property": "C131",
   "status": "partial",
   "theorems": [
    "C131_whole",
    "C131_wraps",
    "C131_boolean",
    "C131_boolean_special",
    "C131_decimal",
    "C131_text",
    "C131_float_whole",
    "C131_single_of_double",
    "C131_float_of_decimal",
    "C131_signed_text",
    "C131_unsigned_text",
    "C131_boolean_text",
    "C131_number_text",
    "C131_other_text",
    "C131_impossible",
    "C131_range_refuted",
    "C131_panic_refuted",
    "C131_single_text_refuted"
   ],
   "note": "False of the code: a number beyond the range of the column reads as the number with the same low bits (C131_range_refuted, exactly which in C131_wraps), NaN and the infinities make the read of a Decimal column panic, and a text in a Single column is rounded twice and can miss the nearest number. Proved otherwise for every pair of types. What a Double beyond the range of an integer column and which decimal a Double gives are parameters; NULL, a date in a Boolean column and a column computed from itself are in C80."
  },
  {
   "property": "C132",
   "status": "proved",
   "theorems": [
    "C132_phasors",
    "C132_others",
    "C132_unknown",
    "C132_determines"
   ],
   "note": "unicode.ToUpper as in C44."
  },
  {
   "property": "C133",
   "status": "proved",
   "theorems": [
    "C133_dial",
    "C133_dial_udp",
    "C133_subscribe",
    "C133_retries",
    "C133_reconnects"
   ],
   "note": "The statements give the bytes sent and the times waited. The attempts are fewer than 2^31, as the counter of attempts has 32 bits. The settings text lacks an equals sign after requestNaNValueFilter (C20)."
  },
  {
   "property": "C134",
   "status": "partial",
   "theorems": [
    "C134_stays",
    "C134_apart_partial",
    "C134_ignored_refuted",
    "C134_crash_refuted",
    "C134_twice_refuted",
    "C134_lost_crash_refuted",
    "C134_lost_partial"
   ],
   "note": "Proved: Unsubscribe alone leaves the connection as it was, calls that do not overlap end it properly, and short of a crash a lost connection is always reported and everything ends. False of the code when they overlap: Disconnect is ignored, or a nil pointer is used, or the end is reported twice."
  },
  {
   "property": "C135",
   "status": "partial",
   "theorems": [
    "C135_ending_partial",
    "C135_heard",
    "C135_unsubscribes",
    "C135_disconnects",
    "C135_crash_refuted",
    "C135_leak_refuted",
    "C135_port_lost_refuted",
    "C135_waits_refuted"
   ],
   "note": "Proved for any number of goroutines that call Unsubscribe and Disconnect: short of a crash all calls return within a bound and the channel is closed; no crash when all call the same; and for any calls, when all have returned the next Disconnect is heard. False of the code otherwise: Unsubscribe beside Disconnect can use a nil pointer, Subscribe beside Disconnect leaves its socket open, after which the port can be lost for the life of the process, and Unsubscribe beside Subscribe can wait for the new channel while Disconnect does nothing."
  },
  {
   "property": "C136",
   "status": "partial",
   "theorems": [
    "C136_first_partial",
    "C136_results_stand",
    "C136_trees_stand",
    "C136_again_refuted",
    "C136_set_refuted"
   ],
   "note": "Proved: the first Evaluate selects what SelectDataRows, SelectDataRowSet and SelectSignalIDSet select, its results stand whatever is asked until the next Evaluate, and ExpressionTrees repeats its answer. False of the code: the text is read once, so every Evaluate after an Evaluate or after ExpressionTrees succeeds and selects nothing; and a set asked for before ExpressionTrees stays empty."
  },
  {
   "property": "C137",
   "status": "partial",
   "theorems": [
    "C137_loads",
    "C137_defined",
    "C137_others_partial",
    "C137_again",
    "C137_rows_lost_refuted"
   ],
   "note": "Proved: the load succeeds, the tables the document defines are as in an empty data set, no table disappears or appears otherwise, the others keep their names and columns, and a second load changes nothing. False of the code: a load empties every table of the data set first, so a table the document neither defines nor has records for loses all its rows, and one it has records for gets those."
  },
  {
   "property": "C138",
   "status": "partial",
   "theorems": [
    "C138_never_deadlock_partial",
    "C138_receivers_that_register_refuted",
    "C138_receiver_that_reports_refuted",
    "C138_listening_refuted",
    "C138_reconnecting_refuted"
   ],
   "note": "Proved when receivers inside the lock of the Subscriber use no lock, those inside the lock of the DataSubscriber only report and register with the Subscriber, no command fails while a listening subscriber is being connected to, and no connection is lost again before the reconnection has ended. False of the code otherwise: receivers that register can stop each other for ever (the locks are taken in both orders), so can one that only reports, and a listening subscriber whose first command fails while a receiver is registered stops by itself, and so does one whose connection is lost again while the reconnection sends a command that fails."
  },
  {
   "property": "C139",
   "status": "partial",
   "theorems": [
    "C139_exclusive",
    "C139_no_race_partial",
    "C139_subscription_updated_refuted"
   ],
   "note": "Proved for every registration but one, whatever the receivers do. False of the code for SetSubscriptionUpdatedReceiver, which assigns a field of the DataSubscriber in the lock of the Subscriber."
  },
  {
   "property": "C140",
   "status": "partial",
   "theorems": [
    "C140_registered",
    "C140_receivers",
    "C140_reports",
    "C140_connected_partial",
    "C140_messages_partial",
    "C140_connector_partial",
    "C140_connected_refuted",
    "C140_logger_refuted"
   ],
   "note": "Proved for all receivers and for messages reported through the Subscriber, and for connections unless the subscriber has listened before it dials. False of the code: a logger registered after Dial or Listen gets none of the messages of the library (they go to the one registered before), and after a Listen the connection-established receiver is called twice by every dial and reconnection."
  },
  {
   "property": "C141",
   "status": "partial",
   "theorems": [
    "C141_refused",
    "C141_one_connection_partial",
    "C141_one_connection_refuted"
   ],
   "note": "Calls made after a success are refused under every schedule, and calls that take turns leave one connection at most, the one the subscriber knows. False of the code for calls that overlap: connected is tested before the mutex and not again inside, so any number of goroutines can all connect, and all connections but the last are lost while open."
  },
  {
   "property": "C142",
   "status": "partial",
   "theorems": [
    "C142_once",
    "C142_order_partial",
    "C142_after",
    "C142_order_refuted"
   ],
   "note": "Once and never before what is sequenced before it: proved for everything. In order: proved for measurements, buffer blocks, start times and connections made and ended. False of the code for everything else, which is told by a goroutine started for the one call: any order is possible."
  },
  {
   "property": "C143",
   "status": "partial",
   "theorems": [
    "C143_last_partial",
    "C143_some",
    "C143_last_refuted",
    "C143_mixed_refuted"
   ],
   "note": "Proved for documents each of which is loaded before the next arrives; under every schedule each field is as some received document says. False of the code for documents that arrive while another is being loaded: the first can overwrite the second, and one record can hold fields of both."
  },
  {
   "property": "C144",
   "status": "partial",
   "theorems": [
    "C144_compressed",
    "C144_plain_partial",
    "C144_plain_refuted"
   ],
   "note": "Proved for compressed metadata under every schedule, and for plain metadata if only packets without data are received before the document has been read. False of the code otherwise: the goroutine is given a slice of the read buffer, so the next packet can take the place of the document."
  },
  {
   "property": "C145",
   "status": "partial",
   "theorems": [
    "C145_silent_partial",
    "C145_metadata",
    "C145_again",
    "C145_silent_refuted"
   ],
   "note": "Proved unless AutoRequestMetadata and AutoSubscribe are both set, and in any configuration as long as no metadata is received. False of the code under the default configuration: any metadata received after Unsubscribe, for instance because the configuration of the publisher changed, is followed by the subscription request again."
  },
  {
   "property": "C146",
   "status": "partial",
   "theorems": [
    "C146_plain_partial",
    "C146_endless_partial",
    "C146_zero_partial",
    "C146_dials_partial",
    "C146_next",
    "C146_stops_refuted",
    "C146_twice_refuted",
    "C146_noise_refuted"
   ],
   "note": "Proved if the subscriber never dialed with AutoReconnect; it keeps listening also with MaxRetries -1 or 0, accepts one publisher after another while it listens, and dials nobody unless a dial was already under way. False of the code otherwise: if Listen follows a Dial that failed or a connection that was lost, the next loss starts a reconnect thread whose attempts are all refused; it ends by disconnecting the listener (any MaxRetries above 0) or goes on beside a new connection (-1)."
  },
  {
   "property": "C147",
   "status": "partial",
   "theorems": [
    "C147_latest_partial",
    "C147_read_on",
    "C147_replaced_refuted",
    "C147_given_up_refuted",
    "C147_since_refuted"
   ],
   "note": "Proved for the measurements received while the reader is the last one made, and that all goes on once what is left of a batch has been read. False of the code: a later reader replaces the earlier ones, which return nothing more; and while a measurement waits to be read, the delivering goroutine holds the callback lock, so that no packet is handled, no reader made and no Disconnect completed."
  }
 ]
}