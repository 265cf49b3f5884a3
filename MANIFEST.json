{
 "claims": [
  {
   "property": "C01",
   "status": "proved",
   "theorems": [
    "C01_split_exact",
    "C01_reads_do_not_matter",
    "C01_nothing_lost"
   ],
   "note": ""
  },
  {
   "property": "C02",
   "status": "proved",
   "theorems": [
    "C02_line_length"
   ],
   "note": ""
  },
  {
   "property": "C03",
   "status": "proved",
   "theorems": [
    "C03_calls_return",
    "C03_iteration_ends",
    "C03_none_is_final"
   ],
   "note": ""
  },
  {
   "property": "C04",
   "status": "proved",
   "theorems": [
    "C04_buffer_bounded"
   ],
   "note": ""
  },
  {
   "property": "C05",
   "status": "proved",
   "theorems": [
    "C05_numbers_non_decreasing",
    "C05_numbers_bounded",
    "C05_numbers_exact",
    "C05_numbers_exact_refuted"
   ],
   "note": "the unconditional exactness claim is refuted, as the property states"
  },
  {
   "property": "C06",
   "status": "proved",
   "theorems": [
    "C06_exact",
    "C06_before_long_line",
    "C06_only_nul_invented",
    "C06_full_reads_invent_nothing",
    "C06_long_lines_dropped_partial",
    "C06_lines_lost_refuted",
    "C06_padding_refuted",
    "C06_truncated_refuted"
   ],
   "note": "exact for every sequence of reads against the reading machine of IterReadSpec.v; the stronger claim is refuted in three ways, as the property states"
  },
  {
   "property": "C07",
   "status": "proved",
   "theorems": [
    "C07_lines_before_error",
    "C06_exact"
   ],
   "note": "C07_lines_before_error when no over-long line has to be drained; C06_exact (with Fails) for every sequence of reads"
  },
  {
   "property": "C08",
   "status": "proved",
   "theorems": [
    "C08_no_panic_without_overflow_checks",
    "C08_no_panic_with_overflow_checks_partial",
    "C08_overflow_panic_refuted",
    "C08_panic_exactly",
    "C08_checks_do_not_matter"
   ],
   "note": "proved without overflow checks; with them, an exact condition for the panic"
  },
  {
   "property": "C09",
   "status": "proved",
   "theorems": [
    "C09_strings_not_split",
    "C09_json_separators_split"
   ],
   "note": "for streams where no over-long line has to be drained"
  },
  {
   "property": "C10",
   "status": "proved",
   "theorems": [
    "C10_exact_detection",
    "C10_C11_C15_C17_any_stream",
    "C10_from_bytes",
    "marker_meaning"
   ],
   "note": "any_stream adds streams with the log-classify marker; from_bytes composes with the line iterator"
  },
  {
   "property": "C11",
   "status": "proved",
   "theorems": [
    "C11_contexts_are_neighbours",
    "C10_C11_C15_C17_any_stream"
   ],
   "note": ""
  },
  {
   "property": "C12",
   "status": "proved",
   "theorems": [
    "C12_exact",
    "C12_new_at",
    "C12_behind_new",
    "C12_shared_lines",
    "C12_single_batch",
    "C12_across_batches",
    "C12_last_after_refuted",
    "C12_disjoint_refuted"
   ],
   "note": "the exact contexts for any number of batches; the ideal ones for one batch; across batches what does not hold is refuted, as the property states"
  },
  {
   "property": "C13",
   "status": "proved",
   "theorems": [
    "C13_never_panics"
   ],
   "note": "for any search function, also one returning too few or too many distances"
  },
  {
   "property": "C14",
   "status": "proved",
   "theorems": [
    "C14_exact",
    "C14_single_batch",
    "C14_first_marker",
    "C14_quiet_section",
    "C14_stops_at_marker_refuted"
   ],
   "note": "exact number of lines read for every stream; the readable form for streams of a single batch; the wider claim (nothing behind a marker is reported) is refuted"
  },
  {
   "property": "C15",
   "status": "proved",
   "theorems": [
    "C15_counters",
    "C15_trainer_counters",
    "C10_C11_C15_C17_any_stream"
   ],
   "note": ""
  },
  {
   "property": "C16",
   "status": "proved",
   "theorems": [
    "C16_prefix_before_failure",
    "C16_nothing_lost_refuted"
   ],
   "note": "the stronger claim is refuted, as the property states"
  },
  {
   "property": "C17",
   "status": "proved",
   "theorems": [
    "C17_skip_set",
    "C17_second_source",
    "C10_C11_C15_C17_any_stream",
    "C16_prefix_before_failure"
   ],
   "note": ""
  },
  {
   "property": "C18",
   "status": "proved",
   "theorems": [
    "C18_trained_exactly_once",
    "C18_firsts_meaning"
   ],
   "note": ""
  },
  {
   "property": "C19",
   "status": "proved",
   "theorems": [
    "C19_one_distance_each",
    "C19_one_matrix"
   ],
   "note": ""
  },
  {
   "property": "C20",
   "status": "proved",
   "theorems": [
    "C20_training_order_irrelevant",
    "C20_chunks_irrelevant"
   ],
   "note": "also for repeated lines: only the set of trained lines matters"
  },
  {
   "property": "C21",
   "status": "proved",
   "theorems": [
    "C21_known_line_close",
    "C21_trained_lines_never_reported",
    "words_meaning"
   ],
   "note": "second theorem composes trainer, index and processor"
  },
  {
   "property": "C22",
   "status": "proved",
   "theorems": [
    "C22_nothing_shared",
    "C22_empty_baseline",
    "C22_novel_line_reported",
    "words_meaning"
   ],
   "note": ""
  },
  {
   "property": "C23",
   "status": "proved",
   "theorems": [
    "C23_more_baselines_closer"
   ],
   "note": "any superset of baseline lines, in any batches"
  },
  {
   "property": "C24",
   "status": "proved",
   "theorems": [
    "C24_range",
    "C24_never_negative_refuted"
   ],
   "note": "negativity is shown to occur, as the property states"
  },
  {
   "property": "C25",
   "status": "proved",
   "theorems": [
    "C25_matrix_search_accurate",
    "C25_reference_search_accurate",
    "C25_searches_agree",
    "C25_known_line_zero",
    "words_meaning"
   ],
   "note": ""
  },
  {
   "property": "C26",
   "status": "proved",
   "theorems": [
    "C26_total_and_linear",
    "C26_recursion_depth"
   ],
   "note": ""
  },
  {
   "property": "C27",
   "status": "proved",
   "theorems": [
    "C27_word_by_word",
    "C27_words_unique",
    "C27_words_exist",
    "C27_text_unique",
    "C27_equal_words_equal_lines",
    "regex_matcher_correct"
   ],
   "note": ""
  },
  {
   "property": "C28",
   "status": "proved",
   "theorems": [
    "C28_one_token_each",
    "C28_volatile_words_erased",
    "C28_one_class"
   ],
   "note": "words may also carry surrounding punctuation"
  },
  {
   "property": "C29",
   "status": "proved",
   "theorems": [
    "C29_no_digit_survives"
   ],
   "note": ""
  },
  {
   "property": "C30",
   "status": "proved",
   "theorems": [
    "C30_errors_amplified"
   ],
   "note": ""
  },
  {
   "property": "C31",
   "status": "proved",
   "theorems": [
    "C31_value_not_copied",
    "C31_value_not_copied_line"
   ],
   "note": ""
  },
  {
   "property": "C32",
   "status": "proved",
   "theorems": [
    "C32_filter_exact",
    "C32_surrounding_space_irrelevant"
   ],
   "note": "exact: also the converse"
  },
  {
   "property": "C33",
   "status": "proved",
   "theorems": [
    "C33_characters",
    "C33_plain_name",
    "C33_stripped_unique",
    "C33_kept_characters",
    "C33_digits_do_not_matter",
    "C33_inserted_digits",
    "C33_rotation",
    "C33_compressed",
    "C33_compressed_rotation_refuted"
   ],
   "note": "the false part is refuted, as the property states"
  },
  {
   "property": "C34",
   "status": "proved",
   "theorems": [
    "C34_services",
    "C34_volumes",
    "C34_pods",
    "C34_instances"
   ],
   "note": ""
  },
  {
   "property": "C35",
   "status": "proved",
   "theorems": [
    "C35_relevant_sources_in_order",
    "C35_first_error_reported",
    "C35_nothing_left_is_an_error"
   ],
   "note": ""
  },
  {
   "property": "C36",
   "status": "proved",
   "theorems": [
    "C36_partition",
    "C36_each_source_in_one_group",
    "C36_succeeds",
    "C36_errors_reported"
   ],
   "note": ""
  },
  {
   "property": "C37",
   "status": "proved",
   "theorems": [
    "C37_all_regular_files",
    "C37_errors_are_kept",
    "C37_relative_names_of_files",
    "C37_relative_names_of_files_refuted",
    "C37_relative_names_of_links",
    "C37_relative_names_of_links_refuted"
   ],
   "note": "the panics are shown to occur, as the property states"
  },
  {
   "property": "C38",
   "status": "proved",
   "theorems": [
    "C38_no_panic_without_prefix",
    "C38_no_panic_if_long",
    "C38_no_panic_refuted",
    "C38_crawled_sources_have_a_prefix"
   ],
   "note": "refuted exactly for urls shorter than 42 bytes"
  },
  {
   "property": "C39",
   "status": "proved",
   "theorems": [
    "C39_never_decompressed",
    "C39_compressed_files_are_decompressed_refuted"
   ],
   "note": "refuted for every path, as the property states"
  },
  {
   "property": "C40",
   "status": "proved",
   "theorems": [
    "C40_index_of_a_name",
    "C40_several_indexes",
    "C40_trained_names"
   ],
   "note": ""
  },
  {
   "property": "C41",
   "status": "proved",
   "theorems": [
    "C41_report_of_groups",
    "C41_report_exists",
    "C41_totals"
   ],
   "note": ""
  },
  {
   "property": "C42",
   "status": "proved",
   "theorems": [
    "C42_exact",
    "C42_accounted",
    "C42_entries",
    "C42_refuted"
   ],
   "note": "exact fate of every source; C42_accounted does not need distinct sources; the wider claim (every source is accounted for) is refuted"
  },
  {
   "property": "C43",
   "status": "proved",
   "theorems": [
    "C43_report_numbers",
    "C43_live_numbers_off_by_one",
    "C43_plain_file",
    "C43_blank_lines_refuted",
    "C43_sub_lines_refuted"
   ],
   "note": "the false parts are refuted, as the property states"
  },
  {
   "property": "C44",
   "status": "proved",
   "theorems": [
    "C44_list",
    "C44_schedule_independent",
    "C44_sequential"
   ],
   "note": ""
  },
  {
   "property": "C45",
   "status": "proved",
   "theorems": [
    "C45_terminates",
    "C45_returns",
    "C45_requests",
    "C45_each_page_once_refuted"
   ],
   "note": "the false part is refuted, as the property states"
  },
  {
   "property": "C46",
   "status": "proved",
   "theorems": [
    "C46_nothing_invented",
    "C46_calm_end_complete",
    "C46_ends",
    "C46_items",
    "C46_panic_once",
    "C46_panic_reported",
    "C46_no_file_lost_refuted",
    "C46_counters_refuted"
   ],
   "note": "the false part is refuted, as the property states; C46_nothing_invented and C46_calm_end_complete are for sites whose pages do not make a worker panic"
  },
  {
   "property": "C47",
   "status": "proved",
   "theorems": [
    "C47_replay",
    "C47_caller_sees_remote",
    "C47_race_refuted"
   ],
   "note": "for one process at a time; with two processes the property is refuted by a race"
  },
  {
   "property": "C48",
   "status": "proved",
   "theorems": [
    "C48_origin",
    "C48_crash_detected",
    "C48_early_drop_refuted",
    "C48_connection_failure_refuted"
   ],
   "note": "the false part is refuted, as the property states"
  },
  {
   "property": "C49",
   "status": "proved",
   "theorems": [
    "C49_kinds",
    "C49_same_kind"
   ],
   "note": ""
  },
  {
   "property": "C50",
   "status": "proved",
   "theorems": [
    "C50_stable",
    "C50_race_refuted"
   ],
   "note": "for one process at a time; with two processes the property is refuted by a race"
  },
  {
   "property": "C51",
   "status": "proved",
   "theorems": [
    "C51_best",
    "C51_unique",
    "C51_content",
    "C51_score_range"
   ],
   "note": "that the samples are successful builds of the job is left to the api, which is asked for them"
  },
  {
   "property": "C52",
   "status": "proved",
   "theorems": [
    "C52_panics",
    "C52_no_panic",
    "C52_target",
    "C52_periodic_refuted",
    "C52_periodic_target_refuted"
   ],
   "note": "the false part is refuted, as the property states"
  },
  {
   "property": "C53",
   "status": "proved",
   "theorems": [
    "C53_recognised",
    "C53_uid",
    "C53_tenant",
    "C53_whitelabel",
    "C53_exact",
    "C53_content",
    "C53_last_build",
    "C53_first_t_refuted",
    "C53_query_refuted"
   ],
   "note": "the false part is refuted, as the property states"
  },
  {
   "property": "C54",
   "status": "proved",
   "theorems": [
    "C54_existing_model",
    "C54_new_model",
    "C54_next_run",
    "C54_damaged_model_blocks",
    "C54_ambiguous",
    "C54_other_files_unchanged",
    "C54_train",
    "C54_train_without_model",
    "C54_unimplemented",
    "C54_interrupted_save_refuted",
    "C54_lost_refuted",
    "C54_report_over_model_refuted",
    "C54_race_refuted"
   ],
   "note": "the false parts are refuted, as the property states"
  },
  {
   "property": "C55",
   "status": "proved",
   "theorems": [
    "C55_numbers_collapse",
    "C55_collapse_unique",
    "C55_same_line_up_to_numbers",
    "C55_short_words_dropped"
   ],
   "note": ""
  },
  {
   "property": "C56",
   "status": "proved",
   "theorems": [
    "C56_known_content_not_reported",
    "C56_baseline_as_target",
    "C56_mixed_modes_refuted"
   ],
   "note": "the false part is refuted, as the property states"
  },
  {
   "property": "C57",
   "status": "proved",
   "theorems": [
    "C57_order_irrelevant",
    "C57_training_order_irrelevant"
   ],
   "note": ""
  },
  {
   "property": "C58",
   "status": "proved",
   "theorems": [
    "C58_model_of_baselines",
    "C58_unopened_baseline"
   ],
   "note": ""
  },
  {
   "property": "C59",
   "status": "proved",
   "theorems": [
    "C59_live_output",
    "C59_live_exists",
    "C59_live_shows_report",
    "C59_unopened_refuted"
   ],
   "note": "the false part is refuted, as the property states"
  },
  {
   "property": "C60",
   "status": "proved",
   "theorems": [
    "C60_noise_not_reported"
   ],
   "note": ""
  },
  {
   "property": "C61",
   "status": "proved",
   "theorems": [
    "C61_novel_lines_represented",
    "C61_only_novel_lines",
    "C61_nothing_shared_is_reported"
   ],
   "note": ""
  },
  {
   "property": "C62",
   "status": "proved",
   "theorems": [
    "C62_path",
    "C62_url",
    "C62_baselines",
    "C62_baselines_no_panic",
    "C62_refused",
    "C62_http_name_refuted",
    "C62_other_names"
   ],
   "note": "the false part is refuted, as the property states"
  },
  {
   "property": "C63",
   "status": "proved",
   "theorems": [
    "C63_links",
    "C63_links_in_order",
    "C63_page",
    "C63_every_anchor_refuted"
   ],
   "note": "the false part is refuted, as the property states"
  },
  {
   "property": "C64",
   "status": "proved",
   "theorems": [
    "C64_reuse",
    "C64_host",
    "C64_panics_stay",
    "C64_reuse_after_failure_refuted",
    "C64_stays_on_host_refuted",
    "C64_found_once_refuted"
   ],
   "note": "the false parts are refuted, as the property states"
  },
  {
   "property": "C65",
   "status": "proved",
   "theorems": [
    "C65_listing_replayed",
    "C65_recovers_refuted",
    "C65_listing_codec"
   ],
   "note": "the false part is refuted, as the property states"
  },
  {
   "property": "C66",
   "status": "proved",
   "theorems": [
    "C66_fresh",
    "C66_other_change"
   ],
   "note": ""
  },
  {
   "property": "C67",
   "status": "proved",
   "theorems": [
    "C67_asked_again",
    "C67_answer_kept",
    "C67_crash_heals"
   ],
   "note": "for one process at a time"
  },
  {
   "property": "C68",
   "status": "proved",
   "theorems": [
    "C68_unknown_fields",
    "C68_skipped",
    "C68_kept",
    "C68_decoded",
    "C68_accepted"
   ],
   "note": ""
  },
  {
   "property": "C69",
   "status": "proved",
   "theorems": [
    "C69_sources",
    "C69_commands",
    "C69_report"
   ],
   "note": ""
  },
  {
   "property": "C70",
   "status": "proved",
   "theorems": [
    "C70_page",
    "C70_page_escaped",
    "C70_markup",
    "C70_markup_escaped",
    "C70_rendered",
    "C70_errors_not_shown",
    "C70_line_refuted",
    "C70_name_refuted"
   ],
   "note": "the html library is a parameter; the false part is refuted, as the property states"
  },
  {
   "property": "C71",
   "status": "proved",
   "theorems": [
    "C71_all_datasets",
    "C71_first_failure",
    "C71_any_stream",
    "C71_exact",
    "C71_passing",
    "C71_errors",
    "C71_no_panic",
    "C71_same_content"
   ],
   "note": "the yaml decoder and the directory listing are parameters"
  },
  {
   "property": "C72",
   "status": "proved",
   "theorems": [
    "C72_lines",
    "C72_prefix",
    "C72_length",
    "C72_read_back"
   ],
   "note": "the random generator is a parameter"
  },
  {
   "property": "C73",
   "status": "proved",
   "theorems": [
    "C73_report_round_trip",
    "C73_report_can_be_saved",
    "C73_model_round_trip",
    "C73_model_can_be_saved"
   ],
   "note": "gzip, and the codecs of urls, dates and matrices, are parameters with laws"
  },
  {
   "property": "C74",
   "status": "proved",
   "theorems": [
    "C74_report_saves",
    "C74_model_saves",
    "C74_report_cut",
    "C74_model_cut",
    "C74_success_loads_refuted",
    "C74_previous_kept_refuted"
   ],
   "note": "the false parts are refuted, as the property states"
  },
  {
   "property": "C75",
   "status": "proved",
   "theorems": [
    "C75_report_again",
    "C75_model_again",
    "C75_checksum_refuted",
    "C75_no_panic_refuted",
    "C75_kind_refuted"
   ],
   "note": "the false parts are refuted, as the property states"
  },
  {
   "property": "C76",
   "status": "proved",
   "theorems": [
    "C76_same_directory",
    "C76_no_name",
    "C76_replaces",
    "C76_render",
    "C76_usage",
    "C76_raw_report",
    "C76_report_kept_refuted",
    "C76_own_file_refuted",
    "C76_raw_kept_refuted"
   ],
   "note": "the false parts are refuted, as the property states"
  },
  {
   "property": "C77",
   "status": "proved",
   "theorems": [
    "C77_result",
    "C77_anomalies_are_lines",
    "C77_time",
    "C77_created",
    "C77_calendar",
    "C77_path_shown",
    "C77_url_shown",
    "C77_build_shown",
    "C77_table",
    "C77_summary",
    "C77_names_one",
    "C77_clean",
    "C77_rendered",
    "C77_saved_page",
    "C77_number_refuted",
    "C77_hundred_refuted"
   ],
   "note": "the false parts are refuted, as the property states"
  },
  {
   "property": "C78",
   "status": "proved",
   "theorems": [
    "C78_percent",
    "C78_anomaly",
    "C78_live",
    "C78_report",
    "C78_lines",
    "C78_same_refuted"
   ],
   "note": "the false part is refuted, as the property states"
  },
  {
   "property": "C79",
   "status": "proved",
   "theorems": [
    "C79_links",
    "C79_counts"
   ],
   "note": ""
  },
  {
   "property": "C80",
   "status": "proved",
   "theorems": [
    "C80_layout",
    "C80_search",
    "C80_round_trip",
    "C80_cut",
    "C80_bytes",
    "C80_loaded",
    "C80_search_loaded_refuted"
   ],
   "note": "sprs is modelled by its documentation, checking what it reads or not (C80_loaded is for a checking sprs); the false part is refuted, as the property states"
  },
  {
   "property": "C81",
   "status": "proved",
   "theorems": [
    "C81_defined",
    "C81_searches",
    "C81_saved",
    "C81_always_defined_refuted"
   ],
   "note": "the false part is refuted, as the property states"
  },
  {
   "property": "C82",
   "status": "proved",
   "theorems": [
    "C82_trained",
    "C82_can_be_saved",
    "C82_saved_model",
    "C82_again",
    "C82_noop"
   ],
   "note": "gzip, and the codecs of urls and dates, are parameters with laws"
  },
  {
   "property": "C83",
   "status": "proved",
   "theorems": [
    "C83_quiet",
    "C83_terminal",
    "C83_failures",
    "C83_messages_refuted"
   ],
   "note": "what tracing writes in the debug mode is left out; the false part is refuted, as the property states"
  },
  {
   "property": "C84",
   "status": "proved",
   "theorems": [
    "C84_groups",
    "C84_deterministic",
    "C84_iterator"
   ],
   "note": "the debug formats of names and sources are a parameter"
  },
  {
   "property": "C85",
   "status": "proved",
   "theorems": [
    "C85_nested",
    "C85_resources",
    "C85_title",
    "C85_expanded",
    "C85_separators"
   ],
   "note": "the library escapes texts or not (a parameter)"
  },
  {
   "property": "C86",
   "status": "proved",
   "theorems": [
    "C86_saved",
    "C86_baseline_again"
   ],
   "note": "gzip, and the codecs of urls and dates, are parameters with laws; for models that were not trained by the program a search can panic (C80)"
  },
  {
   "property": "C87",
   "status": "proved",
   "theorems": [
    "C87_parts",
    "C87_items",
    "C87_infos",
    "C87_debug"
   ],
   "note": "jQuery is modelled by its documentation: find, parent, toggleClass, toggle and the bubbling of clicks; the stylesheets (hidden, debuginfo) are not modelled"
  },
  {
   "property": "C88",
   "status": "proved",
   "theorems": [
    "C88_trained",
    "C88_live",
    "C88_failure",
    "C88_report",
    "C88_train_then_analyse",
    "C88_train_then_report",
    "C88_again",
    "C88_same"
   ],
   "note": "the logs do not change during a command; clap, the standard error output and LOGREDUCE_LOG are not modelled; a file that lost its end after a save that reported success is an error of the next command (C74)"
  },
  {
   "property": "C89",
   "status": "proved",
   "theorems": [
    "C89_lines",
    "C89_total",
    "C89_words",
    "C89_one_reading"
   ],
   "note": "the set of word characters of the regex library is a parameter"
  },
  {
   "property": "C90",
   "status": "proved",
   "theorems": [
    "C90_diff",
    "C90_known",
    "C90_nothing",
    "C90_new"
   ],
   "note": "the standard error output is left out; sprs, clap and the opening and decompression of files are modelled by their documentation or parameters"
  },
  {
   "property": "C91",
   "status": "proved",
   "theorems": [
    "C91_stack",
    "C91_enough",
    "C91_plain_file",
    "C91_blank",
    "C91_bounded_stack_refuted"
   ],
   "note": "the stack is counted in nested calls of the three methods; a compiler may remove some of them, but not those for empty lines; the false part is refuted, as the property states"
  },
  {
   "property": "C92",
   "status": "proved",
   "theorems": [
    "C92_page",
    "C92_plain"
   ],
   "note": "for every run that succeeds; escaping is by html_builder, a parameter; that such a run exists is shown by an example"
  },
  {
   "property": "C93",
   "status": "proved",
   "theorems": [
    "C93_diff",
    "C93_one_group",
    "C93_known",
    "C93_nothing",
    "C93_itself",
    "C93_new"
   ],
   "note": "if the logs of one name in the baselines are not all read as json or all not, the first decides (C58); the standard error output is left out; the listing of an address is a parameter here (crawling: C44, C45)"
  },
  {
   "property": "C94",
   "status": "proved",
   "theorems": [
    "C94_page",
    "C94_plain",
    "C94_known",
    "C94_nothing",
    "C94_new"
   ],
   "note": "for every run that succeeds; escaping is by html_builder, a parameter; that such a run exists is shown by an example"
  },
  {
   "property": "C95",
   "status": "proved",
   "theorems": [
    "C95_rotated",
    "C95_build",
    "C95_none",
    "C95_lines",
    "C93_diff",
    "C94_page"
   ],
   "note": "which build is found for a build is C51; the messages of the search are a parameter; the standard error output is left out"
  },
  {
   "property": "C96",
   "status": "proved",
   "theorems": [
    "C96_query",
    "C96_decoded",
    "C96_target",
    "C96_pages",
    "C96_baseline",
    "C96_none",
    "C96_stopped",
    "C96_messages",
    "C96_compares",
    "C96_url",
    "C96_no_baseline",
    "C96_page_stopped"
   ],
   "note": "Url::parse, Url::join and the text of json are parameters; so are the answers of the servers, the same to the same question (the cache: C41, C67); the panic for a sample without a change is what the code does (C52)"
  },
  {
   "property": "C97",
   "status": "proved",
   "theorems": [
    "C97_lazy",
    "C97_unread",
    "C97_delivery",
    "C97_training_unread",
    "C97_training_delivery",
    "C97_again",
    "C97_training_again",
    "C97_trained_enough",
    "C97_analysed_after_training",
    "C97_trained_after_analysis_refuted",
    "C97_failed_download_refuted"
   ],
   "note": "gzip and the digest of a name are parameters as in C47; a line of 5999 bytes or more is C06"
  },
  {
   "property": "C98",
   "status": "proved",
   "theorems": [
    "C98_alike",
    "C98_order",
    "C98_more",
    "C98_single_name"
   ],
   "note": "for runs as in C93, to the standard output; what tokenizing removes is C28, C29, C31, C60, C89"
  },
  {
   "property": "C99",
   "status": "proved",
   "theorems": [
    "C99_hidden",
    "C99_trained",
    "C99_length_refuted"
   ],
   "note": "what tokenizing removes is C28, C29, C31, C60, C89; debug and test commands, and the messages for LOGREDUCE_LOG, which show lines, are not in the model of main"
  },
  {
   "property": "C100",
   "status": "proved",
   "theorems": [
    "C100_last",
    "C100_all",
    "C100_early_refuted"
   ],
   "note": "gzip and the digest of a name are parameters as in C47; that the archive does not depend on the sizes of the writes is a hypothesis (steady), also met by the example"
  },
  {
   "property": "C101",
   "status": "proved",
   "theorems": [
    "C101_findings",
    "C101_report",
    "C101_live",
    "C101_page",
    "C101_screen",
    "C101_diff",
    "C101_noise",
    "C101_marker_refuted"
   ],
   "note": "lines alike through the tokenizer of the code: C28, C29, C31, C60, C89"
  },
  {
   "property": "C102",
   "status": "proved",
   "theorems": [
    "C102_grown",
    "C102_shown",
    "C102_diff",
    "C102_unfinished_refuted"
   ],
   "note": "that one line is searched independently of the others (pointwise) is C19 for the search of the code; logs that end with a read error are C16, markers C14"
  }
 ]
}