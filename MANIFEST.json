{
 "claims": [
  {
   "property": "C01",
   "status": "proved",
   "theorems": [
    "C01_segment_tiles",
    "C01_outputs_total"
   ],
   "note": ""
  },
  {
   "property": "C02",
   "status": "proved",
   "theorems": [
    "C02_segment_shortest"
   ],
   "note": ""
  },
  {
   "property": "C03",
   "status": "proved",
   "theorems": [
    "C03_zero_distance_refuted"
   ],
   "note": ""
  },
  {
   "property": "C04",
   "status": "proved",
   "theorems": [
    "C04_search_splits"
   ],
   "note": ""
  },
  {
   "property": "C05",
   "status": "proved",
   "theorems": [
    "C05_slice_preserves_text"
   ],
   "note": ""
  },
  {
   "property": "C06",
   "status": "proved",
   "theorems": [
    "C06_segments_are_words"
   ],
   "note": ""
  },
  {
   "property": "C07",
   "status": "proved",
   "theorems": [
    "C07_alphanum_toggle_refuted"
   ],
   "note": ""
  },
  {
   "property": "C08",
   "status": "proved",
   "theorems": [
    "C08_subsegments_well_founded",
    "C08_subsegments_after_calc",
    "C08_subsegments_cover"
   ],
   "note": ""
  },
  {
   "property": "C09",
   "status": "proved",
   "theorems": [
    "C09_search_listing",
    "C09_listing_unique",
    "C09_slice_is_pos_texts",
    "C09_string_renders_pos",
    "C09_search_extends_normal"
   ],
   "note": ""
  },
  {
   "property": "C10",
   "status": "proved",
   "theorems": [
    "C10_split_lossless"
   ],
   "note": ""
  },
  {
   "property": "C11",
   "status": "proved",
   "theorems": [
    "C11_split_groups"
   ],
   "note": ""
  },
  {
   "property": "C12",
   "status": "proved",
   "theorems": [
    "C12_split_stable"
   ],
   "note": ""
  },
  {
   "property": "C13",
   "status": "proved",
   "theorems": [
    "C13_dictionary_is_a_map",
    "C13_histories_run"
   ],
   "note": ""
  },
  {
   "property": "C14",
   "status": "proved",
   "theorems": [
    "C14_find_flag",
    "C14_flag_is_membership_refuted"
   ],
   "note": ""
  },
  {
   "property": "C15",
   "status": "proved",
   "theorems": [
    "C15_counters",
    "C15_step"
   ],
   "note": ""
  },
  {
   "property": "C16",
   "status": "proved",
   "theorems": [
    "C16_lookup_prefixes"
   ],
   "note": ""
  },
  {
   "property": "C17",
   "status": "proved",
   "theorems": [
    "C17_add_stores_normal_form",
    "C17_stored_words_are_normal",
    "C17_find_own_spelling_refuted"
   ],
   "note": ""
  },
  {
   "property": "C18",
   "status": "proved",
   "theorems": [
    "C18_remove_only_its_word",
    "C18_readd_missing_word",
    "C18_readd_stored_word"
   ],
   "note": ""
  },
  {
   "property": "C19",
   "status": "proved",
   "theorems": [
    "C19_load_str_adds_the_lines",
    "C19_line_entry_unique",
    "C19_first_load_sets_defaults"
   ],
   "note": ""
  },
  {
   "property": "C20",
   "status": "proved",
   "theorems": [
    "C20_first_entry_wins",
    "C20_later_loads_change_nothing"
   ],
   "note": ""
  },
  {
   "property": "C21",
   "status": "proved",
   "theorems": [
    "C21_load_dict_discards",
    "C21_load_dict_after_empty_fails",
    "C21_load_dict_after_empty_panics",
    "C21_loads_keep_words_refuted"
   ],
   "note": ""
  },
  {
   "property": "C22",
   "status": "proved",
   "theorems": [
    "C22_one_field_line_inherits_pos",
    "C22_reader_short_lines"
   ],
   "note": ""
  },
  {
   "property": "C23",
   "status": "proved",
   "theorems": [
    "C23_cut_dag_nohmm_preserves_text"
   ],
   "note": ""
  },
  {
   "property": "C24",
   "status": "proved",
   "theorems": [
    "C24_cut_dag_preserves_text"
   ],
   "note": ""
  },
  {
   "property": "C25",
   "status": "proved",
   "theorems": [
    "C25_dag_lists_dictionary_words"
   ],
   "note": ""
  },
  {
   "property": "C26",
   "status": "proved",
   "theorems": [
    "C26_best_route_nohmm",
    "C26_best_route_hmm",
    "C26_edge_weight",
    "C26_weights_comparable"
   ],
   "note": ""
  },
  {
   "property": "C27",
   "status": "proved",
   "theorems": [
    "C27_most_probable_refuted"
   ],
   "note": ""
  },
  {
   "property": "C28",
   "status": "proved",
   "theorems": [
    "C28_cut_all"
   ],
   "note": ""
  },
  {
   "property": "C29",
   "status": "proved",
   "theorems": [
    "C29_cut_search"
   ],
   "note": ""
  },
  {
   "property": "C30",
   "status": "proved",
   "theorems": [
    "C30_suggest_one",
    "C30_suggest_many",
    "C30_suggested_value_one",
    "C30_suggested_value_many"
   ],
   "note": ""
  },
  {
   "property": "C31",
   "status": "proved",
   "theorems": [
    "C31_state_path_legal",
    "C31_tables_of_the_source"
   ],
   "note": ""
  },
  {
   "property": "C32",
   "status": "proved",
   "theorems": [
    "C32_state_path_optimal",
    "C32_state_path_optimal_finite"
   ],
   "note": ""
  },
  {
   "property": "C33",
   "status": "proved",
   "theorems": [
    "C33_hmm_cut_preserves_text",
    "C33_hmm_cut_follows_path"
   ],
   "note": ""
  },
  {
   "property": "C34",
   "status": "proved",
   "theorems": [
    "C34_empty_skip_match_hangs",
    "C34_empty_han_match_panics",
    "C34_termination_refuted"
   ],
   "note": ""
  },
  {
   "property": "C35",
   "status": "proved",
   "theorems": [
    "C35_model_is_global",
    "C35_cut_mod_sets_model",
    "C35_no_model"
   ],
   "note": ""
  },
  {
   "property": "C36",
   "status": "proved",
   "theorems": [
    "C36_pos_viterbi_never_stuck"
   ],
   "note": ""
  },
  {
   "property": "C37",
   "status": "proved",
   "theorems": [
    "C37_pos_viterbi_order_independent",
    "C37_pos_cut_order_independent",
    "C37_builtin_tables"
   ],
   "note": ""
  },
  {
   "property": "C38",
   "status": "proved",
   "theorems": [
    "C38_regexp_split_lossless",
    "C38_regexp_split_positions"
   ],
   "note": ""
  },
  {
   "property": "C39",
   "status": "proved",
   "theorems": [
    "C39_pos_cut_preserves_text",
    "C39_pos_cut_hmm_preserves_text",
    "C39_tagger_words",
    "C39_tagger_text",
    "C39_tagger_pieces_unique"
   ],
   "note": ""
  },
  {
   "property": "C40",
   "status": "proved",
   "theorems": [
    "C40_dict_pos",
    "C40_at_most_one_word_lost",
    "C40_stored_pos_refuted"
   ],
   "note": ""
  },
  {
   "property": "C41",
   "status": "proved",
   "theorems": [
    "C41_pos_cut_plain",
    "C41_pos_cut_hmm",
    "C41_comparable",
    "C41_most_probable_refuted"
   ],
   "note": ""
  },
  {
   "property": "C42",
   "status": "proved",
   "theorems": [
    "C42_stop_words_are_a_set",
    "C42_add_stop_panics_without_map"
   ],
   "note": ""
  },
  {
   "property": "C43",
   "status": "proved",
   "theorems": [
    "C43_filters",
    "C43_filters_are_idempotent",
    "C43_trim_pos_keeps_stop_word_refuted"
   ],
   "note": ""
  },
  {
   "property": "C44",
   "status": "proved",
   "theorems": [
    "C44_trim_with_pos",
    "C44_no_tags_removes_everything_refuted",
    "C44_pos_trim"
   ],
   "note": ""
  },
  {
   "property": "C45",
   "status": "proved",
   "theorems": [
    "C45_filter_html",
    "C45_no_tag_left"
   ],
   "note": ""
  },
  {
   "property": "C46",
   "status": "proved",
   "theorems": [
    "C46_split_num",
    "C46_split_nums"
   ],
   "note": ""
  },
  {
   "property": "C47",
   "status": "proved",
   "theorems": [
    "C47_cut_str_joins",
    "C47_pos_str_joins",
    "C47_cut_str_can_be_undone",
    "C47_long_separators_refuted"
   ],
   "note": ""
  },
  {
   "property": "C48",
   "status": "proved",
   "theorems": [
    "C48_find_all_occs",
    "C48_empty_word_never_ends_refuted"
   ],
   "note": ""
  },
  {
   "property": "C49",
   "status": "proved",
   "theorems": [
    "C49_analyze_without_text",
    "C49_analyze_with_text",
    "C49_empty_word_never_ends_refuted",
    "C49_spans_in_text_order_refuted"
   ],
   "note": ""
  },
  {
   "property": "C50",
   "status": "proved",
   "theorems": [
    "C50_join_is_concat",
    "C50_equals"
   ],
   "note": ""
  },
  {
   "property": "C51",
   "status": "proved",
   "theorems": [
    "C51_extract_tags",
    "C51_order_independent",
    "C51_negative_count_panics",
    "C51_beginnings_of_entries_weigh_nothing_refuted"
   ],
   "note": ""
  },
  {
   "property": "C52",
   "status": "proved",
   "theorems": [
    "C52_idf_dictionaries_are_reachable",
    "C52_default_is_median",
    "C52_add_to_new_idf_panics",
    "C52_unknown_words_weigh_nothing_after_load_refuted"
   ],
   "note": ""
  },
  {
   "property": "C53",
   "status": "proved",
   "theorems": [
    "C53_stop_words_are_shared",
    "C53_instances_are_independent_refuted",
    "C53_load_dict_misses_its_instance_refuted"
   ],
   "note": ""
  },
  {
   "property": "C54",
   "status": "proved",
   "theorems": [
    "C54_text_rank",
    "C54_default_tags",
    "C54_result_order_irrelevant",
    "C54_map_order_matters_refuted",
    "C54_positive_weights_refuted"
   ],
   "note": ""
  },
  {
   "property": "C55",
   "status": "proved",
   "theorems": [
    "C55_readers_do_not_interfere",
    "C55_alone",
    "C55_reader_during_add_token_refuted",
    "C55_reader_around_add_token_refuted",
    "C55_two_writers_refuted"
   ],
   "note": ""
  },
  {
   "property": "C56",
   "status": "proved",
   "theorems": [
    "C56_plain_lists",
    "C56_only_requested_paths",
    "C56_all_requested_in_order",
    "C56_bare_tag_adds_nothing_refuted"
   ],
   "note": ""
  },
  {
   "property": "C57",
   "status": "proved",
   "theorems": [
    "C57_round_trip",
    "C57_range"
   ],
   "note": ""
  },
  {
   "property": "C58",
   "status": "proved",
   "theorems": [
    "C58_rune_filters",
    "C58_rune_filters_are_idempotent",
    "C58_filter_lang_is_no_script_filter_refuted"
   ],
   "note": ""
  },
  {
   "property": "C59",
   "status": "proved",
   "theorems": [
    "C59_reader_is_load_str",
    "C59_load_dict_is_load_str"
   ],
   "note": ""
  },
  {
   "property": "C60",
   "status": "proved",
   "theorems": [
    "C60_reader_returns",
    "C60_reader_loops_on_read_errors",
    "C60_reader_sep_loops_on_read_errors"
   ],
   "note": ""
  },
  {
   "property": "C61",
   "status": "proved",
   "theorems": [
    "C61_fourth_field_is_a_line"
   ],
   "note": ""
  },
  {
   "property": "C62",
   "status": "proved",
   "theorems": [
    "C62_embed_loads_all_texts",
    "C62_embed_replaces_first_text",
    "C62_every_text_loaded_refuted",
    "C62_embed_lists",
    "C62_embed_names"
   ],
   "note": ""
  },
  {
   "property": "C63",
   "status": "proved",
   "theorems": [
    "C63_blank_line_adds_empty_word"
   ],
   "note": ""
  },
  {
   "property": "C64",
   "status": "proved",
   "theorems": [
    "C64_pos_viterbi_optimal"
   ],
   "note": ""
  },
  {
   "property": "C65",
   "status": "proved",
   "theorems": [
    "C65_regexp_split_limit",
    "C65_limit_exceeded_refuted"
   ],
   "note": ""
  },
  {
   "property": "C66",
   "status": "proved",
   "theorems": [
    "C66_load_stop",
    "C66_load_stop_embed",
    "C66_load_stop_embed_drops_first_text_refuted",
    "C66_long_line_ends_file_refuted"
   ],
   "note": ""
  },
  {
   "property": "C67",
   "status": "proved",
   "theorems": [
    "C67_trim_pos_punct",
    "C67_trim_pos_punct_overwrites_argument_refuted"
   ],
   "note": ""
  },
  {
   "property": "C68",
   "status": "proved",
   "theorems": [
    "C68_cut_trim_keeps_text",
    "C68_cut_stop_drops_stop_words_only",
    "C68_cut_trim_html_keeps_text",
    "C68_cut_url_keeps_text"
   ],
   "note": ""
  },
  {
   "property": "C69",
   "status": "proved",
   "theorems": [
    "C69_reader_with_separator",
    "C69_line_entry_unique",
    "C69_reader_is_load_str",
    "C69_one_field_line_refuted"
   ],
   "note": ""
  },
  {
   "property": "C70",
   "status": "proved",
   "theorems": [
    "C70_load_dict_reads_all",
    "C70_load_dict_stops_at_missing"
   ],
   "note": ""
  },
  {
   "property": "C71",
   "status": "proved",
   "theorems": [
    "C71_new",
    "C71_new_returns",
    "C71_new_embed",
    "C71_constructors_agree",
    "C71_constructors_agree_refuted"
   ],
   "note": ""
  },
  {
   "property": "C72",
   "status": "proved",
   "theorems": [
    "C72_token_to_bytes",
    "C72_same_as_string_refuted"
   ],
   "note": ""
  },
  {
   "property": "C73",
   "status": "proved",
   "theorems": [
    "C73_new_tag",
    "C73_states_are_tags"
   ],
   "note": ""
  },
  {
   "property": "C74",
   "status": "proved",
   "theorems": [
    "C74_dictionaries_are_reachable",
    "C74_segment_after_any_history",
    "C74_histories_in_order_return",
    "C74_missing_dictionary_panics"
   ],
   "note": ""
  },
  {
   "property": "C75",
   "status": "proved",
   "theorems": [
    "C75_segment_prefix",
    "C75_cut_prefix",
    "C75_case_is_forgotten",
    "C75_search_prefix_refuted"
   ],
   "note": ""
  },
  {
   "property": "C76",
   "status": "proved",
   "theorems": [
    "C76_cut_suffix",
    "C76_cut_prefix_refuted"
   ],
   "note": ""
  },
  {
   "property": "C77",
   "status": "proved",
   "theorems": [
    "C77_same_words_same_results",
    "C77_histories",
    "C77_insertion_order",
    "C77_total_matters_refuted"
   ],
   "note": ""
  },
  {
   "property": "C78",
   "status": "proved",
   "theorems": [
    "C78_words_of_the_text_decide",
    "C78_adding_other_words",
    "C78_after_calc_refuted"
   ],
   "note": ""
  },
  {
   "property": "C79",
   "status": "proved",
   "theorems": [
    "C79_runs_cut_again",
    "C79_one_unit",
    "C79_recut_refuted"
   ],
   "note": ""
  },
  {
   "property": "C80",
   "status": "proved",
   "theorems": [
    "C80_setup_returns",
    "C80_extract_tags_panics",
    "C80_setup_order"
   ],
   "note": ""
  },
  {
   "property": "C81",
   "status": "proved",
   "theorems": [
    "C81_ascii_split",
    "C81_ascii_lower",
    "C81_ascii_filters",
    "C81_stray_bytes"
   ],
   "note": ""
  },
  {
   "property": "C82",
   "status": "proved",
   "theorems": [
    "C82_setup_returns",
    "C82_pos_cut",
    "C82_text_rank"
   ],
   "note": ""
  },
  {
   "property": "C83",
   "status": "proved",
   "theorems": [
    "C83_each_sees_its_calls",
    "C83_histories_in_order_return",
    "C83_early_copies_are_independent",
    "C83_late_copies_stay_equal",
    "C83_copies_are_independent_refuted"
   ],
   "note": ""
  },
  {
   "property": "C84",
   "status": "proved",
   "theorems": [
    "C84_segmenting_ignores_case",
    "C84_dag_cuts_ignore_case",
    "C84_dictionary_ignores_case",
    "C84_option_alpha_refuted",
    "C84_package_pos_refuted"
   ],
   "note": ""
  },
  {
   "property": "C85",
   "status": "proved",
   "theorems": [
    "C85_tags_do_not_matter",
    "C85_calls_with_other_tags"
   ],
   "note": ""
  },
  {
   "property": "C86",
   "status": "proved",
   "theorems": [
    "C86_suggested_word_is_kept",
    "C86_ascii_letters_refuted",
    "C86_suggested_parts_refuted"
   ],
   "note": ""
  },
  {
   "property": "C87",
   "status": "proved",
   "theorems": [
    "C87_most_probable",
    "C87_float32_refuted"
   ],
   "note": ""
  },
  {
   "property": "C88",
   "status": "proved",
   "theorems": [
    "C88_pointers_and_indices",
    "C88_kept_results",
    "C88_kept_search_refuted"
   ],
   "note": ""
  },
  {
   "property": "C89",
   "status": "proved",
   "theorems": [
    "C89_segments_share",
    "C89_words_share",
    "C89_reuse_refuted"
   ],
   "note": ""
  },
  {
   "property": "C90",
   "status": "proved",
   "theorems": [
    "C90_before_separator",
    "C90_rest",
    "C90_sentences",
    "C90_float32_refuted"
   ],
   "note": ""
  },
  {
   "property": "C91",
   "status": "proved",
   "theorems": [
    "C91_cut_all",
    "C91_cut_all_add",
    "C91_cut_all_remove",
    "C91_cutters",
    "C91_cutters_remove",
    "C91_only_occurring_words_refuted"
   ],
   "note": ""
  },
  {
   "property": "C92",
   "status": "proved",
   "theorems": [
    "C92_safe",
    "C92_returns",
    "C92_words",
    "C92_unaffected",
    "C92_find_unaffected",
    "C92_find_during_remove_refuted",
    "C92_segment_during_calc_refuted"
   ],
   "note": ""
  },
  {
   "property": "C93",
   "status": "proved",
   "theorems": [
    "C93_read_back",
    "C93_injective",
    "C93_any_words_refuted"
   ],
   "note": ""
  },
  {
   "property": "C94",
   "status": "proved",
   "theorems": [
    "C94_decode",
    "C94_encode",
    "C94_classes",
    "C94_lower",
    "C94_filters"
   ],
   "note": ""
  },
  {
   "property": "C95",
   "status": "proved",
   "theorems": [
    "C95_distances",
    "C95_complete",
    "C95_later_calls",
    "C95_calc_during_remove_refuted"
   ],
   "note": ""
  },
  {
   "property": "C96",
   "status": "proved",
   "theorems": [
    "C96_segments",
    "C96_words",
    "C96_add",
    "C96_any_requests"
   ],
   "note": ""
  },
  {
   "property": "C97",
   "status": "proved",
   "theorems": [
    "C97_no_deadlock",
    "C97_terminates",
    "C97_complete",
    "C97_done_has_room"
   ],
   "note": ""
  },
  {
   "property": "C98",
   "status": "proved",
   "theorems": [
    "C98_hmm_emissions",
    "C98_pos_emissions",
    "C98_states_have_emissions",
    "C98_exception",
    "C98_hmm_most_probable",
    "C98_tagger_most_probable",
    "C98_distribution_refuted",
    "C98_states_of_emissions_refuted"
   ],
   "note": ""
  },
  {
   "property": "C99",
   "status": "proved",
   "theorems": [
    "C99_builtin_probabilities",
    "C99_missing_emissions_avoided",
    "C99_only_single"
   ],
   "note": ""
  },
  {
   "property": "C100",
   "status": "proved",
   "theorems": [
    "C100_unknown_character",
    "C100_unknown_character_cut",
    "C100_most_probable_refuted"
   ],
   "note": ""
  },
  {
   "property": "C101",
   "status": "proved",
   "theorems": [
    "C101_builtin_probabilities",
    "C101_missing_emissions_avoided",
    "C101_single",
    "C101_first_state_refuted",
    "C101_last_state_refuted"
   ],
   "note": ""
  },
  {
   "property": "C102",
   "status": "proved",
   "theorems": [
    "C102_nearly_shortest",
    "C102_shortest_refuted"
   ],
   "note": ""
  },
  {
   "property": "C103",
   "status": "proved",
   "theorems": [
    "C103_nearly_most_probable"
   ],
   "note": ""
  },
  {
   "property": "C104",
   "status": "proved",
   "theorems": [
    "C104_nearly_most_probable",
    "C104_nearly_most_probable_hmm"
   ],
   "note": ""
  },
  {
   "property": "C105",
   "status": "proved",
   "theorems": [
    "C105_nearly_most_probable"
   ],
   "note": ""
  },
  {
   "property": "C106",
   "status": "proved",
   "theorems": [
    "C106_nearly_most_probable",
    "C106_builtin"
   ],
   "note": ""
  },
  {
   "property": "C107",
   "status": "proved",
   "theorems": [
    "C107_nearly_exact_ranking"
   ],
   "note": ""
  },
  {
   "property": "C108",
   "status": "proved",
   "theorems": [
    "C108_exact_scores",
    "C108_nearly_exact_ranking"
   ],
   "note": ""
  },
  {
   "property": "C109",
   "status": "proved",
   "theorems": [
    "C109_suggested_word_is_kept",
    "C109_rounded_log_is_accurate"
   ],
   "note": ""
  },
  {
   "property": "C110",
   "status": "proved",
   "theorems": [
    "C110_changed_frequency",
    "C110_raised_word_lost_refuted"
   ],
   "note": ""
  },
  {
   "property": "C111",
   "status": "proved",
   "theorems": [
    "C111_unused_word",
    "C111_unused_word_recomputed",
    "C111_single_character_refuted"
   ],
   "note": ""
  },
  {
   "property": "C112",
   "status": "proved",
   "theorems": [
    "C112_unused_word_cut",
    "C112_absent_word_hmm",
    "C112_absent_word_search",
    "C112_first_character_refuted",
    "C112_hmm_refuted"
   ],
   "note": ""
  }
 ]
}