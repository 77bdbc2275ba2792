{
 "claims": [
  {
   "property": "C01",
   "status": "proved",
   "theorems": [
    "C01_roll_exact",
    "C01_roll_queue",
    "C01_roll_queue_failure",
    "C01_roll_errors"
   ],
   "note": ""
  },
  {
   "property": "C02",
   "status": "proved",
   "theorems": [
    "C02_invalid_request",
    "C02_nothing_recorded"
   ],
   "note": ""
  },
  {
   "property": "C03",
   "status": "proved",
   "theorems": [
    "C03_queue_fifo"
   ],
   "note": ""
  },
  {
   "property": "C04",
   "status": "proved",
   "theorems": [
    "C04_recorded_legal",
    "C04_results_legal"
   ],
   "note": ""
  },
  {
   "property": "C05",
   "status": "proved",
   "theorems": [
    "C05_rolled_dice_exact",
    "C05_log_is_consumption",
    "C05_hint_refuted"
   ],
   "note": ""
  },
  {
   "property": "C06",
   "status": "proved",
   "theorems": [
    "C06_all_dice_reported_refuted",
    "C06_reported"
   ],
   "note": ""
  },
  {
   "property": "C07",
   "status": "proved",
   "theorems": [
    "C07_replay"
   ],
   "note": ""
  },
  {
   "property": "C08",
   "status": "proved",
   "theorems": [
    "C08_later_dice_irrelevant"
   ],
   "note": ""
  },
  {
   "property": "C09",
   "status": "proved",
   "theorems": [
    "C09_calculation_value",
    "C09_eval_value",
    "C09_every_expression"
   ],
   "note": ""
  },
  {
   "property": "C10",
   "status": "proved",
   "theorems": [
    "C10_division_by_zero",
    "C10_division_by_zero_math",
    "C10_only_division_by_zero",
    "C10_every_expression"
   ],
   "note": ""
  },
  {
   "property": "C11",
   "status": "proved",
   "theorems": [
    "C11_ceiling_exact",
    "C11_rounding_exact",
    "C11_truncation_exact",
    "C11_ceiling_beyond_refuted",
    "C11_rounding_beyond_refuted",
    "C11_division_by_one_refuted"
   ],
   "note": ""
  },
  {
   "property": "C12",
   "status": "proved",
   "theorems": [
    "C12_wraps_modulo"
   ],
   "note": ""
  },
  {
   "property": "C13",
   "status": "proved",
   "theorems": [
    "C13_literal"
   ],
   "note": ""
  },
  {
   "property": "C14",
   "status": "proved",
   "theorems": [
    "C14_pure_and_total"
   ],
   "note": ""
  },
  {
   "property": "C15",
   "status": "proved",
   "theorems": [
    "C15_d_expr_exact",
    "C15_d_expr_any_feeder",
    "C15_d_total_math"
   ],
   "note": ""
  },
  {
   "property": "C16",
   "status": "proved",
   "theorems": [
    "C16_d_comp_exact",
    "C16_verdict"
   ],
   "note": ""
  },
  {
   "property": "C17",
   "status": "proved",
   "theorems": [
    "C17_computed_operands_fail",
    "C17_documented_example_refuted"
   ],
   "note": ""
  },
  {
   "property": "C18",
   "status": "proved",
   "theorems": [
    "C18_random_number_in_range",
    "C18_every_value_reachable",
    "C18_bad_range"
   ],
   "note": ""
  },
  {
   "property": "C19",
   "status": "proved",
   "theorems": [
    "C19_loose_random_fails",
    "C19_loose_random_fails_comp"
   ],
   "note": ""
  },
  {
   "property": "C20",
   "status": "proved",
   "theorems": [
    "C20_phases"
   ],
   "note": ""
  },
  {
   "property": "C21",
   "status": "proved",
   "theorems": [
    "C21_basic_exact",
    "C21_basic_any_feeder",
    "C21_number_of_dice"
   ],
   "note": ""
  },
  {
   "property": "C22",
   "status": "proved",
   "theorems": [
    "C22_success_count",
    "C22_matching_is_count",
    "C22_bounds",
    "C22_complement"
   ],
   "note": ""
  },
  {
   "property": "C23",
   "status": "proved",
   "theorems": [
    "C23_reroll_exact",
    "C23_at_most_cap",
    "C23_initial_rolls_first"
   ],
   "note": ""
  },
  {
   "property": "C24",
   "status": "proved",
   "theorems": [
    "C24_conservation",
    "C24_conservation_comparison"
   ],
   "note": ""
  },
  {
   "property": "C25",
   "status": "proved",
   "theorems": [
    "C25_r_list",
    "C25_r_comp",
    "C25_u_expr",
    "C25_u_comp",
    "C25_succeeds",
    "C25_succeeds_u"
   ],
   "note": ""
  },
  {
   "property": "C26",
   "status": "proved",
   "theorems": [
    "C26_r_comparison"
   ],
   "note": ""
  },
  {
   "property": "C27",
   "status": "proved",
   "theorems": [
    "C27_u_expr_exact",
    "C27_number_of_groups"
   ],
   "note": ""
  },
  {
   "property": "C28",
   "status": "proved",
   "theorems": [
    "C28_max_and_total"
   ],
   "note": ""
  },
  {
   "property": "C29",
   "status": "proved",
   "theorems": [
    "C29_u_comparison"
   ],
   "note": ""
  },
  {
   "property": "C30",
   "status": "proved",
   "theorems": [
    "C30_bonus_settled"
   ],
   "note": ""
  },
  {
   "property": "C31",
   "status": "proved",
   "theorems": [
    "C31_choice_selects",
    "C31_every_legal_die",
    "C31_every_item"
   ],
   "note": ""
  },
  {
   "property": "C32",
   "status": "proved",
   "theorems": [
    "C32_only_alloc_panics",
    "C32_alloc_limit",
    "C32_crashes_refuted"
   ],
   "note": ""
  },
  {
   "property": "C33",
   "status": "proved",
   "theorems": [
    "C33_items_clean"
   ],
   "note": ""
  },
  {
   "property": "C34",
   "status": "proved",
   "theorems": [
    "C34_echo_of_product_with_quotient",
    "C34_values_differ"
   ],
   "note": ""
  },
  {
   "property": "C35",
   "status": "proved",
   "theorems": [
    "C35_round_trip"
   ],
   "note": ""
  },
  {
   "property": "C36",
   "status": "proved",
   "theorems": [
    "C36_command_notation",
    "C36_after_operands",
    "C36_after_values"
   ],
   "note": ""
  },
  {
   "property": "C37",
   "status": "proved",
   "theorems": [
    "C37_parser_total"
   ],
   "note": ""
  },
  {
   "property": "C38",
   "status": "proved",
   "theorems": [
    "C38_shape",
    "C38_exactly_the_grammar",
    "C38_unambiguous"
   ],
   "note": ""
  },
  {
   "property": "C39",
   "status": "proved",
   "theorems": [
    "C39_case_insensitive"
   ],
   "note": ""
  },
  {
   "property": "C40",
   "status": "proved",
   "theorems": [
    "C40_random_element",
    "C40_arithmetic_rejected",
    "C40_comparison_rejected"
   ],
   "note": ""
  },
  {
   "property": "C41",
   "status": "proved",
   "theorems": [
    "C41_comment_ignored",
    "C41_failing_roll",
    "C41_not_a_command"
   ],
   "note": ""
  },
  {
   "property": "C42",
   "status": "proved",
   "theorems": [
    "C42_calculation_and_choice",
    "C42_other_commands",
    "C42_nothing_follows"
   ],
   "note": ""
  },
  {
   "property": "C43",
   "status": "proved",
   "theorems": [
    "C43_secret",
    "C43_twice",
    "C43_not_secret"
   ],
   "note": ""
  },
  {
   "property": "C44",
   "status": "proved",
   "theorems": [
    "C44_replies",
    "C44_message"
   ],
   "note": ""
  },
  {
   "property": "C45",
   "status": "proved",
   "theorems": [
    "C45_exponential",
    "C45_accepted",
    "C45_no_polynomial_bound"
   ],
   "note": ""
  },
  {
   "property": "C46",
   "status": "proved",
   "theorems": [
    "C46_chain",
    "C46_grouping_unique"
   ],
   "note": ""
  },
  {
   "property": "C47",
   "status": "proved",
   "theorems": [
    "C47_dice_given_back",
    "C47_repeatable"
   ],
   "note": ""
  },
  {
   "property": "C48",
   "status": "proved",
   "theorems": [
    "C48_one_feeder",
    "C48_no_failed_assertion",
    "C48_eval",
    "C48_roll",
    "C48_set_dice_queue",
    "C48_set_die_feeder"
   ],
   "note": ""
  },
  {
   "property": "C49",
   "status": "proved",
   "theorems": [
    "C49_never_ends_at_eof",
    "C49_only_quit",
    "C49_finite_input",
    "C49_quit_ends"
   ],
   "note": ""
  },
  {
   "property": "C50",
   "status": "proved",
   "theorems": [
    "C50_round_trip",
    "C50_language",
    "C50_malformed",
    "C50_malformed_entry",
    "C50_error_text"
   ],
   "note": ""
  },
  {
   "property": "C51",
   "status": "proved",
   "theorems": [
    "C51_case_round_trip",
    "C51_file_round_trip",
    "C51_numbering",
    "C51_files",
    "C51_cutting",
    "C51_error_texts"
   ],
   "note": ""
  },
  {
   "property": "C52",
   "status": "proved",
   "theorems": [
    "C52_infos",
    "C52_find",
    "C52_list",
    "C52_select",
    "C52_history",
    "C52_only_basic",
    "C52_ids_any_order",
    "C52_same_map",
    "C52_infos_any_order"
   ],
   "note": ""
  },
  {
   "property": "C53",
   "status": "proved",
   "theorems": [
    "C53_isolated"
   ],
   "note": ""
  },
  {
   "property": "C54",
   "status": "proved",
   "theorems": [
    "C54_parsed",
    "C54_integer_expressions",
    "C54_choice_items",
    "C54_text",
    "C54_plain_items",
    "C54_parsed_text"
   ],
   "note": ""
  },
  {
   "property": "C55",
   "status": "proved",
   "theorems": [
    "C55_contents",
    "C55_no_other_route",
    "C55_ok_iff_200",
    "C55_error",
    "C55_array",
    "C55_routes"
   ],
   "note": ""
  },
  {
   "property": "C56",
   "status": "proved",
   "theorems": [
    "C56_echo_is_stable"
   ],
   "note": ""
  },
  {
   "property": "C57",
   "status": "proved",
   "theorems": [
    "C57_replay",
    "C57_left_dice_irrelevant"
   ],
   "note": ""
  },
  {
   "property": "C58",
   "status": "proved",
   "theorems": [
    "C58_verdict",
    "C58_recorded",
    "C58_file",
    "C58_written"
   ],
   "note": ""
  },
  {
   "property": "C59",
   "status": "proved",
   "theorems": [
    "C59_same_command"
   ],
   "note": ""
  },
  {
   "property": "C60",
   "status": "proved",
   "theorems": [
    "C60_no_crash"
   ],
   "note": ""
  },
  {
   "property": "C61",
   "status": "proved",
   "theorems": [
    "C61_case_insensitive",
    "C61_identical",
    "C61_parse_errors"
   ],
   "note": ""
  },
  {
   "property": "C62",
   "status": "proved",
   "theorems": [
    "C62_echo",
    "C62_quotient_refuted",
    "C62_min_refuted"
   ],
   "note": ""
  },
  {
   "property": "C63",
   "status": "proved",
   "theorems": [
    "C63_help",
    "C63_list_games",
    "C63_set_game",
    "C63_ast",
    "C63_eval",
    "C63_usage",
    "C63_frame"
   ],
   "note": ""
  },
  {
   "property": "C64",
   "status": "proved",
   "theorems": [
    "C64_last_message",
    "C64_has_messages",
    "C64_valid"
   ],
   "note": ""
  },
  {
   "property": "C65",
   "status": "proved",
   "theorems": [
    "C65_objects",
    "C65_caller"
   ],
   "note": ""
  },
  {
   "property": "C66",
   "status": "proved",
   "theorems": [
    "C66_max",
    "C66_sum",
    "C66_inspect"
   ],
   "note": ""
  },
  {
   "property": "C67",
   "status": "proved",
   "theorems": [
    "C67_execute",
    "C67_eval_reads",
    "C67_notation_reads",
    "C67_sexp_reads",
    "C67_var_args_in_place",
    "C67_determine_in_place",
    "C67_parsed"
   ],
   "note": ""
  },
  {
   "property": "C68",
   "status": "proved",
   "theorems": [
    "C68_error_text",
    "C68_executed",
    "C68_places"
   ],
   "note": ""
  },
  {
   "property": "C69",
   "status": "proved",
   "theorems": [
    "C69_suggestions_help",
    "C69_nothing_else"
   ],
   "note": ""
  },
  {
   "property": "C70",
   "status": "proved",
   "theorems": [
    "C70_reason",
    "C70_arithmetic",
    "C70_comparison"
   ],
   "note": ""
  },
  {
   "property": "C71",
   "status": "proved",
   "theorems": [
    "C71_totals",
    "C71_verdicts",
    "C71_plain_roll",
    "C71_typed_totals"
   ],
   "note": ""
  },
  {
   "property": "C72",
   "status": "proved",
   "theorems": [
    "C72_queued_or_random"
   ],
   "note": ""
  },
  {
   "property": "C73",
   "status": "proved",
   "theorems": [
    "C73_exact",
    "C73_reroll",
    "C73_explode",
    "C73_any_outcome",
    "C73_text"
   ],
   "note": ""
  },
  {
   "property": "C74",
   "status": "proved",
   "theorems": [
    "C74_one_answer_each",
    "C74_all_answers",
    "C74_totals_distribution",
    "C74_chance_of_success",
    "C74_successes_distribution",
    "C74_choice_distribution",
    "C74_typed_totals",
    "C74_typed_chance",
    "C74_typed_successes",
    "C74_typed_choice",
    "C74_plain_text"
   ],
   "note": ""
  },
  {
   "property": "C75",
   "status": "proved",
   "theorems": [
    "C75_broken_bytes",
    "C75_mended"
   ],
   "note": ""
  },
  {
   "property": "C76",
   "status": "proved",
   "theorems": [
    "C76_typed_command",
    "C76_nothing_else",
    "C76_unambiguous"
   ],
   "note": ""
  },
  {
   "property": "C77",
   "status": "proved",
   "theorems": [
    "C77_unbiased",
    "C77_oracle",
    "C77_seeded_legal",
    "C77_generator",
    "C77_tempering",
    "C77_sequence",
    "C77_seed"
   ],
   "note": ""
  },
  {
   "property": "C78",
   "status": "proved",
   "theorems": [
    "C78_character",
    "C78_broken",
    "C78_valid",
    "C78_unambiguous",
    "C78_encode"
   ],
   "note": ""
  },
  {
   "property": "C79",
   "status": "proved",
   "theorems": [
    "C79_answer",
    "C79_nothing_else",
    "C79_one_reply",
    "C79_values",
    "C79_calculation"
   ],
   "note": ""
  },
  {
   "property": "C80",
   "status": "proved",
   "theorems": [
    "C80_reasons",
    "C80_random",
    "C80_never_fails",
    "C80_typed"
   ],
   "note": ""
  },
  {
   "property": "C81",
   "status": "proved",
   "theorems": [
    "C81_work",
    "C81_linear",
    "C81_exponential_in_depth"
   ],
   "note": ""
  },
  {
   "property": "C82",
   "status": "proved",
   "theorems": [
    "C82_until_miss",
    "C82_dice_taken",
    "C82_reroll_successes"
   ],
   "note": ""
  },
  {
   "property": "C83",
   "status": "proved",
   "theorems": [
    "C83_average_total",
    "C83_symmetric",
    "C83_average_successes"
   ],
   "note": ""
  },
  {
   "property": "C84",
   "status": "proved",
   "theorems": [
    "C84_body_is_json",
    "C84_routes",
    "C84_entries",
    "C84_harmless"
   ],
   "note": ""
  },
  {
   "property": "C85",
   "status": "proved",
   "theorems": [
    "C85_every_answer",
    "C85_distribution",
    "C85_all_lists",
    "C85_chance",
    "C85_average",
    "C85_typed",
    "C85_typed_chance",
    "C85_successes"
   ],
   "note": ""
  },
  {
   "property": "C86",
   "status": "proved",
   "theorems": [
    "C86_report",
    "C86_otherwise",
    "C86_green",
    "C86_names",
    "C86_readable",
    "C86_accept",
    "C86_more_files",
    "C86_recorded"
   ],
   "note": ""
  },
  {
   "property": "C87",
   "status": "proved",
   "theorems": [
    "C87_control_characters",
    "C87_valid_utf8"
   ],
   "note": ""
  },
  {
   "property": "C88",
   "status": "proved",
   "theorems": [
    "C88_same_place",
    "C88_canonical",
    "C88_unique",
    "C88_test_data"
   ],
   "note": ""
  },
  {
   "property": "C89",
   "status": "proved",
   "theorems": [
    "C89_limit",
    "C89_defaults",
    "C89_generous",
    "C89_strict",
    "C89_broken_bytes",
    "C89_memoize_refuted"
   ],
   "note": ""
  },
  {
   "property": "C90",
   "status": "proved",
   "theorems": [
    "C90_errors",
    "C90_size"
   ],
   "note": ""
  },
  {
   "property": "C91",
   "status": "proved",
   "theorems": [
    "C91_totals",
    "C91_success",
    "C91_typed",
    "C91_successes",
    "C91_easier_target",
    "C91_modifier"
   ],
   "note": ""
  },
  {
   "property": "C92",
   "status": "proved",
   "theorems": [
    "C92_same_odds",
    "C92_same_chance",
    "C92_typed",
    "C92_opposite",
    "C92_same_successes"
   ],
   "note": ""
  },
  {
   "property": "C93",
   "status": "proved",
   "theorems": [
    "C93_one_by_one",
    "C93_independent",
    "C93_no_memory",
    "C93_any_order",
    "C93_repeated"
   ],
   "note": ""
  },
  {
   "property": "C94",
   "status": "proved",
   "theorems": [
    "C94_sums",
    "C94_verdict",
    "C94_any_order",
    "C94_successes",
    "C94_typed"
   ],
   "note": ""
  }
 ]
}