{
 "claims": [
  {
   "property": "C01",
   "status": "proved",
   "theorems": [
    "C01_play_capture_rule"
   ],
   "note": "play implements the capture rule of Go"
  },
  {
   "property": "C02",
   "status": "proved",
   "theorems": [
    "C02_groups_are_components"
   ],
   "note": "groups are exactly the connected components"
  },
  {
   "property": "C03",
   "status": "proved",
   "theorems": [
    "C03_liberties_exact"
   ],
   "note": "group liberties are exact"
  },
  {
   "property": "C04",
   "status": "proved",
   "theorems": [
    "C04_stone_counts"
   ],
   "note": "stone counts agree with the board"
  },
  {
   "property": "C05",
   "status": "proved",
   "theorems": [
    "C05_hash_of_position"
   ],
   "note": "the Zobrist hash is a function of the position only"
  },
  {
   "property": "C06",
   "status": "proved",
   "theorems": [
    "C06_equality_is_position_equality",
    "C06_equality_is_equivalence"
   ],
   "note": "board equality is position equality"
  },
  {
   "property": "C07",
   "status": "proved",
   "theorems": [
    "C07_no_panic"
   ],
   "note": "playing on an empty point never panics nor loops, in debug or release"
  },
  {
   "property": "C08",
   "status": "proved",
   "theorems": [
    "C08_panics_exactly",
    "C08_goes_on_for_ever_refuted"
   ],
   "note": "The natural claim is false (theorem with suffix _refuted, concrete witness); the exact behaviour is proved beside it."
  },
  {
   "property": "C09",
   "status": "proved",
   "theorems": [
    "C09_builds_agree",
    "C09_scores_agree"
   ],
   "note": "debug and release builds agree"
  },
  {
   "property": "C10",
   "status": "proved",
   "theorems": [
    "C10_refusal_changes_nothing"
   ],
   "note": "a refused move changes nothing"
  },
  {
   "property": "C11",
   "status": "proved",
   "theorems": [
    "C11_legals_are_accepted_moves"
   ],
   "note": "legals() lists exactly the accepted moves"
  },
  {
   "property": "C12",
   "status": "proved",
   "theorems": [
    "C12_suicide_check_exact"
   ],
   "note": "suicide detection is exact"
  },
  {
   "property": "C13",
   "status": "proved",
   "theorems": [
    "C13_capture_prediction_exact"
   ],
   "note": "capture prediction is exact"
  },
  {
   "property": "C14",
   "status": "proved",
   "theorems": [
    "C14_every_chain_breathes"
   ],
   "note": "no chain without liberties ever stands on the board of a legal game"
  },
  {
   "property": "C15",
   "status": "proved",
   "theorems": [
    "C15_simple_ko_exact"
   ],
   "note": "the simple ko rule is exact"
  },
  {
   "property": "C16",
   "status": "proved",
   "theorems": [
    "C16_ko_refuses_repetitions_only"
   ],
   "note": "superko refuses only repetitions"
  },
  {
   "property": "C17",
   "status": "proved",
   "theorems": [
    "C17_superko_refuses_every_repetition_refuted",
    "C17_superko_exact",
    "C17_capturing_moves_never_repeat"
   ],
   "note": "The natural claim is false (theorem with suffix _refuted, concrete witness); the exact behaviour is proved beside it."
  },
  {
   "property": "C18",
   "status": "proved",
   "theorems": [
    "C18_prisoners_account_for_stones"
   ],
   "note": "prisoners account for every stone"
  },
  {
   "property": "C19",
   "status": "proved",
   "theorems": [
    "C19_counters_never_overflow"
   ],
   "note": "the prisoner counters never overflow"
  },
  {
   "property": "C20",
   "status": "proved",
   "theorems": [
    "C20_turns_alternate",
    "C20_black_begins"
   ],
   "note": "turns alternate"
  },
  {
   "property": "C21",
   "status": "proved",
   "theorems": [
    "C21_pass_count",
    "C21_two_passes_end_the_game"
   ],
   "note": "two consecutive passes pause the game, and only they do"
  },
  {
   "property": "C22",
   "status": "proved",
   "theorems": [
    "C22_paused_game_refuses",
    "C22_resume"
   ],
   "note": "a paused game refuses every move until resumed"
  },
  {
   "property": "C23",
   "status": "proved",
   "theorems": [
    "C23_resignation_final"
   ],
   "note": "resignation is final"
  },
  {
   "property": "C24",
   "status": "proved",
   "theorems": [
    "C24_no_moves_left_is_over_refuted",
    "C24_finished_game_refuses_refuted",
    "C24_outcome_ignored"
   ],
   "note": "The natural claim is false (theorem with suffix _refuted, concrete witness); the exact behaviour is proved beside it."
  },
  {
   "property": "C25",
   "status": "proved",
   "theorems": [
    "C25_region",
    "C25_regions"
   ],
   "note": "get_group_from_point returns the connected region"
  },
  {
   "property": "C26",
   "status": "proved",
   "theorems": [
    "C26_territories"
   ],
   "note": "territory counting is exact"
  },
  {
   "property": "C27",
   "status": "proved",
   "theorems": [
    "C27_score_exact",
    "C27_score_rounded"
   ],
   "note": "the score is the documented sum"
  },
  {
   "property": "C28",
   "status": "proved",
   "theorems": [
    "C28_outcome_exact",
    "C28_outcome_any_komi",
    "C28_no_outcome_iff_not_over"
   ],
   "note": "the outcome agrees with the score"
  },
  {
   "property": "C29",
   "status": "proved",
   "theorems": [
    "C29_push_order",
    "C29_push_many"
   ],
   "note": "push order does not matter"
  },
  {
   "property": "C30",
   "status": "proved",
   "theorems": [
    "C30_remove_chain"
   ],
   "note": "removing a group removes exactly that group"
  },
  {
   "property": "C31",
   "status": "proved",
   "theorems": [
    "C31_verification_exact",
    "C31_verification_predicts_play_refuted"
   ],
   "note": "The natural claim is false (theorem with suffix _refuted, concrete witness); the exact behaviour is proved beside it."
  },
  {
   "property": "C32",
   "status": "proved",
   "theorems": [
    "C32_enumerations"
   ],
   "note": "board enumerations are complete"
  },
  {
   "property": "C33",
   "status": "proved",
   "theorems": [
    "C33_pseudo_legals_vec_exact",
    "C33_vec_equals_iterator_refuted"
   ],
   "note": "The natural claim is false (theorem with suffix _refuted, concrete witness); the exact behaviour is proved beside it."
  },
  {
   "property": "C34",
   "status": "proved",
   "theorems": [
    "C34_get_empty_idx_exact",
    "C34_get_empty_idx_refuted"
   ],
   "note": "The natural claim is false (theorem with suffix _refuted, concrete witness); the exact behaviour is proved beside it."
  },
  {
   "property": "C35",
   "status": "proved",
   "theorems": [
    "C35_points_by_colour_tall",
    "C35_lower_rows_are_never_listed",
    "C35_points_by_colour_tall_refuted",
    "C35_points_by_colour_any_shape",
    "C35_points_by_colour_exact",
    "C35_points_by_colour_refuted",
    "C35_empty_points_refuted"
   ],
   "note": "The natural claim is false (theorem with suffix _refuted, concrete witness); the exact behaviour is proved beside it."
  },
  {
   "property": "C36",
   "status": "proved",
   "theorems": [
    "C36_from_list",
    "C36_round_trip_exact",
    "C36_round_trip_refuted"
   ],
   "note": "The natural claim is false (theorem with suffix _refuted, concrete witness); the exact behaviour is proved beside it."
  },
  {
   "property": "C37",
   "status": "proved",
   "theorems": [
    "C37_matrix_exact",
    "C37_matrix_rows_refuted"
   ],
   "note": "The natural claim is false (theorem with suffix _refuted, concrete witness); the exact behaviour is proved beside it."
  },
  {
   "property": "C38",
   "status": "proved",
   "theorems": [
    "C38_far_plays_panic",
    "C38_index_decides",
    "C38_outside_plays_panic_refuted"
   ],
   "note": "The natural claim is false (theorem with suffix _refuted, concrete witness); the exact behaviour is proved beside it."
  },
  {
   "property": "C39",
   "status": "proved",
   "theorems": [
    "C39_rectangles_collide_refuted",
    "C39_conversion_exact",
    "C39_missing_point_refuted",
    "C39_points_coincide_refuted",
    "C39_readme_sizes_refuted"
   ],
   "note": "The natural claim is false (theorem with suffix _refuted, concrete witness); the exact behaviour is proved beside it."
  },
  {
   "property": "C40",
   "status": "proved",
   "theorems": [
    "C40_coordinates",
    "C40_neighbours"
   ],
   "note": "coordinate conversion is a bijection on square boards"
  },
  {
   "property": "C41",
   "status": "proved",
   "theorems": [
    "C41_occupied_point_refused"
   ],
   "note": "an occupied point is never overwritten through try_play"
  },
  {
   "property": "C42",
   "status": "proved",
   "theorems": [
    "C42_occupied_point_consistent_refuted",
    "C42_push_miscounts"
   ],
   "note": "The natural claim is false (theorem with suffix _refuted, concrete witness); the exact behaviour is proved beside it."
  },
  {
   "property": "C43",
   "status": "proved",
   "theorems": [
    "C43_eye_check",
    "C43_eye_exact",
    "C43_fill_eye_refusal"
   ],
   "note": "eye check and FillEye"
  },
  {
   "property": "C44",
   "status": "proved",
   "theorems": [
    "C44_stricter_rules_remove_moves",
    "C44_no_flag_is_pseudo_legal"
   ],
   "note": "stricter rules only remove moves"
  },
  {
   "property": "C45",
   "status": "proved",
   "theorems": [
    "C45_printout",
    "C45_grid",
    "C45_printout_determines_position"
   ],
   "note": "the printed board shows the position"
  },
  {
   "property": "C46",
   "status": "proved",
   "theorems": [
    "C46_bitset"
   ],
   "note": "the liberty bitset behaves as a set"
  },
  {
   "property": "C47",
   "status": "proved",
   "theorems": [
    "C47_stone_iterator"
   ],
   "note": "the stone iterator visits a group once"
  },
  {
   "property": "C48",
   "status": "proved",
   "theorems": [
    "C48_builder"
   ],
   "note": "the builder replays handicap, setup and moves"
  },
  {
   "property": "C49",
   "status": "proved",
   "theorems": [
    "C49_handicap"
   ],
   "note": "handicap placement"
  },
  {
   "property": "C50",
   "status": "proved",
   "theorems": [
    "C50_history"
   ],
   "note": "history records past positions"
  },
  {
   "property": "C51",
   "status": "proved",
   "theorems": [
    "C51_import",
    "C51_import_step",
    "C51_import_turns",
    "C51_import_colours",
    "C51_colour_followed_refuted",
    "C51_every_move_played_refuted"
   ],
   "note": "The natural claim is false (theorem with suffix _refuted, concrete witness); the exact behaviour is proved beside it."
  },
  {
   "property": "C52",
   "status": "proved",
   "theorems": [
    "C52_unsupported_records_panic",
    "C52_errors_instead_of_panics_refuted"
   ],
   "note": "The natural claim is false (theorem with suffix _refuted, concrete witness); the exact behaviour is proved beside it."
  },
  {
   "property": "C53",
   "status": "proved",
   "theorems": [
    "C53_floating_stones_refuted",
    "C53_floating_stones_exact"
   ],
   "note": "The natural claim is false (theorem with suffix _refuted, concrete witness); the exact behaviour is proved beside it."
  },
  {
   "property": "C54",
   "status": "proved",
   "theorems": [
    "C54_symmetry",
    "C54_whole_games",
    "C54_with_eyes_refuted",
    "C54_eight_symmetries"
   ],
   "note": "The natural claim is false (theorem with suffix _refuted, concrete witness); the exact behaviour is proved beside it."
  },
  {
   "property": "C55",
   "status": "proved",
   "theorems": [
    "C55_search_moves",
    "C55_search_moves_exact",
    "C55_search_moves_accepted_refuted",
    "C55_winner_exists_refuted"
   ],
   "note": "The natural claim is false (theorem with suffix _refuted, concrete witness); the exact behaviour is proved beside it."
  },
  {
   "property": "C56",
   "status": "proved",
   "theorems": [
    "C56_size_exact",
    "C56_size_honoured_refuted",
    "C56_named_sizes"
   ],
   "note": "The natural claim is false (theorem with suffix _refuted, concrete witness); the exact behaviour is proved beside it."
  },
  {
   "property": "C57",
   "status": "proved",
   "theorems": [
    "C57_table",
    "C57_one_point",
    "C57_moved_stone",
    "C57_three_points",
    "C57_moves",
    "C57_collision"
   ],
   "note": "Zobrist table quality"
  },
  {
   "property": "C58",
   "status": "proved",
   "theorems": [
    "C58_global_capture_refuted",
    "C58_tromp_taylor"
   ],
   "note": "The natural claim is false (theorem with suffix _refuted, concrete witness); the exact behaviour is proved beside it."
  },
  {
   "property": "C59",
   "status": "proved",
   "theorems": [
    "C59_eye_symmetric",
    "C59_eye_symmetric_refuted"
   ],
   "note": "The natural claim is false (theorem with suffix _refuted, concrete witness); the exact behaviour is proved beside it."
  },
  {
   "property": "C60",
   "status": "proved",
   "theorems": [
    "C60_chain_stones_of_coordinate_refuted"
   ],
   "note": "The natural claim is false (theorem with suffix _refuted, concrete witness); the statement says so."
  },
  {
   "property": "C61",
   "status": "proved",
   "theorems": [
    "C61_rule_tables",
    "C61_rule_names"
   ],
   "note": "built-in rules"
  },
  {
   "property": "C62",
   "status": "proved",
   "theorems": [
    "C62_japanese_legality",
    "C62_no_ban_after_pass"
   ],
   "note": "legality under Japanese rules"
  },
  {
   "property": "C63",
   "status": "proved",
   "theorems": [
    "C63_chinese_legality"
   ],
   "note": "legality under Chinese rules"
  },
  {
   "property": "C64",
   "status": "proved",
   "theorems": [
    "C64_look_alikes_go_on_alike",
    "C64_look_alikes_score_alike"
   ],
   "note": "representation and build profile never show"
  },
  {
   "property": "C65",
   "status": "proved",
   "theorems": [
    "C65_playout_ends",
    "C65_playouts_are_legal",
    "C65_every_playout_possible",
    "C65_playouts_end_settled",
    "C65_playouts_never_panic_refuted"
   ],
   "note": "The natural claim is false (theorem with suffix _refuted, concrete witness); the exact behaviour is proved beside it."
  },
  {
   "property": "C66",
   "status": "proved",
   "theorems": [
    "C66_dead_stones_exact",
    "C66_finished_game_has_no_dead_stones"
   ],
   "note": "what dead_stones returns"
  },
  {
   "property": "C67",
   "status": "proved",
   "theorems": [
    "C67_verdict_exact",
    "C67_one_verdict",
    "C67_panics_without_group_numbers"
   ],
   "note": "exact verdict of try_play"
  },
  {
   "property": "C68",
   "status": "proved",
   "theorems": [
    "C68_different_scores_no_draw_refuted",
    "C68_komi_not_finite",
    "C68_number_as_margin_refuted"
   ],
   "note": "The natural claim is false (theorem with suffix _refuted, concrete witness); the exact behaviour is proved beside it."
  },
  {
   "property": "C69",
   "status": "proved",
   "theorems": [
    "C69_neighbours_of_a_point",
    "C69_groups_of_a_point"
   ],
   "note": "queries about a point"
  },
  {
   "property": "C70",
   "status": "proved",
   "theorems": [
    "C70_iterator_calls",
    "C70_exact_size_refuted"
   ],
   "note": "The natural claim is false (theorem with suffix _refuted, concrete witness); the exact behaviour is proved beside it."
  },
  {
   "property": "C71",
   "status": "proved",
   "theorems": [
    "C71_check_point_exact",
    "C71_check_ko_exact",
    "C71_check_super_ko_exact",
    "C71_legals_by_exact"
   ],
   "note": "exact point checks for every mask"
  },
  {
   "property": "C72",
   "status": "proved",
   "theorems": [
    "C72_games_follow_the_rules",
    "C72_rules_are_followed",
    "C72_any_reachable_game_goes_on",
    "C72_guarded_calls_are_answered",
    "C72_abstract_game_is_deterministic"
   ],
   "note": "whole games follow the abstract game"
  },
  {
   "property": "C73",
   "status": "proved",
   "theorems": [
    "C73_new_group",
    "C73_add_liberties",
    "C73_union_liberties",
    "C73_remove_liberty",
    "C73_union_liberties_slice",
    "C73_queries_agree",
    "C73_groups_with_numbers"
   ],
   "note": "liberties of groups as sets"
  },
  {
   "property": "C74",
   "status": "proved",
   "theorems": [
    "C74_reward_exact",
    "C74_reward_any_komi",
    "C74_reward_otherwise"
   ],
   "note": "rewards of the tree search"
  },
  {
   "property": "C75",
   "status": "proved",
   "theorems": [
    "C75_unconditional_life",
    "C75_two_eyes",
    "C75_with_suicide_refuted"
   ],
   "note": "The natural claim is false (theorem with suffix _refuted, concrete witness); the exact behaviour is proved beside it."
  },
  {
   "property": "C76",
   "status": "proved",
   "theorems": [
    "C76_area_and_territory",
    "C76_pass_stones"
   ],
   "note": "area and territory agree up to the moves made"
  },
  {
   "property": "C77",
   "status": "proved",
   "theorems": [
    "C77_area_is_the_board"
   ],
   "note": "area scores make up the board"
  },
  {
   "property": "C78",
   "status": "proved",
   "theorems": [
    "C78_superko_games_end",
    "C78_superko_stops_every_ko_refuted"
   ],
   "note": "The natural claim is false (theorem with suffix _refuted, concrete witness); the exact behaviour is proved beside it."
  },
  {
   "property": "C79",
   "status": "proved",
   "theorems": [
    "C79_legal_positions"
   ],
   "note": "which positions legal games reach"
  },
  {
   "property": "C80",
   "status": "proved",
   "theorems": [
    "C80_playouts_spare_solid_eyes",
    "C80_solid_eyes_never_dead",
    "C80_reported_groups_have_eyes"
   ],
   "note": "two solid eyes and the search for dead stones"
  },
  {
   "property": "C81",
   "status": "proved",
   "theorems": [
    "C81_scores_correspond",
    "C81_outcomes_correspond"
   ],
   "note": "scores and outcomes respect symmetries"
  },
  {
   "property": "C82",
   "status": "proved",
   "theorems": [
    "C82_neighbours",
    "C82_corners",
    "C82_last_coordinate",
    "C82_last_coordinate_refuted"
   ],
   "note": "The natural claim is false (theorem with suffix _refuted, concrete witness); the exact behaviour is proved beside it."
  },
  {
   "property": "C83",
   "status": "proved",
   "theorems": [
    "C83_indices",
    "C83_conversions"
   ],
   "note": "indices and coordinates"
  },
  {
   "property": "C84",
   "status": "proved",
   "theorems": [
    "C84_new_game",
    "C84_defaults"
   ],
   "note": "a new game"
  },
  {
   "property": "C85",
   "status": "proved",
   "theorems": [
    "C85_built_games",
    "C85_imported_games",
    "C85_accepted_moves"
   ],
   "note": "built and imported games follow the rules of Go"
  },
  {
   "property": "C86",
   "status": "proved",
   "theorems": [
    "C86_settings"
   ],
   "note": "settings of the builder"
  },
  {
   "property": "C87",
   "status": "proved",
   "theorems": [
    "C87_walk_for_ever",
    "C87_unchecked_play_returns_refuted",
    "C87_import_returns_refuted"
   ],
   "note": "The natural claim is false (theorem with suffix _refuted, concrete witness); the exact behaviour is proved beside it."
  },
  {
   "property": "C88",
   "status": "proved",
   "theorems": [
    "C88_push_release",
    "C88_push_debug",
    "C88_play_release",
    "C88_play_debug"
   ],
   "note": "one stone on an occupied point"
  },
  {
   "property": "C89",
   "status": "proved",
   "theorems": [
    "C89_verdict",
    "C89_ko_kept_refuted",
    "C89_suicide_kept_refuted"
   ],
   "note": "The natural claim is false (theorem with suffix _refuted, concrete witness); the exact behaviour is proved beside it."
  },
  {
   "property": "C90",
   "status": "proved",
   "theorems": [
    "C90_play_total",
    "C90_below",
    "C90_accepted_moves_change_the_board_refuted",
    "C90_prisoners_are_taken_stones_refuted",
    "C90_surrounded_stones_are_taken_refuted"
   ],
   "note": "The natural claim is false (theorem with suffix _refuted, concrete witness); the exact behaviour is proved beside it."
  },
  {
   "property": "C91",
   "status": "proved",
   "theorems": [
    "C91_interface",
    "C91_final_games_stay_final_refuted",
    "C91_hash_tells_positions_apart_refuted"
   ],
   "note": "The natural claim is false (theorem with suffix _refuted, concrete witness); the exact behaviour is proved beside it."
  },
  {
   "property": "C92",
   "status": "proved",
   "theorems": [
    "C92_perft_counts_lines",
    "C92_perft_after_two_passes",
    "C92_perft_symmetry",
    "C92_perft_empty_board",
    "C92_perft_any_depth_refuted"
   ],
   "note": "The natural claim is false (theorem with suffix _refuted, concrete witness); the exact behaviour is proved beside it."
  },
  {
   "property": "C93",
   "status": "proved",
   "theorems": [
    "C93_fast_game_ends",
    "C93_slow_game_ends",
    "C93_same_games"
   ],
   "note": "the benchmark games end and are legal"
  },
  {
   "property": "C94",
   "status": "proved",
   "theorems": [
    "C94_settings",
    "C94_komi_only_counts_in_scores"
   ],
   "note": "the settings of a game"
  },
  {
   "property": "C95",
   "status": "proved",
   "theorems": [
    "C95_open_point_accepted",
    "C95_roomy_board_has_legal_move",
    "C95_example_runs",
    "C95_example_exact",
    "C95_every_line_possible",
    "C95_any_counter_refuted"
   ],
   "note": "The natural claim is false (theorem with suffix _refuted, concrete witness); the exact behaviour is proved beside it."
  },
  {
   "property": "C96",
   "status": "proved",
   "theorems": [
    "C96_plays_go_iff_width_divides_height",
    "C96_square_games"
   ],
   "note": "which boards play Go"
  },
  {
   "property": "C97",
   "status": "proved",
   "theorems": [
    "C97_verdicts",
    "C97_accepted_moves",
    "C97_prisoners"
   ],
   "note": "checked games on boards whose width divides their height"
  },
  {
   "property": "C98",
   "status": "proved",
   "theorems": [
    "C98_empty_points",
    "C98_legal_points",
    "C98_listing_refuted",
    "C98_empty_points_of_vec",
    "C98_stones"
   ],
   "note": "The natural claim is false (theorem with suffix _refuted, concrete witness); the exact behaviour is proved beside it."
  },
  {
   "property": "C99",
   "status": "proved",
   "theorems": [
    "C99_territory_iff_square",
    "C99_winner_refuted",
    "C99_stone_counts"
   ],
   "note": "The natural claim is false (theorem with suffix _refuted, concrete witness); the exact behaviour is proved beside it."
  },
  {
   "property": "C100",
   "status": "proved",
   "theorems": [
    "C100_one_group_per_chain",
    "C100_at_most_four_fifths",
    "C100_numbers_bounded_refuted"
   ],
   "note": "The natural claim is false (theorem with suffix _refuted, concrete witness); the exact behaviour is proved beside it."
  },
  {
   "property": "C101",
   "status": "proved",
   "theorems": [
    "C101_groups",
    "C101_equality",
    "C101_to_vec",
    "C101_matrix",
    "C101_matrix_rows_refuted",
    "C101_printout"
   ],
   "note": "The natural claim is false (theorem with suffix _refuted, concrete witness); the exact behaviour is proved beside it."
  },
  {
   "property": "C102",
   "status": "proved",
   "theorems": [
    "C102_printed_bytes"
   ],
   "note": "the bytes of the printed board"
  },
  {
   "property": "C103",
   "status": "proved",
   "theorems": [
    "C103_square_games",
    "C103_every_chain_breathes",
    "C103_moves_are_tromp_taylor",
    "C103_simple_ko_exact",
    "C103_ko_refuses_repetitions_only",
    "C103_superko_exact",
    "C103_capturing_moves_never_repeat",
    "C103_chinese_legality"
   ],
   "note": "legal games on boards whose width divides their height"
  },
  {
   "property": "C104",
   "status": "proved",
   "theorems": [
    "C104_games_follow_the_rules",
    "C104_rules_are_followed",
    "C104_any_reachable_game_goes_on",
    "C104_guarded_calls_are_answered",
    "C104_abstract_game_is_deterministic",
    "C104_builds_agree"
   ],
   "note": "whole games on boards whose width divides their height"
  },
  {
   "property": "C105",
   "status": "proved",
   "theorems": [
    "C105_superko_games_end",
    "C105_legal_positions"
   ],
   "note": "the end of games and the reachable positions on boards whose width divides their height"
  },
  {
   "property": "C106",
   "status": "proved",
   "theorems": [
    "C106_reward_of_a_simulation",
    "C106_dead_stones_answers",
    "C106_dead_stones_always_answers_refuted"
   ],
   "note": "The natural claim is false (theorem with suffix _refuted, concrete witness); the exact behaviour is proved beside it."
  },
  {
   "property": "C107",
   "status": "proved",
   "theorems": [
    "C107_one_stone",
    "C107_two_stones",
    "C107_two_stones_with_passes_refuted",
    "C107_three_stones_refuted"
   ],
   "note": "The natural claim is false (theorem with suffix _refuted, concrete witness); the exact behaviour is proved beside it."
  },
  {
   "property": "C108",
   "status": "proved",
   "theorems": [
    "C108_results",
    "C108_rules",
    "C108_outcome_twice",
    "C108_sizes",
    "C108_moves",
    "C108_sizes_refuted"
   ],
   "note": "The natural claim is false (theorem with suffix _refuted, concrete witness); the exact behaviour is proved beside it."
  },
  {
   "property": "C109",
   "status": "proved",
   "theorems": [
    "C109_corresponding_games",
    "C109_reflected_game",
    "C109_look_alikes_go_on_alike",
    "C109_look_alikes_score_alike",
    "C109_exchanged_colours_score",
    "C109_exchanged_colours_outcome",
    "C109_reflected_winner_refuted"
   ],
   "note": "The natural claim is false (theorem with suffix _refuted, concrete witness); the exact behaviour is proved beside it."
  },
  {
   "property": "C110",
   "status": "proved",
   "theorems": [
    "C110_counted_regions",
    "C110_regions_determined",
    "C110_how_often_each_point_counts",
    "C110_score",
    "C110_outcome"
   ],
   "note": "exactly what counts as territory on boards whose width divides their height"
  },
  {
   "property": "C111",
   "status": "proved",
   "theorems": [
    "C111_playout_ends",
    "C111_playouts_are_legal",
    "C111_every_playout_possible",
    "C111_search_moves",
    "C111_nothing_below_the_square",
    "C111_playouts_end_settled_refuted"
   ],
   "note": "The natural claim is false (theorem with suffix _refuted, concrete witness); the exact behaviour is proved beside it."
  },
  {
   "property": "C112",
   "status": "proved",
   "theorems": [
    "C112_floating_stones",
    "C112_dead_stones",
    "C112_dead_stones_of_finished_games"
   ],
   "note": "floating and dead stones on boards whose width divides their height"
  },
  {
   "property": "C113",
   "status": "proved",
   "theorems": [
    "C113_unconditional_life",
    "C113_two_eyes",
    "C113_playouts_spare_solid_eyes",
    "C113_solid_eyes_never_dead",
    "C113_reported_groups_have_eyes"
   ],
   "note": "unconditional life and solid eyes on boards whose width divides their height"
  },
  {
   "property": "C114",
   "status": "proved",
   "theorems": [
    "C114_one_stone",
    "C114_two_stones"
   ],
   "note": "how soon a position can come back on boards whose width divides their height"
  },
  {
   "property": "C115",
   "status": "proved",
   "theorems": [
    "C115_built_games",
    "C115_imported_games",
    "C115_accepted_moves"
   ],
   "note": "built and imported games on boards whose width divides their height"
  },
  {
   "property": "C116",
   "status": "proved",
   "theorems": [
    "C116_calls_keep_size_and_rules",
    "C116_built_size_and_rules",
    "C116_imported_size",
    "C116_imported_boards_refuted"
   ],
   "note": "The natural claim is false (theorem with suffix _refuted, concrete witness); the exact behaviour is proved beside it."
  },
  {
   "property": "C117",
   "status": "proved",
   "theorems": [
    "C117_which_boards_answer",
    "C117_runs_answered",
    "C117_exact_panics",
    "C117_queries_answered"
   ],
   "note": "which boards answer, whatever their shape"
  },
  {
   "property": "C118",
   "status": "proved",
   "theorems": [
    "C118_stones_accounted",
    "C118_accepted_move",
    "C118_same_array_same_board"
   ],
   "note": "what survives on boards of any shape"
  },
  {
   "property": "C119",
   "status": "proved",
   "theorems": [
    "C119_calls",
    "C119_boards",
    "C119_queries",
    "C119_builders",
    "C119_simulations",
    "C119_converse_refuted"
   ],
   "note": "The natural claim is false (theorem with suffix _refuted, concrete witness); the exact behaviour is proved beside it."
  },
  {
   "property": "C120",
   "status": "proved",
   "theorems": [
    "C120_panics",
    "C120_shows",
    "C120_squares_only_refuted"
   ],
   "note": "The natural claim is false (theorem with suffix _refuted, concrete witness); the exact behaviour is proved beside it."
  },
  {
   "property": "C121",
   "status": "proved",
   "theorems": [
    "C121_perft_counts_the_square",
    "C121_perft_counts_lines_refuted"
   ],
   "note": "The natural claim is false (theorem with suffix _refuted, concrete witness); the exact behaviour is proved beside it."
  },
  {
   "property": "C122",
   "status": "proved",
   "theorems": [
    "C122_reward_of_a_simulation",
    "C122_dead_stones_answers",
    "C122_right_colour_rewarded_refuted"
   ],
   "note": "The natural claim is false (theorem with suffix _refuted, concrete witness); the exact behaviour is proved beside it."
  },
  {
   "property": "C123",
   "status": "proved",
   "theorems": [
    "C123_replays_the_mirror_image",
    "C123_rows_past_the_board_panic",
    "C123_own_record",
    "C123_any_handicap_refuted"
   ],
   "note": "The natural claim is false (theorem with suffix _refuted, concrete witness); the exact behaviour is proved beside it."
  },
  {
   "property": "C124",
   "status": "proved",
   "theorems": [
    "C124_play_answers_as_before",
    "C124_try_play_answers_as_before",
    "C124_handicap_answers_as_before",
    "C124_push_many_answers_as_before",
    "C124_remove_chain_answers_as_before",
    "C124_third_pass_leaves_the_game",
    "C124_try_far_leaves_the_game",
    "C124_play_far_notes_the_board",
    "C124_play_far_breaks_a_group",
    "C124_far_harmless_without_superko",
    "C124_far_harmless_refuted",
    "C124_colours_tell_refuted",
    "C124_no_group_number_left",
    "C124_debug_leaves_the_board_refuted",
    "C124_push_many_keeps_the_first",
    "C124_handicap_keeps_the_first",
    "C124_try_far_leaves_the_game_tall",
    "C124_play_far_notes_the_board_tall",
    "C124_play_far_breaks_a_group_tall",
    "C124_far_harmless_without_superko_tall",
    "C124_no_group_number_left_tall"
   ],
   "note": "The natural claim is false (theorem with suffix _refuted, concrete witness); the exact behaviour is proved beside it."
  },
  {
   "property": "C125",
   "status": "proved",
   "theorems": [
    "C125_neighbours_of_a_point",
    "C125_groups_of_a_point",
    "C125_iterator_calls",
    "C125_occupied_indices",
    "C125_check_point_exact",
    "C125_check_ko_exact",
    "C125_check_super_ko_exact",
    "C125_check_suicide_exact",
    "C125_will_capture_exact",
    "C125_eye_exact",
    "C125_legals_by_counts",
    "C125_verification_exact",
    "C125_verification_refuted"
   ],
   "note": "The natural claim is false (theorem with suffix _refuted, concrete witness); the exact behaviour is proved beside it."
  },
  {
   "property": "C126",
   "status": "proved",
   "theorems": [
    "C126_stones_ever_put",
    "C126_no_game_goes_on_for_ever"
   ],
   "note": "no game goes on for ever"
  },
  {
   "property": "C127",
   "status": "proved",
   "theorems": [
    "C127_determined",
    "C127_not_both",
    "C127_games_have_a_value"
   ],
   "note": "every game has a value"
  },
  {
   "property": "C128",
   "status": "proved",
   "theorems": [
    "C128_first_player_does_not_lose",
    "C128_first_player_wins_refuted",
    "C128_with_komi_refuted"
   ],
   "note": "The natural claim is false (theorem with suffix _refuted, concrete witness); the exact behaviour is proved beside it."
  },
  {
   "property": "C129",
   "status": "proved",
   "theorems": [
    "C129_more_komi"
   ],
   "note": "more komi never hurts White"
  },
  {
   "property": "C130",
   "status": "proved",
   "theorems": [
    "C130_fair_komi",
    "C130_whole_komi",
    "C130_whole_komi_square",
    "C130_only_one_fair_komi_refuted"
   ],
   "note": "The natural claim is false (theorem with suffix _refuted, concrete witness); the exact behaviour is proved beside it."
  },
  {
   "property": "C131",
   "status": "proved",
   "theorems": [
    "C131_reverse_komi",
    "C131_fair_komi_of_a_new_game"
   ],
   "note": "with komi not above zero the first player does not lose"
  },
  {
   "property": "C132",
   "status": "proved",
   "theorems": [
    "C132_komi_not_a_number"
   ],
   "note": "komi that is not a number"
  },
  {
   "property": "C133",
   "status": "proved",
   "theorems": [
    "C133_mirrored_openings",
    "C133_corresponding_games",
    "C133_tall_boards_refuted"
   ],
   "note": "The natural claim is false (theorem with suffix _refuted, concrete witness); the exact behaviour is proved beside it."
  },
  {
   "property": "C134",
   "status": "proved",
   "theorems": [
    "C134_builds_play_alike",
    "C134_look_alikes",
    "C134_exchanged_colours"
   ],
   "note": "what decides the value of a game"
  },
  {
   "property": "C135",
   "status": "proved",
   "theorems": [
    "C135_living_stones_win",
    "C135_every_careful_line_wins",
    "C135_territory_counting_refuted",
    "C135_tall_boards_refuted"
   ],
   "note": "The natural claim is false (theorem with suffix _refuted, concrete witness); the exact behaviour is proved beside it."
  },
  {
   "property": "C136",
   "status": "proved",
   "theorems": [
    "C136_only_four_flags",
    "C136_bans_together",
    "C136_answer_of_both",
    "C136_legals_together",
    "C136_legals_shrink"
   ],
   "note": "the bans of a rule act independently"
  },
  {
   "property": "C137",
   "status": "proved",
   "theorems": [
    "C137_same_line",
    "C137_same_score",
    "C137_same_point",
    "C137_same_legals",
    "C137_same_value",
    "C137_with_superko_refuted"
   ],
   "note": "The natural claim is false (theorem with suffix _refuted, concrete witness); the exact behaviour is proved beside it."
  },
  {
   "property": "C138",
   "status": "proved",
   "theorems": [
    "C138_recorded_once",
    "C138_same_line",
    "C138_same_value"
   ],
   "note": "of the past only the recorded positions matter"
  },
  {
   "property": "C139",
   "status": "proved",
   "theorems": [
    "C139_same_game",
    "C139_same_answers",
    "C139_with_superko_refuted",
    "C139_with_captures_refuted"
   ],
   "note": "The natural claim is false (theorem with suffix _refuted, concrete witness); the exact behaviour is proved beside it."
  },
  {
   "property": "C140",
   "status": "proved",
   "theorems": [
    "C140_same_game",
    "C140_same_answers",
    "C140_same_score",
    "C140_with_captures_refuted"
   ],
   "note": "The natural claim is false (theorem with suffix _refuted, concrete witness); the exact behaviour is proved beside it."
  },
  {
   "property": "C141",
   "status": "proved",
   "theorems": [
    "C141_every_order",
    "C141_legal_games",
    "C141_protected_eyes_refuted"
   ],
   "note": "The natural claim is false (theorem with suffix _refuted, concrete witness); the exact behaviour is proved beside it."
  },
  {
   "property": "C142",
   "status": "proved",
   "theorems": [
    "C142_set_up_or_played",
    "C142_same_answers",
    "C142_dead_stones_refuted"
   ],
   "note": "The natural claim is false (theorem with suffix _refuted, concrete witness); the exact behaviour is proved beside it."
  },
  {
   "property": "C143",
   "status": "proved",
   "theorems": [
    "C143_same_verdict",
    "C143_same_effect"
   ],
   "note": "a stone depends only on its neighbourhood"
  },
  {
   "property": "C144",
   "status": "proved",
   "theorems": [
    "C144_far_stones_exchange",
    "C144_exchange_around_a_stone",
    "C144_far_verdicts",
    "C144_close_stones_refuted"
   ],
   "note": "The natural claim is false (theorem with suffix _refuted, concrete witness); the exact behaviour is proved beside it."
  },
  {
   "property": "C145",
   "status": "proved",
   "theorems": [
    "C145_ko_threat"
   ],
   "note": "a ko threat and its answer lift the ban"
  },
  {
   "property": "C146",
   "status": "proved",
   "theorems": [
    "C146_stone_elsewhere_verdict",
    "C146_stone_elsewhere_effect"
   ],
   "note": "for a local fight a stone elsewhere is as good as a pass"
  }
 ]
}