# Formal model of Sagebati/goban in Rocq (Coq 8.16.1)

## Approach

* Executable Gallina model, one definition per Rust function, in an error monad `res` (`Ok`, `Panic`, `Diverge`). Each definition cites file and lines and says where it simplifies.
* A boolean `dbg` selects the build profile: `debug_assert!`, integrity checks and overflow checks panic only when it is true. Every theorem holds for both values.
* `Spec.v`: a short, independent statement of the rules of Go on coordinates. `Reach.v`, `Ops.v`: what can be reached through the public API. `Observe.v`, `ScoreSpec.v`, `SgfSpec.v`, `SymSpec.v`, `EyeSpec.v`, `PlayoutSpec.v`, `VerdictSpec.v`, `TableSpec.v`, `RectSpec.v`, `RectReach.v`, `RectVerdictSpec.v`, `RectEndSpec.v`, `RectTableSpec.v`, `RectSymSpec.v`, `RectCountSpec.v`, `RectPlayoutSpec.v`, `RectLifeSpec.v`, `RectCycleSpec.v`, `RectBuildSpec.v`, `AnySpec.v`, `CycleSpec.v`, `EqualitySpec.v`, `RoundSpec.v`, `MoreSpec.v`, `LifeSpec.v`, `LifeValueSpec.v`, `BansSpec.v`, `PastSpec.v`, `RecordSpec.v`, `OrderSpec.v`, `GiftSpec.v`, `StrategySpec.v`, `ValueSpec.v`, `AreaSpec.v`, `EndSpec.v`, `BuildSpec.v`, `AliasSpec.v`, `BelowSpec.v`, `BenchSpec.v`, `SettingsSpec.v`, `ReadmeSpec.v`: further specification vocabulary.
* An invariant `wf` on boards (`Struct.v`) and `ginv` on games, preserved by each operation, ties the two together. They appear in no property theorem: these speak about `breach` (boards), `greach` (games), `lreach` (legal games).
* `Properties_*.v` hold the property theorems and nothing else, each with `Print Assumptions` and an `Example ..._case` that shows a concrete state meeting the hypotheses (from `CaseFacts.v` and the `*Claims.v` files).
* False claims are kept in view: a theorem with suffix `_refuted` carries a concrete witness, and the exact behaviour is proved beside it.

## Trusted base

* Coq's kernel, including its `vm_compute` machine (used for concrete cases, the 722-entry hash table and small finite sweeps). No native compiler, no plugins, no axioms.
* `Print Assumptions` answers "Closed under the global context" for every property theorem. The development requires std++ (and through it Coq's ssreflect library, whose `Under_rel` module declares 7 axioms; no theorem here uses them).
* The reading of the Rust source as Gallina, made by hand, and the meaning of `Spec.v` and the other specification files. As a check on that reading, `RepoTests.v` replays the project's own tests (tests/general_tests.rs with its SGF records, and the unit test of group.rs) on the model, in both build profiles: every deterministic test gives the result its author expects, up to whole professional games with their prisoner counts and results.
* Rust semantics assumed: integer types wrap in release and panic in debug builds; `f32` is IEEE binary32 with round to nearest even (Coq's `SpecFloat`); `f32::sqrt` is correctly rounded; `as` casts saturate or truncate as documented; slices panic out of range; `HashSet`/`IndexSet`/`HashMap` behave as sets and maps, with an arbitrary iteration order for `HashSet` (argument `order`); cloning copies.

## What is modelled

| Rust file | model | left out |
|---|---|---|
| src/pieces/util.rs | Coord.v, Glue.v | - |
| src/pieces/group.rs | Bitset.v, Goban.v, GroupMore.v | derived `Debug`, `with_capacity` |
| src/pieces/zobrist.rs | Zobrist.v (whole table) | - |
| src/pieces/goban.rs | Goban.v, Glue.v, Text.v (the bytes of `pretty_string`); Unwind.v: the writing functions with the state after a panic | derived `Debug`; getters that copy a field |
| src/pieces/stones.rs | Coord.v, Goban.v, Glue.v | - |
| src/pieces/territory.rs | Territory.v | - |
| src/rules/mod.rs | Game.v, Glue.v, Equality.v | derived `Debug` |
| src/rules/game.rs | Game.v; Unwind.v: `play`, `try_play`, `put_handicap` with the state after a panic | `display_goban`; getters that copy a field |
| src/rules/game_builder.rs | Builder.v, Glue.v | player names |
| src/rules/sgf_bridge.rs | Sgf.v: from the parsed node list on | the parser (crate sgf-parse) |
| benches/perft.rs | Bench.v: perft, the two benchmark games (any shuffle); BenchSgf.v: the replayed record | timing, printing |
| benches/deadstones.rs | nothing of its own: it calls from_sgf and dead_stones | timing |
| README.md (included by src/lib.rs as documentation test) | Readme.v: the example program (any random choices) | printing; the block for the feature history, which calls a method that the iterator returned by Game::history does not have |
| src/rules/dead_stones.rs | DeadStones.v, GroupMore.v, Glue.v: game interface, rewards, `get_floating_stones`, random playouts (any shuffle), `dead_stones` (any answers of the search); Simulation.v: the simulations of the search | the bookkeeping of the tree search (crate oxymcts): which offered moves a simulation goes down by and which is called best are arguments |

Simplifications: machine integers that cannot leave their range by proof or by type are `nat`/`N`; `Box<[Option<NonMaxU16>]>` is a list of options with the range check kept where a value is created; loops over linked lists take fuel and return `Diverge` when it runs out (proved not to happen).

## Properties

* **C01 play implements the capture rule of Go** (proved) - invariant wf (Struct.v, Inv.v) preserved by push (Push.v), remove_chain (Remove.v) and capture (Capture.v); Bridge.v translates it to Spec.v; GameFacts.v lifts it to games. Theorems: `C01_play_capture_rule`.
* **C02 groups are exactly the connected components** (proved) - connectivity and maximality clauses of wf, transferred to Spec.connected. Theorems: `C02_groups_are_components`.
* **C03 group liberties are exact** (proved) - liberty clause of wf and the bitset lemmas of BitsetFacts.v. Theorems: `C03_liberties_exact`.
* **C04 stone counts agree with the board** (proved) - counting lemma from wf. Theorems: `C04_stone_counts`.
* **C05 the Zobrist hash is a function of the position only** (proved) - hash clause of wf; xor over the points in row-major order. Theorems: `C05_hash_of_position`.
* **C06 board equality is position equality** (proved) - goban_eq compares size, hash and the colour of every point; wf makes the hash a function of the colours. Theorems: `C06_equality_is_position_equality`, `C06_equality_is_equivalence`.
* **C07 playing on an empty point never panics nor loops, in debug or release** (proved) - totality part of the preservation lemmas, for both values of dbg. Theorems: `C07_no_panic`.
* **C08 how long a game can be** (proved) - exact slot count in the push lemma; the long game repeats a six-move cycle that uses three slots each time and is followed by simulation (LongFacts.v), no computation on 65535 moves. Theorems: `C08_panics_exactly`, `C08_goes_on_for_ever_refuted`.
* **C09 debug and release builds agree** (proved) - Agree.v: a refinement order between the two builds, and totality; scores and outcomes by C137 with a game and itself (BuildsFacts.v). Theorems: `C09_builds_agree`, `C09_scores_agree`.
* **C10 a refused move changes nothing** (proved) - case analysis on try_play. Theorems: `C10_refusal_changes_nothing`.
* **C11 legals() lists exactly the accepted moves** (proved) - legals is a filter; checks are total on wf boards; row-major order. Theorems: `C11_legals_are_accepted_moves`.
* **C12 suicide detection is exact** (proved) - wf liberties and reasoning on Spec. Theorems: `C12_suicide_check_exact`.
* **C13 capture prediction is exact** (proved) - wf liberties and the push summary. Theorems: `C13_capture_prediction_exact`.
* **C14 no chain without liberties ever stands on the board of a legal game** (proved) - induction over legal games. Theorems: `C14_every_chain_breathes`.
* **C15 the simple ko rule is exact** (proved) - invariant that ties the ko point to the previous position (KoFacts.v, LegalFacts.v). Theorems: `C15_simple_ko_exact`.
* **C16 superko refuses only repetitions** (proved) - history invariant, C15, equality of boards. Theorems: `C16_ko_refuses_repetitions_only`.
* **C17 what superko refuses** (proved) - refuted by a computed game; exact statement by C12, C13, C16 (SuperkoFacts.v). Theorems: `C17_superko_refuses_every_repetition_refuted`, `C17_superko_exact`, `C17_capturing_moves_never_repeat`.
* **C18 prisoners account for every stone** (proved) - counter invariant over greach. Theorems: `C18_prisoners_account_for_stones`.
* **C19 the prisoner counters never overflow** (proved) - every stone took a slot or joined a group: bound 361 x 65535. Theorems: `C19_counters_never_overflow`.
* **C20 turns alternate** (proved) - induction over runs (Ops.v). Theorems: `C20_turns_alternate`, `C20_black_begins`.
* **C21 two consecutive passes pause the game, and only they do** (proved) - induction over runs. Theorems: `C21_pass_count`, `C21_two_passes_end_the_game`.
* **C22 a paused game refuses every move until resumed** (proved) - case analysis, reachability for the pass bound. Theorems: `C22_paused_game_refuses`, `C22_resume`.
* **C23 resignation is final** (proved) - induction over runs. Theorems: `C23_resignation_final`.
* **C24 what a finished game accepts, and when a game is finished** (proved) - computed game; commutation of try_play with a change of outcome. Theorems: `C24_no_moves_left_is_over_refuted`, `C24_finished_game_refuses_refuted`, `C24_outcome_ignored`.
* **C25 get_group_from_point returns the connected region** (proved) - loop invariant of the depth-first search, fuel sufficiency (TerritoryFacts.v). Theorems: `C25_region`, `C25_regions`.
* **C26 territory counting is exact** (proved) - loop over regions; the hash order is an arbitrary permutation argument. Theorems: `C26_territories`.
* **C27 the score is the documented sum** (proved) - SpecFloat binary32; exactness of sums of half integers (Float32Facts.v); for other komi a proof that SpecFloat rounds to nearest, ties to even, stated in units of 2^-149 (RoundSpec.v, RoundFacts.v, RoundScore.v); no real numbers, no axioms. Theorems: `C27_score_exact`, `C27_score_rounded`.
* **C28 the outcome agrees with the score** (proved) - as C27. Theorems: `C28_outcome_exact`, `C28_outcome_any_komi`, `C28_no_outcome_iff_not_over`.
* **C29 push order does not matter** (proved) - wf determines everything observable. Theorems: `C29_push_order`, `C29_push_many`.
* **C30 removing a group removes exactly that group** (proved) - preservation lemma of remove_chain. Theorems: `C30_remove_chain`.
* **C31 when play_for_verification predicts play** (proved) - C01 for both values of the suicide flag. Theorems: `C31_verification_exact`, `C31_verification_predicts_play_refuted`.
* **C32 board enumerations are complete** (proved) - enumeration lemmas (BoardFacts.v). Theorems: `C32_enumerations`.
* **C33 pseudo_legals_vec against pseudo_legals** (proved) - as C32; overflow bound. Theorems: `C33_pseudo_legals_vec_exact`, `C33_vec_equals_iterator_refuted`.
* **C34 what get_empty_idx lists** (proved) - as C32. Theorems: `C34_get_empty_idx_exact`, `C34_get_empty_idx_refuted`.
* **C35 points by colour** (proved) - as C32; other shapes: by_colour_cells computes the list from the cells of any board whose parts fit together (ColourClaims.v), used with the invariants of RectInv.v and AnyBoard.v. Theorems: `C35_points_by_colour_tall`, `C35_lower_rows_are_never_listed`, `C35_points_by_colour_tall_refuted`, `C35_points_by_colour_any_shape`, `C35_points_by_colour_exact`, `C35_points_by_colour_refuted`, `C35_empty_points_refuted`.
* **C36 to_vec / From round trip** (proved) - f32 square root evaluated for the 20 possible sizes, push order. Theorems: `C36_from_list`, `C36_round_trip_exact`, `C36_round_trip_refuted`.
* **C37 what matrix shows** (proved) - as C32. Theorems: `C37_matrix_exact`, `C37_matrix_rows_refuted`.
* **C38 plays outside the board** (proved) - index arithmetic; computed games. Theorems: `C38_far_plays_panic`, `C38_index_decides`, `C38_outside_plays_panic_refuted`.
* **C39 rectangular boards** (proved) - arithmetic; computed enumeration. Theorems: `C39_rectangles_collide_refuted`, `C39_conversion_exact`, `C39_missing_point_refuted`, `C39_points_coincide_refuted`, `C39_readme_sizes_refuted`.
* **C40 coordinate conversion is a bijection on square boards** (proved) - arithmetic. Theorems: `C40_coordinates`, `C40_neighbours`.
* **C41 an occupied point is never overwritten through try_play** (proved) - case analysis. Theorems: `C41_occupied_point_refused`.
* **C42 unchecked play on an occupied point** (proved) - sum of the chain counters through push, and closure of the occupied points under the stone lists (OccupiedFacts.v); computed game. Theorems: `C42_occupied_point_consistent_refuted`, `C42_push_miscounts`.
* **C43 eye check and FillEye** (proved) - the scan over the four corners, corner by corner, against EyeSpec.v (EyeFacts.v, EyeExact.v). Theorems: `C43_eye_check`, `C43_eye_exact`, `C43_fill_eye_refusal`.
* **C44 stricter rules only remove moves** (proved) - monotonicity of check_point_by. Theorems: `C44_stricter_rules_remove_moves`, `C44_no_flag_is_pseudo_legal`.
* **C45 the printed board shows the position** (proved) - list lemmas; MoreSpec.v says in which directions the lines of each symbol run. Theorems: `C45_printout`, `C45_grid`, `C45_printout_determines_position`.
* **C46 the liberty bitset behaves as a set** (proved) - bit lemmas. Theorems: `C46_bitset`.
* **C47 the stone iterator visits a group once** (proved) - circular list clause of wf. Theorems: `C47_stone_iterator`.
* **C48 the builder replays handicap, setup and moves** (proved) - fold equations and the push lemmas. Theorems: `C48_builder`.
* **C49 handicap placement** (proved) - push lemmas. Theorems: `C49_handicap`.
* **C50 history records past positions** (proved) - induction over recorded. Theorems: `C50_history`.
* **C51 SGF import follows the record** (proved) - fold equations over the node list; SgfSpec.v reads the record independently. Theorems: `C51_import`, `C51_import_step`, `C51_import_turns`, `C51_import_colours`, `C51_colour_followed_refuted`, `C51_every_move_played_refuted`.
* **C52 SGF records that are not supported** (proved) - as C51. Theorems: `C52_unsupported_records_panic`, `C52_errors_instead_of_panics_refuted`.
* **C53 what get_floating_stones returns** (proved) - counting in the map, distinct connected groups (FloatingFacts.v). Theorems: `C53_floating_stones_refuted`, `C53_floating_stones_exact`.
* **C54 the rules treat colours and board symmetries alike** (proved) - relational simulation (SymFacts.v, SymGame.v, LongFacts.v), also from new games (TightClaims.v); a computed pair of games with the eye rule. Theorems: `C54_symmetry`, `C54_whole_games`, `C54_with_eyes_refuted`, `C54_eight_symmetries`.
* **C55 the moves offered to the tree search** (proved) - from C11, C44 and the exact point check C71 (MoreClaims.v); computed games. Theorems: `C55_search_moves`, `C55_search_moves_exact`, `C55_search_moves_accepted_refuted`, `C55_winner_exists_refuted`.
* **C56 board size requests** (proved) - arithmetic modulo 256. Theorems: `C56_size_exact`, `C56_size_honoured_refuted`, `C56_named_sizes`.
* **C57 Zobrist table quality** (proved) - table checked by computation in N; xor algebra; for three points the 1083 differences are put in a binary tree and searched for three that cancel (HashFacts.v); a collision found by linear algebra over GF(2) and replayed as two legal games. Theorems: `C57_table`, `C57_one_point`, `C57_moved_stone`, `C57_three_points`, `C57_moves`, `C57_collision`.
* **C58 capture with the global wording of Tromp and Taylor** (proved) - from C01 and C14; computed game. Theorems: `C58_global_capture_refuted`, `C58_tromp_taylor`.
* **C59 eye detection and symmetry** (proved) - computed pair of games; for the positive half (SymEye.v) the scan over the corners is shown, where no empty corner is attacked, to ask whether some corner has two or three good corners of its own, which is a statement about counts and so the same on both boards. Theorems: `C59_eye_symmetric`, `C59_eye_symmetric_refuted`.
* **C60 chain_stones of a point** (proved) - computed game. Theorems: `C60_chain_stones_of_coordinate_refuted`.
* **C61 built-in rules** (proved) - computation and string equality. Theorems: `C61_rule_tables`, `C61_rule_names`.
* **C62 legality under Japanese rules** (proved) - from C12, C15. Theorems: `C62_japanese_legality`, `C62_no_ban_after_pass`.
* **C63 legality under Chinese rules** (proved) - from C17. Theorems: `C63_chinese_legality`.
* **C64 representation and build profile never show** (proved) - C54 with the identity; C04, C26 for scores. Theorems: `C64_look_alikes_go_on_alike`, `C64_look_alikes_score_alike`.
* **C65 random playouts** (proved) - measure that every move decreases (stones put are bounded by C19), case analysis on the first playable point; completeness by the shuffle that brings the chosen point to the front; the panic by walking the six-move cycle of C08 (PlayoutFacts.v, DeadFacts.v). Theorems: `C65_playout_ends`, `C65_playouts_are_legal`, `C65_every_playout_possible`, `C65_playouts_end_settled`, `C65_playouts_never_panic_refuted`.
* **C66 what dead_stones returns** (proved) - as C65, C47 for the stones of a group, C53. Theorems: `C66_dead_stones_exact`, `C66_finished_game_has_no_dead_stones`.
* **C67 exact verdict of try_play** (proved) - the single checks are exact (C12, C13, C43, C15-C17), combined in order (VerdictFacts.v). Theorems: `C67_verdict_exact`, `C67_one_verdict`, `C67_panics_without_group_numbers`.
* **C68 unusual komi** (proved) - computed games. Theorems: `C68_different_scores_no_draw_refuted`, `C68_komi_not_finite`, `C68_number_as_margin_refuted`.
* **C69 queries about a point** (proved) - the neighbour computation against adjacency, C02 for the groups (QueryFacts.v). Theorems: `C69_neighbours_of_a_point`, `C69_groups_of_a_point`.
* **C70 the stone iterator call by call** (proved) - induction on the walk of C47, call by call (QueryFacts.v); computed board for the size hint. Theorems: `C70_iterator_calls`, `C70_exact_size_refuted`.
* **C71 exact point checks for every mask** (proved) - as C67, for an arbitrary mask. Theorems: `C71_check_point_exact`, `C71_check_ko_exact`, `C71_check_super_ko_exact`, `C71_legals_by_exact`.
* **C72 whole games follow the abstract game** (proved) - TableSpec.v defines the abstract game; forward simulation by induction on the calls from C01, C18, C50 and C67, determinism of the abstract game, hence also the converse (TableFacts.v). Theorems: `C72_games_follow_the_rules`, `C72_rules_are_followed`, `C72_any_reachable_game_goes_on`, `C72_guarded_calls_are_answered`, `C72_abstract_game_is_deterministic`.
* **C73 liberties of groups as sets** (proved) - C46 and induction. Theorems: `C73_new_group`, `C73_add_liberties`, `C73_union_liberties`, `C73_remove_liberty`, `C73_union_liberties_slice`, `C73_queries_agree`, `C73_groups_with_numbers`.
* **C74 rewards of the tree search** (proved) - C28. Theorems: `C74_reward_exact`, `C74_reward_any_komi`, `C74_reward_otherwise`.
* **C75 unconditional life** (proved) - LifeSpec.v defines closed and vital regions; the family of stones and regions is an invariant of every move of the rules of Go (LifeFacts.v), C01 and C67 carry it to try_play; computed games for the cases and the failure with suicide. Theorems: `C75_unconditional_life`, `C75_two_eyes`, `C75_with_suicide_refuted`.
* **C76 area and territory agree up to the moves made** (proved) - C27 and C18, induction on the moves for the passes (AreaFacts.v). Theorems: `C76_area_and_territory`, `C76_pass_stones`.
* **C77 area scores make up the board** (proved) - C26 and C27, the points of the board split into five lists (AreaFacts.v). Theorems: `C77_area_is_the_board`.
* **C78 games under superko end** (proved) - each accepted stone either adds a stone or, by C17, gives a position not seen before, of which there are 3^(n n) (EndFacts.v); computed game for the ko. Theorems: `C78_superko_games_end`, `C78_superko_stops_every_ko_refuted`.
* **C79 which positions legal games reach** (proved) - removing stones from a position where every chain breathes leaves it so; hence its stones can be put one by one, with passes in between, and C67 accepts them (PositionFacts.v); the converse is C14. Theorems: `C79_legal_positions`.
* **C80 two solid eyes and the search for dead stones** (proved) - the two eyes and the stones around them are a living family in the sense of C75; the eyes keep their shape, so by C65 and C66 neither way of playing on fills them (SolidFacts.v). Theorems: `C80_playouts_spare_solid_eyes`, `C80_solid_eyes_never_dead`, `C80_reported_groups_have_eyes`.
* **C81 scores and outcomes respect symmetries** (proved) - C26, and the symmetry maps the points that count one to one; sums of exact numbers (SymScore.v). Theorems: `C81_scores_correspond`, `C81_outcomes_correspond`.
* **C82 neighbours of arbitrary coordinates** (proved) - arithmetic (CoordClaims.v). Theorems: `C82_neighbours`, `C82_corners`, `C82_last_coordinate`, `C82_last_coordinate_refuted`.
* **C83 indices and coordinates** (proved) - division with remainder, C69 (GlueFacts.v). Theorems: `C83_indices`, `C83_conversions`.
* **C84 a new game** (proved) - C71 with the rules of Go on the empty board (GlueFacts.v). Theorems: `C84_new_game`, `C84_defaults`.
* **C85 built and imported games follow the rules of Go** (proved) - C48, C51 and the simulation of C72 (BuildClaims.v). Theorems: `C85_built_games`, `C85_imported_games`, `C85_accepted_moves`.
* **C86 settings of the builder** (proved) - induction on the calls (GlueFacts.v). Theorems: `C86_settings`.
* **C87 walks that never end** (proved) - pigeonhole on the slots visited by the walk; computed game and record (LoopFacts.v). Theorems: `C87_walk_for_ever`, `C87_unchecked_play_returns_refuted`, `C87_import_returns_refuted`.
* **C88 one stone on an occupied point** (proved) - the push is simulated by a push on the board without the chain of the point, to which the lemmas of Push.v apply; a frame lemma (placing a stone does not look at chains it does not touch) carries the result over (OverFacts.v). Theorems: `C88_push_release`, `C88_push_debug`, `C88_play_release`, `C88_play_debug`.
* **C89 checked moves beyond the right edge** (proved) - the checks of CheckFacts.v and EyeFacts.v are restated for coordinates off the board; the play itself depends on the index only (AliasFacts.v). Theorems: `C89_verdict`, `C89_ko_kept_refuted`, `C89_suicide_kept_refuted`.
* **C90 stones below the last row; which moves return** (proved) - Push.place_spec holds for any free slot; the invariant without the clause that stones are on the board carries the push and the removal (BelowFacts.v); with C38 and C88 this covers every coordinate. Theorems: `C90_play_total`, `C90_below`, `C90_accepted_moves_change_the_board_refuted`, `C90_prisoners_are_taken_stones_refuted`, `C90_surrounded_stones_are_taken_refuted`.
* **C91 the interface between games and the tree search** (proved) - from C55 and the fields that play sets (SearchClaims.v). Theorems: `C91_interface`, `C91_final_games_stay_final_refuted`, `C91_hash_tells_positions_apart_refuted`.
* **C92 perft counts the lines of play** (proved) - induction on the depth from C11 and C72; lists of accepted lines are gathered without repetition (PerftFacts.v); for the overflow, all lines on the points of one colour of the chessboard are accepted, and there are more than 2^64 of nine stones (PerftClaims.v). Theorems: `C92_perft_counts_lines`, `C92_perft_after_two_passes`, `C92_perft_symmetry`, `C92_perft_empty_board`, `C92_perft_any_depth_refuted`.
* **C93 the benchmark games end and are legal** (proved) - the measure and the completeness argument of C65, for a loop with any way of choosing (BenchFacts.v). Theorems: `C93_fast_game_ends`, `C93_slow_game_ends`, `C93_same_games`.
* **C94 the settings of a game** (proved) - induction on the calls; set_komi commutes with every other call (SettingsFacts.v). Theorems: `C94_settings`, `C94_komi_only_counts_in_scores`.
* **C95 the README example runs to its end** (proved) - the ko point of a legal game touches the capturing stone, so none of the reasons of C72 applies to an open point; the points around the stones are at most five times the stones; the loop keeps a legal game with as many stones played as rounds; refutation: a computed game of 601 stones. Theorems: `C95_open_point_accepted`, `C95_roomy_board_has_legal_move`, `C95_example_runs`, `C95_example_exact`, `C95_every_line_possible`, `C95_any_counter_refuted`.
* **C96 which boards play Go** (proved) - the proofs of C01-C03 again with h rows and w columns (Rect*.v): a point is the index r*h+c, and the index arithmetic of the library inverts it exactly if w divides h; for all other sizes a game of at most four moves is computed in which the library departs from the rules (RectGo.v). Theorems: `C96_plays_go_iff_width_divides_height`, `C96_square_games`.
* **C97 checked games on boards whose width divides their height** (proved) - the proofs of C12, C13, C15-C18, C43 and C67 again with h rows and w columns (RectCheck.v, RectEye.v, RectVerdict.v). Theorems: `C97_verdicts`, `C97_accepted_moves`, `C97_prisoners`.
* **C98 enumerations on boards whose width divides their height** (proved) - counting over rows, blocks and columns of the index range that the library walks (RectList.v). Theorems: `C98_empty_points`, `C98_legal_points`, `C98_listing_refuted`, `C98_empty_points_of_vec`, `C98_stones`.
* **C99 counting on boards that are not square** (proved) - C26 for square boards; for every other size a game of at most three stones is computed in which a point that is occupied or off the board is listed as empty and its region touches black stones only: such a point is never reached from another one, so it ends up in the territory of Black (RectScore.v). Theorems: `C99_territory_iff_square`, `C99_winner_refuted`, `C99_stone_counts`.
* **C100 one group per chain, and how many chains there can be** (proved) - the origin of each listed group stands for its chain; C02 for the rest. The bound: every chain has a liberty (C14), and a pair of a liberty and a stone beside it belongs to one chain only, so there are at most four chains per empty point and at most one per stone; the long 2x2 game of C08 for the numbers (ChainFacts.v). Theorems: `C100_one_group_per_chain`, `C100_at_most_four_fifths`, `C100_numbers_bounded_refuted`.
* **C101 groups and views on boards whose width divides their height** (proved) - the invariant of C96 read off through the API (RectViews.v); division with remainder for the rows of matrix. Theorems: `C101_groups`, `C101_equality`, `C101_to_vec`, `C101_matrix`, `C101_matrix_rows_refuted`, `C101_printout`.
* **C102 the bytes of the printed board** (proved) - lines are blocks of equal length, and so are points within a line (RectViews.v). Theorems: `C102_printed_bytes`.
* **C103 legal games on boards whose width divides their height** (proved) - the proofs of C14-C17, C58 and C63 again with h rows and w columns (RectMoves.v, RectKo.v, RectLegal.v, RectEnd.v), from the invariant of C96. Theorems: `C103_square_games`, `C103_every_chain_breathes`, `C103_moves_are_tromp_taylor`, `C103_simple_ko_exact`, `C103_ko_refuses_repetitions_only`, `C103_superko_exact`, `C103_capturing_moves_never_repeat`, `C103_chinese_legality`.
* **C104 whole games on boards whose width divides their height** (proved) - the proofs of C72 again with h rows and w columns (RectTable.v); builds agree since the abstract game is deterministic. Theorems: `C104_games_follow_the_rules`, `C104_rules_are_followed`, `C104_any_reachable_game_goes_on`, `C104_guarded_calls_are_answered`, `C104_abstract_game_is_deterministic`, `C104_builds_agree`.
* **C105 the end of games and the reachable positions on boards whose width divides their height** (proved) - the proofs of C78 and C79 again with h rows and w columns (RectEnd.v, RectPosition.v). Theorems: `C105_superko_games_end`, `C105_legal_positions`.
* **C106 simulations of the tree search** (proved) - C55 for the moves on the way down, C65 for the playout, C74 for the reward; komi and flags do not change (C94); parity for half a point of komi; C66 for the rest (SimulationFacts.v); a computed draw. Theorems: `C106_reward_of_a_simulation`, `C106_dead_stones_answers`, `C106_dead_stones_always_answers_refuted`.
* **C107 how soon a position can come back** (proved) - C01 for the step of an accepted stone, C15 for the ko; computed games for the refuted parts (CycleClaims.v). Theorems: `C107_one_stone`, `C107_two_stones`, `C107_two_stones_with_passes_refuted`, `C107_three_stones_refuted`.
* **C108 equality of results, rules, sizes and moves** (proved) - comparison of f32 in units (RoundFacts), C68 for the outcome, C64 for the order of the hash sets (EqualityFacts.v). Theorems: `C108_results`, `C108_rules`, `C108_outcome_twice`, `C108_sizes`, `C108_moves`, `C108_sizes_refuted`.
* **C109 reflections and look-alikes on boards whose width divides their height** (proved) - the proofs of C54 and C64 for a board of h rows and w columns (RectSymFacts.v, RectSymGame.v, RectSymClaims.v); for exchanged colours C110 gives the same regions with the colours exchanged, and FloatSwap.v the symmetry of rounded subtraction (RectSwap.v); the refutation evaluates the game of C99 and its reflection. Theorems: `C109_corresponding_games`, `C109_reflected_game`, `C109_look_alikes_go_on_alike`, `C109_look_alikes_score_alike`, `C109_exchanged_colours_score`, `C109_exchanged_colours_outcome`, `C109_reflected_winner_refuted`.
* **C110 exactly what counts as territory on boards whose width divides their height** (proved) - the flood fill from any point, stones included (RectCount.v); the points from which regions are chosen, by induction on the listing, whose rows come in order with the empty points of the first row in front (RectTimes.v); exact sums as in C27 (RectCountScore.v). Theorems: `C110_counted_regions`, `C110_regions_determined`, `C110_how_often_each_point_counts`, `C110_score`, `C110_outcome`.
* **C111 random playouts and the moves of the tree search on boards whose width divides their height** (proved) - the measure of C65 on such boards; the listing of empty points holds each empty point of the upper square k times (RectPlayout.v), what moves leave below it from the rules of Go there (RectPlayoutClaims.v); a computed 6 x 3 game for the refutation. Theorems: `C111_playout_ends`, `C111_playouts_are_legal`, `C111_every_playout_possible`, `C111_search_moves`, `C111_nothing_below_the_square`, `C111_playouts_end_settled_refuted`.
* **C112 floating and dead stones on boards whose width divides their height** (proved) - counting the listed eyes with their multiplicity, the play of the search as in C66 (RectDead.v); a computed 9 x 3 game. Theorems: `C112_floating_stones`, `C112_dead_stones`, `C112_dead_stones_of_finished_games`.
* **C113 unconditional life and solid eyes on boards whose width divides their height** (proved) - the proofs of C75 and C80 on such boards (RectLife.v, RectSolid.v); a computed 6 x 3 game. Theorems: `C113_unconditional_life`, `C113_two_eyes`, `C113_playouts_spare_solid_eyes`, `C113_solid_eyes_never_dead`, `C113_reported_groups_have_eyes`.
* **C114 how soon a position can come back on boards whose width divides their height** (proved) - as C107 (RectCycle.v). Theorems: `C114_one_stone`, `C114_two_stones`.
* **C115 built and imported games on boards whose width divides their height** (proved) - the builder as pushes on an empty board, then the simulation of C104 (RectBuild.v); a computed 8 x 4 record. Theorems: `C115_built_games`, `C115_imported_games`, `C115_accepted_moves`.
* **C116 size and rules stay as they were set; the size of imported boards** (proved) - by following every assignment to the board, without any assumption on the state (SizeKept.v); a computed record of 3 columns and 6 rows (SizeClaims.v). Theorems: `C116_calls_keep_size_and_rules`, `C116_built_size_and_rules`, `C116_imported_size`, `C116_imported_boards_refuted`.
* **C117 which boards answer, whatever their shape** (proved) - an invariant of the arrays alone that does not mention the geometry (AnyBoard.v, AnyGame.v, AnyViews.v), since the library never indexes out of the array in release builds; the two moves that panic in debug builds are computed for every other size, C104 gives the converse (AnyClaims.v). Theorems: `C117_which_boards_answer`, `C117_runs_answered`, `C117_exact_panics`, `C117_queries_answered`.
* **C118 what survives on boards of any shape** (proved) - by the same invariant (AnyGame.v, AnyViews.v, AnyClaims.v). Theorems: `C118_stones_accounted`, `C118_accepted_move`, `C118_same_array_same_board`.
* **C119 what a debug build answers, a release build answers** (proved) - every function of the model that depends on the build profile refines its release version; by following the code, without any assumption on the state (Refine.v); computed cases (RefineClaims.v). Theorems: `C119_calls`, `C119_boards`, `C119_queries`, `C119_builders`, `C119_simulations`, `C119_converse_refuted`.
* **C120 boards from lists of every length** (proved) - the square root of SpecFloat is bounded from below for every length from 400 on and computed below (FromSqrt.v); the loop keeps the geometry-free invariant of AnyBoard.v in release builds and the invariant of square boards in debug builds (FromFacts.v); computed cases (FromClaims.v). Theorems: `C120_panics`, `C120_shows`, `C120_squares_only_refuted`.
* **C121 lines of play counted on tall boards** (proved) - legals lists the legal points of the square k times each (C111); a sum over such a list is k times the sum over the distinct points, so the proof of C92 gives a factor k per move (RectPerft.v); computed cases (RectSimClaims.v). Theorems: `C121_perft_counts_the_square`, `C121_perft_counts_lines_refuted`.
* **C122 simulations on tall boards** (proved) - the proofs of C106 again, with the moves of C111 and the count of C110 (RectSim.v); computed cases (RectSimClaims.v). Theorems: `C122_reward_of_a_simulation`, `C122_dead_stones_answers`, `C122_right_colour_rewarded_refuted`.
* **C123 the benchmark that replays a record** (proved) - C54 for the record and its mirror image, with a handicap that is its own image; accepted moves are what unchecked play does (BenchSgfFacts.v); the record itself from RepoTests.v, the numbers of stones from C18 (BenchSgfClaims.v). Theorems: `C123_replays_the_mirror_image`, `C123_rows_past_the_board_panic`, `C123_own_record`, `C123_any_handicap_refuted`.
* **C124 what a caught panic leaves behind** (proved) - the functions that write are given once more in Unwind.v, one assignment after the other, with the state kept when a step panics; they answer as the functions of Goban.v and Game.v (UnwindFacts.v: follows); the states left behind are computed from there with the invariant (UnwindClaims.v; UnwindTall.v for boards whose width divides the height, with a game on 2x1 that uses up the group numbers in UnwindTallCases.v). Theorems: `C124_play_answers_as_before`, `C124_try_play_answers_as_before`, `C124_handicap_answers_as_before`, `C124_push_many_answers_as_before`, `C124_remove_chain_answers_as_before`, `C124_third_pass_leaves_the_game`, `C124_try_far_leaves_the_game`, `C124_play_far_notes_the_board`, `C124_play_far_breaks_a_group`, `C124_far_harmless_without_superko`, `C124_far_harmless_refuted`, `C124_colours_tell_refuted`, `C124_no_group_number_left`, `C124_debug_leaves_the_board_refuted`, `C124_push_many_keeps_the_first`, `C124_handicap_keeps_the_first`, `C124_try_far_leaves_the_game_tall`, `C124_play_far_notes_the_board_tall`, `C124_play_far_breaks_a_group_tall`, `C124_far_harmless_without_superko_tall`, `C124_no_group_number_left_tall`.
* **C125 single points on boards whose width divides their height** (proved) - the lemmas of RectBoard.v, RectCheck.v, RectEye.v and RectVerdict.v, taken to reachable games; iterator and lists from the invariant of RectInv.v (TallPoint.v). Theorems: `C125_neighbours_of_a_point`, `C125_groups_of_a_point`, `C125_iterator_calls`, `C125_occupied_indices`, `C125_check_point_exact`, `C125_check_ko_exact`, `C125_check_super_ko_exact`, `C125_check_suicide_exact`, `C125_will_capture_exact`, `C125_eye_exact`, `C125_legals_by_counts`, `C125_verification_exact`, `C125_verification_refuted`.
* **C126 no game goes on for ever** (proved) - the prisoner bound of the invariant of RectGame.v: a stone is on the board or was captured with a group whose number is used up (StrategyFacts.v); a computed 6 x 3 game. Theorems: `C126_stones_ever_put`, `C126_no_game_goes_on_for_ever`.
* **C127 every game has a value** (proved) - StrategySpec.v defines strategies; well-founded induction on the bound of C126 and the passes left, a case split over the finite list of moves; order independence of the outcome from C103 (StrategyFacts.v); a computed 5 x 5 game. Theorems: `C127_determined`, `C127_not_both`, `C127_games_have_a_value`.
* **C128 without komi the first player does not lose** (proved) - determinacy, then the simulation of C109 for one accepted move, now also when no group number is left (RectSymGame.v), and the exchanged outcomes of C109, which need no bound on prisoners because rounded subtraction is symmetric (FloatSwap.v, RectSwap.v, StealFacts.v); computed games. Theorems: `C128_first_player_does_not_lose`, `C128_first_player_wins_refuted`, `C128_with_komi_refuted`.
* **C129 more komi never hurts White** (proved) - try_play commutes with a change of the rule that keeps the refused moves (KomiFacts.v); rounded addition and subtraction are monotone, from the meaning of rounding in RoundSpec.v (FloatMono.v); induction over strategies (KomiClaims.v); a computed 6 x 3 game. Theorems: `C129_more_komi`.
* **C130 every game has a fair komi** (proved) - C127 decides each komi, C129 makes the answer monotone, a komi of 2^29 points decides every game; then a search along the whole numbers of units of 2^-149 (KomiClaims.v). For the whole number: scores without prisoners are exact, so White winning by komi z+1 means not losing by komi z. The refutation is computed. Theorems: `C130_fair_komi`, `C130_whole_komi`, `C130_whole_komi_square`, `C130_only_one_fair_komi_refuted`.
* **C131 with komi not above zero the first player does not lose** (proved) - C128 for the rule without the komi flag, then a komi of at most zero does not raise the rounded score of White (KomiClaims.v). Theorems: `C131_reverse_komi`, `C131_fair_komi_of_a_new_game`.
* **C132 komi that is not a number** (proved) - the scores without komi are finite, so the sums and comparisons of SpecFloat compute (KomiClaims.v); a computed 6 x 3 game that Black wins with 7.5 points komi. Theorems: `C132_komi_not_a_number`.
* **C133 corresponding openings are worth the same** (proved) - C54 for one accepted move of corresponding games, there and back; C81 for the outcomes; induction over strategies (ValueSpec.v, ValueFacts.v); computed 9 x 9 game with a ko, and the 6 x 3 game of C109 for the refuted part (ValueCases.v). Theorems: `C133_mirrored_openings`, `C133_corresponding_games`, `C133_tall_boards_refuted`.
* **C134 what decides the value of a game** (proved) - the same induction with the identity or the exchange of colours, C109 for moves and outcomes (ValueFacts.v); computed games (ValueCases.v). Theorems: `C134_builds_play_alike`, `C134_look_alikes`, `C134_exchanged_colours`.
* **C135 living stones decide the game** (proved) - the living family of C75 is kept by every accepted move, so at every end of the game the stones and eyes of the family are that player's area; C27 and C28 give the outcome; C127 (one of the players has a strategy) turns this into a forced win (LifeValueSpec.v, LifeValue.v); computed 5 x 5 games for the case and the refuted part (LifeValueCases.v), a computed 6 x 3 game (LifeValueTall.v). Theorems: `C135_living_stones_win`, `C135_every_careful_line_wins`, `C135_territory_counting_refuted`, `C135_tall_boards_refuted`.
* **C136 the bans of a rule act independently** (proved) - case analysis of the chain of checks over the four bits of both masks; induction over the list of empty points (BansSpec.v, BansFacts.v); computed ko position (BansCases.v). Theorems: `C136_only_four_flags`, `C136_bans_together`, `C136_answer_of_both`, `C136_legals_together`, `C136_legals_shrink`.
* **C137 without superko the past does not matter** (proved) - the simulation of C109 with the identity as symmetry, which needs the histories only for the superko check (PastSpec.v, PastFacts.v); for values also when no group number is left; computed games in two orders, for the refutation under Chinese rules on the 2 x 2 board (PastCases.v). Theorems: `C137_same_line`, `C137_same_score`, `C137_same_point`, `C137_same_legals`, `C137_same_value`, `C137_with_superko_refuted`.
* **C138 of the past only the recorded positions matter** (proved) - induction over reachability for the distinct positions; a counting argument gives histories of equal length; the simulation of C109 with the history replaced by that of the other game, and a second simulation that exchanges histories with the same positions on one board (RecordSpec.v, RecordFacts.v); a computed game with two kos fought in two orders (RecordCases.v). Theorems: `C138_recorded_once`, `C138_same_line`, `C138_same_value`.
* **C139 moves without captures may be played in any order** (proved) - one accepted stone without a change of the prisoners adds exactly that stone (the board after a move is part of the board with the stone, and the stone counts of the invariant leave no room for a removal) and leaves no ko point; induction over the list, prisoners never decrease; then C137 (OrderSpec.v, OrderFacts.v); computed games for superko and captures (OrderCases.v). Theorems: `C139_same_game`, `C139_same_answers`, `C139_with_superko_refuted`, `C139_with_captures_refuted`.
* **C140 handicap stones are Black stones with passes in between** (proved) - the exact effect of handicap stones on the board (rginv_handicap), the exact effect of one accepted stone without captures from C139, induction over the points; then C137 (GiftSpec.v, GiftFacts.v); a computed game for the capture (GiftCases.v). Theorems: `C140_same_game`, `C140_same_answers`, `C140_same_score`, `C140_with_captures_refuted`.
* **C141 when nothing is captured in one order, every order is accepted** (proved) - a part of a position in which every chain breathes is such a position (walk along the chain to its liberty; the first missing stone on the way is a liberty of the part); so by the exact verdicts of C103 every stone of the final position is accepted at any time and takes nothing; induction over the other order, then C139 (OrderSpec.v, FreeFacts.v); a computed game for protected eyes (FreeCases.v). Theorems: `C141_every_order`, `C141_legal_games`, `C141_protected_eyes_refuted`.
* **C142 a position may be set up instead of played** (proved) - the exact board of a builder without moves; the stones of a position in which every chain breathes can be played in any order from the empty board (free_line of C141), with the exact result of C139; then C137 (OrderSpec.v, StageFacts.v); a computed dead stone (StageCases.v). Theorems: `C142_set_up_or_played`, `C142_same_answers`, `C142_dead_stones_refuted`.
* **C143 a stone depends only on its neighbourhood** (proved) - chains touching the point and their liberties are the same in both positions; what is taken, the suicide and the ko ban are stated with these only, then the exact verdicts (RectVerdict.v) and the exact move (LocalSpec.v, LocalFacts.v); two games with different far stones (LocalCases.v). Theorems: `C143_same_verdict`, `C143_same_effect`.
* **C144 stones that are far apart may be exchanged** (proved) - after one stone the position is unchanged near the other, so the verdicts and effects are those of C143; the two positions agree near either point and elsewhere, the prisoners follow from the numbers of stones (LocalSpec.v, FarFacts.v, FarThree.v); two computed captures in opposite corners, a computed suicide (FarCases.v, ThreeCases.v). Theorems: `C144_far_stones_exchange`, `C144_exchange_around_a_stone`, `C144_far_verdicts`, `C144_close_stones_refuted`.
* **C145 a ko threat and its answer lift the ban** (proved) - the refusal says that the point is empty and no suicide; both stay so because the position near the point is unchanged (C143), and the new ko point lies near the answer (LocalSpec.v, ThreatFacts.v); a computed ko fight (ThreatCases.v). Theorems: `C145_ko_threat`.
* **C146 for a local fight a stone elsewhere is as good as a pass** (proved) - the two positions agree near the point, the pass clears the ko point and the stone sets it near itself at most; then C143 (LocalSpec.v, TenukiFacts.v); a computed capture (TenukiCases.v). Theorems: `C146_stone_elsewhere_verdict`, `C146_stone_elsewhere_effect`.
