{"id": "C01", "title": "play implements the capture rule of Go", "statement": "Playing a stone of the side to move on an empty on-board point of a square board leaves exactly the position given by the Go rule: the stone is added, every opposing chain touching it that then has no liberty is removed, then (only if the game's rule does not forbid suicide) the mover's own chain is removed if it has no liberty; every other intersection is unchanged. The turn passes, the pass count is cleared, rule, outcome and handicap stay, and the ko point is set exactly when a single stone was captured, to its point.", "quantifier": "every square size 1..19, every rule, every game reachable through the API, every empty on-board point where the call does not panic (C08 says when it does), debug and release builds", "why_tests_cant": "positions x moves is astronomically large; chain merging, circular lists and incremental liberties interact over the whole history", "anchors": ["src/rules/game.rs:Game::play", "src/pieces/goban.rs:Goban::push_wth_feedback", "src/pieces/goban.rs:Goban::remove_captured_stones_aux", "src/pieces/goban.rs:Goban::remove_chain", "src/pieces/goban.rs:Goban::merge_strings"]}
{"id": "C02", "title": "groups are exactly the connected components", "statement": "On a square board, two stones belong to the same group (same index reported by the board, same chain_stones list) if and only if they are linked by a path of orthogonally adjacent stones of the same colour.", "quantifier": "every reachable board, every pair of points", "why_tests_cant": "depends on every order in which stones were pushed, merged and captured", "anchors": ["src/pieces/goban.rs:Goban::get_connected_groups_idx", "src/pieces/goban.rs:Goban::chain_stones", "src/pieces/goban.rs:Goban::merge_strings", "src/pieces/goban.rs:Goban::add_stone_to_chain"]}
{"id": "C03", "title": "group liberties are exact", "statement": "For each live group the recorded liberties (Group::liberties, contains_liberty, number_of_liberties, is_dead, is_atari) are exactly the empty on-board intersections orthogonally adjacent to one of its stones, in ascending order and without repetition.", "quantifier": "every reachable board, every group", "why_tests_cant": "liberties are updated incrementally and never recomputed; drift only shows after particular histories", "anchors": ["src/pieces/group.rs:Group::liberties", "src/pieces/group.rs:Group::number_of_liberties", "src/pieces/group.rs:iter_ones", "src/pieces/goban.rs:Goban::push_wth_feedback", "src/pieces/goban.rs:Goban::remove_chain"]}
{"id": "C04", "title": "stone counts agree with the board", "statement": "number_of_stones() equals the number of black and of white intersections seen through get_color, and each group's num_stones is the number of its stones.", "quantifier": "every reachable board", "why_tests_cant": "num_stones is maintained incrementally through merges and captures", "anchors": ["src/pieces/goban.rs:Goban::number_of_stones", "src/pieces/group.rs:Group"]}
{"id": "C05", "title": "the Zobrist hash is a function of the position only", "statement": "zobrist_hash() equals the XOR of the table entries of the stones on the board, so two boards of the same square size showing the same stones have the same hash whatever moves, captures or orders produced them.", "quantifier": "every pair of reachable boards", "why_tests_cant": "quantifies over pairs of histories", "anchors": ["src/pieces/goban.rs:Goban::zobrist_hash", "src/pieces/zobrist.rs:index_zobrist"]}
{"id": "C06", "title": "board equality is position equality", "statement": "On boards of the same square size a == b holds exactly when every intersection has the same colour; == is an equivalence relation and equal boards hash equally (so the Hash/Eq contract needed by the history set holds).", "quantifier": "every pair (triple) of reachable boards", "why_tests_cant": "quantifies over pairs of histories, including hash collisions", "anchors": ["src/pieces/goban.rs:PartialEq for Goban", "src/pieces/goban.rs:Hash for Goban"]}
{"id": "C07", "title": "playing on an empty point never panics nor loops, in debug or release", "statement": "As long as fewer than 65535 stones have been placed on the board during its lifetime, playing (or pushing) on an empty on-board point of a square board terminates without panicking: no index out of range, no unwrap on a removed group, no failed debug assertion, no integrity failure, no arithmetic overflow, no endless walk of a stone list.", "quantifier": "every reachable game, every empty on-board point, both build profiles", "why_tests_cant": "absence of panics over all histories", "anchors": ["src/pieces/goban.rs:Goban::push_wth_feedback", "src/pieces/goban.rs:Goban::check_integrity_all", "src/pieces/group.rs:CircularGroupIter::next", "src/pieces/group.rs:Group::remove_liberty", "src/pieces/group.rs:Group::add_liberty"]}
{"id": "C08", "title": "how long a game can be", "statement": "Playing on an empty point panics exactly when 65535 group slots are in use and the stone does not join exactly one friendly chain; it never loops. Hence the natural claim \"a legal move never panics, however long the game is\" is false: some legal game on the 2 x 2 board ends with a panic in try_play.", "quantifier": "every game length", "why_tests_cant": "the failure needs more than 65535 group creations", "anchors": ["src/pieces/group.rs:Groups::put_free_spot", "src/pieces/goban.rs:Goban::update_chain_indexes_in_board", "src/pieces/goban.rs:NonMaxU16"]}
{"id": "C09", "title": "debug and release builds agree", "statement": "On square boards and for plays on empty on-board points the debug build and the release build return the same game. Checked moves, lists of legal moves, handicap stones, scores and the outcome are the same in both builds too.", "quantifier": "every reachable game, every empty on-board point", "why_tests_cant": "relational property of two build profiles over all histories", "anchors": ["src/pieces/goban.rs:Goban::push_wth_feedback", "debug_assert! sites"]}
{"id": "C10", "title": "a refused move changes nothing", "statement": "When try_play returns an error the game is unchanged: board, turn, passes, prisoners, ko state, history and outcome.", "quantifier": "every game state (reachable or not), every move", "why_tests_cant": "all states and all moves", "anchors": ["src/rules/game.rs:Game::try_play"]}
{"id": "C11", "title": "legals() lists exactly the accepted moves", "statement": "While the game is not paused, a coordinate is yielded by legals() if and only if it is an on-board point for which try_play accepts; no coordinate is yielded twice; every yielded point is empty.", "quantifier": "every reachable game on a square board in which not all 65535 group numbers are used up, every coordinate", "why_tests_cant": "all positions, all points", "anchors": ["src/rules/game.rs:Game::legals", "src/rules/game.rs:Game::legals_by", "src/rules/game.rs:Game::try_play", "src/rules/game.rs:Game::check_point_by"]}
{"id": "C12", "title": "suicide detection is exact", "statement": "For an empty point check_suicide(stone) is true if and only if, after placing the stone and removing the opposing chains left without liberties, the placed stone's chain has no liberty.", "quantifier": "every reachable board, every empty point, both colours", "why_tests_cant": "all positions and points", "anchors": ["src/rules/game.rs:Game::check_suicide", "src/pieces/goban.rs:Goban::has_liberties"]}
{"id": "C13", "title": "capture prediction is exact", "statement": "For an empty point will_capture(point) is true if and only if playing the side to move there removes at least one opposing stone.", "quantifier": "every reachable board, every empty point", "why_tests_cant": "all positions and points", "anchors": ["src/rules/game.rs:Game::will_capture"]}
{"id": "C14", "title": "no chain without liberties ever stands on the board of a legal game", "statement": "In a game started from an empty board (or a setup in which every chain has a liberty) and continued with moves accepted by try_play, after every move every chain on the board has at least one liberty, whatever the rule flags.", "quantifier": "every rule, every legal game", "why_tests_cant": "invariant over all legal histories", "anchors": ["src/rules/game.rs:Game::try_play", "src/rules/game.rs:Game::check_suicide", "src/pieces/goban.rs:Goban::remove_captured_stones_aux"]}
{"id": "C15", "title": "the simple ko rule is exact", "statement": "In a legal game whose rule forbids ko and suicide (and nothing else), just after an accepted stone move, try_play refuses a point with Ko if and only if that point is empty and playing there would recreate the position that stood before that stone move.", "quantifier": "every legal game, every point", "why_tests_cant": "requires comparing three consecutive positions for all histories (snapbacks, multi-stone captures, zombies)", "anchors": ["src/rules/game.rs:Game::check_ko", "src/pieces/goban.rs:Goban::remove_captured_stones_aux"]}
{"id": "C16", "title": "superko refuses only repetitions", "statement": "In a legal game, when the superko check (or ko check) is what refuses a non-suicidal point, playing there would recreate a position that stood on the board before an earlier stone move of the game.", "quantifier": "every rule with suicide forbidden, every legal game, every point", "why_tests_cant": "all histories", "anchors": ["src/rules/game.rs:Game::check_super_ko", "src/rules/game.rs:Game::play_for_verification"]}
{"id": "C17", "title": "what superko refuses", "statement": "With SUPERKO and SUICIDE forbidden and at least three recorded positions, try_play refuses a point with Ko exactly when it is an empty, non-suicidal point where a capture would recreate a recorded position; whatever else the rule forbids, accepted captures then never recreate one. The natural claim \"no accepted stone move ever recreates an earlier position\" is false even under Chinese rules with more than two recorded positions (moves without capture are not checked).", "quantifier": "every legal game", "why_tests_cant": "all histories; failures need rare non-capturing or early cycles", "anchors": ["src/rules/game.rs:Game::check_super_ko", "src/rules/game.rs:Game::history"]}
{"id": "C18", "title": "prisoners account for every stone", "statement": "prisoners().0 counts exactly the white stones and prisoners().1 exactly the black stones removed from the board since the start of the game: per colour, stones placed = stones on board + prisoners held by the opponent.", "quantifier": "every reachable game, any mix of plays, passes, handicap stones", "why_tests_cant": "conservation law over all histories", "anchors": ["src/rules/game.rs:Game::remove_captured_stones", "src/rules/game.rs:Game::prisoners", "src/pieces/goban.rs:Goban::remove_captured_stones_aux"]}
{"id": "C19", "title": "the prisoner counters never overflow", "statement": "The u32 prisoner counters (and the u16 stone counters of groups) never overflow in a game that has not panicked.", "quantifier": "every reachable game of any length", "why_tests_cant": "needs more than 2^32 captures to test", "anchors": ["src/rules/game.rs:Game::remove_captured_stones", "src/pieces/group.rs:Group::num_stones"]}
{"id": "C20", "title": "turns alternate", "statement": "The side to move changes after every accepted pass or stone move and only then (resign, resume, komi changes and refused moves leave it); after k stone moves and passes from a fresh game it is Black's turn iff k is even.", "quantifier": "every sequence of operations", "why_tests_cant": "all histories", "anchors": ["src/rules/game.rs:Game::play", "src/rules/game.rs:Game::turn"]}
{"id": "C21", "title": "two consecutive passes pause the game, and only they do", "statement": "Starting from a fresh game, is_over() without resignation holds exactly when the last two stone-or-pass moves since the last resume were passes; passes never exceeds 2; a stone move clears the count.", "quantifier": "every sequence of operations", "why_tests_cant": "all histories", "anchors": ["src/rules/game.rs:Game::play", "src/rules/game.rs:Game::is_over", "src/rules/game.rs:Game::resume"]}
{"id": "C22", "title": "a paused game refuses every move until resumed", "statement": "try_play returns GamePaused for every move (including Resign) exactly when two passes are standing; play(Pass) panics exactly then; resume() makes moves possible again and changes nothing else.", "quantifier": "every state, every move", "why_tests_cant": "all states and moves", "anchors": ["src/rules/game.rs:Game::try_play", "src/rules/game.rs:Game::play", "src/rules/game.rs:Game::resume"]}
{"id": "C23", "title": "resignation is final", "statement": "After Resign(c) the game is over, outcome() is WinnerByResign(c) and get_winner() is c, and no later API call changes that unless another resignation is played; nothing else of the game changes.", "quantifier": "every state, every later sequence of operations", "why_tests_cant": "all continuations", "anchors": ["src/rules/game.rs:Game::play", "src/rules/game.rs:Game::outcome", "src/rules/mod.rs:EndGame::get_winner"]}
{"id": "C24", "title": "what a finished game accepts, and when a game is finished", "statement": "The recorded outcome never influences stone moves: try_play gives the same verdict and the same game apart from that outcome. Hence the natural claim \"once is_over() is true no stone move is accepted\" is false for games ended by resignation. The claim of the comment on is_over, that a game with no more legal moves is over, is false as well.", "quantifier": "every reachable finished game", "why_tests_cant": "all histories", "anchors": ["src/rules/game.rs:Game::try_play", "src/rules/game.rs:Game::is_over"]}
{"id": "C25", "title": "get_group_from_point returns the connected region", "statement": "get_group_from_point(p) terminates and returns exactly the points reachable from p by orthogonal steps through points of p's colour (empty regions included), each once. get_chains_from_stones gives the regions of the given points, each once.", "quantifier": "every reachable square board, every on-board point", "why_tests_cant": "stack search with duplicates over every board", "anchors": ["src/pieces/territory.rs:Goban::get_group_from_point"]}
{"id": "C26", "title": "territory counting is exact", "statement": "get_territories/calculate_territories return, each exactly once, the empty points whose empty region touches black stones and no white stone (black territory) and conversely; the result does not depend on hash-set iteration order.", "quantifier": "every reachable square board, every hash iteration order", "why_tests_cant": "all boards and all iteration orders", "anchors": ["src/pieces/territory.rs:Goban::get_territories", "src/pieces/territory.rs:Goban::calculate_territories", "src/pieces/territory.rs:Goban::get_chains_from_stones"]}
{"id": "C27", "title": "the score is the documented sum", "statement": "calculate_score_by(flags) is territory, plus prisoners if PRISONNERS, plus stones if STONES, plus komi for White if KOMI (with fewer than a million prisoners). For a komi that is a multiple of one half with magnitude at most 100000 the f32 result is the exact sum. For every other finite komi Black's score is exact and White's is the exact sum rounded once to nearest, ties to even; an infinite or NaN komi is itself White's score.", "quantifier": "every reachable game, every flag set, every f32 komi", "why_tests_cant": "f32 rounding over all values", "anchors": ["src/rules/game.rs:Game::calculate_score_by", "src/rules/game.rs:Game::calculate_score"]}
{"id": "C28", "title": "the outcome agrees with the score", "statement": "In a game paused by two passes and without recorded outcome, with a half-integral komi outcome() is Draw iff the exact scores are equal, otherwise WinnerByScore(winner, margin) where winner has the strictly larger score and margin is the exact positive difference. With any finite komi the winner still has the strictly larger exact score, equal exact scores are a Draw, a Draw means that the exact scores differ by less than 1/16 point, and the margin is the correctly rounded difference of the two f32 scores. None iff the game is not over.", "quantifier": "every reachable game with finite komi", "why_tests_cant": "f32 comparison against EPSILON over all scores", "anchors": ["src/rules/game.rs:Game::outcome"]}
{"id": "C29", "title": "push order does not matter", "statement": "Pushing the same stones on distinct empty points in any two orders gives equal boards (==), with the same hash, groups and liberties up to group numbering. push_many puts all stones of one colour on the board and, whatever the order of the points, gives equal boards.", "quantifier": "every list of stones and every permutation of it", "why_tests_cant": "factorially many orders", "anchors": ["src/pieces/goban.rs:Goban::push", "src/pieces/goban.rs:Goban::push_many"]}
{"id": "C30", "title": "removing a group removes exactly that group", "statement": "remove_chain(k) on a live group empties exactly the points of that group, gives the freed points back as liberties to the neighbouring groups, and leaves every other stone, group and group number in place.", "quantifier": "every reachable board, every live group", "why_tests_cant": "all boards and groups", "anchors": ["src/pieces/goban.rs:Goban::remove_chain"]}
{"id": "C31", "title": "when play_for_verification predicts play", "statement": "play_for_verification(p) returns a board equal to the one play(Play(p)) produces exactly when the move is not a suicide, for every rule (the suicide flag is passed inverted). The natural claim \"always\" is false.", "quantifier": "every reachable game, every empty point where play does not panic (C08)", "why_tests_cant": "all positions; the two call sites pass opposite suicide flags", "anchors": ["src/rules/game.rs:Game::play_for_verification", "src/rules/game.rs:Game::remove_captured_stones"]}
{"id": "C32", "title": "board enumerations are complete", "statement": "On a square board get_stones() yields every stone exactly once with its colour in row-major order, get_empty_coords()/pseudo_legals() every empty point exactly once in row-major order, and together they partition the board.", "quantifier": "every reachable square board", "why_tests_cant": "all boards", "anchors": ["src/pieces/goban.rs:Goban::get_stones", "src/pieces/goban.rs:Goban::get_empty_coords", "src/rules/game.rs:Game::pseudo_legals"]}
{"id": "C33", "title": "pseudo_legals_vec against pseudo_legals", "statement": "pseudo_legals_vec() equals pseudo_legals() for sizes up to 15 and in release builds; for sizes 16 to 19 every call panics in a debug build (u8 overflow). The natural claim \"equal in every build\" is false.", "quantifier": "every reachable board, both build profiles", "why_tests_cant": "u8 overflow only on boards with more than 255 points, only in debug builds", "anchors": ["src/rules/game.rs:Game::pseudo_legals_vec"]}
{"id": "C34", "title": "what get_empty_idx lists", "statement": "get_empty_idx() yields, ascending, exactly the indices of the occupied intersections. The natural claim \"of the empty intersections\" is false.", "quantifier": "every board", "why_tests_cant": "all boards", "anchors": ["src/pieces/goban.rs:Goban::get_empty_idx"]}
{"id": "C35", "title": "points by colour", "statement": "get_coords_by_color(c)/get_stones_by_color(c) return, in row-major order, the points of colour c among the first (n*n mod 256) points, except that for c = empty they return all of these points; from size 16 on debug builds panic. The natural claim \"exactly the on-board points whose colour is c\" is false, for empty points on every size and for stones from size 16 on. On a board of height h and width w the cells of the board array below (h*w mod 256) are looked at, cell i being listed as row i/h and column i mod w, and debug builds panic if h*w is 256 or more; if w divides h these are the points of colour c with x*h+y below (h*w mod 256), so that the rows from w on are never listed, and the empty points come in h*w mod 256 entries, some of them several times.", "quantifier": "every board reachable on a square size or a size whose width divides the height, and in release builds on every size up to 19 x 19; every colour", "why_tests_cant": "u8 overflow of height*width on large boards; all boards", "anchors": ["src/pieces/goban.rs:Goban::get_coords_by_color", "src/pieces/goban.rs:Goban::get_stones_by_color"]}
{"id": "C36", "title": "to_vec / From round trip", "statement": "Goban::from(v) for a list v of n*n colours is the n x n board showing v in row-major order. Goban::from(g.to_vec()) is always a 19 x 19 board, equal to g exactly when g is 19 x 19; the natural claim \"always equal to g\" is false.", "quantifier": "every board, every colour list", "why_tests_cant": "all boards and sizes", "anchors": ["src/pieces/goban.rs:From<&[MaybeColor]> for Goban", "src/pieces/goban.rs:Goban::to_vec"]}
{"id": "C37", "title": "what matrix shows", "statement": "matrix() returns 361/n (rounded down) rows of n entries; in the first n rows the entry at row i column j is the colour at (i,j), the further rows are empty. The natural claim \"one row per board row\" holds exactly for n = 19.", "quantifier": "every board and size", "why_tests_cant": "all sizes", "anchors": ["src/pieces/goban.rs:Goban::matrix"]}
{"id": "C38", "title": "plays outside the board", "statement": "On an n x n board play depends on x*n+y only, and play and try_play panic when x*n+y >= 361. The documented claim \"play panics if the coordinates are outside the board\", and \"try_play never alters the board for such coordinates\", are false.", "quantifier": "every size, every off-board coordinate", "why_tests_cant": "all sizes and coordinates", "anchors": ["src/rules/game.rs:Game::play", "src/pieces/util.rs:two_to_1dim"]}
{"id": "C39", "title": "rectangular boards", "statement": "On a board wider than high the points (0,h) and (1,0) share an index, so that in every game a stone on one shows on the other; the conversions between coordinates and indices are inverse exactly when the width divides the height; on every board that is not square some point is missing from the enumeration of the empty board. The README claim that boards such as 4x5 and 4x9 work is false.", "quantifier": "every rectangular size", "why_tests_cant": "all sizes", "anchors": ["src/pieces/util.rs:two_to_1dim", "src/pieces/util.rs:one_to_2dim"]}
{"id": "C40", "title": "coordinate conversion is a bijection on square boards", "statement": "On an n x n board, coordinates and indices 0..n*n-1 correspond one to one through two_to_1dim/one_to_2dim, and the neighbours computed are exactly the orthogonally adjacent on-board points, each once.", "quantifier": "every n in 1..19, every point", "why_tests_cant": "all sizes and points (u8 wrap at the border)", "anchors": ["src/pieces/util.rs:two_to_1dim", "src/pieces/util.rs:one_to_2dim", "src/pieces/util.rs:neighbor_coords", "src/pieces/util.rs:valid_coords"]}
{"id": "C41", "title": "an occupied point is never overwritten through try_play", "statement": "try_play on an occupied on-board point returns PointNotEmpty (GamePaused when paused) and leaves the game unchanged.", "quantifier": "every reachable game, every occupied point", "why_tests_cant": "all positions", "anchors": ["src/rules/game.rs:Game::try_play"]}
{"id": "C42", "title": "unchecked play on an occupied point", "statement": "Whenever push on an occupied on-board point returns, number_of_stones() counts one stone more than before while no further point is occupied, so it no longer agrees with the board. Hence the natural claim \"play without legality check, or push, on an occupied on-board point keeps the stone counts equal to what the board shows\" is false.", "quantifier": "every board", "why_tests_cant": "all positions", "anchors": ["src/rules/game.rs:Game::play", "src/pieces/goban.rs:Goban::push"]}
{"id": "C43", "title": "eye check and FillEye", "statement": "check_eye never panics and accepts exactly the eye shapes of the specification: an empty point whose neighbours all carry the colour, with four safe corners, or with two or three of them and an empty corner that is itself not attacked and has two or three safe corners (the first unattacked empty corners in scanning order decide). A stone refused with FillEye would have filled such a point.", "quantifier": "every reachable board, every point, both colours", "why_tests_cant": "all boards", "anchors": ["src/rules/game.rs:Game::check_eye", "src/rules/game.rs:Game::helper_check_eye"]}
{"id": "C44", "title": "stricter rules only remove moves", "statement": "legals_by(f) is a subset of legals_by(f') whenever f' is a subset of f, and legals_by of no flag is pseudo_legals.", "quantifier": "every reachable game in which not all 65535 group numbers are used up, every pair of flag sets", "why_tests_cant": "all positions and flag sets", "anchors": ["src/rules/game.rs:Game::legals_by", "src/rules/game.rs:Game::check_point_by"]}
{"id": "C45", "title": "the printed board shows the position", "statement": "pretty_string() has one line per row and one symbol per column; the symbol at (i,j) is the black disc iff black, the white disc iff white, otherwise the grid symbol whose lines run exactly towards the neighbours on the board (sizes from 2); boards with the same printout show the same position.", "quantifier": "every reachable square board", "why_tests_cant": "all boards", "anchors": ["src/pieces/goban.rs:Goban::pretty_string"]}
{"id": "C46", "title": "the liberty bitset behaves as a set", "statement": "On indices 0..367, set/clear/get/merge/any/count_ones/iter_ones behave as insertion, deletion, membership, union, non-emptiness, cardinality and ascending enumeration of a set. Indices of 368 or more panic in get and set.", "quantifier": "every bitset value, every index", "why_tests_cant": "2^368 values", "anchors": ["src/pieces/group.rs:set", "src/pieces/group.rs:merge", "src/pieces/group.rs:any", "src/pieces/group.rs:count_ones", "src/pieces/group.rs:iter_ones", "src/pieces/group.rs:get"]}
{"id": "C47", "title": "the stone iterator visits a group once", "statement": "Iterating a group of a reachable board yields each of its stones exactly once, starts at origin, ends at last, and its size_hint is the exact count.", "quantifier": "every reachable board, every group", "why_tests_cant": "all histories of list splicing", "anchors": ["src/pieces/group.rs:CircularGroupIter", "src/pieces/group.rs:Group::iter"]}
{"id": "C48", "title": "the builder replays handicap, setup and moves", "statement": "build() gives the game obtained by pushing handicap points (Black), then setup stones, then playing the moves from the first turn (builder turn, else White iff handicap nonzero, else Black), with builder komi and outcome; the builder is left in its default state.", "quantifier": "every builder state", "why_tests_cant": "all builder inputs", "anchors": ["src/rules/game_builder.rs:GameBuilder::build_inner", "src/rules/game_builder.rs:GameBuilder::build"]}
{"id": "C49", "title": "handicap placement", "statement": "put_handicap(points) on distinct empty on-board points puts a black stone on each, changes no other intersection, gives White the turn, and records the count; komi, prisoners, passes are unchanged.", "quantifier": "every reachable game, every such list", "why_tests_cant": "all lists", "anchors": ["src/rules/game.rs:Game::put_handicap"]}
{"id": "C50", "title": "history records past positions", "statement": "The history set holds exactly the positions that stood before each stone move, each once, in order of first occurrence.", "quantifier": "every game", "why_tests_cant": "all histories", "anchors": ["src/rules/game.rs:Game::play", "src/rules/game.rs:Game::history"]}
{"id": "C51", "title": "SGF import follows the record", "statement": "For records of Go with Japanese or Chinese rules and player tags B or W, from_sgf gives the game of the builder that the root describes, then plays for each later node the move in its first token (if any) at (row, column) = (line-1, column-1), in turn, starting with PL, else White iff there is a handicap, else Black; so each move gets its recorded colour if the recorded colours alternate. The natural claims \"each move is played with its recorded colour\" and \"every recorded move is played\" are false.", "quantifier": "every parsed game tree", "why_tests_cant": "all records", "anchors": ["src/rules/sgf_bridge.rs:Game::from_sgf"]}
{"id": "C52", "title": "SGF records that are not supported", "statement": "from_sgf panics for every record with other rules, another game, other player tags or, in debug builds, a zero coordinate. The natural claim \"it returns an error, and never panics\" is false.", "quantifier": "every parsed game tree", "why_tests_cant": "all records", "anchors": ["src/rules/sgf_bridge.rs:Game::from_sgf", "src/rules/sgf_bridge.rs:From<RuleSet> for Rule"]}
{"id": "C53", "title": "what get_floating_stones returns", "statement": "get_floating_stones() never panics and returns, ascending, the numbers i below the count of live groups such that the group in slot i touches at least three points with the shape of an eye. The documented claim \"the groups that doesn't have two eyes\" is false.", "quantifier": "every reachable board", "why_tests_cant": "all boards", "anchors": ["src/rules/dead_stones.rs:Game::get_floating_stones"]}
{"id": "C54", "title": "the rules treat colours and board symmetries alike", "statement": "Under a rule that does not forbid filling eyes, applying any of the eight symmetries of the square to all moves of a game, with or without exchange of the colours, gives the same answers and transforms every resulting board in the same way; the exchange of colours alone does so under every rule. The natural claim \"under every rule\" is false for rotations: the eye check depends on the scanning order.", "quantifier": "every game, every symmetry", "why_tests_cant": "pairs of games", "anchors": ["src/rules/game.rs:Game::play", "src/pieces/goban.rs:Goban::push_wth_feedback"]}
{"id": "C55", "title": "the moves offered to the tree search", "statement": "While the game is not paused legals_moves() lists, each once, the points that try_play accepts and that fill no eye of the mover; if there are none it holds a single Pass, unless the game is over, and then it is empty. In a paused game it may offer moves that try_play refuses, and get_winner() panics on a draw, so the natural claims without these restrictions are false.", "quantifier": "every reachable game on a square board in which not all 65535 group numbers are used up, every coordinate", "why_tests_cant": "all positions", "anchors": ["src/rules/dead_stones.rs:GameTrait for Game"]}
{"id": "C56", "title": "board size requests", "statement": "Game::new(Custom(h,w)) takes h and w modulo 256 and makes the board of that size exactly when both are then at most 19, else it panics; a size given as a number works exactly for 9, 13 and 19. The natural claim \"an h x w board, or a panic above 19\" is false (265 x 9 gives 9 x 9).", "quantifier": "every pair of usize", "why_tests_cant": "all sizes (u8 truncation)", "anchors": ["src/rules/mod.rs:From<GobanSizes> for Size", "src/pieces/goban.rs:Goban::new"]}
{"id": "C57", "title": "Zobrist table quality", "statement": "All 722 table entries are distinct and non-zero, and no few of them cancel: two positions that differ in one, two or three intersections never collide, so that where suicide is forbidden every accepted stone capturing at most two stones changes the hash; collisions between legal positions do exist but never make unequal boards compare equal.", "quantifier": "all pairs of positions", "why_tests_cant": "all position pairs", "anchors": ["src/pieces/zobrist.rs:ZOBRIST", "src/pieces/goban.rs:PartialEq for Goban"]}
{"id": "C58", "title": "capture with the global wording of Tromp and Taylor", "statement": "In legal games an accepted stone move gives the position of the Tromp-Taylor rules: after the stone all opposing chains without liberty anywhere are cleared, then all own chains without liberty. For unchecked play the natural claim with the global wording is false: dead chains that the stone does not touch stay.", "quantifier": "every legal game, every rule, every point", "why_tests_cant": "The claim speaks about all chains of all boards of legal games of any length.", "anchors": ["src/rules/game.rs:Game::play", "src/pieces/goban.rs:Goban::remove_captured_stones_aux"]}
{"id": "C59", "title": "eye detection and symmetry", "statement": "The natural claim \"check_eye gives the same answer on a rotated board\" is false: the diagonal count depends on the scanning order. It holds for every point none of whose empty corners touches a stone of the opponent: there the check gives the same answer on any two boards of games that correspond under a symmetry of board and colours.", "quantifier": "every pair of boards that are rotations of each other", "why_tests_cant": "A symmetry claim relates all pairs of boards; tests look at few boards.", "anchors": ["src/rules/game.rs:Game::check_eye", "src/rules/game.rs:Game::helper_check_eye"]}
{"id": "C60", "title": "chain_stones of a point", "statement": "The natural reading \"chain_stones(index of a point) lists the stones of the chain on that point\" is false: the argument is a group number.", "quantifier": "every board, every point", "why_tests_cant": "Holds by accident on many small boards.", "anchors": ["src/pieces/goban.rs:Goban::chain_stones"]}
{"id": "C61", "title": "built-in rules", "statement": "JAPANESE forbids exactly ko and suicide, has komi 6.5 and counts territory, prisoners and komi; CHINESE forbids ko, superko and suicide, has komi 7.5 and counts territory, stones and komi; Rule::from_str accepts exactly \"JAP\" and \"CHI\".", "quantifier": "every string, all counts", "why_tests_cant": "The name claim ranges over all strings, the score claim over all counts.", "anchors": ["src/rules/mod.rs:JAPANESE", "src/rules/mod.rs:CHINESE", "src/rules/mod.rs:FromStr for Rule"]}
{"id": "C62", "title": "legality under Japanese rules", "statement": "With ko and suicide forbidden (and nothing else), after an accepted stone move try_play accepts a point exactly when it is empty, not suicidal, and does not recreate the position before that move; after an accepted pass, exactly when the game was not paused by it and the point is empty and not suicidal.", "quantifier": "every legal game, every point, both build profiles", "why_tests_cant": "An if-and-only-if over all legal games and points.", "anchors": ["src/rules/game.rs:Game::try_play", "src/rules/game.rs:Game::check_point_by"]}
{"id": "C63", "title": "legality under Chinese rules", "statement": "With superko and suicide forbidden and at least three recorded positions, try_play accepts a point exactly when the game is not paused and the point is empty, not suicidal, and no capture that recreates a recorded position.", "quantifier": "every legal game, every point, both build profiles", "why_tests_cant": "An if-and-only-if over all legal games and points.", "anchors": ["src/rules/game.rs:Game::try_play", "src/rules/game.rs:Game::check_super_ko"]}
{"id": "C64", "title": "representation and build profile never show", "statement": "Two games with the same position, side to move, passes, outcome, ko point, prisoners, rule and history of positions give the same verdicts for any further list of moves and look alike again afterwards; their scores and outcomes are the same for every komi, whatever the numbering of their groups, the build profiles and the iteration order of hash sets.", "quantifier": "every pair of look-alike games, every move list, every hash order", "why_tests_cant": "Relates all pairs of internal representations of one position.", "anchors": ["src/pieces/goban.rs:Goban::push_wth_feedback", "src/rules/game.rs:Game::try_play", "src/rules/game.rs:Game::calculate_score_by"]}
{"id": "C65", "title": "random playouts", "statement": "From every reachable game a random playout ends, for all shuffles: each of its moves is accepted by try_play and does not fill an own eye, and it passes only if there is no such move; the only other end is a panic in a game that has used up all 65535 group numbers. Playouts of legal games are legal, a playout that starts without a pass ends with two passes made when neither side had a legal move other than filling an own eye, and every finished sequence of such moves is the playout for some shuffles. The natural claim \"playouts never panic\" is false.", "quantifier": "every reachable game, every sequence of shuffles", "why_tests_cant": "The claim ranges over all random choices and includes termination.", "anchors": ["src/rules/dead_stones.rs:Game::playout", "src/rules/dead_stones.rs:fast_play_random"]}
{"id": "C66", "title": "what dead_stones returns", "statement": "dead_stones (with any answers of the tree search among the moves offered) ends and returns, ascending, the floating groups of which some stone is no longer on the board at the end of the game played out, every move of it being accepted; the only other end is a panic, without free group numbers or in the search itself. For a finished game it returns nothing.", "quantifier": "every reachable game, every behaviour of the search", "why_tests_cant": "Ranges over all answers of a randomised search.", "anchors": ["src/rules/dead_stones.rs:Game::dead_stones_wth_simulations"]}
{"id": "C67", "title": "exact verdict of try_play", "statement": "For every rule and every point of the board try_play gives the verdict of the first reason that applies: two passes (GamePaused), occupied (PointNotEmpty), forbidden suicide (Suicide), forbidden retaking of a ko (Ko), forbidden filling of an eye (FillEye), forbidden repetition by a capture once three positions are recorded (Ko); and accepts if none does. It panics only in a game that has used up all group numbers.", "quantifier": "every reachable game, all 16 combinations of rule flags, every point", "why_tests_cant": "An if-and-only-if over all games, rules and points, including the order of the reasons.", "anchors": ["src/rules/game.rs:Game::try_play", "src/rules/game.rs:Game::check_point_by"]}
{"id": "C68", "title": "unusual komi", "statement": "The natural claims \"unequal scores are never a draw\" and \"the margin is a number\" fail for some komi that the builder accepts: a positive komi below f32::EPSILON gives a draw, a NaN komi a win of White by NaN. An infinite komi that is counted makes White (if positive) or Black (if negative) win by an infinite margin.", "quantifier": "every f32 komi", "why_tests_cant": "The komi ranges over all f32 values.", "anchors": ["src/rules/game.rs:Game::outcome", "src/rules/game.rs:Game::set_komi"]}
{"id": "C69", "title": "queries about a point", "statement": "On every reachable board get_connected_points, get_connected_stones and get_liberties of a point list exactly its on-board neighbours, its neighbouring stones and its empty neighbours, each once with its colour; has_liberties tells whether the last list is not empty; get_connected_groups_idx and get_connected_groups list the groups next to the point once each.", "quantifier": "every reachable square board, every point", "why_tests_cant": "Universal over all boards; a wrong neighbour or a duplicate shows only at particular edges and group numberings.", "anchors": ["src/pieces/goban.rs:Goban::get_connected_points", "src/pieces/goban.rs:Goban::get_liberties", "src/pieces/goban.rs:Goban::get_connected_groups_idx"]}
{"id": "C70", "title": "the stone iterator call by call", "statement": "On every reachable board the calls of CircularGroupIter::next give the stones of the group one after the other, each once, and then None for ever, without panic (FusedIterator). The claim of ExactSizeIterator, that size_hint is the number of stones left, holds before the first call only: the hint never changes.", "quantifier": "every reachable board, every group, any number of calls", "why_tests_cant": "Ranges over all groups and call counts.", "anchors": ["src/pieces/group.rs:CircularGroupIter::next", "src/pieces/group.rs:CircularGroupIter::size_hint", "src/pieces/group.rs:ExactSizeIterator for CircularGroupIter"]}
{"id": "C71", "title": "exact point checks for every mask", "statement": "check_point_by returns, for every mask of illegal moves, the error of the first reason that applies (occupied, suicide, ko, eye, superko) or none; check_ko and check_super_ko are exact; legals_by lists in row-major order exactly the points without such a reason.", "quantifier": "every reachable game, every mask, every point", "why_tests_cant": "An if-and-only-if over all games, masks and points.", "anchors": ["src/rules/game.rs:Game::check_point_by", "src/rules/game.rs:Game::check_ko", "src/rules/game.rs:Game::check_super_ko", "src/rules/game.rs:Game::legals_by"]}
{"id": "C72", "title": "whole games follow the abstract game", "statement": "There is an abstract game on tables (position, side to move, passes, outcome, prisoners, ko point, earlier positions), defined from the rules of Go alone and deterministic. Every sequence of try_play calls with points of the board, resumptions and komi changes on a new game (with at most 65535 stone moves) is answered by the library exactly as by the abstract game and ends in the same table; every run of the abstract game, including unchecked moves and handicap stones, is a run of the library with the same answers.", "quantifier": "every board size 1 to 19, every rule, every sequence of calls, both build profiles", "why_tests_cant": "A simulation between the library and its specification over sequences of calls of any kind.", "anchors": ["src/rules/game.rs:Game::new", "src/rules/game.rs:Game::try_play", "src/rules/game.rs:Game::play", "src/rules/game.rs:Game::put_handicap", "src/rules/game.rs:Game::resume"]}
{"id": "C73", "title": "liberties of groups as sets", "statement": "Group::new has one stone, which is both its origin and its last stone, and no liberty; add_liberties adds exactly the given liberties and changes nothing else (in debug builds it panics exactly if one is present already or given twice); remove_liberty takes exactly one away (in debug builds it panics if it was not there); union_liberties and union_liberties_slice are the union; the queries of a group agree on its liberties; Groups::iter_with_index lists exactly the live groups with their numbers in increasing order.", "quantifier": "every group value, every list of board indices, every reachable board", "why_tests_cant": "Universal over all bitset contents.", "anchors": ["src/pieces/group.rs:Group::add_liberties", "src/pieces/group.rs:Group::union_liberties", "src/pieces/group.rs:Groups::iter_with_index"]}
{"id": "C74", "title": "rewards of the tree search", "statement": "In a game ended by two passes evaluate_leaf gives a colour 1 if it has more points than the other, 0 if it has fewer, and panics if they are equal; with a komi that is no multiple of a half it may also panic if the exact scores differ by less than 1/16. In a running game it panics; after Resign(c) it gives 1 for c and 0 for the other colour.", "quantifier": "every reachable game, every finite komi, every hash order", "why_tests_cant": "Universal over all final positions and scores.", "anchors": ["src/rules/dead_stones.rs:Eval::evaluate_leaf", "src/rules/dead_stones.rs:Game::get_winner"]}
{"id": "C75", "title": "unconditional life", "statement": "Under a rule that forbids suicide, stones that enclose regions such that two disjoint regions are vital to each of them (every empty point of the region is a liberty of the chain; Benson) stay on the board through every sequence of try_play calls, passes, resumptions and komi changes in which their owner does not play inside the regions. In particular a chain with two eyes is never captured and the opponent never gets a stone into the eyes. Where suicide is allowed this fails.", "quantifier": "every reachable game, every colour, every family of stones and regions, every continuation of any length", "why_tests_cant": "Ranges over all continuations of a game, without bound on their length.", "anchors": ["src/rules/game.rs:Game::try_play", "src/rules/game.rs:Game::check_suicide", "src/pieces/goban.rs:Goban::push_wth_feedback", "src/pieces/goban.rs:Goban::remove_captured_stones_aux"]}
{"id": "C76", "title": "area and territory agree up to the moves made", "statement": "The margin of calculate_score_by(KOMI|STONES) exceeds the margin of calculate_score_by(KOMI|PRISONNERS) by the number of black stones minus the number of white stones put on the board. In a game of accepted stone moves and passes from an empty board the two margins agree if each pass costs a prisoner, up to one point for Black if Black made the last move.", "quantifier": "every reachable game with fewer than a million prisoners and a komi that is a multiple of one half up to 100000; every list of fewer than a million accepted moves; every hash order", "why_tests_cant": "A conservation law relating two scorings over all games.", "anchors": ["src/rules/game.rs:Game::calculate_score_by", "src/rules/game.rs:Game::prisoners", "src/rules/game.rs:Game::play"]}
{"id": "C77", "title": "area scores make up the board", "statement": "calculate_score_by(STONES) of Black and White and the neutral empty points (those that are territory of nobody) add up to the number of points of the board.", "quantifier": "every reachable game, every komi, every hash order", "why_tests_cant": "Universal over all positions.", "anchors": ["src/rules/game.rs:Game::calculate_score_by", "src/pieces/territory.rs:Goban::calculate_territories"]}
{"id": "C78", "title": "games under superko end", "statement": "In a legal game with superko and suicide forbidden and at least three recorded positions, at most 3^(n n) (n n + 1) - 1 further stone moves are accepted, whatever passes, resumptions and refused moves come between them. The natural claim \"superko stops every ko\" is false: on a board that was set up a ko can be taken and retaken again and again, until the group numbers run out (C126), because nothing is compared while only two positions are recorded.", "quantifier": "every legal game, every continuation of any length", "why_tests_cant": "Termination: ranges over all continuations without bound on their length.", "anchors": ["src/rules/game.rs:Game::check_super_ko", "src/rules/game.rs:Game::try_play"]}
{"id": "C79", "title": "which positions legal games reach", "statement": "Under every rule that does not forbid filling eyes, the positions reached from an empty board by moves that try_play accepts are exactly the positions in which every chain has a liberty; two moves per point suffice.", "quantifier": "every board size 1 to 19, every such rule, every position", "why_tests_cant": "An if-and-only-if over all 3^361 positions.", "anchors": ["src/rules/game.rs:Game::try_play", "src/rules/game.rs:Game::play", "src/rules/game.rs:Game::check_point_by"]}
{"id": "C80", "title": "two solid eyes and the search for dead stones", "statement": "Where suicide is forbidden, a chain with two solid eyes (empty points around which all points belong to the chain) survives every random playout and is never reported by dead_stones, whatever the tree search answers. On the other hand every group that dead_stones reports touches at least three points with the shape of an eye, so that groups without eyes are never reported.", "quantifier": "every reachable game, every sequence of shuffles, every behaviour of the search", "why_tests_cant": "Ranges over all random playouts and all answers of a randomised search.", "anchors": ["src/rules/dead_stones.rs:Game::dead_stones_wth_simulations", "src/rules/dead_stones.rs:Game::get_floating_stones", "src/rules/game.rs:Game::check_eye"]}
{"id": "C81", "title": "scores and outcomes respect symmetries", "statement": "If two reachable games correspond under a symmetry of the board, possibly with the colours exchanged (boards and prisoners), then every score without komi corresponds, whatever order the two territory traversals take; with komi it does when the colours are kept and the komi is the same. If the games also correspond in how they ended, their outcomes correspond, to the same margin.", "quantifier": "every pair of corresponding reachable games, every set of scoring flags, every symmetry, every traversal order", "why_tests_cant": "A relation between all pairs of games; the scores are floating point and the traversal order is random.", "anchors": ["src/rules/game.rs:Game::calculate_score_by", "src/rules/game.rs:Game::outcome", "src/pieces/territory.rs:Goban::calculate_territories"]}
{"id": "C82", "title": "neighbours of arbitrary coordinates", "statement": "For every board size and all coordinates below 255 the neighbours of a point are listed exactly, once each, and the corner points on the board are the diagonal neighbours. For the coordinate 255 debug builds panic; the claim that release builds still give adjacent points is false.", "quantifier": "every pair of u8 sizes, every pair of u8 coordinates, both build profiles", "why_tests_cant": "2^32 combinations of size and point.", "anchors": ["src/pieces/util.rs:neighbor_coords", "src/pieces/util.rs:valid_coords", "src/pieces/util.rs:corner_points"]}
{"id": "C83", "title": "indices and coordinates", "statement": "On every reachable board the index of a point and its coordinate are converted into each other, get_color and get_connected_stones give the same answer for both, the colour is that of the point, and the stones listed are exactly the stones next to it, once each.", "quantifier": "every reachable board, every point", "why_tests_cant": "Unbounded set of boards; two generic instances of each function.", "anchors": ["src/pieces/util.rs:IntoCoord", "src/pieces/util.rs:IntoIdx", "src/pieces/goban.rs:Goban::get_color", "src/pieces/goban.rs:Goban::get_connected_stones"]}
{"id": "C84", "title": "a new game", "statement": "A new game on any square board and under any rule has an empty board, no stones, hash 0, no prisoners, no history, Black to move, is not over and has no outcome; its legal moves are all points in row-major order, except that on the board with one point there is none if the rule forbids suicide or filling eyes. The default game and the game of the default builder are the new 19x19 game under Chinese rules.", "quantifier": "every square size the constructor accepts, every rule (any mask), both build profiles", "why_tests_cant": "Every size and every one of the 2^8 masks with any komi.", "anchors": ["src/rules/game.rs:Game::new", "src/rules/game.rs:Default for Game", "src/rules/game_builder.rs:GameBuilder::build", "src/pieces/goban.rs:Default for Goban"]}
{"id": "C85", "title": "built and imported games follow the rules of Go", "statement": "For every builder with distinct set-up points on a square board whose moves the abstract game of C72 can carry out from the table that the builder describes, build returns a game whose board, turn, passes, outcome, prisoners, ko point and history are those of the abstract game after these moves. The same for every supported SGF record, from the table that its root describes. Moves that the abstract game accepts can always be carried out in this way.", "quantifier": "every such builder, every supported record, any number of moves up to the 65535 stones that group numbers allow", "why_tests_cant": "Unbounded set of records.", "anchors": ["src/rules/game_builder.rs:GameBuilder::build", "src/rules/sgf_bridge.rs:Game::from_sgf", "src/rules/game.rs:Game::play"]}
{"id": "C86", "title": "settings of the builder", "statement": "After any sequence of calls of the setters of a default builder each setting is the last value given, else the default; set-up stones accumulate in order.", "quantifier": "every sequence of setter calls", "why_tests_cant": "Unbounded sequences.", "anchors": ["src/rules/game_builder.rs:GameBuilder"]}
{"id": "C87", "title": "walks that never end", "statement": "Where the model of a group iterator diverges, the iterator yields a stone on every call for ever. The natural claims \"a move on an empty point always returns\" and \"the import of a supported record with moves on the board returns\" are false: in release builds, an unchecked move on an occupied point can corrupt the circular lists so that a later move loops for ever, and there are SGF records whose import does not return in release builds and panics in debug builds.", "quantifier": "every group and list of links; witnesses for the refutations", "why_tests_cant": "Tests that hang are usually written off as time-outs; the cases need an unchecked move on an occupied point first.", "anchors": ["src/pieces/group.rs:GroupIter", "src/pieces/goban.rs:Goban::push_wth_feedback", "src/rules/game.rs:Game::play", "src/rules/sgf_bridge.rs:Game::from_sgf"]}
{"id": "C88", "title": "one stone on an occupied point", "statement": "In release builds, on every board where each chain breathes, push on an occupied point returns, gives the point the colour of the stone and changes no other point; play on an occupied point of a legal game does the same, captures nothing, turns the move over, and only when suicide is allowed and all neighbours are stones of the opponent leaves the point empty and counts one prisoner. In debug builds both return when no neighbour is occupied and panic when one is. (As long as a group number is free.)", "quantifier": "every such board and game, every occupied point, both colours", "why_tests_cant": "Unbounded set of positions; the two build profiles differ.", "anchors": ["src/pieces/goban.rs:Goban::push", "src/pieces/goban.rs:Goban::push_wth_feedback", "src/rules/game.rs:Game::play"]}
{"id": "C89", "title": "checked moves beyond the right edge", "statement": "For a coordinate off an n x n board that has the index of a point of the board, try_play gives the first reason of a list in which the occupied-point, capture and superko checks look at that point, while the liberty and eye checks look around the coordinate, and the simple ko check never applies; an accepted move puts the stone on the point. So the claims \"try_play enforces ko\" and \"try_play enforces the suicide prohibition\" are false for such coordinates.", "quantifier": "every size, every reachable game under every rule, every such coordinate below 255, every verdict; witnesses for the refutations", "why_tests_cant": "All sizes, positions and coordinates; the two groups of checks differ only in special positions.", "anchors": ["src/rules/game.rs:Game::try_play", "src/rules/game.rs:Game::check_point", "src/rules/game.rs:Game::check_ko", "src/rules/game.rs:Game::check_suicide", "src/pieces/util.rs:two_to_1dim"]}
{"id": "C90", "title": "stones below the last row; which moves return", "statement": "From a legal game on an n x n board (n >= 2) an unchecked move on any pair of numbers (x, y) returns exactly if x*n+y < 361 and, in debug builds, it lands on an empty point of the board or next to no stone; otherwise it panics (as long as a group number is free). A stone below the last row with index below 361 changes no point of the board, turns the move over and stays in a hidden slot, unless suicide is allowed and it has no empty or friendly point above: then it is taken off and counted. So these claims are false: an accepted move changes the board; prisoners are stones that were taken; surrounded stones are taken.", "quantifier": "every size, every legal game under every rule, every coordinate, both build profiles; witnesses for the refutations", "why_tests_cant": "All sizes, positions and coordinates; the damage shows only moves later.", "anchors": ["src/rules/game.rs:Game::play", "src/rules/game.rs:Game::try_play", "src/pieces/goban.rs:Goban::push_wth_feedback", "src/pieces/util.rs:two_to_1dim", "src/pieces/util.rs:one_to_2dim"]}
{"id": "C91", "title": "the interface between games and the tree search", "statement": "A game that is not final offers moves to the search; do_move carries each of them out with the result of the checked play, player_turn changes to the other colour, and only a second pass makes the game final. The claims \"a final game stays final under the moves it offers\" and \"the hash of the interface tells positions apart\" are false.", "quantifier": "every reachable game under every rule, both build profiles; witnesses for the refutations", "why_tests_cant": "Unbounded set of games.", "anchors": ["src/rules/dead_stones.rs:GameTrait for Game"]}
{"id": "C92", "title": "perft counts the lines of play", "statement": "The benchmark function perft returns, for every depth, the number of lines of that many accepted stones without passes, in the sense of the abstract game of C72, as long as it fits in a u64; beyond that it panics in debug builds and returns the number modulo 2^64 in release builds, which happens at depth nine on the empty 19x19 board. It does not look at passes, gives the same numbers for games that correspond under a symmetry, and on an empty n x n board (n at least 2) gives m, m(m-1) and m(m-1)(m-2) for depths 1 to 3, m = n*n.", "quantifier": "every reachable game, every depth with at most 65535 stones in total, both build profiles", "why_tests_cant": "The number of lines grows exponentially with the depth; the benchmark itself only prints the numbers.", "anchors": ["benches/perft.rs:perft", "src/rules/game.rs:Game::legals", "src/rules/game.rs:Game::play"]}
{"id": "C93", "title": "the benchmark games end and are legal", "statement": "fast_play_game and play_game, with any shuffles of the random generator, end after at most 47316994 moves with a finished legal game in which every move was an accepted stone that fills no eye, or a pass when there was none; or they panic because no group number is left. Within 65535 moves the two functions can produce exactly the same games, although one asks for the legal moves first and the other checks point by point.", "quantifier": "every sequence of shuffles, every rule (fast_play_game), both build profiles", "why_tests_cant": "All shuffles of all moves of a game.", "anchors": ["benches/perft.rs:fast_play_game", "benches/perft.rs:play_game", "benches/perft.rs:play_random", "benches/perft.rs:fast_play_random"]}
{"id": "C94", "title": "the settings of a game", "statement": "After any calls of play, try_play, resume, set_komi and put_handicap the komi is the one that was set last, the number of handicap stones that of the last put_handicap, and the forbidden moves and the scoring flags are those the game began with. Leaving out the changes of komi changes no answer of the other calls, and in the final game nothing but the komi.", "quantifier": "every game, every sequence of calls, both build profiles", "why_tests_cant": "Unbounded sequences of calls.", "anchors": ["src/rules/game.rs:Game::set_komi", "src/rules/game.rs:Game::komi", "src/rules/game.rs:Game::put_handicap", "src/rules/game.rs:Game::play", "src/rules/game.rs:Game::try_play"]}
{"id": "C95", "title": "the README example runs to its end", "statement": "In a legal game on a board of at least two lines, not paused and with group numbers left, a point that is empty and has only empty neighbours is always accepted, so there is a legal move as long as fewer than a fifth of the points are occupied. Therefore the example program of the README (19x19, Chinese rules, 35 random legal stones, printing the board, the outcome and the array after each) never panics, whatever the random choices: with any counter up to 73 it plays exactly that many accepted stones and the game is not over. With a counter up to 65535 it either plays that many accepted stones or panics (unwrap) at the first position where legals is empty, and every line of accepted stones is what it plays for some choices. The natural claim that the loop, guarded by is_over, may run with any counter is false: from 602 on some choices reach a position where the side to move has no legal move although the game is not over.", "quantifier": "for all random choices, counters, iteration orders of the hash sets and both build profiles; for the first part all legal games", "why_tests_cant": "the example draws from an astronomically large set of games; a documentation test runs one of them", "anchors": ["README.md:34-56", "src/rules/game.rs:103-109", "src/rules/game.rs:155-165", "src/rules/game.rs:448-450"]}
{"id": "C96", "title": "which boards play Go", "statement": "Putting a stone on an empty point of a board of h rows and w columns changes the position as the rules of Go say - the stone, the captures, and the suicide if the rule allows it - in every game on that board, if and only if w divides h. If not, the library departs from the rules within the first four moves of a new game: on boards wider than high a stone shows on two points, on the others a surrounded stone in the corner stays.", "quantifier": "for all heights and widths from 1 to 19, all rules, all games that the public API can produce with fewer than 65535 stones put, both build profiles", "why_tests_cant": "all sizes and all games on them; no test of the project uses a board that is not square", "anchors": ["src/pieces/util.rs:17-30", "src/pieces/goban.rs:Goban::push_wth_feedback", "src/rules/game.rs:173-216", "README.md"]}
{"id": "C97", "title": "checked games on boards whose width divides their height", "statement": "If the width divides the height, try_play accepts a stone, or refuses it for a given reason, exactly when the reasons of C72 - occupied point, suicide, ko, eye, superko, game paused - taken in order on the board of that size say so; an accepted stone was put on an empty point and changes the position as the rules say; per colour the stones put are those on the board and those taken.", "quantifier": "for all sizes with the width dividing the height, all rules, all reachable games with fewer than 65535 stones put, all points, all verdicts, both build profiles", "why_tests_cant": "all sizes and all games on them", "anchors": ["src/rules/game.rs:173-216", "src/rules/game.rs:221-249", "src/rules/game.rs:294-340"]}
{"id": "C98", "title": "enumerations on boards whose width divides their height", "statement": "On a board k times as high as wide, pseudo_legals and legals do not list the empty and the legal points: points below the top square of the board are never listed, although they can be played; every point of the square is listed k times by pseudo_legals if empty and k - 1 times if occupied, and k times by legals if it passes the checks. pseudo_legals_vec (unless the size overflows in a debug build) and get_stones list every empty point and every stone exactly once.", "quantifier": "for all sizes with the width dividing the height, all rules, all reachable games, all points, both build profiles", "why_tests_cant": "all sizes and all positions on them; no test of the project uses a board that is not square", "anchors": ["src/pieces/goban.rs:352-390", "src/rules/game.rs:134-170"]}
{"id": "C99", "title": "counting on boards that are not square", "statement": "Territories (get_territories) are the empty points whose region touches one colour only, in every game and whatever the iteration order of the hash sets, if and only if the board is square; so the outcome can name the wrong winner: on a 6x3 board under Chinese rules Black wins by 6.5 although both sides hold nine points and White gets 7.5 points of komi. If the width divides the height, number_of_stones still counts the stones of both colours.", "quantifier": "for all sizes up to 19x19, all reachable games, all iteration orders, both build profiles", "why_tests_cant": "all games on all sizes; no test of the project counts on a board that is not square", "anchors": ["src/pieces/territory.rs:61-104", "src/pieces/goban.rs:123-139", "src/pieces/goban.rs:375-387"]}
{"id": "C100", "title": "one group per chain, and how many chains there can be", "statement": "On every reachable board chains() lists exactly one group for every chain on the board, of its colour, none twice and none missing; groups that were captured are not listed. In every legal game there are at most four chains for every five points (MAX_CHAINS for 361 points). The numbers given to groups are not bounded by MAX_CHAINS: some legal game on the 2x2 board has more than 288 of them with at most three chains on the board.", "quantifier": "for all boards and board sizes reachable by pushes, removals and games; the bound for all legal games", "why_tests_cant": "a bound over all legal positions; excess of the numbers needs a game of hundreds of moves on a tiny board", "anchors": ["src/pieces/goban.rs:22-24", "src/pieces/goban.rs:82-84", "src/pieces/group.rs:203-260"]}
{"id": "C101", "title": "groups and views on boards whose width divides their height", "statement": "If the width divides the height, then in every reachable game: group numbers tell the chains apart, chain_stones lists each chain, and the recorded liberties are the empty points next to it; == compares positions, and equal boards hash equally; to_vec shows the point of row i and column j at entry i*height+j and no stone elsewhere; the printout has one line per row and shows each stone. matrix shows row i of a board k times as high as wide in its row i*k: on a 6x3 board a stone of the second row is shown in the third.", "quantifier": "for all board sizes whose width divides the height, all reachable games, both build profiles", "why_tests_cant": "all games on all such sizes; no test of the project looks at a board that is not square", "anchors": ["src/pieces/goban.rs:97-119", "src/pieces/goban.rs:331-348", "src/pieces/goban.rs:419-451", "src/pieces/goban.rs:625-647", "src/pieces/util.rs:17-37"]}
{"id": "C102", "title": "the bytes of the printed board", "statement": "The text of a board of h rows and w columns has h*(3*w+1) bytes: in each line three bytes for each point and a line feed; the three bytes of a point are E2 97 8F exactly if a black stone stands there and E2 97 8B exactly if a white stone does.", "quantifier": "for all square boards and all boards whose width divides the height, all reachable games", "why_tests_cant": "every point of every position; the tests only print boards", "anchors": ["src/pieces/goban.rs:418-451", "src/pieces/goban.rs:613-617"]}
{"id": "C103", "title": "legal games on boards whose width divides their height", "statement": "If the width divides the height, then in every legal game - a new game, a setup or a handicap in which every chain has a liberty, and then accepted moves only - every chain has a liberty; an accepted stone was put on an empty point and changes the position as the rules of Tromp and Taylor say; with the ko flag, without the superko flag and with suicide forbidden a move is refused for ko exactly if it would bring back the position before the last stone; a move refused for ko repeats a recorded position; with the superko flag, from the third recorded position on, exactly the capturing moves that repeat a recorded position are refused for ko, and if suicide is forbidden and eyes may be filled all other moves on empty points that are no suicide are accepted.", "quantifier": "for all board sizes whose width divides the height, all rules with the flags named, all legal games, all points, both build profiles", "why_tests_cant": "a statement on all positions recorded in all games on all such sizes; no test of the project uses a board that is not square", "anchors": ["src/rules/game.rs:172-240", "src/rules/game.rs:289-313", "src/rules/game.rs:398-446", "src/rules/game.rs:453-463"]}
{"id": "C104", "title": "whole games on boards whose width divides their height", "statement": "If the width divides the height, any list of checked calls to a new game - try_play of a point on the board, a pass or a resignation, resume, set_komi - with at most 65535 stones is answered without a panic; the answers, the position, the player to move, the passes, the outcome, the prisoners, the ko point and the recorded positions are those of the abstract game on a board of that size. Every run of the abstract game, also with unchecked moves and handicaps, is a run of the library, from the start and from every reachable game. The abstract game is deterministic, so debug and release builds answer alike.", "quantifier": "for all board sizes whose width divides the height, all rules, all lists of calls, all reachable games, both build profiles", "why_tests_cant": "all games of any length; no test of the project uses a board that is not square", "anchors": ["src/rules/game.rs:41-77", "src/rules/game.rs:172-250", "src/rules/game.rs:280-446"]}
{"id": "C105", "title": "the end of games and the reachable positions on boards whose width divides their height", "statement": "If the width divides the height: under rules that forbid superko and suicide fewer than 3^(h*w)*(h*w+1) stones are accepted after the third, whatever passes, resignations, resumptions and refused moves come between; and the positions that accepted stones and passes lead to from a new game, under a rule that lets eyes be filled, are exactly those in which every chain has a liberty, each within 2*h*w moves.", "quantifier": "for all board sizes h x w with w dividing h, all rules with the flags named, all legal games, all positions", "why_tests_cant": "all games and all positions on all such sizes", "anchors": ["src/rules/game.rs:172-240", "src/rules/game.rs:289-313", "src/rules/game.rs:398-446"]}
{"id": "C106", "title": "simulations of the tree search", "statement": "A simulation (down by moves that legals_moves offers, out by a random playout) comes to a game finished by two passes and rewards the colour it is evaluated for with 1 if that colour is ahead there and 0 if it is behind; it panics if the colours are level. So with a komi that counts and has half a point dead_stones, with any number of simulations, gives its answer; it panics only on the way through games without free group numbers or with a million captured stones of one colour. With a whole komi it does panic: a simulation from the empty 5x5 board under Chinese rules with komi 5 ends in a draw (the part of the claim that dead_stones always answers is refuted).", "quantifier": "every reachable game, every way down, every shuffle, every number of simulations", "why_tests_cant": "Ranges over all random playouts of a randomised search; the panic needs a draw.", "anchors": ["src/rules/dead_stones.rs:Game::dead_stones_wth_simulations", "src/rules/dead_stones.rs:Eval::evaluate_leaf", "src/rules/dead_stones.rs:PL::playout", "src/rules/dead_stones.rs:Game::get_winner"]}
{"id": "C107", "title": "how soon a position can come back", "statement": "An accepted stone leaves the position as it was exactly if suicide is allowed, all neighbours on the board are stones of the other colour, and nothing is captured: a suicide of one stone. Where ko and suicide are forbidden and superko is not (Japanese rules) no two stones in a row bring back the position before them. With two passes and a resumption in between two stones do (this part is refuted), and so do three stones in a row (refuted for Japanese rules).", "quantifier": "all reachable and all legal games, all points", "why_tests_cant": "Over all positions; the cycle of three stones needs a special shape.", "anchors": ["src/rules/game.rs:Game::try_play", "src/rules/game.rs:Game::play", "src/rules/game.rs:Game::is_ko", "src/rules/game.rs:Game::resume"]}
{"id": "C108", "title": "equality of results, rules, sizes and moves", "statement": "The derived equality of results (EndGame) holds exactly if they name the same way to end, the same winner and the same margin as a number; that of rules exactly if the flags agree and the komi is the same number. So asking twice for the outcome of a game finished by two passes gives equal answers, whatever the order of the hash sets, except if the komi is a NaN that counts. Two moves, and two sizes, are equal exactly if they are the same by name and numbers; but sizes that differ can be the same size: Nineteen, Custom(19, 19) and Custom(275, 19) differ and make the same games (refuted).", "quantifier": "all f32 values, all results and rules, all reachable games", "why_tests_cant": "NaN, signed zeros and hash orders are not met in tests.", "anchors": ["src/rules/mod.rs:EndGame", "src/rules/mod.rs:Rule", "src/rules/mod.rs:GobanSizes", "src/rules/game.rs:Game::outcome"]}
{"id": "C109", "title": "reflections and look-alikes on boards whose width divides their height", "statement": "If the width divides the height, two games that correspond under a reflection or half turn of the board, with the colours kept or swapped, and have corresponding histories, give the same answers to corresponding moves, if eyes may be filled, and go on to correspond; in particular two new games under the same prohibitions. Games that look alike (positions, recorded positions, side to move, passes, result, ko point, prisoners, rule) give the same answers to the same moves and look alike afterwards, in either build profile, and always have a score and outcome, the same for both, whatever the order of the hash sets. If komi is not counted, two games that differ by the colours only have scores and outcomes that differ by the colours only, however many prisoners there are. That a game and its reflection have the same winner is refuted: on 6 x 3 under Chinese rules a finished game is won by Black by 6.5 and the same game upside down by White by 9.5.", "quantifier": "all board sizes whose width divides the height, all reachable games that correspond, all lists of moves, all orders of hash sets", "why_tests_cant": "All games of any length, in pairs; no test of the project uses a board that is not square.", "anchors": ["src/rules/game.rs:172-240", "src/rules/game.rs:289-446", "src/pieces/goban.rs:375-387", "src/pieces/territory.rs:61-104"]}
{"id": "C110", "title": "exactly what counts as territory on boards whose width divides their height", "statement": "C99 refutes that territories are counted as in Go on boards that are not square; this says what is counted instead. If the width divides the height: the points listed as empty are gone through in turn; a point in a region chosen before is passed over, any other point, even a stone, gives a new region, namely the point and all empty regions next to it; a region counts for a colour if stones of that colour and of no other are next to its points, and a point counts as often as it occurs in such regions. On a board at least twice as high as wide this means: a point counts once for each stone p in the first w rows such that the point is p or in an empty region next to p and only stones of the colour are next to these, and once more if it is in an empty region that reaches the first row and touches that colour only. The regions do not depend on build profile or order of hash sets; the score always exists and is exactly the counted points, plus prisoners, stones and komi as the flags say; the outcome follows from it.", "quantifier": "all board sizes whose width divides the height, all reachable games, all points, all orders of hash sets, all score flags, komi a multiple of one half up to 100000, fewer than a million prisoners", "why_tests_cant": "All positions on all such boards; the project has no test on a board that is not square.", "anchors": ["src/pieces/territory.rs:61-104", "src/pieces/goban.rs:375-387", "src/rules/game.rs:114-130", "src/rules/game.rs:258-276"]}
{"id": "C111", "title": "random playouts and the moves of the tree search on boards whose width divides their height", "statement": "On a board k times as high as wide (w columns): a random playout from every reachable game ends, for all shuffles; each of its moves is a stone accepted by try_play in the first w rows that does not fill an own eye, or a pass if no legal point that is listed is of that kind; the only other end is a panic in a game that has used up all group numbers. Playouts of legal games are legal, and every finished sequence of such moves is the playout for some shuffles. legals_moves offers exactly the accepted points of the first w rows that are no own eyes, each of them k times, and a pass if there is no such point. So neither playouts nor the search ever put a stone below row w. The claim of C65 that a playout ends only when nobody has a legal move other than filling an eye is false here.", "quantifier": "all board sizes whose width divides the height, every reachable game, every sequence of shuffles", "why_tests_cant": "Ranges over all random choices, includes termination; the project has no test on a board that is not square.", "anchors": ["src/rules/dead_stones.rs:Game::playout", "src/rules/dead_stones.rs:fast_play_random", "src/rules/dead_stones.rs:Game::legals_moves", "src/pieces/goban.rs:375-387"]}
{"id": "C112", "title": "floating and dead stones on boards whose width divides their height", "statement": "On a board k times as high as wide (w columns) get_floating_stones lists, in increasing order, exactly the groups next to m points of the first w rows that have the shape of an eye, where k m is at least three: one such point is enough on a board three times as high as wide, two on one twice as high. dead_stones reports exactly the floating groups with a stone that is no longer there at the end of the play of the tree search, whatever moves the search answers with among those offered; it panics only if the search panics or the group numbers are used up on the way, and reports nothing in a finished game.", "quantifier": "all board sizes whose width divides the height, every reachable game, every behaviour of the search", "why_tests_cant": "Ranges over all answers of a randomised search and all such boards.", "anchors": ["src/rules/dead_stones.rs:Game::dead_stones", "src/rules/dead_stones.rs:Game::get_floating_stones"]}
{"id": "C113", "title": "unconditional life and solid eyes on boards whose width divides their height", "statement": "If the width divides the height: where suicide is forbidden, stones with two disjoint vital regions (C75) stay on the board through every sequence of calls in which their owner does not play inside the regions, and keep their regions; a chain with two eyes is never captured. Under the same condition a chain with two solid eyes survives every random playout and is never reported by dead_stones, whatever the search answers. On a board k times as high as wide, every group reported touches m points of the upper square with the shape of an eye, where k m is at least three.", "quantifier": "all board sizes whose width divides the height, every reachable game, every continuation, every shuffle and every behaviour of the search", "why_tests_cant": "Over all continuations without bound on their length, on boards that no test uses.", "anchors": ["src/rules/game.rs:Game::try_play", "src/rules/game.rs:Game::check_suicide", "src/rules/dead_stones.rs:Game::dead_stones", "src/pieces/goban.rs:Goban::push_wth_feedback"]}
{"id": "C114", "title": "how soon a position can come back on boards whose width divides their height", "statement": "If the width divides the height: an accepted stone leaves the position as it was exactly if suicide is allowed, all neighbours on the board are stones of the other colour, and nothing is captured. Where ko and suicide are forbidden and superko is not (Japanese rules) no two stones in a row bring back the position before them.", "quantifier": "all board sizes whose width divides the height, all reachable and all legal games, all points", "why_tests_cant": "Over all positions of all such boards.", "anchors": ["src/rules/game.rs:Game::try_play", "src/rules/game.rs:Game::play", "src/rules/game.rs:Game::is_ko"]}
{"id": "C115", "title": "built and imported games on boards whose width divides their height", "statement": "If the width divides the height: for every builder with distinct set-up points on the board whose moves the abstract game can carry out from the table that the builder describes, build returns a game whose board, turn, passes, outcome, prisoners, ko point and history are those of the abstract game after these moves. The same for every supported SGF record, from the table that its root describes, read on a board with as many rows as the first number of its size says. Moves that the abstract game accepts can always be carried out in this way.", "quantifier": "all board sizes whose width divides the height, every such builder and record, any number of moves up to the 65535 stones that group numbers allow", "why_tests_cant": "Unbounded set of records; the project has no test on a board that is not square.", "anchors": ["src/rules/game_builder.rs:GameBuilder::build", "src/rules/sgf_bridge.rs:Game::from_sgf", "src/rules/game.rs:Game::play"]}
{"id": "C116", "title": "size and rules stay as they were set; the size of imported boards", "statement": "No call of the public interface changes the size of the board, the prohibitions or the way of counting, in whatever state a game is, reachable or not. A built game has the size and the rules that the builder was told. An imported game has as many rows as the first number of the recorded size says (modulo 256), which by the SGF standard is the number of columns, and as many columns as the second, while stones are put on (line, column). So the natural claim \"an imported record is played on the recorded board\" is false for records that are not square: in a record of three columns and six rows a stone is captured that the imported game still shows.", "quantifier": "every game value, every list of calls, every builder, every supported record", "why_tests_cant": "Ranges over all states and lists of calls; the records in the tests are square.", "anchors": ["src/rules/sgf_bridge.rs:30-32", "src/rules/game_builder.rs:GameBuilder::size", "src/rules/game.rs:Game::play", "src/pieces/goban.rs:Goban::new"]}
{"id": "C117", "title": "which boards answer, whatever their shape", "statement": "On a board of one to nineteen rows and one to nineteen columns, checked calls to a new game - try_play of a point on the board, a pass or a resignation, resume, set_komi - with at most 65535 stones are always answered without a panic in release builds; in debug builds they are so if and only if the width divides the height: on every other board two moves of a new game under Japanese rules panic. In release builds try_play of a stone panics exactly if the game is not paused and the point (x, y) has x*height+y >= 361, on the board or not, and it never loops; the check of a point, the legal moves, the score and the outcome are answered in every such game.", "quantifier": "all board sizes up to 19x19, every list of calls, every game a release build can reach with unchecked moves on empty cells, every rule and every hash iteration order", "why_tests_cant": "Ranges over all runs on all board sizes; tests use square boards in debug builds.", "anchors": ["src/rules/game.rs:Game::try_play", "src/rules/game.rs:Game::check_point_by", "src/pieces/util.rs:one_to_2dim", "src/pieces/util.rs:two_to_1dim", "src/pieces/goban.rs:Goban::push_wth_feedback", "src/pieces/territory.rs:Goban::get_territories"]}
{"id": "C118", "title": "what survives on boards of any shape", "statement": "In release builds, on a board of any shape, with stones on any cells of the array, on the board or not, even though groups are connected wrongly unless the width divides the height: the stones of a colour in the array and the prisoners add up to the stones of the colour put down, and number_of_stones counts the stones in the array; an accepted stone was put in an empty cell and changes no other cell except by emptying it, and where suicide is forbidden it stays, as do all stones of its colour; games with the same array have the same hash and equal boards.", "quantifier": "all board sizes up to 19x19, every game a release build can reach with unchecked moves on empty cells", "why_tests_cant": "A relation between arbitrarily long runs and the array, on boards that no test uses.", "anchors": ["src/rules/game.rs:Game::play", "src/pieces/goban.rs:Goban::push_wth_feedback", "src/pieces/goban.rs:Goban::number_of_stones", "src/pieces/goban.rs:Goban::remove_captured_stones_aux", "src/pieces/goban.rs:Goban::to_vec"]}
{"id": "C119", "title": "what a debug build answers, a release build answers", "statement": "Whatever the state of the game or board, reachable or not, and whatever the size: if a call of the public interface returns a value in a debug build, it returns the same value in a release build - every list of calls to play, try_play, resume, set_komi and put_handicap, the functions on boards, the checks, the legal moves, scores and outcomes, builders, imported records, playouts, the search for dead stones (with the same random choices and hash orders) and perft. So the debug build differs from the release build only by panicking or looping. The converse is false (refuted): a release build answers where a debug build panics.", "quantifier": "every value of the game, board and builder types, every argument", "why_tests_cant": "Ranges over all values of the types, not only the reachable ones, and compares two builds.", "anchors": ["src/rules/game.rs:Game::try_play", "src/rules/game.rs:Game::play", "src/pieces/goban.rs:Goban::push_wth_feedback", "src/pieces/group.rs:CircularGroupIter::next", "src/pieces/util.rs:neighbor_coords", "src/rules/sgf_bridge.rs:from_sgf", "src/rules/dead_stones.rs:Game::dead_stones"]}
{"id": "C120", "title": "boards from lists of every length", "statement": "Goban::from(v), for a list v of any length, makes the square board whose side n is the whole part of the square root of the length (computed in f32). It panics exactly when the length is 400 or more, or some colour stands past the cells it can be put on: past n*n in debug builds, past 361 in release builds. Otherwise the size is (n, n), to_vec shows v (padded or cut to 361 cells), number_of_stones counts the colours of v, and get_stones lists exactly the colours of v, once each, at (i / n, i mod n) - in release builds also points below the board. That only lists of square length are accepted is false (refuted): a release build takes five colours, answers a 2 x 2 board with a stone listed at (2, 0), which is not == the board of the first four although both have the same size and the same points.", "quantifier": "every list of colours of every length, debug and release builds", "why_tests_cant": "Lists of every length; the square root is computed with rounding.", "anchors": ["src/pieces/goban.rs:From<&[MaybeColor]> for Goban", "src/pieces/goban.rs:Goban::push", "src/pieces/goban.rs:Goban::get_stones", "src/pieces/goban.rs:Goban::to_vec", "src/pieces/util.rs:one_to_2dim"]}
{"id": "C121", "title": "lines of play counted on tall boards", "statement": "On a board with k times as many rows as columns, perft(g, d) is k^d times the number of lines of d stones that can be played one after the other inside the square of the first rows (u64 arithmetic: a debug build panics and a release build wraps past 2^64). So it does not count the lines of play of the game (refuted): with one stone on a 4 x 2 board it answers 8 for depth 1, where 7 moves are legal.", "quantifier": "every reachable game on such boards, every depth", "why_tests_cant": "Ranges over all positions, depths and board sizes; the tests count lines on square boards only.", "anchors": ["benches/perft.rs:perft", "src/rules/game.rs:Game::legals", "src/pieces/goban.rs:Goban::get_empty_coords"]}
{"id": "C122", "title": "simulations on tall boards", "statement": "On boards whose width divides their height a simulation of the tree search comes to a game finished by two passes, or panics because group numbers ran out; it rewards the colour that is ahead by the count of C110 with 1, the other with 0, and panics if they are level. With a komi that counts and has half a point, dead_stones gives its answer, unless group numbers run out or a million stones of one colour are captured. That the colour that is ahead on the board is rewarded is false (refuted): on a 6 x 3 board divided into halves Black is rewarded against a komi of 7.5.", "quantifier": "every reachable game on such boards, every way down, every shuffle, every number of simulations", "why_tests_cant": "Ranges over all random playouts of a randomised search on boards no test uses.", "anchors": ["src/rules/dead_stones.rs:Game::dead_stones_wth_simulations", "src/rules/dead_stones.rs:Eval::evaluate_leaf", "src/rules/dead_stones.rs:PL::playout", "src/rules/game.rs:Game::outcome"]}
{"id": "C123", "title": "the benchmark that replays a record", "statement": "The third benchmark of perft.rs plays a record with unchecked moves and inverted rows. For every record and every handicap that is its own mirror image, if checked play accepts the record as it stands, then the benchmark returns the mirror image of that game, move by move accepted as well, with the same prisoners, turn, passes and outcome. A move in a row past 18 makes it panic. Its own record is accepted to the end: the game is over, 16 white and 35 black stones are captured, 129 black and 140 white stones stand. For a handicap that is not its own mirror image the claim is false (refuted).", "quantifier": "every record up to the number of groups, every handicap that is its own mirror image, both build profiles", "why_tests_cant": "The benchmark checks nothing; other records and the mirror image are not compared anywhere.", "anchors": ["benches/perft.rs:some_plays_from_sgf", "benches/perft.rs:MOVES_SGF", "src/rules/game.rs:Game::put_handicap", "src/rules/game.rs:Game::play"]}
{"id": "C124", "title": "what a caught panic leaves behind", "statement": "A caller may catch a panic of play, try_play, put_handicap, push_many or remove_chain and go on with the value. For every reachable game: a pass too many, and a checked move at a far point (row times size plus column at least 361), leave the game unchanged; an unchecked move at a far point leaves everything but the history, to which the current board is added if its position is not there, and without superko no later sequence of checked moves can tell the difference. The exception is a release build on 19x19 with an own stone just above the point: the colours stay, but the group of that stone cannot be walked any more. When the group numbers are used up, a play leaves all colours, turn, prisoners and hash, but the stone count of the side to move is one too high and each opposing neighbour group has lost the liberty. In a debug build push_many and put_handicap keep the stones before a point off the board, the handicap counts all points and the turn does not change. The statements about far points and about used up group numbers hold on square boards and on boards whose width divides the height; there the exception is a release build with 19 rows. Not true: that with superko the noted board is harmless, that equal colours mean an equal game, that a debug build keeps the board when it panics.", "quantifier": "all reachable games on square boards and on boards whose width divides the height, all points, both build profiles; all lists of points; all later sequences of moves", "why_tests_cant": "tests that catch a panic look at the message, not at the value; the 65535 groups and the one broken case need long or very particular games", "anchors": ["src/rules/game.rs:173-198", "src/rules/game.rs:221-248", "src/rules/game.rs:453-462", "src/pieces/goban.rs:152-302", "src/pieces/goban.rs:455-578"]}
{"id": "C125", "title": "single points on boards whose width divides their height", "statement": "If the width divides the height, then on every reachable board get_connected_points, get_connected_stones, get_liberties and has_liberties of a point list exactly its on-board neighbours of the kind asked for; get_connected_groups lists the groups next to it once each; the iterator over a group gives each of its stones once and then None for ever; get_empty_idx lists the indices of the occupied points; check_point_by, check_ko, check_super_ko, check_suicide, will_capture and check_eye answer as the rules of the specification say; legals_by lists the points of the upper square that no reason refuses, each height/width times, and no others; play_for_verification gives the board of play exactly when the move is no suicide.", "quantifier": "for all board sizes whose width divides the height, all reachable games, all points of the board, all masks, both build profiles", "why_tests_cant": "all positions of all such sizes; no test of the project uses a board that is not square", "anchors": ["src/pieces/goban.rs:Goban::get_connected_points", "src/pieces/goban.rs:Goban::get_liberties", "src/pieces/goban.rs:Goban::get_empty_idx", "src/pieces/group.rs:CircularGroupIter", "src/rules/game.rs:Game::check_point_by", "src/rules/game.rs:Game::play_for_verification", "src/rules/game.rs:Game::check_eye"]}
{"id": "C126", "title": "no game goes on for ever", "statement": "Whatever the rule, on every board whose width divides its height no more than 361 times 65536 = 23658496 stones are ever put on the board of one game (set-up, handicap and unchecked moves on empty points included), because a captured group never gives its number back; so no sequence of stones, passes, resignations, resumptions and refused moves goes on putting stones for ever, even under a rule without superko.", "quantifier": "every reachable game, every rule, every continuation of any length, both build profiles", "why_tests_cant": "Termination: the bound is reached, if at all, after millions of moves, and the claim ranges over all continuations.", "anchors": ["src/pieces/goban.rs:Goban::create_chain", "src/pieces/goban.rs:Goban::remove_chain", "src/rules/game.rs:Game::play", "src/rules/game.rs:Game::try_play"]}
{"id": "C127", "title": "every game has a value", "statement": "On every board whose width divides its height, from every reachable game on, for every property of finished games that can be told, one player can bring it about by good play or the other can prevent it, and not both. So either Black can force a win, or White can, or each can force at least a draw. Players pass or put stones that try_play accepts; a move that panics cannot be chosen.", "quantifier": "every reachable game, every rule, every property of finished games, both build profiles", "why_tests_cant": "Ranges over all strategies of both players; the game trees have more positions than can be visited.", "anchors": ["src/rules/game.rs:Game::try_play", "src/rules/game.rs:Game::is_over", "src/rules/game.rs:Game::outcome"]}
{"id": "C128", "title": "without komi the first player does not lose", "statement": "From a new game on any board whose width divides its height, under any rule whose score flags leave komi out, Black can force a win or a draw (strategy stealing: Black may pass, and the rules, the superko history, the group numbers and the rounded scores do not tell the colours apart). The natural claims \"Black can force a win\" and \"so with komi\" are false: on the board of one point the game is drawn without komi and White wins with it.", "quantifier": "every board whose width divides its height, every rule that does not count komi, both build profiles", "why_tests_cant": "Ranges over all strategies; nobody knows a winning strategy on large boards.", "anchors": ["src/rules/game.rs:Game::try_play", "src/rules/game.rs:Game::outcome", "src/rules/game.rs:Game::calculate_score_by", "src/rules/game.rs:Game::check_super_ko"]}
{"id": "C129", "title": "more komi never hurts White", "statement": "On every board whose width divides its height, from every reachable game on: if White can force a win (or at least a draw) with some finite komi, White can with every larger one; if Black can with some komi, Black can with every smaller one. This holds for every pair of f32 values, although the sums and differences are rounded and scores less than f32::EPSILON apart count as level, and because which moves are legal does not depend on the komi.", "quantifier": "every reachable game, every rule, every pair of finite f32 values, both build profiles", "why_tests_cant": "Ranges over all strategies and over all pairs of 2^32 komi values.", "anchors": ["src/rules/game.rs:Game::set_komi", "src/rules/game.rs:Game::outcome", "src/rules/game.rs:Game::calculate_score_by", "src/rules/game.rs:Game::try_play"]}
{"id": "C130", "title": "every game has a fair komi", "statement": "For every reachable game that nobody resigned, on a board whose width divides its height and under a rule that counts komi, there are two f32 values such that Black can force a win exactly with the komi below the first, White exactly with the komi above the second, White can avoid losing exactly with the komi from the first on, and Black exactly with the komi up to the second. Where captured stones do not count, some whole number of points lies between: with it neither side can force a win; on a square board it is at most the number of points of the board, in either direction. That there is only one such komi is false (refuted): on the board of one point 0 and 2^-30 are both fair.", "quantifier": "every reachable game without resignation, every rule that counts komi, every finite f32 komi, both build profiles", "why_tests_cant": "Ranges over all strategies and all komi values; the thresholds are not known for any board of usual size.", "anchors": ["src/rules/game.rs:Game::set_komi", "src/rules/game.rs:Game::outcome", "src/rules/game.rs:Game::calculate_score_by"]}
{"id": "C131", "title": "with komi not above zero the first player does not lose", "statement": "From a new game on any board whose width divides its height, under any rule whose komi is zero or negative, counted or not, Black can force a win or a draw. So a new game on an n x n board, under a rule that counts komi and no prisoners, has a whole number from 0 to n n as fair komi.", "quantifier": "every such board, every rule with a finite komi of at most zero, both build profiles", "why_tests_cant": "Ranges over all strategies.", "anchors": ["src/rules/game.rs:Game::try_play", "src/rules/game.rs:Game::outcome", "src/rules/game.rs:Game::calculate_score_by"]}
{"id": "C132", "title": "komi that is not a number", "statement": "set_komi takes any f32. In every game finished by two passes under a rule that counts komi, on a board whose width divides its height, NaN gives White a win by NaN points, whatever the position; infinity gives White a win by infinity, minus infinity gives Black one.", "quantifier": "every reachable finished game without resignation, every iteration order of the hash sets, both build profiles", "why_tests_cant": "No test sets such a komi; the claim ranges over all finished games.", "anchors": ["src/rules/game.rs:Game::set_komi", "src/rules/game.rs:Game::outcome"]}
{"id": "C133", "title": "corresponding openings are worth the same", "statement": "On a square board, under a rule that does not forbid filling eyes, take any line of accepted moves from a new game and any of the eight symmetries of the board: the image of the line is accepted, and what a player can force from the one position (a win; a win or a draw) that player can force from the other. More generally for any two reachable games that correspond under a symmetry of the board, and of the colours where komi is not counted. On boards that are not square this is false (refuted): on 6 x 3 a line and its reflection are won by different players.", "quantifier": "every square board, every such rule, every line of accepted moves, all eight symmetries, both build profiles on either side", "why_tests_cant": "Ranges over all strategies; tests compare single positions.", "anchors": ["src/rules/game.rs:Game::try_play", "src/rules/game.rs:Game::outcome", "src/rules/game.rs:Game::calculate_score_by", "src/pieces/territory.rs:Goban::calculate_territories"]}
{"id": "C134", "title": "what decides the value of a game", "statement": "Only what can be seen matters: on every board whose width divides its height, reachable games with the same position, side to move, passes, outcome, ko point, prisoners, rule and history positions are worth the same to both players, whatever the numbering and the stone lists of their groups (as long as equally many group numbers are used up) and whichever build they run in. So a line accepted by the debug build is accepted by the release build, and the other way round, and leads to a game worth the same. Without komi, exchanging the colours exchanges the values.", "quantifier": "every such board, every rule, every pair of such games, both build profiles on either side", "why_tests_cant": "Ranges over all strategies and pairs of representations.", "anchors": ["src/rules/game.rs:Game::try_play", "src/rules/game.rs:Game::outcome", "src/pieces/goban.rs:Goban::push_wth_feedback"]}
{"id": "C135", "title": "living stones decide the game", "statement": "Under a rule that forbids suicide and counts stones but not prisoners (the Chinese rule), take any reachable game on a square board in which one player has stones that are unconditionally alive (every chain of them has two vital closed regions, C75). Count these stones and their one-point eyes. If they outweigh all other points of the board together with the komi, that player forces the win from there on, whoever is to move; if they just balance them, the player forces at least a draw. Every line of play in which that player puts no stone into the closed regions does it, so passing all the time is enough. It is false under the Japanese rule, where stones on the board do not count: there the same position loses. It is false on boards that are not square too, because points are miscounted there (C110): Black loses a 6 x 3 game without komi, holding ten of the eighteen points.", "quantifier": "every square board from 2 x 2, every reachable game without a recorded outcome, both players, every rule with these flags, every komi up to 100000 points that is a multiple of half a point, every such family of stones and eyes, both builds", "why_tests_cant": "it speaks about all continuations against every defence; a test plays a few of them", "anchors": ["src/rules/game.rs:Game::try_play", "src/rules/game.rs:Game::outcome", "src/rules/game.rs:Game::calculate_score", "src/rules/mod.rs:ScoreRules"]}
{"id": "C136", "title": "the bans of a rule act independently", "statement": "A mask of IllegalRules forbids exactly what its single flags forbid: a point passes check_point_by for two masks together exactly when it passes for each of them, legals_by for both together is the common part of the two lists in the same order, more bans leave a part of the list in the same order, and only the four flags of a mask matter. When both masks are answered without a panic, both together are answered, with one of the two answers. No ban makes another move legal.", "quantifier": "every state of a game whatsoever (reachable or not, boards of any shape), every point, every pair of masks, both build profiles", "why_tests_cant": "Needs all pairs of masks in all states.", "anchors": ["src/rules/game.rs:Game::check_point_by", "src/rules/game.rs:Game::legals_by", "src/rules/mod.rs:IllegalRules"]}
{"id": "C137", "title": "without superko the past does not matter", "statement": "Two games with the same position, side to move, passes, outcome, ko point, prisoners and rule are the same game from now on, whatever was played before, when the rule does not forbid superko: every further list of moves gets the same answers and leads to games that agree again, every point gets the same answer and the lists of legal moves are equal for every mask without superko, and (with equally many group numbers used) what a player can force from one can be forced from the other. Scores and outcomes agree under every rule. The claim is false with superko: under Chinese rules the same position reached in two orders can ban and allow the same move.", "quantifier": "every pair of reachable games on boards whose width divides their height, every pair of histories, every list of moves, all masks and score flags, all iteration orders, any pair of build profiles", "why_tests_cant": "Needs all pairs of games that agree now but were played differently.", "anchors": ["src/rules/game.rs:Game::check_point_by", "src/rules/game.rs:Game::try_play", "src/rules/game.rs:Game::check_super_ko", "src/rules/game.rs:Game::outcome"]}
{"id": "C138", "title": "of the past only the recorded positions matter", "statement": "The positions in the history of a reachable game are pairwise different. Two reachable games with the same position, side to move, passes, outcome, ko point, prisoners and rule, and with the same positions in their histories in any order, are the same game from now on under every rule, with superko or without: every further list of moves gets the same answers and leads to games that agree again in all of this, and (with equally many group numbers used) what a player can force from one can be forced from the other. The order in which the history was recorded never matters.", "quantifier": "every pair of reachable games on boards whose width divides their height, every rule, every pair of histories with the same positions, every list of moves, any pair of build profiles", "why_tests_cant": "Needs all pairs of games with the same recorded positions in different orders.", "anchors": ["src/rules/game.rs:Game::check_super_ko", "src/rules/game.rs:Game::play", "src/rules/game.rs:Game::try_play"]}
{"id": "C139", "title": "moves without captures may be played in any order", "statement": "Let two lists of stone moves be played from one reachable game, every move accepted and nothing captured, and let them put the same stones of the same colours on the board, in any two orders. Then the two games agree in position, side to move, passes, outcome, ko point, prisoners and rule, so under every rule without superko every further list of moves gets the same answers. With superko this fails: under Chinese rules on the board of side two the same continuation is answered differently after two orders of three stones. With captures it fails too: six stones played in two orders leave different positions, because the order decides who captures whom.", "quantifier": "every reachable game on boards whose width divides their height, every rule, every pair of accepted lists of moves that are permutations of the same stones, every continuation, any pair of build profiles", "why_tests_cant": "Needs all reorderings of all openings from all positions.", "anchors": ["src/rules/game.rs:Game::try_play", "src/rules/game.rs:Game::play", "src/pieces/goban.rs:Goban::push_wth_feedback"]}
{"id": "C140", "title": "handicap stones are Black stones with passes in between", "statement": "From a reachable game with Black to move, no pass and no ko point, giving Black handicap stones on different empty points leads to the same position, side to move, passes, outcome, ko point, prisoners and rule as Black playing on these points one by one with White passing in between, whenever these moves are accepted and capture nothing. So the score and the outcome are the same, and under every rule without superko every further list of moves gets the same answers. When something would be captured this fails: handicap stones capture nothing, and a white stone without liberties stays on the board.", "quantifier": "every reachable game on boards whose width divides their height with Black to move, every non-empty list of different empty points, every rule, every continuation, any pair of build profiles", "why_tests_cant": "Needs all choices of handicap points in all positions and all continuations.", "anchors": ["src/rules/game.rs:Game::put_handicap", "src/rules/game.rs:Game::try_play", "src/rules/game.rs:Game::play"]}
{"id": "C141", "title": "when nothing is captured in one order, every order is accepted", "statement": "From a reachable game without a ko point let a list of stone moves be accepted, capture nothing and leave every chain with a liberty (in legal games every chain always has one). Then every other list that puts the same stones of the same colours on the board, in any order, is accepted move by move too, captures nothing, and leads to the same position, side to move, passes, outcome, ko point, prisoners and rule; this holds under every rule that does not protect eyes, with superko or without. Under a rule that protects eyes it fails: in another order the last stone would fill an eye and is refused.", "quantifier": "every reachable game on boards whose width divides their height without ko point, every rule without eye protection, every accepted list of stones without captures, every reordering of it, any pair of build profiles, as long as group numbers last", "why_tests_cant": "Needs all reorderings of all capture-free lines from all positions.", "anchors": ["src/rules/game.rs:Game::try_play", "src/rules/game.rs:Game::check_point_by", "src/rules/game.rs:Game::check_suicide", "src/rules/game.rs:Game::check_super_ko"]}
{"id": "C142", "title": "a position may be set up instead of played", "statement": "Let a builder without moves and without a result set up handicap stones and other stones on different points so that every chain has a liberty, and let a list of stone moves, Black first and the colours alternating, put the same stones on the board, in any order. Then on a new game of the same size and rule all these moves are accepted, and the game reached agrees with the built game in position, side to move (if the builder names the right one), passes, outcome, ko point, prisoners and rule; under every rule without superko every further list of moves gets the same answers from both. This holds under every rule that does not protect eyes. Without the condition on liberties it fails: the builder leaves a stone without liberties on the board, which played stones would take.", "quantifier": "every board whose width divides its height, every builder without moves and result, every rule without eye protection, every alternating order of the stones, every continuation, any pair of build profiles, as long as group numbers last", "why_tests_cant": "Needs all positions and all orders in which their stones can be played.", "anchors": ["src/rules/game_builder.rs:GameBuilder::build_inner", "src/rules/game.rs:Game::new", "src/rules/game.rs:Game::try_play"]}
{"id": "C143", "title": "a stone depends only on its neighbourhood", "statement": "Let two games have the same side to move and rule, both or neither be paused by two passes, both or neither have their ko point on an empty point p, and let their positions agree near p: on p, on the points next to p, on the chains that touch p and on the points next to these chains. Then both games give the same verdict on a stone on p, whatever stands on the rest of the board, with two provisos: where the rule protects eyes, the positions must also agree on the points at most two rows and two columns away, and under superko the stone must not capture anything. Under every rule, if both accept it, their positions agree near p afterwards, and all other points keep their contents in both games.", "quantifier": "every board whose width divides its height, every pair of reachable games, every empty point, every verdict, any pair of build profiles, as long as group numbers last", "why_tests_cant": "Needs all pairs of positions that agree on a neighbourhood of unbounded size.", "anchors": ["src/rules/game.rs:Game::try_play", "src/rules/game.rs:Game::play", "src/rules/game.rs:Game::check_suicide", "src/pieces/goban.rs:Goban::push_wth_feedback"]}
{"id": "C144", "title": "stones that are far apart may be exchanged", "statement": "Let no point be near two points p and q at the same time, where near means the point itself, the points next to it, the chains that touch it and the points next to these chains, and let no ko point be set. If a stone on p, a pass and a stone on q are accepted in this order, then so are the stone on q, a pass and the stone on p, also when the stones capture; both lines lead to the same position, the same prisoners, side to move, passes, outcome and rule. The pass may also be a stone of the other player that is far from both. More generally the verdict on the stone on q is the same before the stone on p and after it and a pass. This holds under every rule without superko and eye protection. It fails for points that are close: the second stone may be a suicide as long as the first is missing.", "quantifier": "every board whose width divides its height, every reachable game without ko point, every two points that are far apart, either build profile, as long as group numbers last", "why_tests_cant": "Needs all positions and all pairs of points with neighbourhoods of unbounded size.", "anchors": ["src/rules/game.rs:Game::try_play", "src/rules/game.rs:Game::play", "src/pieces/goban.rs:Goban::push_wth_feedback"]}
{"id": "C145", "title": "a ko threat and its answer lift the ban", "statement": "Let a stone on p be refused because of ko, and let the player put an accepted stone elsewhere and the other player an accepted answer, both so far from p that no point is near both the stone and p at the time it is played. Then the stone on p is accepted, whatever else the two stones did, under every rule without superko and eye protection.", "quantifier": "every board whose width divides its height, every reachable game, every ko, every threat and answer far from it, either build profile, as long as group numbers last", "why_tests_cant": "Needs all ko fights and all threats and answers on boards of any size.", "anchors": ["src/rules/game.rs:Game::try_play", "src/rules/game.rs:Game::check_ko", "src/rules/game.rs:Game::play"]}
{"id": "C146", "title": "for a local fight a stone elsewhere is as good as a pass", "statement": "Let the player to move either pass or put an accepted stone on a point p, and let no point be near both p and an empty point q. Then a stone of the other player on q gets the same verdict after the pass as after the stone, under every rule without eye protection (under superko the stone on q must not capture). Under every rule, if it is accepted after both, the two games agree near q afterwards, and elsewhere each keeps what it had.", "quantifier": "every board whose width divides its height, every reachable game whose last move was no pass, every two points that are far apart, every verdict, either build profile, as long as group numbers last", "why_tests_cant": "Needs all positions and all pairs of points with neighbourhoods of unbounded size.", "anchors": ["src/rules/game.rs:Game::try_play", "src/rules/game.rs:Game::play", "src/pieces/goban.rs:Goban::push_wth_feedback"]}
