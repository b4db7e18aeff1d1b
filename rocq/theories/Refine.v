(** What a debug build answers, a release build answers. *)
From Verif Require Import Sgf Simulation Bench Readme Ops TableSpec.
From Coq Require Import Lia.

Definition refines {A} (m m' : res A) : Prop := forall a, m = Ok a -> m' = Ok a.

Lemma refines_refl {A} (m : res A) : refines m m.
Proof. intros a H. exact H. Qed.
Lemma refines_panic {A} (m : res A) : refines Panic m.
Proof. intros a H. discriminate. Qed.
Lemma refines_bind {A B} (m m' : res A) (k k' : A -> res B) : refines m m' -> (forall a, refines (k a) (k' a)) -> refines (bind m k) (bind m' k').
Proof. intros Hm Hk b E. destruct m as [a| |]; try discriminate. rewrite (Hm a eq_refl). exact (Hk a b E). Qed.
Lemma refines_mapM {A B} (f f' : A -> res B) l : (forall a, refines (f a) (f' a)) -> refines (mapM f l) (mapM f' l).
Proof.
  intros H. induction l as [|x t IH]; [apply refines_refl|]. cbn [mapM]. apply refines_bind; [apply H|]. intros y.
  apply refines_bind; [exact IH|]. intros ys. apply refines_refl.
Qed.
Lemma refines_filterM {A} (f f' : A -> res bool) l : (forall a, refines (f a) (f' a)) -> refines (filterM f l) (filterM f' l).
Proof.
  intros H. induction l as [|x t IH]; [apply refines_refl|]. cbn [filterM]. apply refines_bind; [apply H|]. intros y.
  apply refines_bind; [exact IH|]. intros ys. apply refines_refl.
Qed.
Lemma refines_anyM {A} (f f' : A -> res bool) l : (forall a, refines (f a) (f' a)) -> refines (anyM f l) (anyM f' l).
Proof.
  intros H. induction l as [|x t IH]; [apply refines_refl|]. cbn [anyM]. apply refines_bind; [apply H|]. intros [|]; [apply refines_refl|exact IH].
Qed.
Lemma refines_foldM {A S} (f f' : S -> A -> res S) l : (forall s a, refines (f s a) (f' s a)) -> forall s, refines (foldM f l s) (foldM f' l s).
Proof.
  intros H. induction l as [|x t IH]; intros s; [apply refines_refl|]. cbn [foldM]. apply refines_bind; [apply H|]. intros y. apply IH.
Qed.

Lemma rf_debug_assert b b' : refines (debug_assert true b) (debug_assert false b').
Proof. intros [] H. reflexivity. Qed.
Lemma rf_u8_add a b : refines (u8_add true a b) (u8_add false a b).
Proof. unfold u8_add. destruct (_ <? _)%nat; [apply refines_refl|apply refines_panic]. Qed.
Lemma rf_u8_mul a b : refines (u8_mul true a b) (u8_mul false a b).
Proof. unfold u8_mul. destruct (_ <? _)%nat; [apply refines_refl|apply refines_panic]. Qed.
Lemma rf_u8_sub a b : refines (u8_sub true a b) (u8_sub false a b).
Proof. unfold u8_sub. destruct (_ <=? _)%nat; [apply refines_refl|apply refines_panic]. Qed.
Lemma rf_u16_add a b : refines (u16_add true a b) (u16_add false a b).
Proof. unfold u16_add. destruct (_ <? _)%N; [apply refines_refl|apply refines_panic]. Qed.
Lemma rf_u32_add a b : refines (u32_add true a b) (u32_add false a b).
Proof. unfold u32_add. destruct (_ <? _)%N; [apply refines_refl|apply refines_panic]. Qed.
Lemma rf_u64_add a b : refines (u64_add true a b) (u64_add false a b).
Proof. unfold u64_add. destruct (_ <? _)%N; [apply refines_refl|apply refines_panic]. Qed.

Create HintDb rf.
#[export] Hint Resolve rf_debug_assert rf_u8_add rf_u8_mul rf_u8_sub rf_u16_add rf_u32_add rf_u64_add : rf.

Ltac rf := repeat (cbv beta zeta;
  match goal with
  | |- refines ?m ?m => apply refines_refl
  | |- refines Panic _ => apply refines_panic
  | |- refines _ _ => solve [eauto 2 with rf nocore]
  | |- refines (bind _ _) (bind _ _) => apply refines_bind; [|intros ?]
  | |- refines (mapM _ ?l) (mapM _ ?l) => apply refines_mapM; intros ?
  | |- refines (filterM _ ?l) (filterM _ ?l) => apply refines_filterM; intros ?
  | |- refines (anyM _ ?l) (anyM _ ?l) => apply refines_anyM; intros ?
  | |- refines (foldM _ ?l ?s) (foldM _ ?l ?s) => apply refines_foldM; intros ? ?
  | |- refines (match ?x with _ => _ end) (match ?x with _ => _ end) => destruct x
  | |- refines ((match ?x with _ => _ end) _) ((match ?x with _ => _ end) _) => destruct x
  end).

Lemma rf_remove_liberty g i : refines (remove_liberty true g i) (remove_liberty false g i).
Proof. unfold remove_liberty. rf. Qed.
Lemma rf_add_liberty g i : refines (add_liberty true g i) (add_liberty false g i).
Proof. unfold add_liberty. rf. Qed.
Lemma rf_iter_from fuel ns o : forall cur, refines (iter_from fuel true ns o cur) (iter_from fuel false ns o cur).
Proof.
  induction fuel as [|f IH]; intros cur; cbn [iter_from]; [apply refines_refl|]. apply refines_bind; [apply refines_refl|]. intros nx.
  destruct (nx =? o)%nat; [apply refines_refl|]. cbn [andb]. destruct (nx =? cur)%nat; [apply refines_panic|].
  apply refines_bind; [apply IH|]. intros t. apply refines_refl.
Qed.
Lemma rf_group_iter g ns : refines (group_iter true g ns) (group_iter false g ns).
Proof. apply rf_iter_from. Qed.
Lemma rf_for_from {S} fuel ns o (f f' : S -> nat -> res S) : (forall s i, refines (f s i) (f' s i)) ->
  forall cur s, refines (for_from fuel true ns o cur f s) (for_from fuel false ns o cur f' s).
Proof.
  intros H. induction fuel as [|k IH]; intros cur s; cbn [for_from]; [apply refines_refl|]. apply refines_bind; [apply refines_refl|]. intros nx.
  destruct (nx =? o)%nat; [apply H|]. cbn [andb]. destruct (nx =? cur)%nat; [apply refines_panic|].
  apply refines_bind; [apply H|]. intros t. apply IH.
Qed.
Lemma rf_group_for {S} g ns (f f' : S -> nat -> res S) s : (forall s i, refines (f s i) (f' s i)) -> refines (group_for true g ns f s) (group_for false g ns f' s).
Proof. intros H. apply rf_for_from, H. Qed.
Lemma rf_neighbor_coords p : refines (neighbor_coords true p) (neighbor_coords false p).
Proof. unfold neighbor_coords. rf. Qed.
#[export] Hint Resolve rf_remove_liberty rf_add_liberty rf_group_iter rf_neighbor_coords : rf.
Lemma rf_valid_coords p s : refines (valid_coords true p s) (valid_coords false p s).
Proof. unfold valid_coords. rf. Qed.
Lemma rf_corner_points p : refines (corner_points true p) (corner_points false p).
Proof. unfold corner_points. rf. Qed.
#[export] Hint Resolve rf_valid_coords rf_corner_points : rf.
Lemma rf_neighbors_coords g p : refines (neighbors_coords true g p) (neighbors_coords false g p).
Proof. unfold neighbors_coords. rf. Qed.
Lemma rf_neighbors_idx s i : refines (neighbors_idx true s i) (neighbors_idx false s i).
Proof. unfold neighbors_idx. rf. Qed.
#[export] Hint Resolve rf_neighbors_coords rf_neighbors_idx : rf.
Lemma rf_get_connected_points g p : refines (get_connected_points true g p) (get_connected_points false g p).
Proof. unfold get_connected_points. rf. Qed.
#[export] Hint Resolve rf_get_connected_points : rf.
Lemma rf_get_connected_stones g p : refines (get_connected_stones true g p) (get_connected_stones false g p).
Proof. unfold get_connected_stones. rf. Qed.
Lemma rf_get_connected_groups_idx g i : refines (get_connected_groups_idx true g i) (get_connected_groups_idx false g i).
Proof. unfold get_connected_groups_idx. rf. Qed.
#[export] Hint Resolve rf_get_connected_stones rf_get_connected_groups_idx : rf.
Lemma rf_get_connected_groups g p : refines (get_connected_groups true g p) (get_connected_groups false g p).
Proof. unfold get_connected_groups. rf. Qed.
Lemma rf_update_chain_indexes_in_board g k : refines (update_chain_indexes_in_board true g k) (update_chain_indexes_in_board false g k).
Proof. unfold update_chain_indexes_in_board. rf. all: apply rf_group_for; intros; rf. Qed.
#[export] Hint Resolve rf_update_chain_indexes_in_board : rf.
Lemma rf_create_chain g o c l : refines (create_chain true g o c l) (create_chain false g o c l).
Proof. unfold create_chain. rf. Qed.
Lemma rf_add_stone_to_chain g k s : refines (add_stone_to_chain true g k s) (add_stone_to_chain false g k s).
Proof. unfold add_stone_to_chain. rf. Qed.
#[export] Hint Resolve rf_get_connected_groups rf_create_chain rf_add_stone_to_chain : rf.
Lemma rf_merge_strings g a b : refines (merge_strings true g a b) (merge_strings false g a b).
Proof. unfold merge_strings. rf. Qed.
Lemma rf_remove_liberties cs o p : refines (remove_liberties true cs o p) (remove_liberties false cs o p).
Proof. unfold remove_liberties. rf. Qed.
#[export] Hint Resolve rf_merge_strings rf_remove_liberties : rf.
Lemma rf_merge_all g k l : refines (merge_all true g k l) (merge_all false g k l).
Proof. unfold merge_all. rf. Qed.
#[export] Hint Resolve rf_merge_all : rf.
Lemma rf_place_stone g p c l l' : refines (place_stone true g p c l l') (place_stone false g p c l l').
Proof. unfold place_stone. rf. Qed.
#[export] Hint Resolve rf_place_stone : rf.
Lemma rf_integrity g : refines (check_integrity_all true g) (Ok tt).
Proof. intros [] H. reflexivity. Qed.
#[export] Hint Resolve rf_integrity : rf.
Lemma rf_push_wth_feedback g p c : refines (push_wth_feedback true g p c) (push_wth_feedback false g p c).
Proof. unfold push_wth_feedback. rf. Qed.
Lemma rf_remove_chain g k : refines (remove_chain true g k) (remove_chain false g k).
Proof. unfold remove_chain. rf. all: apply rf_group_for; intros; rf. Qed.
#[export] Hint Resolve rf_push_wth_feedback rf_remove_chain : rf.
Lemma rf_remove_captured g b l k : refines (remove_captured_stones_aux true g b l k) (remove_captured_stones_aux false g b l k).
Proof. unfold remove_captured_stones_aux. rf. Qed.
Lemma rf_push g p c : refines (push true g p c) (push false g p c).
Proof. unfold push. rf. Qed.
#[export] Hint Resolve rf_remove_captured rf_push : rf.
Lemma rf_push_stone g s : refines (push_stone true g s) (push_stone false g s).
Proof. unfold push_stone. rf. Qed.
Lemma rf_push_many g l c : refines (push_many true g l c) (push_many false g l c).
Proof. unfold push_many. rf. Qed.
#[export] Hint Resolve rf_push_stone rf_push_many : rf.
Lemma rf_goban_from v : refines (goban_from true v) (goban_from false v).
Proof. unfold goban_from. rf. Qed.
Lemma rf_chain_stones g k : refines (chain_stones true g k) (chain_stones false g k).
Proof. unfold chain_stones. rf. Qed.
Lemma rf_get_coords_by_color g c : refines (get_coords_by_color true g c) (get_coords_by_color false g c).
Proof. unfold get_coords_by_color. rf. Qed.
#[export] Hint Resolve rf_goban_from rf_chain_stones rf_get_coords_by_color : rf.
Lemma rf_get_stones_by_color g c : refines (get_stones_by_color true g c) (get_stones_by_color false g c).
Proof. unfold get_stones_by_color. rf. Qed.
Lemma rf_get_liberties g p : refines (get_liberties true g p) (get_liberties false g p).
Proof. unfold get_liberties. rf. Qed.
Lemma rf_has_liberties g p : refines (has_liberties true g p) (has_liberties false g p).
Proof. unfold has_liberties. rf. Qed.
#[export] Hint Resolve rf_get_stones_by_color rf_get_liberties rf_has_liberties : rf.

(** ** Territory *)

Lemma rf_explore fuel g mc : forall E S, refines (explore fuel true g mc E S) (explore fuel false g mc E S).
Proof.
  induction fuel as [|f IH]; intros E S; cbn [explore]; [apply refines_refl|]. destruct S; [apply refines_refl|].
  apply refines_bind; [apply rf_get_connected_points|]. intros nb. apply IH.
Qed.
Lemma rf_get_group_from_point g s : refines (get_group_from_point true g s) (get_group_from_point false g s).
Proof. unfold get_group_from_point. apply refines_bind; [apply rf_get_connected_points|]. intros nb. apply rf_explore. Qed.
#[export] Hint Resolve rf_get_group_from_point : rf.
Lemma rf_get_chains_from_stones g l : refines (get_chains_from_stones true g l) (get_chains_from_stones false g l).
Proof. unfold get_chains_from_stones. rf. Qed.
Lemma rf_scan_group g grp : forall n, refines (scan_group true g grp n) (scan_group false g grp n).
Proof.
  induction grp as [|e t IH]; intros n; cbn [scan_group]; [apply refines_refl|]. apply refines_bind; [apply rf_get_connected_points|].
  intros nb. destruct (scan_points nb n); [apply IH|apply refines_refl].
Qed.
#[export] Hint Resolve rf_get_chains_from_stones rf_scan_group : rf.
Lemma rf_get_territories order g : refines (get_territories order true g) (get_territories order false g).
Proof. unfold get_territories. rf. Qed.
#[export] Hint Resolve rf_get_territories : rf.
Lemma rf_calculate_territories order g : refines (calculate_territories order true g) (calculate_territories order false g).
Proof. unfold calculate_territories. rf. Qed.
#[export] Hint Resolve rf_calculate_territories : rf.

(** ** Games *)

Lemma rf_pseudo_legals_vec g : refines (pseudo_legals_vec true g) (pseudo_legals_vec false g).
Proof. unfold pseudo_legals_vec. rf. Qed.
Lemma rf_game_remove r gb p d a : refines (game_remove_captured_stones true r gb p d a) (game_remove_captured_stones false r gb p d a).
Proof. unfold game_remove_captured_stones. rf. Qed.
#[export] Hint Resolve rf_game_remove : rf.
Lemma rf_play g m : refines (play true g m) (play false g m).
Proof. unfold play. rf. Qed.
Lemma rf_play_for_verification g p : refines (play_for_verification true g p) (play_for_verification false g p).
Proof. unfold play_for_verification. rf. Qed.
Lemma rf_put_handicap g l : refines (put_handicap true g l) (put_handicap false g l).
Proof. unfold put_handicap. rf. Qed.
Lemma rf_will_capture g p : refines (will_capture true g p) (will_capture false g p).
Proof. unfold will_capture. rf. Qed.
Lemma rf_check_ko g s : refines (check_ko true g s) (check_ko false g s).
Proof. unfold check_ko. rf. Qed.
#[export] Hint Resolve rf_play rf_play_for_verification rf_put_handicap rf_will_capture rf_check_ko : rf.
Lemma rf_check_super_ko g s : refines (check_super_ko true g s) (check_super_ko false g s).
Proof. unfold check_super_ko. rf. Qed.
Lemma rf_check_suicide g s : refines (check_suicide true g s) (check_suicide false g s).
Proof. unfold check_suicide. rf. Qed.
Lemma rf_helper g p c : refines (helper_check_eye true g p c) (helper_check_eye false g p c).
Proof. unfold helper_check_eye. rf. Qed.
#[export] Hint Resolve rf_check_super_ko rf_check_suicide rf_helper : rf.
Lemma rf_corners g c l : refines (check_eye_corners true g c l) (check_eye_corners false g c l).
Proof. induction l as [|p t IH]; cbn [check_eye_corners]; rf. all: exact IH. Qed.
#[export] Hint Resolve rf_corners : rf.
Lemma rf_check_eye g s : refines (check_eye true g s) (check_eye false g s).
Proof. unfold check_eye. rf. Qed.
#[export] Hint Resolve rf_check_eye : rf.
Lemma rf_check_point_by g p f : refines (check_point_by true g p f) (check_point_by false g p f).
Proof. unfold check_point_by. rf. Qed.
#[export] Hint Resolve rf_check_point_by : rf.
Lemma rf_check_point g p : refines (check_point true g p) (check_point false g p).
Proof. unfold check_point. rf. Qed.
Lemma rf_legals_by g f : refines (legals_by true g f) (legals_by false g f).
Proof. unfold legals_by. rf. Qed.
#[export] Hint Resolve rf_check_point rf_legals_by : rf.
Lemma rf_legals g : refines (legals true g) (legals false g).
Proof. unfold legals. rf. Qed.
Lemma rf_try_play g m : refines (try_play true g m) (try_play false g m).
Proof. unfold try_play. rf. Qed.
#[export] Hint Resolve rf_legals rf_try_play : rf.
Lemma rf_score order g f : refines (calculate_score_by order true g f) (calculate_score_by order false g f).
Proof. unfold calculate_score_by. rf. Qed.
#[export] Hint Resolve rf_score : rf.
Lemma rf_outcome order g : refines (outcome order true g) (outcome order false g).
Proof. unfold outcome, calculate_score. rf. Qed.
#[export] Hint Resolve rf_outcome : rf.
Lemma rf_call g o : refines (call true g o) (call false g o).
Proof. unfold call. rf. Qed.
#[export] Hint Resolve rf_call : rf.
Lemma rf_calls ops : forall g, refines (calls true g ops) (calls false g ops).
Proof.
  induction ops as [|o t IH]; intros g; cbn [calls]; [apply refines_refl|]. apply refines_bind; [apply rf_call|]. intros [g1 a].
  apply refines_bind; [apply IH|]. intros r. apply refines_refl.
Qed.

(** ** Builder, records *)

Lemma rf_build_inner b : refines (build_inner true b) (build_inner false b).
Proof. unfold build_inner. rf. Qed.
#[export] Hint Resolve rf_build_inner : rf.
Lemma rf_build b : refines (snd (build true b)) (snd (build false b)).
Proof. apply rf_build_inner. Qed.
Lemma rf_move_of_sgf a : refines (move_of_sgf true a) (move_of_sgf false a).
Proof. unfold move_of_sgf. rf. Qed.
Lemma rf_root_token b t : refines (sgf_root_token true b t) (sgf_root_token false b t).
Proof. unfold sgf_root_token. rf. Qed.
#[export] Hint Resolve rf_build rf_move_of_sgf rf_root_token : rf.
Lemma rf_sgf_root n b : refines (sgf_root true n b) (sgf_root false n b).
Proof. unfold sgf_root. rf. Qed.
Lemma rf_sgf_later acc n : refines (sgf_later true acc n) (sgf_later false acc n).
Proof. unfold sgf_later. rf. Qed.
#[export] Hint Resolve rf_sgf_root rf_sgf_later : rf.
Lemma rf_from_sgf l : refines (from_sgf_nodes true l) (from_sgf_nodes false l).
Proof. unfold from_sgf_nodes. rf. Qed.

(** ** Playouts, dead stones, benchmarks *)

Lemma rf_legals_moves g : refines (legals_moves true g) (legals_moves false g).
Proof. unfold legals_moves. rf. Qed.
Lemma rf_winner order g : refines (game_get_winner order true g) (game_get_winner order false g).
Proof. unfold game_get_winner. rf. Qed.
Lemma rf_floating g : refines (get_floating_stones true g) (get_floating_stones false g).
Proof. unfold get_floating_stones. rf. Qed.
#[export] Hint Resolve rf_legals_moves rf_winner rf_floating : rf.
Lemma rf_first_playable g l : refines (first_playable true g l) (first_playable false g l).
Proof. induction l as [|p t IH]; cbn [first_playable]; rf. all: exact IH. Qed.
#[export] Hint Resolve rf_first_playable : rf.
Lemma rf_fast_play_random sh g : refines (fast_play_random sh true g) (fast_play_random sh false g).
Proof. unfold fast_play_random. rf. Qed.
#[export] Hint Resolve rf_fast_play_random : rf.
Lemma rf_playout sh fuel : forall i g, refines (playout fuel i sh true g) (playout fuel i sh false g).
Proof. induction fuel as [|f IH]; intros i g; cbn [playout]; destruct (is_over g); try apply refines_refl. rf. Qed.
#[export] Hint Resolve rf_playout : rf.
Lemma rf_play_out s s' fuel : (forall i g ms, refines (s i g ms) (s' i g ms)) -> forall i g, refines (play_out fuel i s true g) (play_out fuel i s' false g).
Proof. intros H. induction fuel as [|f IH]; intros i g; cbn [play_out]; destruct (is_over g); try apply refines_refl. rf. Qed.
Lemma rf_dead_stones s s' fuel g : (forall i g ms, refines (s i g ms) (s' i g ms)) -> refines (dead_stones fuel s true g) (dead_stones fuel s' false g).
Proof.
  intros H. unfold dead_stones. apply refines_bind; [apply rf_floating|]. intros fl. apply refines_bind; [apply rf_play_out, H|]. intros final. rf.
Qed.
Lemma rf_descend way : forall g, refines (descend true way g) (descend false way g).
Proof. induction way as [|j t IH]; intros g; cbn [descend]; unfold do_move; rf. Qed.
#[export] Hint Resolve rf_descend : rf.
Lemma rf_evaluate_leaf order g c : refines (evaluate_leaf order true g c) (evaluate_leaf order false g c).
Proof. unfold evaluate_leaf. rf. Qed.
#[export] Hint Resolve rf_evaluate_leaf : rf.
Lemma rf_simulation order fuel ch g j : refines (simulation order fuel true ch g j) (simulation order fuel false ch g j).
Proof. unfold simulation. rf. Qed.
#[export] Hint Resolve rf_simulation : rf.
Lemma rf_tree_search order fuel nb ch g ms : refines (tree_search order fuel nb true ch g ms) (tree_search order fuel nb false ch g ms).
Proof. unfold tree_search. rf. Qed.
Lemma rf_dead_simulations order fuel nb chs g : refines (dead_stones_wth_simulations order fuel nb chs true g) (dead_stones_wth_simulations order fuel nb chs false g).
Proof. apply rf_dead_stones. intros. apply rf_tree_search. Qed.
Lemma rf_perft d : forall g, refines (perft true g d) (perft false g d).
Proof. induction d as [|d IH]; intros g; cbn [perft]; rf. Qed.
Lemma rf_readme choose order i : forall g, refines (readme_loop i choose order true g) (readme_loop i choose order false g).
Proof. induction i as [|i IH]; intros g; cbn [readme_loop]; rf. Qed.
