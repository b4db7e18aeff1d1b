(** Whatever the debug build computes without panicking, the release build
    computes as well. *)
From Verif Require Import MonadFacts Builder Sgf DeadStones.
From Coq Require Import Lia.

Definition rle {A} (a b : res A) : Prop := forall x, a = Ok x -> b = Ok x.

Lemma le_refl {A} (a : res A) : rle a a.
Proof. intros x H. exact H. Qed.
Lemma le_bind {A B} (a a' : res A) (k k' : A -> res B) : rle a a' -> (forall x, rle (k x) (k' x)) -> rle (bind a k) (bind a' k').
Proof. intros H1 H2 y H. apply bind_ok in H as (x & E & H). rewrite (H1 x E). apply H2, H. Qed.
Lemma le_foldM {A S} (f f' : S -> A -> res S) l : (forall s x, rle (f s x) (f' s x)) -> forall s, rle (foldM f l s) (foldM f' l s).
Proof. intros H. induction l as [|x l IH]; intros s; cbn [foldM]; [apply le_refl|]. apply le_bind; [apply H|apply IH]. Qed.
Lemma le_mapM {A B} (f f' : A -> res B) l : (forall x, rle (f x) (f' x)) -> rle (mapM f l) (mapM f' l).
Proof. intros H. induction l as [|x l IH]; cbn [mapM]; [apply le_refl|]. apply le_bind; [apply H|]. intros y. apply le_bind; [apply IH|]. intros. apply le_refl. Qed.
Lemma le_filterM {A} (f f' : A -> res bool) l : (forall x, rle (f x) (f' x)) -> rle (filterM f l) (filterM f' l).
Proof. intros H. induction l as [|x l IH]; cbn [filterM]; [apply le_refl|]. apply le_bind; [apply H|]. intros y. apply le_bind; [apply IH|]. intros. apply le_refl. Qed.
Lemma le_anyM {A} (f f' : A -> res bool) l : (forall x, rle (f x) (f' x)) -> rle (anyM f l) (anyM f' l).
Proof. intros H. induction l as [|x l IH]; cbn [anyM]; [apply le_refl|]. apply le_bind; [apply H|]. intros []; [apply le_refl|apply IH]. Qed.
Lemma le_debug c c' : rle (debug_assert true c) (debug_assert false c').
Proof. intros [] _. reflexivity. Qed.
Lemma le_u8_add a b : rle (u8_add true a b) (u8_add false a b).
Proof. unfold u8_add. destruct (_ <? _)%nat; [apply le_refl|]. intros x H. discriminate. Qed.
Lemma le_u8_mul a b : rle (u8_mul true a b) (u8_mul false a b).
Proof. unfold u8_mul. destruct (_ <? _)%nat; [apply le_refl|]. intros x H. discriminate. Qed.
Lemma le_u8_sub a b : rle (u8_sub true a b) (u8_sub false a b).
Proof. unfold u8_sub. destruct (_ <=? _)%nat; [apply le_refl|]. intros x H. discriminate. Qed.
Lemma le_u16_add a b : rle (u16_add true a b) (u16_add false a b).
Proof. unfold u16_add. destruct (_ <? _)%N; [apply le_refl|]. intros x H. discriminate. Qed.
Lemma le_u32_add a b : rle (u32_add true a b) (u32_add false a b).
Proof. unfold u32_add. destruct (_ <? _)%N; [apply le_refl|]. intros x H. discriminate. Qed.

Lemma le_iter fuel nx o : forall c, rle (iter_from fuel true nx o c) (iter_from fuel false nx o c).
Proof.
  induction fuel as [|f IH]; intros c; cbn [iter_from]; [apply le_refl|]. apply le_bind; [apply le_refl|]. intros x.
  destruct (x =? o)%nat; [apply le_refl|]. cbn [andb]. destruct (x =? c)%nat; [intros y H; discriminate|].
  apply le_bind; [apply IH|]. intros. apply le_refl.
Qed.

Lemma le_for {S} nx o (f f' : S -> nat -> res S) fuel : (forall s x, rle (f s x) (f' s x)) ->
  forall c s, rle (for_from fuel true nx o c f s) (for_from fuel false nx o c f' s).
Proof.
  intros H. induction fuel as [|k IH]; intros c s; cbn [for_from]; [apply le_refl|]. apply le_bind; [apply le_refl|]. intros x.
  destruct (x =? o)%nat; [apply H|]. cbn [andb]. destruct (x =? c)%nat; [intros y E; discriminate|].
  apply le_bind; [apply H|apply IH].
Qed.

Create HintDb agree.
#[global] Hint Resolve le_debug le_u8_add le_u8_mul le_u8_sub le_u16_add le_u32_add le_iter : agree.

Ltac agree :=
  repeat match goal with
  | |- rle ?a ?a => apply le_refl
  | |- rle (if true then _ else _) _ => cbn iota
  | |- rle (bind _ _) (bind _ _) => apply le_bind; [|intro]
  | |- rle (foldM _ _ _) (foldM _ _ _) => apply le_foldM; intros
  | |- rle (group_for _ _ _ _ _) (group_for _ _ _ _ _) => apply le_for; intros
  | |- rle (mapM _ _) (mapM _ _) => apply le_mapM; intros
  | |- rle (filterM _ _) (filterM _ _) => apply le_filterM; intros
  | |- rle (anyM _ _) (anyM _ _) => apply le_anyM; intros
  | |- rle ?a ?b => solve [auto with agree nocore]
  | x : (_ * _)%type |- rle _ _ => destruct x
  | |- rle (if ?b then _ else _) _ => destruct b
  | |- rle (match ?b with _ => _ end) _ => destruct b
  | |- rle (let _ := _ in _) _ => cbn zeta
  end.

Lemma le_neighbor p : rle (neighbor_coords true p) (neighbor_coords false p).
Proof. unfold neighbor_coords. agree. Qed.
#[global] Hint Resolve le_neighbor : agree.
Lemma le_valid p s : rle (valid_coords true p s) (valid_coords false p s).
Proof. unfold valid_coords. agree. Qed.
Lemma le_corner p : rle (corner_points true p) (corner_points false p).
Proof. unfold corner_points. agree. Qed.
Lemma le_remove_liberty g i : rle (remove_liberty true g i) (remove_liberty false g i).
Proof. unfold remove_liberty. agree. Qed.
Lemma le_add_liberty g i : rle (add_liberty true g i) (add_liberty false g i).
Proof. unfold add_liberty. agree. Qed.
Lemma le_group_iter g nx : rle (group_iter true g nx) (group_iter false g nx).
Proof. unfold group_iter. agree. Qed.
#[global] Hint Resolve le_valid le_corner le_remove_liberty le_add_liberty le_group_iter : agree.
Lemma le_ncoords g p : rle (neighbors_coords true g p) (neighbors_coords false g p).
Proof. unfold neighbors_coords. agree. Qed.
Lemma le_nidx s i : rle (neighbors_idx true s i) (neighbors_idx false s i).
Proof. unfold neighbors_idx. agree. Qed.
#[global] Hint Resolve le_ncoords le_nidx : agree.
Lemma le_cpoints g p : rle (get_connected_points true g p) (get_connected_points false g p).
Proof. unfold get_connected_points. agree. Qed.
#[global] Hint Resolve le_cpoints : agree.
Lemma le_cstones g p : rle (get_connected_stones true g p) (get_connected_stones false g p).
Proof. unfold get_connected_stones. agree. Qed.
Lemma le_cgidx g i : rle (get_connected_groups_idx true g i) (get_connected_groups_idx false g i).
Proof. unfold get_connected_groups_idx. agree. Qed.
#[global] Hint Resolve le_cstones le_cgidx : agree.
Lemma le_cgroups g p : rle (get_connected_groups true g p) (get_connected_groups false g p).
Proof. unfold get_connected_groups. agree. Qed.
Lemma le_update g k : rle (update_chain_indexes_in_board true g k) (update_chain_indexes_in_board false g k).
Proof. unfold update_chain_indexes_in_board. agree. Qed.
#[global] Hint Resolve le_cgroups le_update : agree.
Lemma le_create g o c l : rle (create_chain true g o c l) (create_chain false g o c l).
Proof. unfold create_chain. agree. Qed.
Lemma le_add_stone g k s : rle (add_stone_to_chain true g k s) (add_stone_to_chain false g k s).
Proof. unfold add_stone_to_chain. agree. Qed.
Lemma le_merge g a b : rle (merge_strings true g a b) (merge_strings false g a b).
Proof. unfold merge_strings. agree. Qed.
Lemma le_remove_libs cs o p : rle (remove_liberties true cs o p) (remove_liberties false cs o p).
Proof. unfold remove_liberties. agree. Qed.
#[global] Hint Resolve le_create le_add_stone le_merge le_remove_libs : agree.
Lemma le_merge_all g t s : rle (merge_all true g t s) (merge_all false g t s).
Proof. unfold merge_all. agree. Qed.
#[global] Hint Resolve le_merge_all : agree.
Lemma le_place g p c s l : rle (place_stone true g p c s l) (place_stone false g p c s l).
Proof. unfold place_stone. agree. Qed.
#[global] Hint Resolve le_place : agree.
Lemma le_any_ok c : rle c (Ok tt).
Proof. intros []; reflexivity. Qed.
#[global] Hint Resolve le_any_ok : agree.
Lemma le_pwf g p c : rle (push_wth_feedback true g p c) (push_wth_feedback false g p c).
Proof. unfold push_wth_feedback. agree. Qed.
Lemma le_remove_chain g k : rle (remove_chain true g k) (remove_chain false g k).
Proof. unfold remove_chain. agree. Qed.
#[global] Hint Resolve le_pwf le_remove_chain : agree.
Lemma le_captured g s d a : rle (remove_captured_stones_aux true g s d a) (remove_captured_stones_aux false g s d a).
Proof. unfold remove_captured_stones_aux. agree. Qed.
Lemma le_push g p c : rle (push true g p c) (push false g p c).
Proof. unfold push. agree. Qed.
#[global] Hint Resolve le_captured le_push : agree.
Lemma le_push_stone g s : rle (push_stone true g s) (push_stone false g s).
Proof. unfold push_stone. agree. Qed.
Lemma le_push_many g l c : rle (push_many true g l c) (push_many false g l c).
Proof. unfold push_many. agree. Qed.
#[global] Hint Resolve le_push_stone le_push_many : agree.
Lemma le_from l : rle (goban_from true l) (goban_from false l).
Proof. unfold goban_from. agree. Qed.
Lemma le_chain_stones g k : rle (chain_stones true g k) (chain_stones false g k).
Proof. unfold chain_stones. agree. Qed.
Lemma le_by_color g c : rle (get_coords_by_color true g c) (get_coords_by_color false g c).
Proof. unfold get_coords_by_color. agree. Qed.
Lemma le_liberties g p : rle (get_liberties true g p) (get_liberties false g p).
Proof. unfold get_liberties. agree. Qed.
Lemma le_has_liberties g p : rle (has_liberties true g p) (has_liberties false g p).
Proof. unfold has_liberties. agree. Qed.
#[global] Hint Resolve le_by_color le_has_liberties : agree.
Lemma le_grc r gb p d a : rle (game_remove_captured_stones true r gb p d a) (game_remove_captured_stones false r gb p d a).
Proof. unfold game_remove_captured_stones. agree. Qed.
#[global] Hint Resolve le_grc : agree.
Lemma le_play g m : rle (play true g m) (play false g m).
Proof. unfold play. agree. Qed.
Lemma le_verification g p : rle (play_for_verification true g p) (play_for_verification false g p).
Proof. unfold play_for_verification. agree. Qed.
Lemma le_handicap g l : rle (put_handicap true g l) (put_handicap false g l).
Proof. unfold put_handicap. agree. Qed.
Lemma le_will_capture g p : rle (will_capture true g p) (will_capture false g p).
Proof. unfold will_capture. agree. Qed.
Lemma le_check_ko g s : rle (check_ko true g s) (check_ko false g s).
Proof. unfold check_ko. agree. Qed.
Lemma le_check_suicide g s : rle (check_suicide true g s) (check_suicide false g s).
Proof. unfold check_suicide. agree. Qed.
#[global] Hint Resolve le_play le_verification le_handicap le_will_capture le_check_ko le_check_suicide : agree.
Lemma le_check_super_ko g s : rle (check_super_ko true g s) (check_super_ko false g s).
Proof. unfold check_super_ko. agree. Qed.
Lemma le_helper g p c : rle (helper_check_eye true g p c) (helper_check_eye false g p c).
Proof. unfold helper_check_eye. agree. Qed.
#[global] Hint Resolve le_check_super_ko le_helper : agree.
Lemma le_corners g c l : rle (check_eye_corners true g c l) (check_eye_corners false g c l).
Proof. induction l as [|q l IH]; cbn [check_eye_corners]; [apply le_refl|]. agree. Qed.
#[global] Hint Resolve le_corners : agree.
Lemma le_check_eye g s : rle (check_eye true g s) (check_eye false g s).
Proof. unfold check_eye. agree. Qed.
#[global] Hint Resolve le_check_eye : agree.
Lemma le_check_point_by g p f : rle (check_point_by true g p f) (check_point_by false g p f).
Proof. unfold check_point_by. agree. Qed.
#[global] Hint Resolve le_check_point_by : agree.
Lemma le_check_point g p : rle (check_point true g p) (check_point false g p).
Proof. unfold check_point. agree. Qed.
#[global] Hint Resolve le_check_point : agree.
Lemma le_legals_by g f : rle (legals_by true g f) (legals_by false g f).
Proof. unfold legals_by. agree. Qed.
#[global] Hint Resolve le_legals_by : agree.
Lemma le_legals g : rle (legals true g) (legals false g).
Proof. unfold legals. agree. Qed.
Lemma le_try_play g m : rle (try_play true g m) (try_play false g m).
Proof. unfold try_play. agree. Qed.
#[global] Hint Resolve le_try_play : agree.
Lemma le_build bl : rle (build_inner true bl) (build_inner false bl).
Proof. unfold build_inner. agree. Qed.
Lemma le_legals_moves g : rle (legals_moves true g) (legals_moves false g).
Proof. unfold legals_moves. agree. Qed.
Lemma le_floating g : rle (get_floating_stones true g) (get_floating_stones false g).
Proof. unfold get_floating_stones. agree. Qed.
