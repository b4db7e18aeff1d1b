(** Neighbours and diagonal neighbours of arbitrary u8 coordinates on boards of
    arbitrary u8 sizes. *)
From Verif Require Import Coord Spec Bridge.
From Coq Require Import Lia.

Local Notation length := Datatypes.length.
Open Scope nat_scope.

Lemma inside_valid h w q : is_coord_valid (h, w) q = true <-> fst q < h /\ snd q < w.
Proof. unfold is_coord_valid. cbn [fst snd]. rewrite andb_true_iff, !Nat.ltb_lt. tauto. Qed.

Lemma pred_cases x : (x = 0 /\ u8_wrapping_pred x = 255) \/ (exists k, x = S k /\ u8_wrapping_pred x = k).
Proof. destruct x; cbn; eauto. Qed.

Theorem neighbours_rect dbg h w p : h < 256 -> w < 256 -> fst p < 255 -> snd p < 255 ->
  exists l, valid_coords dbg p (h, w) = Ok l /\ NoDup l /\
    forall q, q ∈ l <-> (fst q < h /\ snd q < w) /\ adj p q.
Proof.
  destruct p as [x y]. cbn [fst snd]. intros Hh Hw Hx Hy. unfold valid_coords, neighbor_coords, u8_add.
  destruct (Nat.ltb_spec (x + 1) 256); [|lia]. destruct (Nat.ltb_spec (y + 1) 256); [|lia]. cbn [bind].
  eexists. split; [reflexivity|]. split.
  - apply NoDup_ListNoDup, List.NoDup_filter, NoDup_ListNoDup.
    destruct (pred_cases x) as [[Ex ->]|(k & Ex & ->)], (pred_cases y) as [[Ey ->]|(k' & Ey & ->)];
      repeat (apply NoDup_cons; split; [rewrite ?elem_of_cons, elem_of_nil; intros K; repeat (destruct K as [K|K]; [injection K; lia|]); exact K|]); apply NoDup_nil_2.
  - intros [a b]. rewrite elem_of_list_In, List.filter_In, inside_valid, <- elem_of_list_In. unfold adj. cbn [fst snd].
    rewrite !elem_of_cons, elem_of_nil, !pair_equal_spec.
    destruct (pred_cases x) as [[Ex ->]|(k & Ex & ->)], (pred_cases y) as [[Ey ->]|(k' & Ey & ->)]; lia.
Qed.

Theorem corners_rect dbg h w p : h < 256 -> w < 256 -> fst p < 255 -> snd p < 255 ->
  exists l, corner_points dbg p = Ok l /\ length l = 4 /\ NoDup l /\
    forall q, fst q < h -> snd q < w -> q ∈ l <-> diag p q.
Proof.
  destruct p as [x y]. cbn [fst snd]. intros Hh Hw Hx Hy. unfold corner_points, u8_add.
  destruct (Nat.ltb_spec (x + 1) 256); [|lia]. destruct (Nat.ltb_spec (y + 1) 256); [|lia]. cbn [bind].
  eexists. split; [reflexivity|]. split; [reflexivity|]. split.
  - destruct (pred_cases x) as [[Ex ->]|(k & Ex & ->)], (pred_cases y) as [[Ey ->]|(k' & Ey & ->)];
      repeat (apply NoDup_cons; split; [rewrite ?elem_of_cons, elem_of_nil; intros K; repeat (destruct K as [K|K]; [injection K; lia|]); exact K|]); apply NoDup_nil_2.
  - intros [a b] La Lb. cbn [fst snd] in La, Lb. unfold diag. cbn [fst snd]. rewrite !elem_of_cons, elem_of_nil, !pair_equal_spec.
    destruct (pred_cases x) as [[Ex ->]|(k & Ex & ->)], (pred_cases y) as [[Ey ->]|(k' & Ey & ->)]; lia.
Qed.

(** at coordinate 255 debug builds panic *)
Theorem last_coordinate p s : fst p < 256 -> snd p < 256 -> fst p = 255 \/ snd p = 255 ->
  valid_coords true p s = Panic /\ corner_points true p = Panic.
Proof.
  destruct p as [x y]. cbn [fst snd]. intros Hx Hy H. unfold valid_coords, neighbor_coords, corner_points, u8_add.
  destruct (Nat.ltb_spec (x + 1) 256), (Nat.ltb_spec (y + 1) 256); try lia; split; reflexivity.
Qed.

(** ... and release builds take the opposite edge of the board for a neighbour *)
Theorem around_the_edge h w y : 1 <= h < 255 -> y < w -> w < 255 ->
  exists l, valid_coords false (255, y) (h, w) = Ok l /\ l = [(0, y)] /\ ~ adj (255, y) (0, y).
Proof.
  intros Hh Hy Hw. unfold valid_coords, neighbor_coords, u8_add.
  destruct (Nat.ltb_spec (255 + 1) 256) as [K|_]; [lia|]. destruct (Nat.ltb_spec (y + 1) 256); [|lia]. cbn [bind].
  eexists. split; [reflexivity|]. split; [|unfold adj; cbn [fst snd]; lia].
  change ((255 + 1) mod 256) with 0. change (u8_wrapping_pred 255) with 254. cbn [List.filter]. unfold is_coord_valid. cbn [fst snd].
  destruct (Nat.ltb_spec 0 h); [|lia]. destruct (Nat.ltb_spec y w); [|lia]. destruct (Nat.ltb_spec 254 h); [lia|]. destruct (Nat.ltb_spec 255 h); [lia|]. reflexivity.
Qed.

Theorem wraps_around : exists h w p q l, h < 256 /\ w < 256 /\ fst p < 256 /\ snd p < 256 /\
  valid_coords false p (h, w) = Ok l /\ q ∈ l /\ ~ adj p q.
Proof.
  destruct (around_the_edge 9 9 3) as (l & E & -> & H); [lia..|]. exists 9, 9, (255, 3), (0, 3), [(0, 3)]. cbn [fst snd].
  do 4 (split; [lia|]). split; [exact E|]. split; [left|exact H].
Qed.

Lemma case_coordinates : 9 < 256 /\ 13 < 256 /\ fst (8, 0) < 255 /\ snd (8, 0) < 255 /\
  valid_coords true (8, 0) (9, 13) = Ok [(7, 0); (8, 1)] /\ corner_points true (3, 4) = Ok [(4, 5); (2, 3); (4, 3); (2, 5)].
Proof. cbn [fst snd]. do 4 (split; [lia|]). split; vm_compute; reflexivity. Qed.

Lemma case_last_coordinate : fst (4, 255) < 256 /\ snd (4, 255) < 256 /\ (fst (4, 255) = 255 \/ snd (4, 255) = 255).
Proof. cbn [fst snd]. lia. Qed.
