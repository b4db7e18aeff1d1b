(** Whole games under the symmetries of a rectangle, games that look alike, and
    the score (C109); [LongFacts.v], [TightClaims.v], [ReprFacts.v] for boards whose
    width divides their height. *)
From stdpp Require Import relations.
From Verif Require Import Spec Observe Ops RectSymSpec RectReach RectTableSpec.
From Verif Require Import MonadFacts Struct Push Bridge GameFacts LegalFacts LegalsFacts OpsFacts TableFacts SymFacts SymGame LongFacts ReprFacts AgreeFacts ScoreFacts Samples RefuteFacts CaseFacts.
From Verif Require Import RectCoord RectInv RectBridge RectGame RectBoard RectMoves RectLegal RectReachFacts RectTable RectScore RectGo RectSymFacts RectSymGame.
From Coq Require Import Lia.

Local Notation length := Datatypes.length.
Open Scope nat_scope.

Lemma rgreach_try dbg n b w g m g' v : Nat.divide (snd n) (fst n) -> rgreach dbg n b w g -> (forall x y, m = MPlay x y -> ron n (x, y)) ->
  try_play dbg g m = Ok (g', v) -> exists b' w', rgreach dbg n b' w' g' /\ (b' + w' <= S (b + w))%nat.
Proof.
  intros Hd HG Hm E. pose proof (rgreach_inv _ _ _ _ _ Hd HG) as G. destruct (try_play_inv _ _ _ _ _ E) as [(e & -> & ->)|(-> & Hp & Ep)].
  - exists b, w. split; [exact HG|lia].
  - destruct m as [|c|x y].
    + exists b, w. split; [eapply rg_pass; eassumption|lia].
    + exists b, w. split; [eapply rg_resign; eassumption|lia].
    + specialize (Hm x y eq_refl). destruct (raccepted_empty dbg n g x y g' (rgi_wf _ _ _ _ G) (rgi_hist _ _ _ _ G) Hm E) as (He & _).
      eexists _, _. split; [eapply rg_play; eassumption|]. destruct (gm_turn g); cbn; lia.
Qed.

Theorem rimage_run n σ τ γ dbg dbg' ms : Nat.divide (snd n) (fst n) -> rboard_sym n σ τ γ -> forall b w b' w' g h,
  rgreach dbg n b w g -> rgreach dbg' n b' w' h ->
  rimage_game n σ γ g h -> rimage_history n σ γ g h -> image_caught γ g h ->
  (forall x y, MPlay x y ∈ ms -> ron n (x, y)) ->
  (N.of_nat (b + w + length ms) <= 65535)%N -> (N.of_nat (b' + w' + length ms) <= 65535)%N ->
  forbids_fill_eye (gm_rule g) = false \/ (forall q, ron n q -> σ q = q) ->
  exists g' h' tr,
    run dbg g (List.map OTry ms) = Ok (g', tr) /\
    run dbg' h (List.map OTry (List.map (image_move σ γ) ms)) = Ok (h', List.map (image_event γ) tr) /\
    rimage_game n σ γ g' h' /\ rimage_history n σ γ g' h' /\ image_caught γ g' h'.
Proof.
  intros Hd S. induction ms as [|m ms IH]; intros b w b' w' g h HG HG' I IH0 IC0 Hon L L' HF; cbn [List.map run].
  { exists g, h, []. auto. }
  pose proof (rgreach_inv _ _ _ _ _ Hd HG) as G. pose proof (rgreach_inv _ _ _ _ _ Hd HG') as G'.
  pose proof (rgi_chains _ _ _ _ G) as C. pose proof (rgi_chains _ _ _ _ G') as C'. cbn [length] in L, L'.
  assert (Hm : forall x y, m = MPlay x y -> ron n (x, y)) by (intros x y ->; apply Hon; left).
  assert (HF' : flag_contains (flag_illegal (gm_rule g)) FILLEYE = false \/ (forall q, ron n q -> σ q = q)).
  { destruct HF as [HF|HF]; [left|right; exact HF]. rewrite (flag_bit _ 3) by reflexivity. exact HF. }
  destruct (rimage_try n σ τ γ S dbg dbg' b w b' w' g h G G' I m Hm ltac:(lia) ltac:(lia) HF' (or_intror IH0)) as (g1 & h1 & v & E1 & E1' & I1 & J1 & K1).
  specialize (J1 IH0). specialize (K1 IC0). destruct (rgreach_try _ _ _ _ _ _ _ _ Hd HG Hm E1) as (b1 & w1 & HG1 & L1).
  assert (Hm' : forall x y, image_move σ γ m = MPlay x y -> ron n (x, y)).
  { destruct m as [| |x0 y0]; cbn; intros x y Ex; try discriminate. injection Ex as <- <-. rewrite <- surjective_pairing. apply (rsy_on _ _ _ _ S), Hm. reflexivity. }
  destruct (rgreach_try _ _ _ _ _ _ _ _ Hd HG' Hm' E1') as (b1' & w1' & HG1' & L1').
  destruct (IH b1 w1 b1' w1' g1 h1 HG1 HG1' I1 J1 K1) as (g2 & h2 & tr & E2 & E2' & I2 & J2).
  { intros x y Hx. apply Hon. right. exact Hx. } { lia. } { lia. }
  { rewrite (try_rule _ _ _ _ _ E1). exact HF. }
  cbn [do_op]. rewrite E1, E1'. cbn [bind]. rewrite E2, E2'. cbn [bind].
  exists g2, h2, (match v with Accepted => [event_of m] | Refused _ => [] end ++ tr). split; [reflexivity|]. split; [|auto].
  rewrite map_app. destruct v; [|reflexivity]. destruct m; reflexivity.
Qed.

(** ** From two new games *)

Lemma rimage_whole dbg dbg' n s r r' k ms g h : Nat.divide (snd n) (fst n) -> 1 <= fst n -> 1 <= snd n -> size_of s = n -> k < 4 ->
  game_new s r = Ok g -> game_new s r' = Ok h -> flag_illegal r' = flag_illegal r -> forbids_fill_eye r = false ->
  (forall x y, MPlay x y ∈ ms -> ron n (x, y)) -> (N.of_nat (length ms) <= 65535)%N ->
  exists g' h' tr,
    run dbg g (List.map OTry ms) = Ok (g', tr) /\
    run dbg' h (List.map OTry (List.map (image_move (rectangle_symmetry n k) (fun c => c)) ms)) = Ok (h', tr) /\
    (forall p, ron n p -> position h' (rectangle_symmetry n k p) = position g' p) /\
    gm_turn h' = gm_turn g' /\ gm_passes h' = gm_passes g' /\ gm_outcome h' = gm_outcome g' /\ gm_prisoners h' = gm_prisoners g'.
Proof.
  intros Hd H1 H2 Hs Hk Hg Hh Hf He Hm Hl.
  destruct (rstart_table dbg n s r g Hd H1 H2 Hs Hg) as [A HG]. destruct (rstart_table dbg' n s r' h Hd H1 H2 Hs Hh) as [B HH].
  pose proof (rsa_pos _ _ _ A) as A1. pose proof (rsa_pos _ _ _ B) as B1. clear A B.
  unfold game_new in Hg, Hh. apply bind_ok in Hg as (gb & Eg & Hg). rewrite Eg in Hh. cbn [bind] in Hh.
  injection Hg as <-. injection Hh as <-.
  destruct (rimage_run n _ _ _ dbg dbg' ms Hd (rectangle_ok n k (fun c => c) Hk (fun c => eq_refl)) 0 0 0 0 _ _ HG HH) as (g' & h' & tr & R1 & R2 & I1 & _ & I3).
  - constructor; cbn [gm_turn gm_passes gm_outcome gm_ko_point gm_rule option_map]; try reflexivity; [|exact Hf].
    intros p Hp. pose proof (A1 p Hp) as A2. pose proof (B1 _ (rsy_on _ _ _ _ (rectangle_ok n k (fun c => c) Hk (fun c => eq_refl)) p Hp)) as B2.
    unfold table_of, start in A2, B2. cbn [t_pos] in A2, B2. rewrite B2. unfold position, gm_goban in A2 |- *. rewrite A2. reflexivity.
  - constructor.
  - intros []; reflexivity.
  - exact Hm.
  - exact Hl.
  - exact Hl.
  - left. exact He.
  - exists g', h', tr. split; [exact R1|].
    rewrite (map_same (image_event _) tr id_event) in R2.
    split; [exact R2|]. destruct I1 as [P1 P2 P3 P4 _ _]. split.
    { intros p Hp. rewrite (P1 p Hp). destruct (position g' p); reflexivity. }
    split; [exact P2|]. split; [exact P3|]. split; [rewrite P4; destruct (gm_outcome g') as [[]|]; reflexivity|].
    pose proof (I3 Black) as Q1. pose proof (I3 White) as Q2. unfold caught in Q1, Q2. destruct (gm_prisoners g'), (gm_prisoners h'). cbn in *. congruence.
Qed.

(** ** Games that look alike *)

Lemma rid_sym n : rboard_sym n (fun p => p) (fun p => p) (fun c => c).
Proof. constructor; auto. Qed.

Lemma rid_image n P Q : rimage n (fun p => p) (fun c => c) P Q <-> rsame_pos n P Q.
Proof. unfold rimage, rsame_pos. split; intros H p Hp; specialize (H p Hp); destruct (P p); cbn in *; congruence. Qed.

Lemma ralike_image n g h : rlook_alike n g h ->
  rimage_game n (fun p => p) (fun c => c) g h /\ rimage_history n (fun p => p) (fun c => c) g h /\ image_caught (fun c => c) g h.
Proof.
  intros [A1 A2 A3 A4 A5 A6 A7 A8]. split; [|split].
  - constructor; [by apply rid_image|done|done|rewrite id_end; done| |by rewrite A7].
    rewrite <- A5. by destruct (gm_ko_point g).
  - unfold rimage_history. eapply Forall2_impl; [exact A8|]. intros a b H. by apply rid_image.
  - intros c. unfold caught. by rewrite A6.
Qed.

Lemma rimage_alike n g h : rimage_game n (fun p => p) (fun c => c) g h -> rimage_history n (fun p => p) (fun c => c) g h ->
  image_caught (fun c => c) g h -> gm_rule g = gm_rule h -> rlook_alike n g h.
Proof.
  intros [A1 A2 A3 A4 A5 A6] H C R. constructor; [by apply rid_image|done|done| | | |done|].
  - by rewrite A4, id_end.
  - rewrite A5. by destruct (gm_ko_point g).
  - pose proof (C White) as CW. pose proof (C Black) as CB. cbn in CW, CB. destruct (gm_prisoners g), (gm_prisoners h); cbn in *; congruence.
  - eapply Forall2_impl; [exact H|]. intros a b E. by apply rid_image.
Qed.

Theorem ralike_run n dbg dbg' ms b w b' w' g h : Nat.divide (snd n) (fst n) ->
  rgreach dbg n b w g -> rgreach dbg' n b' w' h -> rlook_alike n g h ->
  (forall x y, MPlay x y ∈ ms -> ron n (x, y)) ->
  (N.of_nat (b + w + length ms) <= 65535)%N -> (N.of_nat (b' + w' + length ms) <= 65535)%N ->
  exists g' h' tr, run dbg g (List.map OTry ms) = Ok (g', tr) /\ run dbg' h (List.map OTry ms) = Ok (h', tr) /\ rlook_alike n g' h'.
Proof.
  intros Hd HG HH A Hon L L'. destruct (ralike_image n g h A) as (I & IH & IC).
  destruct (rimage_run n _ _ _ dbg dbg' ms Hd (rid_sym n) b w b' w' g h HG HH I IH IC Hon L L' (or_intror (fun q _ => eq_refl)))
    as (g' & h' & tr & E & F & I' & IH' & IC').
  rewrite (map_same (image_move _ _) ms id_move) in F. rewrite (map_same (image_event _) tr id_event) in F.
  exists g', h', tr. split; [exact E|]. split; [exact F|]. apply rimage_alike; [assumption..|].
  rewrite (run_rule _ _ _ _ _ E), (run_rule _ _ _ _ _ F). apply A.
Qed.

(** ** The score of games that look alike *)

Lemma rempties_cells n a b : rwf n a -> rwf n b -> (forall i, cell a i = None <-> cell b i = None) -> get_empty_coords a = get_empty_coords b.
Proof.
  intros Wa Wb K0.
  unfold get_empty_coords. rewrite (rwf_size n a Wa), (rwf_size n b Wb), (wf0_board a (rwf_0 n a Wa)), (wf0_board b (rwf_0 n b Wb)).
  destruct (assert_ _); cbn [bind]; [|reflexivity..]. set (len := fst n * snd n).
  assert (E : forall k l l', Forall2 (fun x y : option nat => x = None <-> y = None) l l' -> forall acc,
    foldM (fun acc '(i, cell) => match cell with Some _ => Ok acc | None => let! p := one_to_2dim n i in Ok (acc ++ [p]) end) (zip (seq k len) l) acc =
    foldM (fun acc '(i, cell) => match cell with Some _ => Ok acc | None => let! p := one_to_2dim n i in Ok (acc ++ [p]) end) (zip (seq k len) l') acc).
  { clear. revert len. intros len. induction len as [|m IH]; intros k l l' F acc; [reflexivity|].
    destruct F as [|x y l l' Hxy F]; [reflexivity|]. cbn [seq zip zip_with foldM].
    destruct x, y; cbn [bind]; [apply IH, F|discriminate (proj2 Hxy eq_refl)|discriminate (proj1 Hxy eq_refl)|].
    destruct (one_to_2dim n k); cbn [bind]; [apply IH, F|reflexivity..]. }
  apply E. apply Forall2_same_length_lookup_2.
  - rewrite !take_length, (wf0_board a (rwf_0 n a Wa)), (wf0_board b (rwf_0 n b Wb)). reflexivity.
  - intros i x y Hx Hy. apply lookup_take_Some in Hx as [Hx _], Hy as [Hy _].
    pose proof (K0 i) as K. unfold cell in K. rewrite Hx, Hy in K. exact K.
Qed.

Section Same.
  Context (n : size_t) (a b : goban) (Wa : rwf n a) (Wb : rwf n b) (H : forall i, col a i = col b i).

  Lemma rsame_color i : get_color_idx a i = get_color_idx b i.
  Proof using All.
    destruct (decide (i < 361)) as [L|L].
    - rewrite !get_color_idx_ok by (exact L || (eapply rwf_0; eassumption)). by rewrite H.
    - unfold get_color_idx, vget. rewrite !lookup_ge_None_2; [reflexivity|rewrite (wf0_board b (rwf_0 n b Wb)); lia|rewrite (wf0_board a (rwf_0 n a Wa)); lia].
  Qed.

  Lemma rsame_cell i : cell a i = None <-> cell b i = None.
  Proof using All. rewrite <- (rcol_None n a i Wa), <- (rcol_None n b i Wb), H. reflexivity. Qed.

  Lemma rsame_connected dbg p : get_connected_points dbg a p = get_connected_points dbg b p.
  Proof using All.
    unfold get_connected_points, neighbors_coords. rewrite (rwf_size n a Wa), (rwf_size n b Wb).
    destruct (valid_coords dbg p n) as [l| |]; [|reflexivity..]. cbn [bind].
    induction l as [|q l IH]; [reflexivity|]. cbn [mapM]. rewrite IH. unfold get_color.
    rewrite (rwf_size n a Wa), (rwf_size n b Wb), rsame_color. reflexivity.
  Qed.

  Lemma rsame_explore dbg mc fuel : forall e l, explore fuel dbg a mc e l = explore fuel dbg b mc e l.
  Proof using All.
    induction fuel as [|f IH]; intros e l; [reflexivity|]. cbn [explore]. destruct l as [|s l]; [reflexivity|].
    rewrite rsame_connected. destruct (get_connected_points dbg b (fst s)); cbn [bind]; [apply IH|reflexivity..].
  Qed.

  Lemma rsame_group dbg s : get_group_from_point dbg a s = get_group_from_point dbg b s.
  Proof using All.
    unfold get_group_from_point. rewrite rsame_connected. destruct (get_connected_points dbg b (fst s)); cbn [bind]; [apply rsame_explore|reflexivity..].
  Qed.

  Lemma rsame_chains dbg l : get_chains_from_stones dbg a l = get_chains_from_stones dbg b l.
  Proof using All.
    unfold get_chains_from_stones. apply foldM_ext. intros acc s. rewrite rsame_group. reflexivity.
  Qed.

  Lemma rsame_scan dbg l : forall s, scan_group dbg a l s = scan_group dbg b l s.
  Proof using All.
    induction l as [|e l IH]; intros s; cbn [scan_group]; [reflexivity|]. rewrite rsame_connected.
    destruct (get_connected_points dbg b (fst e)); cbn [bind]; [|reflexivity..]. destruct (scan_points _ s); [apply IH|reflexivity].
  Qed.

  Lemma rsame_empties : get_empty_coords a = get_empty_coords b.
  Proof using All. apply (rempties_cells n a b Wa Wb). exact rsame_cell. Qed.

  Lemma rsame_territories dbg order : get_territories order dbg a = get_territories order dbg b.
  Proof using All.
    unfold get_territories. rewrite rsame_empties. destruct (get_empty_coords b) as [l| |]; cbn [bind]; [|reflexivity..].
    rewrite rsame_chains. destruct (get_chains_from_stones dbg b _) as [L| |]; cbn [bind]; [|reflexivity..].
    apply foldM_ext. intros [bt wt] G. rewrite rsame_scan. reflexivity.
  Qed.
End Same.

Lemma rcount_same n P Q c : rsame_pos n P Q -> rcount n P c = rcount n Q c.
Proof.
  intros H. unfold rcount. f_equal. assert (E : forall p, p ∈ rpoints n -> P p = Q p) by (intros p Hp; apply H, elem_of_rpoints, Hp).
  induction (rpoints n) as [|p l IH]; [reflexivity|]. rewrite !filter_cons, (E p (elem_of_list_here _ _)).
  rewrite IH by (intros q Hq; apply E; right; exact Hq). reflexivity.
Qed.

(** ** Cases on the board of 6 rows and 3 columns *)

Lemma wrong_moves_on : forall x y, MPlay x y ∈ wrong_moves -> ron (6, 3) (x, y).
Proof.
  intros x y H. unfold wrong_moves in H. rewrite !elem_of_cons, elem_of_nil in H.
  repeat (destruct H as [H|H]; [try discriminate H; injection H as -> ->; unfold ron; cbn; lia|]). contradiction.
Qed.

Lemma divides_6_3 : Nat.divide 3 6.
Proof. exists 2. reflexivity. Qed.

(** the game [wrong_moves] and its four images: every move is accepted; the game
    turned upside down has the other winner *)
Definition turned_moves (k : nat) : list move := List.map (image_move (rectangle_symmetry (6, 3) k) (fun c => c)) wrong_moves.

Theorem turned_winner dbg : exists g g' h' tr,
  game_new (Custom 6 3) CHINESE = Ok g /\
  run dbg g (List.map OTry wrong_moves) = Ok (g', tr) /\
  run dbg g (List.map OTry (List.map (image_move (rectangle_symmetry (6, 3) 2) (fun c => c)) wrong_moves)) = Ok (h', tr) /\
  length tr = length wrong_moves /\ is_over g' = true /\ is_over h' = true /\
  (forall p, ron (6, 3) p -> position h' (rectangle_symmetry (6, 3) 2 p) = position g' p) /\
  forall order, (forall l, order l ≡ₚ l) ->
    outcome order dbg g' = Ok (Some (WinnerByScore Black (f32_make 13 (-1)))) /\
    outcome order dbg h' = Ok (Some (WinnerByScore White (f32_make 19 (-1)))).
Proof.
  destruct (game_new (Custom 6 3) CHINESE) as [g| |] eqn:E; [|vm_compute in E; discriminate..].
  destruct (rstart_table dbg (6, 3) (Custom 6 3) CHINESE g divides_6_3 ltac:(cbn; lia) ltac:(cbn; lia) eq_refl E) as [_ HG].
  destruct (rimage_whole dbg dbg (6, 3) (Custom 6 3) CHINESE CHINESE 2 wrong_moves g g divides_6_3 ltac:(cbn; lia) ltac:(cbn; lia) eq_refl ltac:(lia) E E eq_refl eq_refl wrong_moves_on ltac:(vm_compute; discriminate))
    as (g' & h' & tr & R1 & R2 & P & _).
  exists g, g', h', tr. split; [reflexivity|]. split; [exact R1|]. split; [exact R2|].
  assert (K : match (let! g := game_new (Custom 6 3) CHINESE in let! a := run dbg g (List.map OTry wrong_moves) in let! b := run dbg g (List.map OTry (turned_moves 2)) in Ok (a, b)) with
    | Ok ((a, l), (b, _)) => Some (length l, is_over a, is_over b, outcome (fun l => l) dbg a, outcome (fun l => l) dbg b)
    | _ => None end = Some (length wrong_moves, true, true, Ok (Some (WinnerByScore Black (f32_make 13 (-1)))), Ok (Some (WinnerByScore White (f32_make 19 (-1)))))) by (destruct dbg; vm_compute; reflexivity).
  unfold turned_moves in K. rewrite E in K. cbn [bind] in K. rewrite R1 in K. cbn [bind] in K. rewrite R2 in K. cbn [bind] in K. injection K as K1 K2 K3 K4 K5.
  split; [exact K1|]. split; [exact K2|]. split; [exact K3|]. split; [exact P|].
  assert (Hrun : forall ms g0 b w g1 l, rgreach dbg (6, 3) b w g0 -> (forall x y, MPlay x y ∈ ms -> ron (6, 3) (x, y)) ->
    run dbg g0 (List.map OTry ms) = Ok (g1, l) -> exists b' w', rgreach dbg (6, 3) b' w' g1).
  { clear. induction ms as [|m ms IH]; intros g0 b w g1 l HG Hon H; cbn [List.map run] in H.
    - injection H as <- _. eauto.
    - cbn [do_op] in H. apply bind_ok in H as ([g2 e2] & H1 & H). apply bind_ok in H1 as ([g3 v] & H1 & H1'). apply bind_ok in H as ([g4 e4] & H2 & H).
      injection H as <- _.
      assert (g3 = g2) as -> by (destruct v; injection H1' as <- _; reflexivity).
      destruct (rgreach_try dbg (6, 3) b w g0 m g2 v divides_6_3 HG ltac:(intros x y ->; apply Hon; left) H1) as (b' & w' & HG' & _).
      eapply IH; [exact HG'| |exact H2]. intros x y Hx. apply Hon. right. exact Hx. }
  destruct (Hrun _ _ _ _ _ _ HG wrong_moves_on R1) as (b1 & w1 & HG1).
  assert (Hon : forall x y, MPlay x y ∈ turned_moves 2 -> ron (6, 3) (x, y)).
  { intros x y Hx. unfold turned_moves in Hx. apply elem_of_list_In, in_map_iff in Hx as ([| |u v] & Ex & Hx); try discriminate Ex.
    apply elem_of_list_In, wrong_moves_on in Hx. cbn [image_move] in Ex. injection Ex as <- <-. unfold ron in *. cbn [rectangle_symmetry fst snd] in *. lia. }
  destruct (Hrun _ _ _ _ _ _ HG Hon R2) as (b2 & w2 & HG2).
  pose proof (rgi_wf _ _ _ _ (rgreach_inv dbg (6, 3) _ _ _ divides_6_3 HG1)) as W1.
  pose proof (rgi_wf _ _ _ _ (rgreach_inv dbg (6, 3) _ _ _ divides_6_3 HG2)) as W2.
  intros order Ho. split.
  - etransitivity; [|exact K4]. unfold outcome, calculate_score, calculate_score_by. rewrite (rterritory_order order dbg (6, 3) (gm_goban g') 2 W1 eq_refl Ho). reflexivity.
  - etransitivity; [|exact K5]. unfold outcome, calculate_score, calculate_score_by. rewrite (rterritory_order order dbg (6, 3) (gm_goban h') 2 W2 eq_refl Ho). reflexivity.
Qed.

Lemma case_rwhole dbg dbg' : exists g g' h' tr, game_new (Custom 6 3) CHINESE = Ok g /\ forbids_fill_eye CHINESE = false /\
  (forall x y, MPlay x y ∈ wrong_moves -> ron (6, 3) (x, y)) /\ (N.of_nat (length wrong_moves) <= 65535)%N /\
  run dbg g (List.map OTry wrong_moves) = Ok (g', tr) /\ run dbg' g (List.map OTry (turned_moves 3)) = Ok (h', tr) /\ length tr = length wrong_moves.
Proof.
  destruct (turned_winner dbg) as (g & g' & _ & tr & E & R & _ & L & _).
  destruct (rimage_whole dbg dbg' (6, 3) (Custom 6 3) CHINESE CHINESE 3 wrong_moves g g divides_6_3 ltac:(cbn; lia) ltac:(cbn; lia) eq_refl ltac:(lia) E E eq_refl eq_refl wrong_moves_on ltac:(vm_compute; discriminate))
    as (g1 & h' & tr1 & R1 & R2 & _).
  rewrite R in R1. injection R1 as <- <-. exists g, g', h', tr. split; [exact E|]. split; [reflexivity|]. split; [exact wrong_moves_on|]. split; [vm_compute; discriminate|]. split; [exact R|]. split; [exact R2|exact L].
Qed.

(** four stones set up in one order and in the other *)
Definition rfour : list stone := [((3, 0), Black); ((0, 1), White); ((5, 2), Black); ((2, 2), White)].
Definition rset_up (l : list stone) : builder := mkBuilder (6, 3) CHINESE None None [] None [] None l.

Lemma rsame_pos_b n (P Q : pos) : forallb (fun p => bool_decide (P p = Q p)) (rpoints n) = true -> rsame_pos n P Q.
Proof. intros H p Hp. rewrite forallb_forall in H. apply elem_of_rpoints, elem_of_list_In in Hp. exact (bool_decide_eq_true_1 _ (H p Hp)). Qed.

Lemma case_ralike dbg dbg' : exists g h b w b' w',
  rgreach dbg (6, 3) b w g /\ rgreach dbg' (6, 3) b' w' h /\ rlook_alike (6, 3) g h /\
  (forall x y, MPlay x y ∈ [MPlay 1 1; MPass; MPlay 4 0] -> ron (6, 3) (x, y)) /\
  (N.of_nat (b + w + 3) <= 65535)%N /\ (N.of_nat (b' + w' + 3) <= 65535)%N /\
  group_no (gm_goban g) (3, 0) = Some 0 /\ group_no (gm_goban h) (3, 0) = Some 3.
Proof.
  destruct (build_inner dbg (rset_up rfour)) as [g| |] eqn:E; [|destruct dbg; vm_compute in E; discriminate..].
  destruct (build_inner dbg' (rset_up (rev rfour))) as [h| |] eqn:E'; [|destruct dbg'; vm_compute in E'; discriminate..].
  assert (Nd : NoDup rfour.*1) by (vm_compute; repeat constructor; rewrite ?elem_of_cons, ?elem_of_nil; intuition congruence).
  assert (On : forall s, s ∈ rfour -> ron (6, 3) (fst s)).
  { intros s Hs. unfold rfour in Hs. rewrite !elem_of_cons, elem_of_nil in Hs. destruct Hs as [->|[->|[->|[->|[]]]]]; unfold ron; cbn; lia. }
  exists g, h, 2, 2, 2, 2.
  split; [apply (rg_build dbg (6, 3) (rset_up rfour) g); [cbn; lia|cbn; lia|reflexivity|reflexivity|exact Nd|exact On|exact E]|].
  split; [apply (rg_build dbg' (6, 3) (rset_up (rev rfour)) h); [cbn; lia|cbn; lia|reflexivity|reflexivity| |..|exact E']|].
  { vm_compute; repeat constructor; rewrite ?elem_of_cons, ?elem_of_nil; intuition congruence. }
  { intros s Hs. apply On. unfold setup_stones in Hs. cbn [b_handicap_points b_setup rset_up List.map app] in Hs. apply elem_of_list_In, in_rev, elem_of_list_In in Hs. exact Hs. }
  assert (B : rsame_pos (6, 3) (position g) (position h) /\ (gm_turn g, gm_passes g, gm_outcome g, gm_ko_point g, gm_prisoners g) = (gm_turn h, gm_passes h, gm_outcome h, gm_ko_point h, gm_prisoners h)
     /\ gm_rule g = gm_rule h /\ gm_history g = [] /\ gm_history h = [] /\ group_no (gm_goban g) (3, 0) = Some 0 /\ group_no (gm_goban h) (3, 0) = Some 3).
  { destruct dbg, dbg'; vm_compute in E, E'; injection E as <-; injection E' as <-; (split; [apply rsame_pos_b; vm_compute; reflexivity|repeat split]). }
  destruct B as (P & Q & R & H1 & H2 & G1 & G2). injection Q as Q1 Q2 Q3 Q4 Q5.
  split; [constructor; try assumption; rewrite H1, H2; constructor|]. split.
  { intros x y H. rewrite !elem_of_cons, elem_of_nil in H. destruct H as [[= -> ->]|[H|[[= -> ->]|[]]]]; [|discriminate|]; unfold ron; cbn; lia. }
  split; [vm_compute; discriminate|]. split; [vm_compute; discriminate|]. auto.
Qed.

(** the four stones, and the same upside down with the colours swapped and White to move *)
Definition rmirrored : builder :=
  mkBuilder (6, 3) CHINESE None None [] (Some White) [] None (List.map (fun s => (rectangle_symmetry (6, 3) 2 (fst s), opp (snd s))) rfour).

Lemma case_rimage dbg dbg' : exists g h b w b' w',
  rgreach dbg (6, 3) b w g /\ rgreach dbg' (6, 3) b' w' h /\
  rboard_sym (6, 3) (rectangle_symmetry (6, 3) 2) (rectangle_symmetry (6, 3) 2) opp /\
  rimage_game (6, 3) (rectangle_symmetry (6, 3) 2) opp g h /\ rimage_history (6, 3) (rectangle_symmetry (6, 3) 2) opp g h /\ image_caught opp g h /\
  (forall x y, MPlay x y ∈ [MPlay 1 1; MPass; MPlay 4 0] -> ron (6, 3) (x, y)) /\
  (N.of_nat (b + w + 3) <= 65535)%N /\ (N.of_nat (b' + w' + 3) <= 65535)%N /\ forbids_fill_eye (gm_rule g) = false /\
  position g (5, 2) = Some Black /\ position h (0, 2) = Some White.
Proof.
  destruct (build_inner dbg (rset_up rfour)) as [g| |] eqn:E; [|destruct dbg; vm_compute in E; discriminate..].
  destruct (build_inner dbg' rmirrored) as [h| |] eqn:E'; [|destruct dbg'; vm_compute in E'; discriminate..].
  assert (Nd : NoDup rfour.*1) by (vm_compute; repeat constructor; rewrite ?elem_of_cons, ?elem_of_nil; intuition congruence).
  assert (On : forall s, s ∈ rfour -> ron (6, 3) (fst s)).
  { intros s Hs. unfold rfour in Hs. rewrite !elem_of_cons, elem_of_nil in Hs. destruct Hs as [->|[->|[->|[->|[]]]]]; unfold ron; cbn; lia. }
  exists g, h, 2, 2, 2, 2.
  split; [apply (rg_build dbg (6, 3) (rset_up rfour) g); [cbn; lia|cbn; lia|reflexivity|reflexivity|exact Nd|exact On|exact E]|].
  split; [apply (rg_build dbg' (6, 3) rmirrored h); [cbn; lia|cbn; lia|reflexivity|reflexivity| |..|exact E']|].
  { vm_compute; repeat constructor; rewrite ?elem_of_cons, ?elem_of_nil; intuition congruence. }
  { intros s Hs. unfold setup_stones in Hs. cbn [b_handicap_points b_setup rmirrored List.map app rfour] in Hs. rewrite !elem_of_cons, elem_of_nil in Hs.
    destruct Hs as [->|[->|[->|[->|[]]]]]; unfold ron; cbn; lia. }
  split; [apply rectangle_ok; [lia|intros []; reflexivity]|].
  assert (B : forallb (fun p => bool_decide (position h (rectangle_symmetry (6, 3) 2 p) = option_map opp (position g p))) (rpoints (6, 3)) = true /\
     (gm_turn h, gm_passes h, gm_outcome h, gm_ko_point h, gm_prisoners h) = (opp (gm_turn g), gm_passes g, None, None, (0%N, 0%N))
     /\ gm_rule g = CHINESE /\ gm_rule h = CHINESE /\ gm_outcome g = None /\ gm_ko_point g = None /\ gm_prisoners g = (0%N, 0%N) /\ gm_history g = [] /\ gm_history h = [] /\
     position g (5, 2) = Some Black /\ position h (0, 2) = Some White).
  { destruct dbg, dbg'; vm_compute in E, E'; injection E as <-; injection E' as <-; (split; [vm_compute; reflexivity|repeat split]). }
  destruct B as (P & Q & R & R' & O & K & C & H1 & H2 & G1 & G2). injection Q as Q1 Q2 Q3 Q4 Q5.
  split. { constructor; rewrite ?O, ?K, ?R, ?R', ?Q1, ?Q2, ?Q3, ?Q4; try reflexivity.
    intros p Hp. rewrite forallb_forall in P. apply elem_of_rpoints, elem_of_list_In in Hp. exact (bool_decide_eq_true_1 _ (P p Hp)). }
  split; [unfold rimage_history; rewrite H1, H2; constructor|].
  split; [intros []; unfold caught; rewrite C, Q5; reflexivity|]. split.
  { intros x y H. rewrite !elem_of_cons, elem_of_nil in H. destruct H as [[= -> ->]|[H|[[= -> ->]|[]]]]; [|discriminate|]; unfold ron; cbn; lia. }
  split; [vm_compute; discriminate|]. split; [vm_compute; discriminate|]. rewrite R. auto.
Qed.
