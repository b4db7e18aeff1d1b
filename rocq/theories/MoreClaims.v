(** The moves and rewards of the tree search, and the grid of the printed board. *)
From stdpp Require Import relations sorting.
From Verif Require Import VerdictSpec ScoreSpec RoundSpec DeadStones GroupMore MoreSpec.
From Verif Require Import MonadFacts Struct Push Inv Bridge GameFacts ApiFacts RulesFacts LegalsFacts VerdictFacts BoardFacts ViewFacts RoundScore DeadFacts.
From Verif Require Export TableClaims CaseFacts.
From Coq Require Import Lia.

Local Notation length := Datatypes.length.
Open Scope nat_scope.

Lemma row_major_nodup l : StronglySorted row_major l -> NoDup l.
Proof.
  induction 1 as [|x l S IH F]; constructor; [|exact IH].
  intros Hx. rewrite Forall_forall in F. specialize (F x Hx). unfold row_major in F. lia.
Qed.

Lemma accepted_reasons n f t p :
  first_reason (point_reasons n (N.lor f FILLEYE) t p) Accepted <->
  first_reason (point_reasons n f t p) Accepted /\ ~ eye_shape n (t_pos t) (t_turn t) p.
Proof.
  assert (H3 : no_fill_eye (N.lor f FILLEYE) = true) by (unfold no_fill_eye; rewrite N.lor_spec; apply orb_true_r).
  assert (H2 : no_suicide (N.lor f FILLEYE) = no_suicide f) by (unfold no_suicide; rewrite N.lor_spec; apply orb_false_r).
  assert (H1 : no_superko (N.lor f FILLEYE) = no_superko f) by (unfold no_superko; rewrite N.lor_spec; apply orb_false_r).
  assert (H0 : no_ko (N.lor f FILLEYE) = no_ko f) by (unfold no_ko; rewrite N.lor_spec; apply orb_false_r).
  unfold first_reason, point_reasons. rewrite H0, H1, H2, H3, !Forall_cons. cbn [snd].
  assert (T : true = true) by reflexivity. tauto.
Qed.

Lemma claim_search_moves dbg n b w g : greach dbg n b w g -> ~ no_slot_left g -> gm_passes g <> 2 ->
  exists ms, legals_moves dbg g = Ok ms /\ NoDup ms /\
    (forall x y, MPlay x y ∈ ms <->
       on n (x, y) /\ (exists g', try_play dbg g (MPlay x y) = Ok (g', Accepted)) /\ ~ eye_shape n (position g) (gm_turn g) (x, y)) /\
    (MPass ∈ ms <-> is_over g = false /\ forall x y, MPlay x y ∉ ms) /\
    (forall c, MResign c ∉ ms).
Proof.
  intros HG HS HP. pose proof (greach_inv _ _ _ _ _ HG) as G.
  destruct (claim_legals_by dbg n b w g (N.lor (flag_illegal (gm_rule g)) FILLEYE) HG HS) as (l & E & S & Hl).
  assert (Hp : forall x y, (x, y) ∈ l <->
    on n (x, y) /\ (exists g', try_play dbg g (MPlay x y) = Ok (g', Accepted)) /\ ~ eye_shape n (position g) (gm_turn g) (x, y)).
  { intros x y. rewrite Hl, accepted_reasons. split; intros [Ho H]; (split; [exact Ho|]).
    - destruct H as [H He]. split; [|exact He]. apply (accepted_iff dbg n b w g x y G (slot_left _ _ _ _ G HS) HP Ho).
      apply (check_exact dbg n b w g (x, y) _ Accepted HG Ho HS). exact H.
    - destruct H as [H He]. split; [|exact He]. apply (accepted_iff dbg n b w g x y G (slot_left _ _ _ _ G HS) HP Ho) in H.
      apply (check_exact dbg n b w g (x, y) _ Accepted HG Ho HS). exact H. }
  assert (Hm : forall m, m ∈ List.map (fun p : coord => MPlay (fst p) (snd p)) l <-> exists x y, m = MPlay x y /\ (x, y) ∈ l).
  { intros m. rewrite elem_of_list_In, in_map_iff. split.
    - intros ([x y] & <- & H). exists x, y. split; [reflexivity|]. apply elem_of_list_In, H.
    - intros (x & y & -> & H). exists (x, y). split; [reflexivity|]. apply elem_of_list_In, H. }
  unfold legals_moves. rewrite E. cbn [bind]. eexists. split; [reflexivity|]. destruct l as [|p l].
  - cbn [List.map] in *. assert (N0 : forall m, m ∉ ([] : list move)) by (intros m H; inversion H).
    assert (NN : forall x y, ~ (on n (x, y) /\ (exists g', try_play dbg g (MPlay x y) = Ok (g', Accepted)) /\ ~ eye_shape n (position g) (gm_turn g) (x, y))).
    { intros x y H. apply Hp in H. inversion H. }
    destruct (is_over g).
    + split; [constructor|]. split; [|split].
      * intros x y. split; [intros H; destruct (N0 _ H)|intros H; destruct (NN _ _ H)].
      * split; [intros H; destruct (N0 _ H)|intros [H _]; discriminate].
      * intros c. apply N0.
    + split; [apply NoDup_singleton|]. split; [|split].
      * intros x y. rewrite elem_of_list_singleton. split; [discriminate|intros H; destruct (NN _ _ H)].
      * rewrite elem_of_list_singleton. split; [|reflexivity]. intros _. split; [reflexivity|]. intros x y. rewrite elem_of_list_singleton. discriminate.
      * intros c. rewrite elem_of_list_singleton. discriminate.
  - set (ms := List.map _ _) in *. assert (Ems : match ms with [] => if is_over g then [] else [MPass] | _ :: _ => ms end = ms) by reflexivity.
    rewrite Ems. split; [|split; [|split]].
    + apply row_major_nodup in S. clear -S. subst ms. induction S as [|q k H S IH]; [constructor|]. cbn [List.map]. constructor; [|exact IH].
      intros F. apply H. apply elem_of_list_In, in_map_iff in F as (r & F & Hr). apply elem_of_list_In in Hr. destruct q, r. cbn [fst snd] in F. injection F as -> ->. exact Hr.
    + intros x y. rewrite Hm, <- Hp. split; [intros (a & c & [= -> ->] & H); exact H|eauto].
    + split.
      * intros H. apply Hm in H as (x & y & H & _). discriminate.
      * intros [_ H]. destruct p as [x y]. destruct (H x y). apply Hm. exists x, y. split; [reflexivity|left].
    + intros c H. apply Hm in H as (x & y & H & _). discriminate.
Qed.

Lemma leaf_reward_any order dbg n b0 w0 g k c :
  greach dbg n b0 w0 g -> (forall l, order l ≡ₚ l) ->
  is_f32 (komi g) -> (if N.testbit (flag_score (gm_rule g)) 1 then units (komi g) else Some 0%Z) = Some k ->
  (fst (gm_prisoners g) < 1000000)%N -> (snd (gm_prisoners g) < 1000000)%N ->
  gm_outcome g = None -> gm_passes g = 2 ->
  exists tb tw, card (owned n (position g) Black) tb /\ card (owned n (position g) White) tw /\
    let B := points_in_units (side_points (flag_score (gm_rule g)) (N.of_nat tb) (N.of_nat (count n (position g) Black)) (fst (gm_prisoners g))) in
    let Wh := (points_in_units (side_points (flag_score (gm_rule g)) (N.of_nat tw) (N.of_nat (count n (position g) White)) (snd (gm_prisoners g))) + k)%Z in
    let mine := match c with Black => B | White => Wh end in
    let theirs := match c with Black => Wh | White => B end in
    (evaluate_leaf order dbg g c = Ok 1 /\ (mine > theirs)%Z) \/
    (evaluate_leaf order dbg g c = Ok 0 /\ (mine < theirs)%Z) \/
    (evaluate_leaf order dbg g c = Panic /\ (Z.abs (mine - theirs) < 2 ^ 145)%Z).
Proof.
  intros HG Ho Hk Hu H1 H2 Hn Hp.
  destruct (outcome_any_komi order dbg n b0 w0 g k HG Ho Hk Hu H1 H2 Hn Hp) as (tb & tw & x & u & C1 & C2 & H).
  exists tb, tw. split; [exact C1|]. split; [exact C2|].
  cbv zeta in H |- *. change (pos_of (gm_goban g)) with (position g) in H.
  set (B := points_in_units (side_points _ _ (N.of_nat (count n (position g) Black)) _)) in *.
  set (Wh := (points_in_units (side_points _ _ (N.of_nat (count n (position g) White)) _) + k)%Z) in *.
  clearbody B Wh. unfold evaluate_leaf, game_get_winner.
  destruct H as (_ & _ & [[E H]|[(m & E & H & _)|(m & E & H & _)]]); rewrite E; cbn [bind unwrap endgame_winner]; destruct c; cbn [color_eqb].
  all: first [right; right; split; [reflexivity|first [exact H | replace (Wh - B)%Z with (- (B - Wh))%Z by lia; rewrite Z.abs_opp; exact H]]
             | left; split; [reflexivity|lia] | right; left; split; [reflexivity|lia]].
Qed.

Lemma leaf_reward_other order dbg g :
  (is_over g = false -> forall c, evaluate_leaf order dbg g c = Panic) /\
  (forall c, exists g', play dbg g (MResign c) = Ok g' /\
     evaluate_leaf order dbg g' c = Ok 1 /\ evaluate_leaf order dbg g' (opp c) = Ok 0).
Proof.
  split.
  - intros H c. unfold evaluate_leaf, game_get_winner, outcome, is_over in *.
    destruct (gm_outcome g); [discriminate|]. rewrite H. reflexivity.
  - intros c. eexists. split; [reflexivity|]. unfold evaluate_leaf, game_get_winner, outcome. destruct c; split; reflexivity.
Qed.

Lemma printed_grid dbg n m g : breach dbg n m g -> 2 <= n ->
  exists rows, pretty_string g = Ok (List.concat rows) /\
    forall i j, i < n -> j < n -> exists row x, rows !! i = Some row /\ row !! j = Some x /\
      (pos_of g (i, j) = None ->
       arms x = Some (bool_decide (0 < i), bool_decide (S i < n), bool_decide (0 < j), bool_decide (S j < n))).
Proof.
  intros HB Hn. pose proof (breach_wf _ _ _ _ HB) as W. rewrite (pretty_ok n g W). eexists. split; [reflexivity|]. intros i j Hi Hj.
  eexists _, _. split; [|split].
  - change (List.map ?f ?l) with (f <$> l). rewrite list_lookup_fmap, lookup_seq_lt by exact Hi. reflexivity.
  - change (List.map ?f ?l) with (f <$> l). rewrite lookup_app_l by (rewrite fmap_length, seq_length; exact Hj).
    rewrite list_lookup_fmap, lookup_seq_lt by exact Hj. reflexivity.
  - intros E. unfold glyph_at. cbn [Nat.add]. rewrite E. unfold empty_glyph.
    destruct (Nat.eqb_spec i 0), (Nat.eqb_spec i (n - 1)), (Nat.eqb_spec j 0), (Nat.eqb_spec j (n - 1)); try lia; cbn [arms];
    repeat (first [rewrite bool_decide_true by lia | rewrite bool_decide_false by lia]); reflexivity.
Qed.

Lemma claim_search_ok dbg n b w g : greach dbg n b w g -> ~ no_slot_left g -> gm_passes g <> 2 ->
  exists ms, legals_moves dbg g = Ok ms /\
    (ms = [] -> is_over g = true) /\
    (forall m, m ∈ ms -> exists g', try_play dbg g m = Ok (g', Accepted)) /\
    (forall m, m ∈ ms -> (exists x y, m = MPlay x y /\ on n (x, y)) \/ ms = [MPass]).
Proof.
  intros HG HS HP. pose proof (greach_inv _ _ _ _ _ HG) as G.
  destruct (legals_moves_ok dbg n b w g G (slot_left _ _ _ _ G HS) HP) as (ms & H). exists ms. exact H.
Qed.

Lemma push_many_stones dbg pts c : forall g, push_many dbg g pts c = foldM (fun g s => push_stone dbg g s) (List.map (fun p => (p, c)) pts) g.
Proof.
  unfold push_many. induction pts as [|p pts IH]; intros g; cbn [List.map foldM]; [reflexivity|].
  unfold push_stone at 1. cbn [fst snd]. destruct (push dbg g p c); cbn [bind]; [apply IH|reflexivity..].
Qed.

Lemma push_many_order dbg n g pts pts' c m : breach dbg n m g -> pts ≡ₚ pts' -> NoDup pts ->
  (forall p, p ∈ pts -> on n p /\ pos_of g p = None) -> (N.of_nat (m + length pts) <= 65535)%N ->
  exists a b,
    push_many dbg g pts c = Ok a /\ push_many dbg g pts' c = Ok b /\
    (forall p, on n p -> (p ∈ pts -> pos_of a p = Some c) /\ (p ∉ pts -> pos_of a p = pos_of g p)) /\
    goban_eq a b = Ok true /\ zobrist_hash a = zobrist_hash b /\ same_groups n a b.
Proof.
  intros HB HP Nd Hp Hm. rewrite !push_many_stones. set (f := fun p : coord => (p, c)).
  assert (Hel : forall p d, (p, d) ∈ List.map f pts <-> d = c /\ p ∈ pts).
  { intros p d. rewrite elem_of_list_In, in_map_iff. split.
    - intros (q & E & H). injection E as <- <-. split; [reflexivity|]. apply elem_of_list_In, H.
    - intros [-> H]. exists p. split; [reflexivity|]. apply elem_of_list_In, H. }
  destruct (push_order dbg n g (List.map f pts) (List.map f pts') m HB) as (a & b & Ea & Eb & H & R).
  - apply Permutation_map, HP.
  - replace ((List.map f pts).*1) with pts; [exact Nd|]. clear. induction pts as [|p l IH]; cbn; [reflexivity|]. f_equal. exact IH.
  - intros [p d] Hs. apply Hel in Hs as [-> Hs]. apply Hp, Hs.
  - rewrite map_length. exact Hm.
  - exists a, b. split; [exact Ea|]. split; [exact Eb|]. split; [|exact R]. intros p Ho. split; intros Hin.
    + apply (H p c Ho). left. apply Hel. auto.
    + destruct (pos_of a p) as [d|] eqn:E.
      * apply (H p d Ho) in E as [E|E]; [apply Hel in E as [_ E]; contradiction|congruence].
      * destruct (pos_of g p) as [d|] eqn:E'; [|reflexivity]. rewrite (proj2 (H p d Ho) (or_intror E')) in E. discriminate.
Qed.

Lemma case_push_many dbg : exists g m,
  breach dbg 9 m g /\ [(0, 0); (0, 1); (4, 4)] ≡ₚ [(4, 4); (0, 0); (0, 1)] /\ NoDup ([(0, 0); (0, 1); (4, 4)] : list coord) /\
  (forall p, p ∈ ([(0, 0); (0, 1); (4, 4)] : list coord) -> on 9 p /\ pos_of g p = None) /\
  (N.of_nat (m + 3) <= 65535)%N /\ pos_of g (1, 1) = Some Black.
Proof.
  destruct (case_push_order dbg) as (g & m & HB & _ & Nd & Hs & R). exists g, m. split; [exact HB|].
  split; [apply (Permutation_app_comm [(0, 0); (0, 1)] [(4, 4)])|]. split; [exact Nd|]. split; [|exact R].
  intros p Hp. rewrite !elem_of_cons, elem_of_nil in Hp. destruct Hp as [->|[->|[->|[]]]].
  - apply (Hs ((0, 0), Black)). left.
  - apply (Hs ((0, 1), White)). right. left.
  - apply (Hs ((4, 4), Black)). right. right. left.
Qed.
