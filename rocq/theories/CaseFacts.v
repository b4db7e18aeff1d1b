(** Concrete games, boards and records for the theorems of the property files. *)
From stdpp Require Import relations sorting strings.
From Verif Require Import Spec Observe Ops ScoreSpec DeadStones SymSpec SgfSpec.
From Verif Require Import Push Inv Remove Capture Bridge MonadFacts GameFacts RulesFacts BoardFacts LegalFacts ApiFacts ViewFacts BoundsFacts SymFacts SgfFacts ClaimFacts.
From Verif Require Export SampleFacts RefuteFacts.
From Coq Require Import Lia.

Local Notation length := Datatypes.length.
Open Scope nat_scope.

Definition ok_is (m : res bool) (v : bool) : bool := match m with Ok b => Bool.eqb b v | _ => false end.
Definition verdict_is (m : res (game * verdict)) (e : option play_error) : bool :=
  match m, e with
  | Ok (_, Accepted), None => true
  | Ok (_, Refused EKo), Some EKo => true
  | Ok (_, Refused ESuicide), Some ESuicide => true
  | Ok (_, Refused EGamePaused), Some EGamePaused => true
  | Ok (_, Refused EFillEye), Some EFillEye => true
  | Ok (_, Refused EPointNotEmpty), Some EPointNotEmpty => true
  | _, _ => false
  end.

Lemma ok_is_eq m v : ok_is m v = true -> m = Ok v.
Proof. destruct m as [b| |]; try discriminate. cbn. intros H. apply Bool.eqb_prop in H. congruence. Qed.

Lemma refused_is dbg g m e : verdict_is (try_play dbg g m) (Some e) = true -> try_play dbg g m = Ok (g, Refused e).
Proof.
  destruct (try_play dbg g m) as [[g' [|e']]| |] eqn:E; try discriminate. 
  pose proof (LegalsFacts.refused_unchanged _ _ _ _ _ E) as ->. destruct e, e'; cbn; intros; congruence.
Qed.

Lemma accepted_is dbg g m : verdict_is (try_play dbg g m) None = true -> exists g', try_play dbg g m = Ok (g', Accepted).
Proof. destruct (try_play dbg g m) as [[g' [|[]]]| |]; try discriminate. eauto. Qed.

Definition has (g : game) (p : coord) (c : option color) : bool := bool_decide (position g p = c).

Ltac on_ := split; cbn; lia.
Ltac bools F := repeat (apply andb_true_iff in F; let F' := fresh F in destruct F as [F F']).

Lemma few_stones dbg n b w g : greach dbg n b w g -> (N.of_nat (b + w) < 65535)%N -> ~ no_slot_left g.
Proof. intros HG L. pose proof (gi_chains _ _ _ _ (greach_inv _ _ _ _ _ HG)). unfold no_slot_left. lia. Qed.

Lemma plays_on dbg n b w g x y : greach dbg n b w g -> on n (x, y) -> position g (x, y) = None -> (N.of_nat (b + w) < 65535)%N -> play dbg g (MPlay x y) <> Panic.
Proof. intros HG Hp He L. destruct (claim_no_panic dbg n b w g x y HG Hp He L) as [[g' E] _]. rewrite E. discriminate. Qed.

(** eight stones; Black to move can capture (1,1) by playing on (1,2) *)
Lemma case_capture dbg : exists g b w,
  greach dbg 9 b w g /\ on 9 (1, 2) /\ position g (1, 2) = None /\ (N.of_nat (b + w) < 65535)%N /\ ~ no_slot_left g /\ play dbg g (MPlay 1 2) <> Panic /\
  position g (1, 1) = Some White /\ gm_turn g = Black /\ gm_passes g = 0 /\ captures 9 (position g) (1, 2) Black.
Proof.
  destruct (sampleb dbg 9 JAPANESE (removelast ko_moves) (fun g =>
     has g (1, 2) None && has g (1, 1) (Some White) && bool_decide (gm_turn g = Black) && bool_decide (gm_passes g = 0) &&
     ok_is (will_capture dbg g (1, 2)) true) ltac:(lia)) as (g & b & w & HG & L & F); [destruct dbg; vm_compute; reflexivity|].
  bools F. unfold has in *. apply bool_decide_eq_true in F, F3, F2, F1. apply ok_is_eq in F0. cbn in L.
  exists g, b, w. split; [exact HG|]. split; [on_|]. split; [exact F|]. assert (L' : (N.of_nat (b + w) < 65535)%N) by lia. split; [exact L'|].
  split; [exact (few_stones _ _ _ _ _ HG L')|]. split; [apply (plays_on dbg 9 b w g 1 2 HG); [on_|exact F|exact L']|].
  split; [exact F3|]. split; [exact F2|]. split; [exact F1|].
  destruct (claim_will_capture dbg 9 b w g (1, 2) HG ltac:(on_) F) as (v & Ev & Hv). rewrite F0 in Ev. injection Ev as <-. rewrite F2 in Hv. apply Hv. reflexivity.
Qed.

(** the same in a legal game, which goes on with the capture *)
Lemma case_legal dbg : exists g g',
  lreach dbg 9 g /\ on 9 (1, 2) /\ forbids_ko (gm_rule g) = true /\ forbids_suicide (gm_rule g) = true /\
  forbids_superko (gm_rule g) = false /\ forbids_fill_eye (gm_rule g) = false /\
  try_play dbg g (MPlay 1 2) = Ok (g', Accepted) /\ position g (1, 1) = Some White /\ position g' (1, 1) = None /\
  on 9 (1, 1) /\ try_play dbg g' (MPlay 1 1) = Ok (g', Refused EKo) /\
  on 9 (5, 5) /\ exists g'', try_play dbg g' (MPlay 5 5) = Ok (g'', Accepted).
Proof.
  destruct (legal_sampleb dbg 9 JAPANESE (removelast ko_moves) (fun g =>
     forbids_ko (gm_rule g) && forbids_suicide (gm_rule g) && negb (forbids_superko (gm_rule g)) && negb (forbids_fill_eye (gm_rule g)) && has g (1, 1) (Some White) &&
     match try_play dbg g (MPlay 1 2) with Ok (g', Accepted) => has g' (1, 1) None && verdict_is (try_play dbg g' (MPlay 1 1)) (Some EKo) && verdict_is (try_play dbg g' (MPlay 5 5)) None | _ => false end)
    ltac:(lia)) as (g & L & F); [destruct dbg; vm_compute; reflexivity|].
  bools F. destruct (try_play dbg g (MPlay 1 2)) as [[g' []]| |] eqn:E; try discriminate. bools F0.
  apply bool_decide_eq_true in F1, F0. apply refused_is in F6. apply accepted_is in F5. apply negb_true_iff in F3, F2. exists g, g'.
  repeat (split; [assumption || on_|]). assumption.
Qed.

(** a legal game under Chinese rules: the last move is banned although no ko is on the board *)
Definition superko_moves : list move := [MPlay 0 0; MPlay 0 1; MPlay 1 0; MPlay 1 1; MPass; MPlay 1 0].

Lemma case_superko dbg : exists g,
  lreach dbg 2 g /\ forbids_superko (gm_rule g) = true /\ forbids_suicide (gm_rule g) = true /\
  forbids_fill_eye (gm_rule g) = false /\ on 2 (0, 0) /\ 2 < length (gm_history g) /\
  gm_ko_point g = None /\ try_play dbg g (MPlay 0 0) = Ok (g, Refused EKo) /\ try_play dbg g (MPlay 0 0) <> Panic.
Proof.
  destruct (legal_sampleb dbg 2 CHINESE superko_moves (fun g =>
     forbids_superko (gm_rule g) && forbids_suicide (gm_rule g) && negb (forbids_fill_eye (gm_rule g)) && (2 <? length (gm_history g)) &&
     bool_decide (gm_ko_point g = None) && verdict_is (try_play dbg g (MPlay 0 0)) (Some EKo)) ltac:(lia)) as (g & L & F); [destruct dbg; vm_compute; reflexivity|].
  bools F. apply bool_decide_eq_true in F1. apply refused_is in F0. apply Nat.ltb_lt in F2. apply negb_true_iff in F3.
  exists g. repeat (split; [assumption || on_|]). congruence.
Qed.

(** a game with a capturing move accepted after three recorded positions *)
Lemma case_superko_accepts dbg : exists g g',
  lreach dbg 9 g /\ forbids_superko (gm_rule g) = true /\ on 9 (1, 2) /\
  try_play dbg g (MPlay 1 2) = Ok (g', Accepted) /\ 2 < length (gm_history g) /\
  captures 9 (position g) (1, 2) (gm_turn g).
Proof.
  destruct (legal_sampleb dbg 9 CHINESE (removelast ko_moves) (fun g =>
     forbids_superko (gm_rule g) && (2 <? length (gm_history g)) && has g (1, 2) None &&
     ok_is (will_capture dbg g (1, 2)) true && verdict_is (try_play dbg g (MPlay 1 2)) None) ltac:(lia)) as (g & L & F); [destruct dbg; vm_compute; reflexivity|].
  bools F. apply accepted_is in F0 as [g' E]. apply bool_decide_eq_true in F2. apply ok_is_eq in F1. apply Nat.ltb_lt in F3.
  exists g, g'. repeat (split; [assumption || on_|]).
  destruct (lreach_greach _ _ _ L) as (b & w & HG).
  destruct (claim_will_capture dbg 9 b w g (1, 2) HG ltac:(on_) F2) as (v & Ev & Hv). rewrite F1 in Ev. injection Ev as <-. apply Hv. reflexivity.
Qed.

(** a board with several chains, on which a capture took place *)
Lemma case_board dbg : exists m g,
  breach dbg 9 m g /\ on 9 (1, 2) /\ pos_of g (1, 2) = Some Black /\ pos_of g (1, 1) = None /\ pos_of g (2, 2) = Some White /\
  ~ connected 9 (pos_of g) (1, 2) (2, 2).
Proof.
  destruct (sampleb dbg 9 JAPANESE ko_moves (fun g => has g (1, 2) (Some Black) && has g (1, 1) None && has g (2, 2) (Some White)) ltac:(lia))
    as (g & b & w & HG & _ & F); [destruct dbg; vm_compute; reflexivity|].
  bools F. apply bool_decide_eq_true in F, F1, F0. exists (b + w), (gm_goban g). split; [apply br_game; exact HG|].
  repeat (split; [assumption || on_|]). intros H. apply Bridge.connected_same in H. unfold position in *. congruence.
Qed.

(** White to move in the corner that Black surrounds *)
Lemma case_suicide dbg : exists g b w,
  greach dbg 3 b w g /\ on 3 (0, 0) /\ position g (0, 0) = None /\ (N.of_nat (b + w) < 65535)%N /\ play dbg g (MPlay 0 0) <> Panic /\ gm_turn g = White /\
  suicidal 3 (position g) (0, 0) White /\ on 3 (2, 2) /\ position g (2, 2) = None /\ ~ suicidal 3 (position g) (2, 2) White.
Proof.
  destruct (sampleb dbg 3 JAPANESE corner_trap (fun g => has g (0, 0) None && has g (2, 2) None && bool_decide (gm_turn g = White) &&
     ok_is (check_suicide dbg g ((0, 0), White)) true && ok_is (check_suicide dbg g ((2, 2), White)) false) ltac:(lia)) as (g & b & w & HG & L & F);
    [destruct dbg; vm_compute; reflexivity|].
  bools F. apply bool_decide_eq_true in F, F3, F2. apply ok_is_eq in F1, F0. cbn in L. exists g, b, w. repeat (split; [assumption || on_ || lia|]).
  split; [apply (plays_on dbg 3 b w g 0 0 HG); [on_|exact F|lia]|]. split; [assumption|].
  destruct (claim_suicide dbg 3 b w g (0, 0) White HG ltac:(on_) F) as (v & Ev & Hv).
  destruct (claim_suicide dbg 3 b w g (2, 2) White HG ltac:(on_) F3) as (u & Eu & Hu).
  pose proof (eq_trans (eq_sym F1) Ev) as E1. pose proof (eq_trans (eq_sym F0) Eu) as E2. injection E1 as <-. injection E2 as <-.
  split; [apply Hv; reflexivity|]. split; [on_|]. split; [exact F3|]. intros H. apply Hu in H. discriminate.
Qed.

(** a game in which a stone was captured *)
Lemma case_caught dbg : exists g b w,
  greach dbg 3 b w g /\ gm_prisoners g = (1%N, 0%N) /\ b + w <= 3 /\ position g (0, 0) = None /\ position g (0, 1) = Some Black /\ on 3 (0, 1).
Proof.
  destruct (sample dbg 3 JAPANESE corner_moves (fun g => gm_prisoners g = (1%N, 0%N) /\ position g (0, 0) = None /\ position g (0, 1) = Some Black) ltac:(lia))
    as (g & b & w & HG & L & P1 & P2 & P3); [destruct dbg; vm_compute; reflexivity|].
  exists g, b, w. cbn in L. repeat (split; [assumption|]). on_.
Qed.

(** an eye that the rule forbids to fill *)
Definition NO_FILL : rule := mkRule (r_komi JAPANESE) FILLEYE (flag_score JAPANESE).

Lemma case_eye dbg : exists g b w,
  greach dbg 3 b w g /\ on 3 (0, 0) /\ check_eye dbg g ((0, 0), Black) = Ok true /\
  try_play dbg g (MPlay 0 0) = Ok (g, Refused EFillEye).
Proof.
  destruct (sampleb dbg 3 NO_FILL [MPlay 0 1; MPass; MPlay 1 0; MPass; MPlay 1 1; MPass]
     (fun g => ok_is (check_eye dbg g ((0, 0), Black)) true && verdict_is (try_play dbg g (MPlay 0 0)) (Some EFillEye)) ltac:(lia))
    as (g & b & w & HG & _ & F); [destruct dbg; vm_compute; reflexivity|].
  bools F. apply ok_is_eq in F. apply refused_is in F0. exists g, b, w. repeat (split; [assumption || on_|]). assumption.
Qed.

Global Instance event_eq_dec : EqDecision event.
Proof. solve_decision. Defined.
Global Instance f32_eq_dec : EqDecision f32.
Proof. intros x y. change (Decision ((x : spec_float) = y)). solve_decision. Defined.

(** a run with stones, a refused move, passes, a resumption and a resignation *)
Definition sample_ops : list op :=
  [OTry (MPlay 0 0); OTry (MPlay 0 0); OPlay (MPlay 1 1); OTry MPass; OTry MPass; OTry (MPlay 2 2); OResume; OKomi (S754_zero false); OTry (MResign White); OPlay MPass; OPlay MPass].
Definition sample_trace : list event :=
  [EvStone; EvStone; EvPass; EvPass; EvResume; EvResign White; EvPass; EvPass].

Lemma case_run dbg : exists g g',
  game_new (Custom 3 3) JAPANESE = Ok g /\ run dbg g sample_ops = Ok (g', sample_trace) /\
  forallb (fun o => negb (is_handicap o)) sample_ops = true.
Proof.
  destruct (game_new (Custom 3 3) JAPANESE) as [g| |] eqn:E; [|vm_compute in E; discriminate..].
  exists g. assert (K : match run dbg g sample_ops with Ok (_, tr) => bool_decide (tr = sample_trace) | _ => false end = true).
  { injection E as <-. destruct dbg; vm_compute; reflexivity. }
  destruct (run dbg g sample_ops) as [[g' tr]| |]; try discriminate. apply bool_decide_eq_true in K as ->. exists g'. auto.
Qed.

Lemma case_run_over dbg : exists g g',
  game_new (Custom 3 3) JAPANESE = Ok g /\
  run dbg g [OTry (MPlay 0 0); OTry MPass; OTry MPass; OTry (MPlay 1 1)] = Ok (g', [EvStone; EvPass; EvPass]) /\ is_over g' = true.
Proof.
  destruct (game_new (Custom 3 3) JAPANESE) as [g| |] eqn:E; [|vm_compute in E; discriminate..].
  exists g. assert (K : match run dbg g [OTry (MPlay 0 0); OTry MPass; OTry MPass; OTry (MPlay 1 1)] with Ok (h, tr) => bool_decide (tr = [EvStone; EvPass; EvPass]) && is_over h | _ => false end = true).
  { injection E as <-. destruct dbg; vm_compute; reflexivity. }
  destruct (run dbg g _) as [[g' tr]| |]; try discriminate. apply andb_true_iff in K as [K K']. apply bool_decide_eq_true in K as ->. exists g'. auto.
Qed.

(** a game paused after a capture *)
Lemma case_paused dbg : exists g b w,
  greach dbg 3 b w g /\ gm_passes g = 2 /\ gm_outcome g = None /\ is_f32 (komi g) /\ halves (komi g) 13 /\ (Z.abs 13 <= 200000)%Z /\
  (fst (gm_prisoners g) < 1000000)%N /\ (snd (gm_prisoners g) < 1000000)%N /\
  outcome (fun l => l) dbg g = Ok (Some (WinnerByScore Black (f32_make 3 (-1)))).
Proof.
  destruct (sampleb dbg 3 JAPANESE (corner_moves ++ [MPass; MPass]) (fun g => bool_decide (gm_passes g = 2) &&
    bool_decide (komi g = f32_make 13 (-1)) && bool_decide (gm_prisoners g = (1%N, 0%N)) && match gm_outcome g with None => true | _ => false end &&
    match outcome (fun l => l) dbg g with Ok (Some (WinnerByScore Black m)) => bool_decide (m = f32_make 3 (-1)) | _ => false end) ltac:(lia)) as (g & b & w & HG & _ & F).
  { destruct dbg; vm_compute; reflexivity. }
  bools F. apply bool_decide_eq_true in F, F3, F2. exists g, b, w. split; [exact HG|]. split; [exact F|].
  split; [destruct (gm_outcome g); congruence|]. rewrite F3, F2. repeat (split; [vm_compute; reflexivity || discriminate|]).
  destruct (outcome _ dbg g) as [[[[] m| | | |]|]| |]; try discriminate. apply bool_decide_eq_true in F0 as ->. reflexivity.
Qed.

(** the same four stones in another order; White passes in between *)
Definition order_a : list move := [MPlay 2 2; MPlay 3 3; MPlay 2 3; MPlay 3 2].
Definition order_c : list move := [MPlay 3 2; MPlay 2 3; MPlay 3 3; MPlay 2 2].

(** the position that shows a list of stones *)
Definition stones_at (l : list stone) : pos :=
  fun p => match List.find (fun s => coord_eqb (fst s) p) l with Some s => Some (snd s) | None => None end.

Lemma shown n (f f' : pos) p : List.map f (points n) = List.map f' (points n) -> on n p -> f p = f' p.
Proof.
  intros H Hp. apply elem_of_points in Hp. revert H Hp. generalize (points n). induction l as [|q l IH]; intros H Hp; [inversion Hp|].
  cbn in H. apply elem_of_cons in Hp as [->|Hp]; [congruence|]. apply IH; [congruence|exact Hp].
Qed.

Lemma sample_position dbg n r ms l (f : game -> bool) : 1 <= n < 256 ->
  sat (played dbg n r ms) (fun g => bool_decide (List.map (position g) (points n) = List.map (stones_at l) (points n)) && f g) = true ->
  exists g b w, greach dbg n b w g /\ b + w <= length ms /\ f g = true /\ forall p, on n p -> pos_of (gm_goban g) p = stones_at l p.
Proof.
  intros Hn H. destruct (sampleb dbg n r ms _ Hn H) as (g & b & w & HG & L & F). apply andb_true_iff in F as [F F'].
  apply bool_decide_eq_true in F. exists g, b, w. split; [exact HG|]. split; [exact L|]. split; [exact F'|]. intros p Hp. exact (shown n _ _ p F Hp).
Qed.

Definition four : list stone := [((2, 2), Black); ((2, 3), Black); ((3, 2), White); ((3, 3), White)].

Lemma case_orders : exists m m' a b,
  breach true 9 m a /\ breach false 9 m' b /\ same_pos 9 (pos_of a) (pos_of b) /\ pos_of a (2, 2) = Some Black /\
  group_no a (3, 3) = Some 1 /\ group_no b (3, 3) = Some 0.
Proof.
  destruct (sample_position true 9 JAPANESE order_a four (fun g => bool_decide (group_no (gm_goban g) (3, 3) = Some 1)) ltac:(lia)) as (g & b & w & HG & _ & F & P); [vm_compute; reflexivity|].
  destruct (sample_position false 9 JAPANESE (MPass :: order_c) four (fun g => bool_decide (group_no (gm_goban g) (3, 3) = Some 0)) ltac:(lia)) as (g' & b' & w' & HG' & _ & F' & P'); [vm_compute; reflexivity|].
  apply bool_decide_eq_true in F, F'. exists (b + w), (b' + w'), (gm_goban g), (gm_goban g'). split; [apply br_game; exact HG|]. split; [apply br_game; exact HG'|].
  split; [intros p Hp; rewrite P, P' by exact Hp; reflexivity|]. split; [rewrite P by on_; reflexivity|]. auto.
Qed.

(** one more stone, and one stone elsewhere *)
Lemma case_push_order dbg : exists g m,
  breach dbg 9 m g /\ [((0, 0), Black); ((0, 1), White); ((4, 4), Black)] ≡ₚ [((4, 4), Black); ((0, 0), Black); ((0, 1), White)] /\
  NoDup ([((0, 0), Black); ((0, 1), White); ((4, 4), Black)] : list stone).*1 /\
  (forall s, s ∈ ([((0, 0), Black); ((0, 1), White); ((4, 4), Black)] : list stone) -> on 9 (fst s) /\ pos_of g (fst s) = None) /\
  (N.of_nat (m + 3) <= 65535)%N /\ pos_of g (1, 1) = Some Black.
Proof.
  destruct (sample dbg 9 JAPANESE [MPlay 1 1; MPlay 2 2] (fun g => position g (0, 0) = None /\ position g (0, 1) = None /\ position g (4, 4) = None /\ position g (1, 1) = Some Black) ltac:(lia))
    as (g & b & w & HG & L & P1 & P2 & P3 & P4); [destruct dbg; vm_compute; reflexivity|].
  exists (gm_goban g), (b + w). split; [apply br_game; exact HG|]. split; [apply (Permutation_app_comm [((0, 0), Black); ((0, 1), White)] [((4, 4), Black)])|].
  split; [vm_compute; repeat constructor; rewrite ?elem_of_cons, ?elem_of_nil; intuition congruence|]. split.
  { intros s Hs. rewrite !elem_of_cons, elem_of_nil in Hs. destruct Hs as [->|[->|[->|[]]]]; (split; [on_|assumption]). }
  cbn in L. split; [lia|exact P4].
Qed.

(** a live group of several stones with neighbours *)
Lemma case_group dbg : exists m g k grp,
  breach dbg 9 m g /\ chains g !! k = Some (Some grp) /\ g_num_stones grp = 2 /\ group_no g (2, 2) = Some k /\ group_no g (2, 3) = Some k /\
  pos_of g (3, 3) = Some White.
Proof.
  destruct (sampleb dbg 9 JAPANESE order_a (fun g => has g (3, 3) (Some White) && bool_decide (group_no (gm_goban g) (2, 2) = Some 0) && bool_decide (group_no (gm_goban g) (2, 3) = Some 0) &&
    match chains (gm_goban g) !! 0 with Some (Some grp) => g_num_stones grp =? 2 | _ => false end) ltac:(lia)) as (g & b & w & HG & _ & F); [destruct dbg; vm_compute; reflexivity|].
  bools F. apply bool_decide_eq_true in F, F2, F1. destruct (chains (gm_goban g) !! 0) as [[grp|]|] eqn:E; try discriminate. apply Nat.eqb_eq in F0.
  exists (b + w), (gm_goban g), 0, grp. split; [apply br_game; exact HG|]. repeat (split; [assumption|]). assumption.
Qed.

(** two boards that differ in one point, and two that differ by a moved stone *)
Lemma case_one dbg : exists m m' a b,
  breach dbg 9 m a /\ breach dbg 9 m' b /\ on 9 (4, 4) /\ pos_of a (4, 4) <> pos_of b (4, 4) /\
  (forall q, on 9 q -> q <> (4, 4) -> pos_of a q = pos_of b q) /\ pos_of a (1, 1) = Some Black.
Proof.
  destruct (sample_position dbg 9 JAPANESE [MPlay 1 1; MPlay 2 2; MPlay 4 4] [((1, 1), Black); ((2, 2), White); ((4, 4), Black)] (fun _ => true) ltac:(lia)) as (g & b & w & HG & _ & _ & P); [destruct dbg; vm_compute; reflexivity|].
  destruct (sample_position dbg 9 JAPANESE [MPlay 1 1; MPlay 2 2] [((1, 1), Black); ((2, 2), White)] (fun _ => true) ltac:(lia)) as (g' & b' & w' & HG' & _ & _ & P'); [destruct dbg; vm_compute; reflexivity|].
  exists (b + w), (b' + w'), (gm_goban g), (gm_goban g'). split; [apply br_game; exact HG|]. split; [apply br_game; exact HG'|]. split; [on_|].
  split; [rewrite P, P' by on_; discriminate|]. split; [|rewrite P by on_; reflexivity].
  intros q Hq Hne. rewrite P, P' by exact Hq. unfold stones_at. cbn [List.find fst]. destruct (coord_eqb (1, 1) q); [reflexivity|]. destruct (coord_eqb (2, 2) q); [reflexivity|].
  destruct (coord_eqb (4, 4) q) eqn:E; [|reflexivity]. exfalso. apply Hne. symmetry. apply coord_eqb_eq. exact E.
Qed.

Lemma case_moved dbg : exists m m' a b,
  breach dbg 9 m a /\ breach dbg 9 m' b /\ on 9 (4, 4) /\ on 9 (5, 5) /\ (4, 4) <> (5, 5) /\
  pos_of a (4, 4) = Some Black /\ pos_of b (4, 4) = None /\ pos_of a (5, 5) = None /\ pos_of b (5, 5) = Some Black /\
  (forall q, on 9 q -> q <> (4, 4) -> q <> (5, 5) -> pos_of a q = pos_of b q) /\ pos_of a (2, 2) = Some White.
Proof.
  destruct (sample_position dbg 9 JAPANESE [MPlay 1 1; MPlay 2 2; MPlay 4 4] [((1, 1), Black); ((2, 2), White); ((4, 4), Black)] (fun _ => true) ltac:(lia)) as (g & b & w & HG & _ & _ & P); [destruct dbg; vm_compute; reflexivity|].
  destruct (sample_position dbg 9 JAPANESE [MPlay 1 1; MPlay 2 2; MPlay 5 5] [((1, 1), Black); ((2, 2), White); ((5, 5), Black)] (fun _ => true) ltac:(lia)) as (g' & b' & w' & HG' & _ & _ & P'); [destruct dbg; vm_compute; reflexivity|].
  exists (b + w), (b' + w'), (gm_goban g), (gm_goban g'). split; [apply br_game; exact HG|]. split; [apply br_game; exact HG'|]. split; [on_|]. split; [on_|]. split; [discriminate|].
  do 4 (split; [rewrite ?P, ?P' by on_; reflexivity|]). split; [|rewrite P by on_; reflexivity].
  intros q Hq Hne Hne'. rewrite P, P' by exact Hq. unfold stones_at. cbn [List.find fst]. destruct (coord_eqb (1, 1) q); [reflexivity|]. destruct (coord_eqb (2, 2) q); [reflexivity|].
  destruct (coord_eqb (4, 4) q) eqn:E; [exfalso; apply Hne; symmetry; apply coord_eqb_eq; exact E|].
  destruct (coord_eqb (5, 5) q) eqn:E'; [exfalso; apply Hne'; symmetry; apply coord_eqb_eq; exact E'|]. reflexivity.
Qed.

(** ** Views that do not show what they promise *)

Lemma vec_refuted : exists g b w l, greach true 16 b w g /\ pseudo_legals g = Ok l /\ pseudo_legals_vec true g = Panic.
Proof.
  destruct (sampleb true 16 JAPANESE [MPlay 0 0] (fun g => match pseudo_legals g, pseudo_legals_vec true g with Ok _, Panic => true | _, _ => false end) ltac:(lia))
    as (g & b & w & HG & _ & F); [vm_compute; reflexivity|].
  destruct (pseudo_legals g) as [l| |] eqn:E; try discriminate. destruct (pseudo_legals_vec true g) eqn:E'; try discriminate. exists g, b, w, l. auto.
Qed.

Lemma empty_idx_refuted dbg : exists m g,
  breach dbg 3 m g /\ pos_of g (1, 1) = Some Black /\ pos_of g (0, 0) = None /\ get_empty_idx g = [index 3 (1, 1)].
Proof.
  destruct (sample dbg 3 JAPANESE [MPlay 1 1] (fun g => position g (1, 1) = Some Black /\ position g (0, 0) = None /\ get_empty_idx (gm_goban g) = [4]) ltac:(lia))
    as (g & b & w & HG & _ & F1 & F2 & F3); [destruct dbg; vm_compute; reflexivity|].
  exists (b + w), (gm_goban g). split; [apply br_game; exact HG|]. auto.
Qed.

Lemma by_color_refuted : exists m g m' g',
  breach true 16 m g /\ get_coords_by_color true g (Some Black) = Panic /\
  breach false 16 m' g' /\ pos_of g' (1, 1) = Some Black /\ get_coords_by_color false g' (Some Black) = Ok [].
Proof.
  destruct (sampleb true 16 JAPANESE [MPlay 1 1] (fun g => match get_coords_by_color true (gm_goban g) (Some Black) with Panic => true | _ => false end) ltac:(lia))
    as (g & b & w & HG & _ & F); [vm_compute; reflexivity|].
  destruct (sampleb false 16 JAPANESE [MPlay 1 1] (fun g => has g (1, 1) (Some Black) && match get_coords_by_color false (gm_goban g) (Some Black) with Ok [] => true | _ => false end) ltac:(lia))
    as (g' & b' & w' & HG' & _ & F'); [vm_compute; reflexivity|].
  bools F'. apply bool_decide_eq_true in F'. exists (b + w), (gm_goban g), (b' + w'), (gm_goban g').
  split; [apply br_game; exact HG|]. split; [destruct (get_coords_by_color true _ _); congruence|]. split; [apply br_game; exact HG'|]. split; [exact F'|].
  destruct (get_coords_by_color false _ _) as [[|]| |]; congruence.
Qed.

Lemma by_empty_refuted dbg : exists m g l,
  breach dbg 3 m g /\ pos_of g (1, 1) = Some Black /\ get_coords_by_color dbg g None = Ok l /\ (1, 1) ∈ l.
Proof.
  destruct (sampleb dbg 3 JAPANESE [MPlay 1 1] (fun g => has g (1, 1) (Some Black) && match get_coords_by_color dbg (gm_goban g) None with Ok l => bool_decide ((1, 1) ∈ l) | _ => false end) ltac:(lia))
    as (g & b & w & HG & _ & F); [destruct dbg; vm_compute; reflexivity|].
  bools F. apply bool_decide_eq_true in F. destruct (get_coords_by_color dbg (gm_goban g) None) as [l| |] eqn:E; try discriminate. apply bool_decide_eq_true in F0.
  exists (b + w), (gm_goban g), l. split; [apply br_game; exact HG|]. auto.
Qed.

Lemma round_trip_refuted dbg : exists m g v b,
  breach dbg 9 m g /\ to_vec g = Ok v /\ goban_from dbg v = Ok b /\ goban_eq b g = Ok false.
Proof.
  destruct (sampleb dbg 9 JAPANESE [MPlay 1 1] (fun _ => true) ltac:(lia)) as (g & b & w & HG & _ & _); [destruct dbg; vm_compute; reflexivity|].
  pose proof (br_game _ _ _ _ _ HG) as HB. destruct (round_trip dbg 9 _ (breach_wf _ _ _ _ HB)) as (v & x & E1 & E2 & _ & E3).
  exists (b + w), (gm_goban g), v, x. auto.
Qed.

Lemma matrix_refuted dbg : exists m g r, breach dbg 9 m g /\ matrix g = Ok r /\ length r = 40.
Proof.
  destruct (sampleb dbg 9 JAPANESE [MPlay 1 1] (fun g => match matrix (gm_goban g) with Ok r => length r =? 40 | _ => false end) ltac:(lia)) as (g & b & w & HG & _ & F); [destruct dbg; vm_compute; reflexivity|].
  destruct (matrix (gm_goban g)) as [r| |] eqn:E; try discriminate. apply Nat.eqb_eq in F. exists (b + w), (gm_goban g), r. split; [apply br_game; exact HG|auto].
Qed.

Lemma size_refuted r : exists g, game_new (Custom 265 9) r = Ok g /\ gsize (gm_goban g) = (9, 9).
Proof.
  assert (H : (265 mod 256 <= 19)%N /\ (9 mod 256 <= 19)%N) by (split; vm_compute; discriminate).
  destruct (proj1 (size_exact 265 9 r) H) as (g & E & S). exists g. split; [exact E|]. rewrite S. reflexivity.
Qed.

(** ** SGF records *)

(** two black moves in a row; the second stone comes out white *)
Definition two_blacks : list sgf_node :=
  [[TGame true; TSize 9 9; TRule SJapanese]; [TMove Black (SMove 3 4)]; [TMove Black (SMove 5 5)]].

Lemma colour_refuted dbg : exists g, from_sgf_nodes dbg two_blacks = Ok g /\
  supported dbg [TGame true; TSize 9 9; TRule SJapanese] [[TMove Black (SMove 3 4)]; [TMove Black (SMove 5 5)]] /\
  position g (3, 2) = Some Black /\ position g (4, 4) = Some White.
Proof.
  assert (K : match from_sgf_nodes dbg two_blacks with Ok g => has g (3, 2) (Some Black) && has g (4, 4) (Some White) | _ => false end = true) by (destruct dbg; vm_compute; reflexivity).
  destruct (from_sgf_nodes dbg two_blacks) as [g| |]; try discriminate. bools K. apply bool_decide_eq_true in K, K0. exists g. split; [reflexivity|]. split; [|auto]. split.
  - intros t Ht. rewrite !elem_of_cons, elem_of_nil in Ht. destruct Ht as [->|[->|[->|[]]]]; cbn; auto; try discriminate.
  - intros node c a Hn Hf. rewrite !elem_of_cons, elem_of_nil in Hn. destruct Hn as [->|[->|[]]]; injection Hf as <- <-; cbn; lia.
Qed.

(** only the first property of a node is read: the move after a comment is lost *)
Lemma later_token_refuted dbg : exists g,
  from_sgf_nodes dbg [[TGame true; TSize 9 9]; [TOther; TMove Black (SMove 3 4)]] = Ok g /\
  node_moves [TOther; TMove Black (SMove 3 4)] = [(Black, SMove 3 4)] /\ position g (3, 2) = None.
Proof.
  assert (K : match from_sgf_nodes dbg [[TGame true; TSize 9 9]; [TOther; TMove Black (SMove 3 4)]] with Ok g => has g (3, 2) None | _ => false end = true) by (destruct dbg; vm_compute; reflexivity).
  destruct (from_sgf_nodes dbg _) as [g| |]; try discriminate. apply bool_decide_eq_true in K. exists g. auto.
Qed.

Lemma sgf_panics dbg :
  from_sgf_nodes dbg [[TRule SOtherRule]] = Panic /\ from_sgf_nodes dbg [[TGame false]] = Panic /\
  from_sgf_nodes dbg [[TUnknown "PL" "Black"]] = Panic.
Proof. destruct dbg; vm_compute; auto. Qed.

(** a supported record with alternating colours *)
Definition sample_root : sgf_node := [TGame true; TSize 9 9; TRule SJapanese; THandicap 2; TAdd Black 3 3; TAdd Black 7 7].
Definition sample_rest : list sgf_node := [[TMove White (SMove 5 5)]; [TOther]; [TMove Black (SMove 1 9)]].

Lemma case_sgf dbg : exists g,
  supported dbg sample_root sample_rest /\ alternate (first_player sample_root) (List.map fst (omap first_move sample_rest)) /\
  first_player sample_root = White /\
  from_sgf_nodes dbg (sample_root :: sample_rest) = Ok g /\ position g (4, 4) = Some White /\ position g (8, 0) = Some Black /\ position g (2, 2) = Some Black.
Proof.
  assert (K : match from_sgf_nodes dbg (sample_root :: sample_rest) with Ok g => has g (4, 4) (Some White) && has g (8, 0) (Some Black) && has g (2, 2) (Some Black) | _ => false end = true) by (destruct dbg; vm_compute; reflexivity).
  destruct (from_sgf_nodes dbg _) as [g| |]; try discriminate. bools K. apply bool_decide_eq_true in K, K0, K1. exists g. split; [|split; [cbn; auto|auto]]. split.
  - intros t Ht. unfold sample_root in Ht. rewrite !elem_of_cons, elem_of_nil in Ht. destruct Ht as [->|[->|[->|[->|[->|[->|[]]]]]]]; cbn; auto; try discriminate; lia.
  - intros node c a Hn Hf. unfold sample_rest in Hn. rewrite !elem_of_cons, elem_of_nil in Hn. destruct Hn as [->|[->|[->|[]]]]; cbn in Hf; try discriminate; injection Hf as <- <-; cbn; lia.
Qed.

(** ** The builder, handicap, history *)

Definition sample_builder : builder :=
  mkBuilder (9, 9) JAPANESE (Some (f32_make 1 (-1))) None [(2, 2); (6, 6)] None [MPlay 4 4; MPlay 0 1] None [((0, 0), White)].

Lemma case_build : 1 <= 9 <= 19 /\ b_size sample_builder = (9, 9) /\ NoDup (setup_stones sample_builder).*1 /\
  (forall s, s ∈ setup_stones sample_builder -> on 9 (fst s)) /\ (N.of_nat (length (setup_stones sample_builder)) <= 65535)%N.
Proof.
  split; [lia|]. split; [reflexivity|]. split; [vm_compute; repeat constructor; rewrite ?elem_of_cons, ?elem_of_nil; intuition congruence|]. split; [|vm_compute; discriminate].
  intros s Hs. cbn in Hs. rewrite !elem_of_cons, elem_of_nil in Hs. destruct Hs as [->|[->|[->|[]]]]; on_.
Qed.

Lemma case_handicap dbg : exists g b w,
  greach dbg 9 b w g /\ NoDup [(2, 2); (6, 6)] /\ (forall p, p ∈ [(2, 2); (6, 6)] -> on 9 p /\ position g p = None) /\
  (N.of_nat (b + w + length [(2, 2); (6, 6)]) <= 65535)%N /\ position g (4, 4) = Some Black.
Proof.
  destruct (sample dbg 9 JAPANESE [MPlay 4 4] (fun g => position g (2, 2) = None /\ position g (6, 6) = None /\ position g (4, 4) = Some Black) ltac:(lia))
    as (g & b & w & HG & L & F1 & F2 & F3); [destruct dbg; vm_compute; reflexivity|].
  exists g, b, w. split; [exact HG|]. split; [repeat constructor; rewrite ?elem_of_cons, ?elem_of_nil; intuition congruence|]. split.
  { intros p Hp. rewrite !elem_of_cons, elem_of_nil in Hp. destruct Hp as [->|[->|[]]]; (split; [on_|assumption]). }
  cbn in *. split; [lia|exact F3].
Qed.

Lemma plays_recorded dbg n ms : forall g l g', recorded dbg n l g -> plays dbg n g ms = Some g' ->
  exists l', recorded dbg n (l ++ l') g' /\ length l' = length (List.filter (fun m => match m with MPlay _ _ => true | _ => false end) ms).
Proof.
  induction ms as [|m ms IH]; intros g l g' HR E; cbn [plays] in E.
  { injection E as <-. exists []. rewrite app_nil_r. auto. }
  destruct m as [|c|x y].
  - destruct (play dbg g MPass) as [g1| |] eqn:EP; [|discriminate..]. destruct (IH _ _ _ (rec_pass _ _ _ _ _ HR EP) E) as (l' & H & Hl). eauto.
  - destruct (play dbg g (MResign c)) as [g1| |] eqn:EP; [|discriminate..]. destruct (IH _ _ _ (rec_resign _ _ _ _ _ _ HR EP) E) as (l' & H & Hl). eauto.
  - destruct (free n g (x, y)) eqn:EF; [|discriminate]. destruct (play dbg g (MPlay x y)) as [g1| |] eqn:EP; [|discriminate..].
    apply free_spec in EF as [On Fr]. destruct (IH _ _ _ (rec_stone _ _ _ _ _ _ _ HR On Fr EP) E) as (l' & H & Hl).
    exists (gm_goban g :: l'). rewrite <- app_assoc in H. split; [exact H|]. cbn. rewrite Hl. reflexivity.
Qed.

(** eight stone moves on the 2 x 2 board; one position occurs twice *)
Lemma case_recorded dbg : exists l g, recorded dbg 2 l g /\ length l = 8 /\ length (gm_history g) = 7.
Proof.
  assert (K : sat (played dbg 2 FREE (repeat_moves ++ [MPlay 0 0; MPlay 0 1])) (fun g => length (gm_history g) =? 7) = true) by (destruct dbg; vm_compute; reflexivity).
  unfold played in K. destruct (game_new _ _) as [g0| |] eqn:E0; try discriminate. destruct (plays _ _ _ _) as [g|] eqn:E; try discriminate. cbn [sat] in K. apply Nat.eqb_eq in K.
  assert (H0 : recorded dbg 2 [] g0) by (eapply rec_new; [lia|apply (custom_size 2); lia|exact E0]).
  destruct (plays_recorded _ _ _ _ _ _ H0 E) as (l & HR & Hl). exists l, g. auto.
Qed.

(** ** Symmetry: a fresh game, and one in which White begins, a quarter turn apart *)

Definition white_begins : builder := mkBuilder (9, 9) JAPANESE None None [] (Some White) [] None [].

Lemma case_image dbg dbg' : exists g h,
  board_sym 9 (square_symmetry 9 5) (square_symmetry 9 6) opp /\
  greach dbg 9 0 0 g /\ greach dbg' 9 0 0 h /\
  image_game 9 (square_symmetry 9 5) opp g h /\ image_history 9 (square_symmetry 9 5) opp g h /\ image_caught opp g h /\
  (forall x y, MPlay x y ∈ ko_moves -> on 9 (x, y)) /\ (N.of_nat (0 + 0 + length ko_moves) <= 65535)%N /\
  forbids_fill_eye (gm_rule g) = false /\ gm_turn g = Black /\ gm_turn h = White /\ gm_passes g = 0.
Proof.
  destruct (game_new (Custom 9 9) JAPANESE) as [g| |] eqn:E; [|vm_compute in E; discriminate..].
  destruct (build_inner dbg' white_begins) as [h| |] eqn:E'; [|vm_compute in E'; discriminate..].
  assert (HG : greach dbg 9 0 0 g) by (eapply gr_new; [lia|apply (custom_size 9); lia|exact E]).
  assert (HH : greach dbg' 9 0 0 h).
  { apply (gr_build dbg' 9 white_begins h); [lia|reflexivity|reflexivity|constructor|intros s Hs; inversion Hs|exact E']. }
  injection E as <-. vm_compute in E'. injection E' as <-.
  eexists _, _. split; [apply (square_ok 9 5 opp); [lia|apply opp_invol]|]. split; [exact HG|]. split; [exact HH|]. split.
  { split; try reflexivity. intros p Hp. unfold position.
    assert (Hs : on 9 (square_symmetry 9 5 p)) by (apply (sy_on _ _ _ _ (square_ok 9 5 opp ltac:(lia) opp_invol)); exact Hp).
    assert (Z : forall q, on 9 q -> forall b, (board b : list (option nat)) = replicate 361 None -> gsize b = (9, 9) -> pos_of b q = None).
    { intros q Hq b Hb Hz. unfold pos_of, get_color, get_color_idx. rewrite Hz, Hb. unfold vget. destruct (replicate 361 None !! _) eqn:Er; [|reflexivity]. apply lookup_replicate in Er as [-> _]. reflexivity. }
    rewrite !Z; auto. }
  split; [constructor|]. split; [intros []; reflexivity|]. split.
  { intros x y H. unfold ko_moves in H. rewrite !elem_of_cons, elem_of_nil in H. repeat (destruct H as [H|H]; [injection H as -> ->; on_|]). contradiction. }
  split; [vm_compute; discriminate|]. repeat split.
Qed.

(** ** Eyes for [get_floating_stones]: one black wall with three eyes *)

Lemma case_floating dbg : exists g b w, greach dbg 7 b w g /\ get_floating_stones dbg g = Ok [0] /\ length (all_chains (gm_goban g)) = 1.
Proof.
  destruct (sampleb dbg 7 JAPANESE (flat_map (fun p : coord => [MPlay (fst p) (snd p); MPass]) [(1, 0); (1, 1); (0, 1); (1, 2); (1, 3); (0, 3); (1, 4); (1, 5); (0, 5); (1, 6)])
    (fun g => match get_floating_stones dbg g with Ok [0] => length (all_chains (gm_goban g)) =? 1 | _ => false end) ltac:(lia)) as (g & b & w & HG & _ & F); [destruct dbg; vm_compute; reflexivity|].
  destruct (get_floating_stones dbg g) as [[|[|] [|]]| |] eqn:E; try discriminate. apply Nat.eqb_eq in F. exists g, b, w. auto.
Qed.

Lemma case_bits : exists l l', bits_ok EMPTY_LIBERTIES /\ lib_set true 0 EMPTY_LIBERTIES = Ok l /\ lib_set true 360 l = Ok l' /\ bits_ok l' /\
  lib_iter_ones l' = Ok [0; 360].
Proof.
  eexists _, _. split; [apply BitsetFacts.bits_ok_empty|]. split; [vm_compute; reflexivity|]. split; [vm_compute; reflexivity|]. split; [|vm_compute; reflexivity].
  split; [reflexivity|]. repeat constructor.
Qed.

Lemma case_point : 1 <= 9 <= 19 /\ on 9 (3, 8) /\ on 9 (4, 8) /\ adj (3, 8) (4, 8).
Proof. split; [lia|]. split; [on_|]. split; [on_|]. right. cbn. lia. Qed.

Lemma case_from : 1 <= 2 <= 19 /\ length [Some Black; None; None; Some White] = 2 * 2.
Proof. split; [lia|reflexivity]. Qed.

Lemma case_rect : 2 <= 4 /\ 4 < 5 /\ 4 < 9 /\ (exists g, goban_new (4, 5) = Ok g) /\ (exists g, goban_new (4, 9) = Ok g).
Proof. split; [lia|]. split; [lia|]. split; [lia|]. split; eexists; reflexivity. Qed.

Lemma case_far dbg : exists g b w, greach dbg 9 b w g /\ 361 <= 40 * 9 + 1 /\ 0 * 9 + 9 = 1 * 9 + 0 /\ ~ on 9 (0, 9) /\ gm_passes g <> 2 /\ position g (4, 4) = Some Black.
Proof.
  destruct (sample dbg 9 JAPANESE [MPlay 4 4] (fun g => gm_passes g = 0 /\ position g (4, 4) = Some Black) ltac:(lia)) as (g & b & w & HG & _ & F1 & F2); [destruct dbg; vm_compute; reflexivity|].
  exists g, b, w. split; [exact HG|]. split; [lia|]. split; [lia|]. split; [intros [_ H]; cbn in H; lia|]. split; [lia|exact F2].
Qed.

Lemma case_unsupported dbg : ~ supported dbg [TSize 9 9; TRule SOtherRule] [[TMove Black (SMove 3 4)]].
Proof. intros [H _]. specialize (H (TRule SOtherRule)). cbn in H. apply H; [|done]. right. left. Qed.

Lemma case_after_pass dbg : exists g0 g,
  lreach dbg 9 g0 /\ forbids_suicide (gm_rule g0) = true /\ forbids_superko (gm_rule g0) = false /\ forbids_fill_eye (gm_rule g0) = false /\
  gm_ko_point g0 = Some (1, 1) /\ try_play dbg g0 (MPlay 1 1) = Ok (g0, Refused EKo) /\ gm_passes g0 = 0 /\
  try_play dbg g0 MPass = Ok (g, Accepted) /\ on 9 (1, 1) /\ try_play dbg g (MPlay 1 1) <> Panic.
Proof.
  destruct (legal_sampleb dbg 9 JAPANESE ko_moves (fun g =>
     forbids_suicide (gm_rule g) && negb (forbids_superko (gm_rule g)) && negb (forbids_fill_eye (gm_rule g)) &&
     bool_decide (gm_ko_point g = Some (1, 1)) && verdict_is (try_play dbg g (MPlay 1 1)) (Some EKo) && bool_decide (gm_passes g = 0) &&
     match try_play dbg g MPass with Ok (g', Accepted) => verdict_is (try_play dbg g' (MPlay 1 1)) None | _ => false end)
    ltac:(lia)) as (g & L & F); [destruct dbg; vm_compute; reflexivity|].
  bools F. destruct (try_play dbg g MPass) as [[g' []]| |] eqn:E; try discriminate.
  repeat match goal with H : bool_decide _ = true |- _ => apply bool_decide_eq_true in H | H : negb _ = true |- _ => apply negb_true_iff in H
    | H : verdict_is _ (Some _) = true |- _ => apply refused_is in H | H : verdict_is _ None = true |- _ => apply accepted_is in H end.
  exists g, g'. repeat (split; [assumption || on_|]).
  match goal with H : exists _, _ |- _ => destruct H as [? H]; rewrite H end. discriminate.
Qed.

(** the same stones put in two orders *)
Definition set_up (l : list stone) : builder := mkBuilder (9, 9) JAPANESE None None [] None [] None l.

Lemma case_alike dbg dbg' : exists g h b w b' w',
  greach dbg 9 b w g /\ greach dbg' 9 b' w' h /\ look_alike 9 g h /\
  (forall x y, MPlay x y ∈ [MPlay 1 1; MPass; MPlay 5 5] -> on 9 (x, y)) /\
  (N.of_nat (b + w + 3) <= 65535)%N /\ (N.of_nat (b' + w' + 3) <= 65535)%N /\
  group_no (gm_goban g) (3, 3) = Some 1 /\ group_no (gm_goban h) (3, 3) = Some 0.
Proof.
  destruct (build_inner dbg (set_up four)) as [g| |] eqn:E; [|destruct dbg; vm_compute in E; discriminate..].
  destruct (build_inner dbg' (set_up (rev four))) as [h| |] eqn:E'; [|destruct dbg'; vm_compute in E'; discriminate..].
  assert (Nd : NoDup four.*1) by (vm_compute; repeat constructor; rewrite ?elem_of_cons, ?elem_of_nil; intuition congruence).
  assert (On : forall s, s ∈ four -> on 9 (fst s)).
  { intros s Hs. unfold four in Hs. rewrite !elem_of_cons, elem_of_nil in Hs. destruct Hs as [->|[->|[->|[->|[]]]]]; on_. }
  exists g, h, 2, 2, 2, 2.
  split; [apply (gr_build dbg 9 (set_up four) g); [lia|reflexivity|reflexivity|exact Nd|exact On|exact E]|].
  split; [apply (gr_build dbg' 9 (set_up (rev four)) h); [lia|reflexivity|reflexivity| |..|exact E']|].
  { vm_compute; repeat constructor; rewrite ?elem_of_cons, ?elem_of_nil; intuition congruence. }
  { intros s Hs. apply On. unfold setup_stones in Hs. cbn [b_handicap_points b_setup set_up List.map app] in Hs. apply elem_of_list_In, in_rev, elem_of_list_In in Hs. exact Hs. }
  assert (B : same_pos 9 (position g) (position h) /\ (gm_turn g, gm_passes g, gm_outcome g, gm_ko_point g, gm_prisoners g) = (gm_turn h, gm_passes h, gm_outcome h, gm_ko_point h, gm_prisoners h)
     /\ gm_rule g = gm_rule h /\ gm_history g = [] /\ gm_history h = [] /\ group_no (gm_goban g) (3, 3) = Some 1 /\ group_no (gm_goban h) (3, 3) = Some 0).
  { destruct dbg, dbg'; vm_compute in E, E'; injection E as <-; injection E' as <-; (split; [apply same_pos_b; vm_compute; reflexivity|repeat split]). }
  destruct B as (P & Q & R & H1 & H2 & G1 & G2). injection Q as Q1 Q2 Q3 Q4 Q5.
  split; [constructor; try assumption; rewrite H1, H2; constructor|]. split.
  { intros x y H. rewrite !elem_of_cons, elem_of_nil in H. destruct H as [[= -> ->]|[H|[[= -> ->]|[]]]]; [on_|discriminate|on_]. }
  split; [vm_compute; discriminate|]. split; [vm_compute; discriminate|]. auto.
Qed.
