(** Corresponding games are worth the same. *)
From stdpp Require Import relations.
From Verif Require Import ValueSpec ScoreSpec RoundSpec AreaSpec.
From Verif Require Import MonadFacts Spec Game Builder Struct Push Inv Remove Capture Bridge GameFacts RulesFacts LegalFacts LegalsFacts CheckFacts ClaimFacts LongFacts SymFacts SymGame SymScore ReprFacts.
From Verif Require Import RectSymSpec RectSpec RectReach RectVerdictSpec RectTableSpec RectInv RectGame RectMoves RectLegal RectTable RectReachFacts RectSymFacts RectSymGame RectSymClaims RectSwap RectCountScore StrategyFacts StealFacts KomiClaims.
From Coq Require Import Lia.

Local Notation length := Datatypes.length.
Local Open Scope nat_scope.

(** [h] is the image of [g], both reachable and under the rule [r] *)
Record mirrored (dbg dbg' : bool) (n : size_t) (r : rule) (σ : coord -> coord) (γ : color -> color) (g h : game) : Prop := mkMirrored {
  mr_left : exists b w, rgreach dbg n b w g;
  mr_right : exists b w, rgreach dbg' n b w h;
  mr_game : rimage_game n σ γ g h;
  mr_history : rimage_history n σ γ g h;
  mr_caught : image_caught γ g h;
  mr_rule : gm_rule g = r;
  mr_rule' : gm_rule h = r;
  mr_length : length (chains (gm_goban h)) = length (chains (gm_goban g))
}.

Lemma rsym_back n σ τ γ : rboard_sym n σ τ γ -> rboard_sym n τ σ γ.
Proof. intros []. split; assumption. Qed.

Lemma image_winner γ e : endgame_winner (image_end γ e) = option_map γ (endgame_winner e).
Proof. destruct e; reflexivity. Qed.

Lemma image_end_twice γ (o : option endgame) : (forall c, γ (γ c) = c) -> option_map (image_end γ) (option_map (image_end γ) o) = o.
Proof. intros H. destruct o as [[]|]; cbn; rewrite ?H; reflexivity. Qed.

Section Value.
  Context (n : size_t) (r : rule) (γ : color -> color).
  Hypothesis Hd : Nat.divide (snd n) (fst n).

  Lemma mirrored_back dbg dbg' σ τ g h : rboard_sym n σ τ γ -> mirrored dbg dbg' n r σ γ g h -> mirrored dbg' dbg n r τ γ h g.
  Proof using Hd.
    intros S [HG HH [I1 I2 I3 I4 I5 I6] Hh HC R R' HL]. split; try assumption; try congruence.
    - split; try congruence.
      + apply (rimage_back n _ _ γ S), I1.
      + rewrite I2. symmetry. apply (rsy_color _ _ _ _ S).
      + rewrite I4. symmetry. apply image_end_twice, (rsy_color _ _ _ _ S).
      + rewrite I5. destruct (gm_ko_point g) as [p|] eqn:Ek; [|reflexivity]. destruct HG as (b & w & HG).
        cbn. rewrite (rsy_left _ _ _ _ S p (rgi_ko _ _ _ _ (rgreach_inv _ _ _ _ _ Hd HG) p Ek)). reflexivity.
    - unfold rimage_history in *. clear -Hh S. induction Hh as [|x y l l' Hxy _ IH]; constructor; [|exact IH]. apply (rimage_back n _ _ γ S), Hxy.
    - intros c. rewrite <- (rsy_color _ _ _ _ S c) at 2. symmetry. apply HC.
  Qed.

  Lemma image_plain σ τ m : rboard_sym n σ τ γ -> rplain n m -> rplain n (image_move σ γ m).
  Proof. intros S H. destruct m as [|c|x y]; cbn in *; [exact I|destruct H|]. rewrite <- surjective_pairing. apply (rsy_on _ _ _ _ S), H. Qed.

  Lemma mirrored_step dbg dbg' σ τ g h m g' : rboard_sym n σ τ γ -> flag_contains (flag_illegal r) FILLEYE = false \/ (forall q, ron n q -> σ q = q) ->
    mirrored dbg dbg' n r σ γ g h -> may_play dbg n g m g' ->
    exists h', may_play dbg' n h (image_move σ γ m) h' /\ mirrored dbg dbg' n r σ γ g' h'.
  Proof using Hd.
    intros S Eye [(b & w & HG) (b' & w' & HH) I Hh HC R R' HL] [Hm E].
    assert (Hon : forall x y, m = MPlay x y -> ron n (x, y)) by (intros x y; apply rplain_on, Hm).
    pose proof (image_plain σ τ m S Hm) as Hm'.
    assert (Hon' : forall x y, image_move σ γ m = MPlay x y -> ron n (x, y)) by (intros x y; apply rplain_on, Hm').
    rewrite <- R in Eye.
    destruct (rimage_accepted n σ τ γ S dbg dbg' b w b' w' g h (rgreach_inv _ _ _ _ _ Hd HG) (rgreach_inv _ _ _ _ _ Hd HH) I m g' Hon HL Eye Hh E)
      as (h' & E' & I' & Hh' & HC' & HL').
    exists h'. split; [split; assumption|]. split; try assumption.
    - destruct (rgreach_try _ _ _ _ _ _ _ _ Hd HG Hon E) as (b1 & w1 & K & _). eauto.
    - destruct (rgreach_try _ _ _ _ _ _ _ _ Hd HH Hon' E') as (b1 & w1 & K & _). eauto.
    - apply HC', HC.
    - rewrite (try_rule _ _ _ _ _ E). exact R.
    - rewrite (try_rule _ _ _ _ _ E'). exact R'.
  Qed.

  Lemma mirrored_over dbg dbg' σ g h : mirrored dbg dbg' n r σ γ g h -> is_over h = is_over g.
  Proof. intros S. pose proof (rim_passes _ _ _ _ _ (mr_game _ _ _ _ _ _ _ _ S)) as I3. pose proof (rim_outcome _ _ _ _ _ (mr_game _ _ _ _ _ _ _ _ S)) as I4. unfold is_over. rewrite I3, I4. destruct (gm_outcome g); reflexivity. Qed.

  Lemma id_back σ τ : rboard_sym n σ τ γ -> (forall q, ron n q -> σ q = q) -> forall q, ron n q -> τ q = q.
  Proof. intros S H q Hq. rewrite <- (H q Hq) at 1. apply (rsy_left _ _ _ _ S q Hq). Qed.

  Lemma mirrored_forces dbg dbg' σ τ c (P Q : game -> Prop) g h : rboard_sym n σ τ γ -> flag_contains (flag_illegal r) FILLEYE = false \/ (forall q, ron n q -> σ q = q) ->
    (forall x y, mirrored dbg dbg' n r σ γ x y -> P x -> Q y) ->
    mirrored dbg dbg' n r σ γ g h -> forces dbg n c P g -> forces dbg' n (γ c) Q h.
  Proof using Hd.
    intros Y Eye HPQ S F. revert h S. induction F as [g Ov HP|g m g' Ov T Hm F IH|g Ov T F IH]; intros h S.
    - apply fo_over; [rewrite (mirrored_over _ _ _ _ _ S); exact Ov|]. eapply HPQ; eassumption.
    - destruct (mirrored_step _ _ _ _ _ _ _ _ Y Eye S Hm) as (h' & Hm' & S').
      eapply fo_own; [rewrite (mirrored_over _ _ _ _ _ S); exact Ov|rewrite (rim_turn _ _ _ _ _ (mr_game _ _ _ _ _ _ _ _ S)), T; reflexivity|exact Hm'|apply IH; exact S'].
    - apply fo_other; [rewrite (mirrored_over _ _ _ _ _ S); exact Ov|rewrite (rim_turn _ _ _ _ _ (mr_game _ _ _ _ _ _ _ _ S)), T; apply (rgamma_turn n σ τ γ Y)|].
      intros m h' Hm. destruct (mirrored_step _ _ _ _ _ _ _ _ (rsym_back _ _ _ _ Y) ltac:(destruct Eye as [X|X]; [left; exact X|right; eapply id_back; eassumption]) (mirrored_back _ _ _ _ _ _ Y S) Hm) as (g' & Hm' & S').
      apply (IH _ g' Hm'). apply (mirrored_back _ _ _ _ _ _ (rsym_back _ _ _ _ Y) S').
  Qed.

  (** the outcomes correspond *)
  Definition outcomes (dbg dbg' : bool) (σ : coord -> coord) : Prop := forall g h, mirrored dbg dbg' n r σ γ g h ->
    forall order, (forall l, order l ≡ₚ l) -> exists o, outcome order dbg g = Ok o /\ outcome order dbg' h = Ok (option_map (image_end γ) o).

  Lemma outcomes_back dbg dbg' σ τ : rboard_sym n σ τ γ -> outcomes dbg dbg' σ -> outcomes dbg' dbg τ.
  Proof using Hd.
    intros Y H g h S order Ho. destruct (H h g (mirrored_back _ _ _ _ _ _ (rsym_back _ _ _ _ Y) S) order Ho) as (o & E & E').
    eexists. split; [exact E'|]. rewrite image_end_twice by apply (rsy_color _ _ _ _ Y). exact E.
  Qed.

  Lemma mirrored_won dbg dbg' σ c g h : outcomes dbg dbg' σ -> mirrored dbg dbg' n r σ γ g h -> won dbg c g -> won dbg' (γ c) h.
  Proof.
    intros H S Hw order Ho. destruct (H g h S order Ho) as (o & E & E'). destruct (Hw order Ho) as (e & Ee & We). rewrite E in Ee. injection Ee as ->.
    exists (image_end γ e). split; [exact E'|]. rewrite image_winner, We. reflexivity.
  Qed.

  Lemma mirrored_not_lost dbg dbg' σ τ c g h : rboard_sym n σ τ γ -> outcomes dbg dbg' σ -> mirrored dbg dbg' n r σ γ g h -> not_lost dbg c g -> not_lost dbg' (γ c) h.
  Proof.
    intros Y H S Hw order Ho. destruct (H g h S order Ho) as (o & E & E'). destruct (Hw order Ho) as (e & Ee & We). rewrite E in Ee. injection Ee as ->.
    exists (image_end γ e). split; [exact E'|]. rewrite image_winner, <- (rgamma_turn n σ τ γ Y). intros X. apply We.
    destruct (endgame_winner e) as [x|]; [|discriminate]. cbn in X. injection X as X. rewrite <- (rsy_color _ _ _ _ Y x), X. f_equal. apply (rsy_color _ _ _ _ Y).
  Qed.

  Theorem mirrored_value dbg dbg' σ τ g h : rboard_sym n σ τ γ -> flag_contains (flag_illegal r) FILLEYE = false \/ (forall q, ron n q -> σ q = q) ->
    outcomes dbg dbg' σ -> mirrored dbg dbg' n r σ γ g h -> same_value dbg dbg' n γ g h.
  Proof using Hd.
    intros Y Eye H S c. pose proof (rsym_back _ _ _ _ Y) as Y'. pose proof (outcomes_back _ _ _ _ Y H) as H'. pose proof (mirrored_back _ _ _ _ _ _ Y S) as S'.
    assert (Eye' : flag_contains (flag_illegal r) FILLEYE = false \/ (forall q, ron n q -> τ q = q)) by (destruct Eye as [X|X]; [left; exact X|right; eapply id_back; eassumption]).
    split; split; intros F.
    - apply (mirrored_forces dbg dbg' σ τ c (won dbg c)) with (g := g); try assumption. intros x y. apply mirrored_won, H.
    - rewrite <- (rsy_color _ _ _ _ Y c). apply (mirrored_forces dbg' dbg τ σ (γ c) (won dbg' (γ c))) with (g := h); try assumption. intros x y. apply mirrored_won, H'.
    - apply (mirrored_forces dbg dbg' σ τ c (not_lost dbg c)) with (g := g); try assumption. intros x y. apply (mirrored_not_lost _ _ σ τ); assumption.
    - rewrite <- (rsy_color _ _ _ _ Y c). apply (mirrored_forces dbg' dbg τ σ (γ c) (not_lost dbg' (γ c))) with (g := h); try assumption. intros x y. apply (mirrored_not_lost _ _ τ σ); assumption.
  Qed.

  Lemma mirrored_line dbg dbg' σ τ ms : rboard_sym n σ τ γ -> flag_contains (flag_illegal r) FILLEYE = false \/ (forall q, ron n q -> σ q = q) ->
    forall g h g', mirrored dbg dbg' n r σ γ g h -> Forall (rplain n) ms -> all_accepted dbg g ms g' ->
    exists h', all_accepted dbg' h (List.map (image_move σ γ) ms) h' /\ mirrored dbg dbg' n r σ γ g' h'.
  Proof using Hd.
    intros Y Eye. induction ms as [|m ms IH]; intros g h g' S P A.
    - cbn in A. subst g'. exists h. split; [reflexivity|exact S].
    - destruct A as (g1 & E & A). apply Forall_cons in P as [Pm P]. destruct (mirrored_step _ _ _ _ _ _ m g1 Y Eye S (conj Pm E)) as (h1 & [_ E'] & S1).
      destruct (IH g1 h1 g' S1 P A) as (h' & A' & S'). exists h'. split; [exists h1; auto|exact S'].
  Qed.
End Value.

(** ** Square boards *)
Lemma square_divide n : Nat.divide (snd (n, n)) (fst (n, n)).
Proof. exists 1. cbn. lia. Qed.

Lemma square_rsym n σ τ γ : board_sym n σ τ γ -> rboard_sym (n, n) σ τ γ.
Proof. intros []. split; assumption. Qed.

Lemma square_outcomes n r σ τ γ dbg dbg' : board_sym n σ τ γ -> N.testbit (flag_score r) 1 = false \/ γ Black = Black -> outcomes (n, n) r γ dbg dbg' σ.
Proof.
  intros Y K g h [(b & w & HG) (b' & w' & HH) [I1 I2 I3 I4 I5 I6] _ HC R R' _] order Ho.
  apply (sym_outcome n σ τ γ order order dbg dbg' b w b' w' g h Y); try assumption.
  - exact (rgreach_square _ _ _ _ _ _ eq_refl HG).
  - exact (rgreach_square _ _ _ _ _ _ eq_refl HH).
  - split; assumption.
  - congruence.
  - rewrite R. destruct K as [K|K]; [left; exact K|right]. split; [exact K|]. unfold komi. rewrite R, R'. reflexivity.
Qed.

Theorem square_value dbg dbg' n σ τ γ b w b' w' g h : board_sym n σ τ γ -> greach dbg n b w g -> greach dbg' n b' w' h ->
  image_game n σ γ g h -> image_history n σ γ g h -> image_caught γ g h -> gm_rule h = gm_rule g ->
  length (chains (gm_goban h)) = length (chains (gm_goban g)) ->
  forbids_fill_eye (gm_rule g) = false \/ (forall q, on n q -> σ q = q) ->
  N.testbit (flag_score (gm_rule g)) 1 = false \/ γ Black = Black ->
  same_value dbg dbg' (n, n) γ g h.
Proof.
  intros Y HG HH I Hh HC R L Eye K. rewrite <- fill_eye_bit in Eye.
  apply (mirrored_value (n, n) (gm_rule g) γ (square_divide n) dbg dbg' σ τ g h (square_rsym _ _ _ _ Y) Eye (square_outcomes n _ σ τ γ dbg dbg' Y K)).
  split; try assumption; try reflexivity.
  - exists b, w. apply greach_square, HG.
  - exists b', w'. apply greach_square, HH.
  - destruct I. split; assumption.
Qed.

(** ** Boards of any reachable shape: games that look alike, and the two builds *)
Theorem alike_value dbg dbg' n b w b' w' g h : Nat.divide (snd n) (fst n) -> rgreach dbg n b w g -> rgreach dbg' n b' w' h -> rlook_alike n g h ->
  length (chains (gm_goban h)) = length (chains (gm_goban g)) -> same_value dbg dbg' n (fun c => c) g h.
Proof.
  intros Hd HG HH A L. destruct (ralike_image n g h A) as (I & IH & IC).
  apply (mirrored_value n (gm_rule g) (fun c => c) Hd dbg dbg' (fun p => p) (fun p => p) g h (rid_sym n) (or_intror (fun q _ => eq_refl))).
  - intros x y [(b1 & w1 & HX) (b2 & w2 & HY) J Jh JC R R' _] order Ho.
    destruct (ralike_score_any n order order dbg dbg' b1 w1 b2 w2 x y 0%N Hd HX HY Ho Ho) as (_ & o & _ & _ & E & E').
    { apply rimage_alike; [assumption..|congruence]. }
    exists o. split; [exact E|]. rewrite E'. f_equal. destruct o as [[]|]; reflexivity.
  - split; try assumption; try reflexivity; [eauto..|]. symmetry. apply (ral_rule _ _ _ A).
Qed.

Theorem exchanged_value dbg dbg' n b w b' w' g h : Nat.divide (snd n) (fst n) -> rgreach dbg n b w g -> rgreach dbg' n b' w' h ->
  rimage_game n (fun p => p) opp g h -> rimage_history n (fun p => p) opp g h -> image_caught opp g h -> gm_rule h = gm_rule g ->
  length (chains (gm_goban h)) = length (chains (gm_goban g)) ->
  N.testbit (flag_score (gm_rule g)) 1 = false -> same_value dbg dbg' n opp g h.
Proof.
  intros Hd HG HH I Hh HC R L K.
  apply (mirrored_value n (gm_rule g) opp Hd dbg dbg' (fun p => p) (fun p => p) g h (rswap_sym n) (or_intror (fun q _ => eq_refl))).
  - intros x y [(b1 & w1 & HX) (b2 & w2 & HY) J Jh JC Rx Ry _] order Ho.
    apply (swap_outcome n order order dbg dbg' b1 w1 b2 w2 x y Hd HX HY Ho Ho J JC); [congruence|]. rewrite Rx. exact K.
  - split; try assumption; try reflexivity; eauto.
Qed.

(** ** Openings *)
Theorem mirrored_openings dbg dbg' n s r g k ms g' : 1 <= n -> size_of s = (n, n) -> game_new s r = Ok g -> k < 8 -> forbids_fill_eye r = false ->
  Forall (rplain (n, n)) ms -> all_accepted dbg g ms g' ->
  exists h', all_accepted dbg' g (List.map (image_move (square_symmetry n k) (fun c => c)) ms) h' /\ same_value dbg dbg' (n, n) (fun c => c) g' h'.
Proof.
  intros Hn Hs E Hk Eye P A. rewrite <- fill_eye_bit in Eye. destruct (new_fields _ _ _ _ E Hs) as (T & Hp & Hpr & Ho & Hko & Hh & Hr).
  pose proof (square_ok n k (fun c => c) Hk (fun c => eq_refl)) as Y. pose proof (square_rsym _ _ _ _ Y) as Y'.
  destruct (rstart_table dbg (n, n) s r g (square_divide n) Hn Hn Hs E) as [ST HG]. destruct (rstart_table dbg' (n, n) s r g (square_divide n) Hn Hn Hs E) as [_ HG'].
  assert (Empty : forall p, ron (n, n) p -> position g p = None) by exact (rsa_pos _ _ _ ST).
  assert (S : mirrored dbg dbg' (n, n) r (square_symmetry n k) (fun c => c) g g).
  { split; [eauto|eauto| | |intros c; reflexivity|exact Hr|exact Hr|reflexivity].
    - split; try reflexivity; try rewrite Ho; try rewrite Hko; try reflexivity. intros p On. rewrite (Empty p On). apply Empty, (rsy_on _ _ _ _ Y' p On).
    - unfold rimage_history. rewrite Hh. constructor. }
  destruct (mirrored_line (n, n) r (fun c => c) (square_divide n) dbg dbg' _ _ ms Y' (or_introl Eye) g g g' S P A) as (h' & A' & S').
  exists h'. split; [exact A'|].
  apply (mirrored_value (n, n) r (fun c => c) (square_divide n) dbg dbg' _ _ g' h' Y' (or_introl Eye) (square_outcomes n r _ _ (fun c => c) dbg dbg' Y (or_intror eq_refl)) S').
Qed.

(** ** The two builds *)
Theorem builds_value n s r g ms g' dbg dbg' : Nat.divide (snd n) (fst n) -> 1 <= fst n -> 1 <= snd n -> size_of s = n -> game_new s r = Ok g ->
  Forall (rplain n) ms -> all_accepted dbg g ms g' ->
  exists h', all_accepted dbg' g ms h' /\ rlook_alike n g' h' /\ same_value dbg dbg' n (fun c => c) g' h'.
Proof.
  intros Hd Hn Hn2 Hs E P A. destruct (new_fields _ _ _ _ E Hs) as (T & Hp & Hpr & Ho & Hko & Hh & Hr).
  destruct (rstart_table dbg n s r g Hd Hn Hn2 Hs E) as [ST HG]. destruct (rstart_table dbg' n s r g Hd Hn Hn2 Hs E) as [_ HG'].
  assert (S : mirrored dbg dbg' n r (fun p => p) (fun c => c) g g).
  { split; [eauto|eauto| | |intros c; reflexivity|exact Hr|exact Hr|reflexivity].
    - split; try reflexivity; try rewrite Ho; try rewrite Hko; try reflexivity. intros p On. destruct (position g p); reflexivity.
    - unfold rimage_history. rewrite Hh. constructor. }
  destruct (mirrored_line n r (fun c => c) Hd dbg dbg' _ _ ms (rid_sym n) (or_intror (fun q _ => eq_refl)) g g g' S P A) as (h' & A' & S').
  rewrite (map_same (image_move _ _) ms id_move) in A'. exists h'. split; [exact A'|].
  destruct S' as [(b & w & HX) (b' & w' & HY) I Ih IC R R' L].
  assert (LA : rlook_alike n g' h') by (apply rimage_alike; [assumption..|congruence]). split; [exact LA|].
  exact (alike_value dbg dbg' n b w b' w' g' h' Hd HX HY LA L).
Qed.
