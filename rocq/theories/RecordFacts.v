(** Of the past only the recorded positions matter, not their order. *)
From stdpp Require Import relations.
From Verif Require Import RecordSpec ScoreSpec RoundSpec AreaSpec.
From Verif Require Import MonadFacts Spec Game Builder Struct Push Inv Remove Capture Bridge GameFacts RulesFacts LegalFacts LegalsFacts CheckFacts ClaimFacts LongFacts SymFacts SymGame SymScore ScoreFacts ReprFacts RectCount RectCoord RectBridge RectRules RectKo RectBoard RectCheck RectEye RectVerdict.
From Verif Require Import RectScore RectSpec RectReach RectVerdictSpec RectTableSpec RectInv RectGame RectMoves RectLegal RectTable RectReachFacts RectSymFacts RectSymGame RectSymClaims RectCountScore StrategyFacts StealFacts KomiClaims ValueFacts PastFacts.
From Verif Require Import RectList BansFacts.
From Coq Require Import Lia.

Local Notation length := Datatypes.length.
Local Open Scope nat_scope.

Local Notation idc := (fun p : coord => p).
Local Notation idk := (fun c : color => c).

(** ** Recorded positions are pairwise different *)
Definition distinct (n : size_t) (l : list goban) : Prop :=
  forall i j a b, l !! i = Some a -> l !! j = Some b -> rsame_pos n (pos_of a) (pos_of b) -> i = j.

Lemma distinct_nil n : distinct n [].
Proof. intros i j a b H. rewrite lookup_nil in H. discriminate. Qed.

Lemma rsame_sym n P Q : rsame_pos n P Q -> rsame_pos n Q P.
Proof. intros H p Hp. symmetry. apply H, Hp. Qed.

Lemma distinct_insert n l x l' : Forall (rwf n) l -> rwf n x -> distinct n l -> history_insert l x = Ok l' -> distinct n l'.
Proof.
  intros Wl Wx D E. destruct (rhistory_insert_spec n l x Wl Wx) as (l2 & E2 & _ & [[_ ->]|[No ->]]); rewrite E in E2; injection E2 as ->; [exact D|].
  intros i j a b Hi Hj S. apply lookup_app_Some in Hi as [Hi|[Li Hi]], Hj as [Hj|[Lj Hj]].
  - exact (D i j a b Hi Hj S).
  - apply list_lookup_singleton_Some in Hj as [Hj <-]. destruct No. exists a. split; [eapply elem_of_list_lookup_2, Hi|apply rsame_sym, S].
  - apply list_lookup_singleton_Some in Hi as [Hi <-]. destruct No. exists b. split; [eapply elem_of_list_lookup_2, Hj|exact S].
  - apply list_lookup_singleton_Some in Hi as [Hi <-], Hj as [Hj <-]. lia.
Qed.

Theorem distinct_reach dbg n b w g : Nat.divide (snd n) (fst n) -> rgreach dbg n b w g ->
  forall i j a a', gm_history g !! i = Some a -> gm_history g !! j = Some a' -> (forall p, ron n p -> pos_of a p = pos_of a' p) -> i = j.
Proof.
  intros Hd HG. change (distinct n (gm_history g)). induction HG as [sz r g H1 H2 Es E|bl g H1 H2 Es Em Nd On E|b w g x y g' HG IH On He E|b w g g' HG IH E|b w g c g' HG IH E|b w g HG IH|b w g k HG IH|b w g pts g' HG IH Nd On E].
  - unfold game_new in E. apply bind_ok in E as (gb & _ & E). injection E as <-. apply distinct_nil.
  - unfold build_inner in E. rewrite Em in E. do 3 (apply bind_ok in E as (? & _ & E)). cbn in E. injection E as <-. apply distinct_nil.
  - pose proof (rgreach_inv _ _ _ _ _ Hd HG) as G. cbn [play] in E. apply bind_ok in E as (l & El & E).
    apply bind_ok in E as ([[gb dead] added] & _ & E). apply bind_ok in E as ([[gb' pris] ko] & _ & E). injection E as <-. cbn [gm_history].
    exact (distinct_insert n _ _ _ (rgi_hist _ _ _ _ G) (rgi_wf _ _ _ _ G) IH El).
  - cbn [play] in E. apply bind_ok in E as (? & _ & E). injection E as <-. exact IH.
  - cbn [play] in E. injection E as <-. exact IH.
  - exact IH.
  - exact IH.
  - unfold put_handicap in E. apply bind_ok in E as (? & _ & E). injection E as <-. exact IH.
Qed.

Lemma distinct_length n l : forall l', distinct n l -> (forall a, a ∈ l -> exists b, b ∈ l' /\ rsame_pos n (pos_of a) (pos_of b)) -> length l <= length l'.
Proof.
  induction l as [|a l IH]; intros l' D H; cbn [length]; [lia|].
  destruct (H a (elem_of_list_here _ _)) as (b & Hb & Sm). apply elem_of_list_split in Hb as (u & v & ->).
  assert (length l <= length (u ++ v)); [|rewrite app_length in *; cbn [length]; lia].
  apply IH.
  - intros i j x y Hi Hj Sxy. assert (S i = S j); [|congruence]. apply (D (S i) (S j) x y); assumption.
  - intros x Hx. destruct (H x (elem_of_list_further _ _ _ Hx)) as (c & Hc & Sc). apply elem_of_app in Hc as [Hc|Hc]; [exists c; split; [apply elem_of_app; left; exact Hc|exact Sc]|].
    apply elem_of_cons in Hc as [->|Hc]; [|exists c; split; [apply elem_of_app; right; exact Hc|exact Sc]].
    exfalso. apply elem_of_list_lookup in Hx as [i Hi]. assert (0 = S i); [|discriminate]. apply (D 0 (S i) a x); [reflexivity|exact Hi|].
    eapply rsame_pos_trans; [exact Sm|apply rsame_sym, Sc].
Qed.

Lemma record_length dbg dbg' n b w b' w' g h : Nat.divide (snd n) (fst n) -> rgreach dbg n b w g -> rgreach dbg' n b' w' h -> same_record n g h ->
  length (gm_history h) = length (gm_history g).
Proof.
  intros Hd HG HH R. apply Nat.le_antisymm; apply (distinct_length n).
  - exact (distinct_reach _ _ _ _ _ Hd HH).
  - intros a Ha. destruct (proj2 (R (pos_of a))) as (y & Hy & E); [exists a; auto|exists y; auto].
  - exact (distinct_reach _ _ _ _ _ Hd HG).
  - intros a Ha. destruct (proj1 (R (pos_of a))) as (y & Hy & E); [exists a; auto|exists y; auto].
Qed.

(** ** Another history *)
Definition with_history (g : game) (l : list goban) : game :=
  mkGame (gm_goban g) (gm_passes g) (gm_prisoners g) (gm_outcome g) (gm_turn g) (gm_rule g) (gm_handicap g) l (gm_ko_point g).

Section Swap.
  Context (n : size_t).

  Definition swaps (l l' : list goban) : Prop :=
    Forall (rwf n) l /\ Forall (rwf n) l' /\ length l = length l' /\
    forall P, (exists y, y ∈ l /\ rsame_pos n P (pos_of y)) <-> (exists y, y ∈ l' /\ rsame_pos n P (pos_of y)).

  Lemma swaps_contains l l' x : swaps l l' -> rwf n x -> history_contains l x = history_contains l' x.
  Proof.
    intros (W & W' & _ & H) Wx. destruct (rhistory_contains_spec n l x W Wx) as (v & -> & Hv). destruct (rhistory_contains_spec n l' x W' Wx) as (v' & -> & Hv').
    f_equal. specialize (H (pos_of x)). destruct v, v'; try reflexivity; exfalso.
    - pose proof (proj2 Hv' (proj1 H (proj1 Hv eq_refl))). discriminate.
    - pose proof (proj2 Hv (proj2 H (proj1 Hv' eq_refl))). discriminate.
  Qed.

  Lemma swaps_insert l l' x r : swaps l l' -> rwf n x -> history_insert l x = Ok r -> exists r', history_insert l' x = Ok r' /\ swaps r r'.
  Proof.
    intros S Wx E. pose proof (swaps_contains _ _ x S Wx) as C. unfold history_insert in *. rewrite <- C. apply bind_ok in E as (v & -> & E). injection E as <-.
    cbn [bind]. eexists. split; [reflexivity|]. destruct v; [exact S|]. destruct S as (W & W' & L & H). unfold swaps. rewrite !app_length. cbn [length].
    split; [apply Forall_app; auto|]. split; [apply Forall_app; auto|]. split; [lia|]. intros P. specialize (H P).
    split; intros (y & Hy & S); apply elem_of_app in Hy as [Hy|Hy].
    1: destruct (proj1 H (ex_intro _ y (conj Hy S))) as (z & Hz & Sz). 3: destruct (proj2 H (ex_intro _ y (conj Hy S))) as (z & Hz & Sz).
    1,3: exists z; split; [apply elem_of_app; left; exact Hz|exact Sz].
    1,2: exists y; split; [apply elem_of_app; right; exact Hy|exact S].
  Qed.

  Lemma with_corners dbg g l c q : check_eye_corners dbg (with_history g l) c q = check_eye_corners dbg g c q.
  Proof.
    induction q as [|p q IH]; cbn [check_eye_corners]; [reflexivity|]. rewrite IH.
    change (helper_check_eye dbg (with_history g l) p c) with (helper_check_eye dbg g p c). reflexivity.
  Qed.

  Lemma with_eye dbg g l s : check_eye dbg (with_history g l) s = check_eye dbg g s.
  Proof.
    destruct s as [p c]. unfold check_eye. change (gm_goban (with_history g l)) with (gm_goban g).
    change (helper_check_eye dbg (with_history g l) p c) with (helper_check_eye dbg g p c).
    destruct (get_color (gm_goban g) p) as [[k|]| |]; try reflexivity. cbn [bind].
    destruct (neighbors_coords dbg (gm_goban g) p) as [nbs| |]; try reflexivity. cbn [bind].
    match goal with |- context [anyM ?f nbs] => destruct (anyM f nbs) as [bad| |] end; try reflexivity. cbn [bind]. destruct bad; [reflexivity|].
    destruct (helper_check_eye dbg g p c) as [[[ally off] emp]| |]; try reflexivity. cbn [bind]. rewrite with_corners. reflexivity.
  Qed.

  Lemma swaps_check dbg g l p F : rwf n (gm_goban g) -> ron n p -> swaps (gm_history g) l -> check_point_by dbg (with_history g l) p F = check_point_by dbg g p F.
  Proof.
    intros W Hp S. unfold check_point_by. change (gm_goban (with_history g l)) with (gm_goban g). rewrite (rget_color_pos n _ _ W Hp). cbn [bind].
    destruct (pos_of (gm_goban g) p) eqn:He; [reflexivity|]. change (gm_turn (with_history g l)) with (gm_turn g).
    change (check_suicide dbg (with_history g l) (p, gm_turn g)) with (check_suicide dbg g (p, gm_turn g)).
    change (check_ko dbg (with_history g l) (p, gm_turn g)) with (check_ko dbg g (p, gm_turn g)).
    rewrite with_eye.
    replace (check_super_ko dbg (with_history g l) (p, gm_turn g)) with (check_super_ko dbg g (p, gm_turn g)); [reflexivity|].
    unfold check_super_ko. change (gm_history (with_history g l)) with l. destruct S as (S1 & S2 & L & S4). rewrite <- L.
    destruct (length (gm_history g) <=? 2); [reflexivity|]. cbn [fst].
    change (will_capture dbg (with_history g l) p) with (will_capture dbg g p). change (play_for_verification dbg (with_history g l) p) with (play_for_verification dbg g p).
    change (check_ko dbg (with_history g l) (p, gm_turn g)) with (check_ko dbg g (p, gm_turn g)).
    destruct (will_capture dbg g p) as [wc| |]; try reflexivity. cbn [bind]. destruct (negb wc); [reflexivity|].
    destruct (rverification_ok dbg n g p W Hp He) as [[E _]|(x & E & Wx & _)]; rewrite E; [reflexivity|]. cbn [bind].
    destruct (check_ko dbg g (p, gm_turn g)) as [k| |]; try reflexivity. cbn [bind]. destruct k; [reflexivity|]. apply swaps_contains; [split; auto|exact Wx].
  Qed.

  Lemma swaps_play dbg g l m g' : rwf n (gm_goban g) -> swaps (gm_history g) l -> play dbg g m = Ok g' ->
    exists l', play dbg (with_history g l) m = Ok (with_history g' l') /\ swaps (gm_history g') l'.
  Proof.
    intros W S E. destruct m as [|c|x y]; cbn [play] in *.
    - apply bind_ok in E as (u & Eu & E). injection E as <-. exists l. change (gm_passes (with_history g l)) with (gm_passes g). rewrite Eu. split; [reflexivity|exact S].
    - injection E as <-. exists l. split; [reflexivity|exact S].
    - apply bind_ok in E as (r & Er & E). destruct (swaps_insert _ l _ _ S W Er) as (r' & Er' & S').
      change (gm_history (with_history g l)) with l. change (gm_goban (with_history g l)) with (gm_goban g). rewrite Er'. cbn [bind].
      apply bind_ok in E as ([[gb dead] added] & E1 & E). change (gm_turn (with_history g l)) with (gm_turn g). rewrite E1. cbn [bind].
      apply bind_ok in E as ([[gb' pris] ko] & E2 & E). injection E as <-. change (gm_rule (with_history g l)) with (gm_rule g). change (gm_prisoners (with_history g l)) with (gm_prisoners g).
      rewrite E2. cbn [bind]. exists r'. split; [reflexivity|exact S'].
  Qed.

  Lemma swaps_try dbg g l m g' v : rwf n (gm_goban g) -> (forall x y, m = MPlay x y -> ron n (x, y)) -> swaps (gm_history g) l -> try_play dbg g m = Ok (g', v) ->
    exists l', try_play dbg (with_history g l) m = Ok (with_history g' l', v) /\ swaps (gm_history g') l'.
  Proof.
    intros W Hm S E. unfold try_play in *. change (gm_passes (with_history g l)) with (gm_passes g). destruct (gm_passes g =? 2).
    { injection E as <- <-. exists l. auto. }
    destruct m as [|c|x y].
    - apply bind_ok in E as (g1 & E1 & E). injection E as <- <-. destruct (swaps_play dbg g l MPass _ W S E1) as (l' & -> & S'). exists l'. auto.
    - apply bind_ok in E as (g1 & E1 & E). injection E as <- <-. destruct (swaps_play dbg g l (MResign c) _ W S E1) as (l' & -> & S'). exists l'. auto.
    - specialize (Hm x y eq_refl). change (gm_goban (with_history g l)) with (gm_goban g). apply bind_ok in E as (k & Ek & E). rewrite Ek. cbn [bind].
      destruct (negb (mcolor_eqb k None)); [injection E as <- <-; exists l; auto|].
      unfold check_point in *. change (gm_rule (with_history g l)) with (gm_rule g). rewrite (swaps_check dbg g l (x, y) _ W Hm S).
      apply bind_ok in E as (e & Ee & E). rewrite Ee. cbn [bind]. destruct e as [e|]; [injection E as <- <-; exists l; auto|].
      apply bind_ok in E as (g1 & E1 & E). injection E as <- <-. destruct (swaps_play dbg g l (MPlay x y) _ W S E1) as (l' & -> & S'). exists l'. auto.
  Qed.
End Swap.

Lemma with_own g : with_history g (gm_history g) = g.
Proof. destruct g. reflexivity. Qed.

Section Step.
  Context (n : size_t) (dbg dbg' : bool) (b w b' w' : nat) (g h : game).
  Hypothesis Hd : Nat.divide (snd n) (fst n).
  Hypothesis HG : rgreach dbg n b w g.
  Hypothesis HH : rgreach dbg' n b' w' h.
  Hypothesis A : same_now n g h.
  Hypothesis R : same_record n g h.

  Local Notation h0 := (with_history h (gm_history g)).

  Lemma record_inv : rginv n b' w' h0.
  Proof using All.
    pose proof (rgreach_inv _ _ _ _ _ Hd HG) as G. pose proof (rgreach_inv _ _ _ _ _ Hd HH) as G'.
    assert (b = b' /\ w = w') as [Eb Ew].
    { pose proof (rgi_black _ _ _ _ G) as B1. pose proof (rgi_white _ _ _ _ G) as W1. pose proof (rgi_black _ _ _ _ G') as B2. pose proof (rgi_white _ _ _ _ G') as W2.
      rewrite <- (now_prisoners _ _ _ A) in B2, W2. pose proof (rcount_same n _ _ Black (now_pos _ _ _ A)) as CB. pose proof (rcount_same n _ _ White (now_pos _ _ _ A)) as CW. unfold position in CB, CW. split; lia. }
    destruct G' as [X1 X2 X3 X4 X5 X6 X7 X8 X9]. constructor; cbn; try assumption.
    - exact (rgi_hist _ _ _ _ G).
    - rewrite <- Eb, <- Ew. exact (rgi_histlen _ _ _ _ G).
  Qed.

  Lemma record_swaps : swaps n (gm_history g) (gm_history h).
  Proof using All.
    pose proof (rgreach_inv _ _ _ _ _ Hd HG) as G. pose proof (rgreach_inv _ _ _ _ _ Hd HH) as G'.
    split; [exact (rgi_hist _ _ _ _ G)|]. split; [exact (rgi_hist _ _ _ _ G')|]. split; [symmetry; exact (record_length dbg dbg' n b w b' w' g h Hd HG HH R)|exact R].
  Qed.

  Lemma record_now : same_now n g h0.
  Proof using A. destruct A. constructor; assumption. Qed.

  Lemma record_past : rimage_history n idc idk g h0.
  Proof. unfold rimage_history. cbn. induction (gm_history g); constructor; [apply rid_image; intros p _; reflexivity|assumption]. Qed.

  (** from a step of [h0] to one of [h] *)
  Lemma record_back m k v g' : (forall x y, m = MPlay x y -> ron n (x, y)) -> try_play dbg g m = Ok (g', v) -> try_play dbg' h0 m = Ok (k, v) ->
    rimage_game n idc idk g' k -> rimage_history n idc idk g' k -> image_caught idk g' k ->
    exists h', try_play dbg' h m = Ok (h', v) /\ same_now n g' h' /\ same_record n g' h' /\ chains (gm_goban h') = chains (gm_goban k).
  Proof using All.
    intros Hm E E0 I J C. destruct (swaps_try n dbg' h0 (gm_history h) m k v (rgi_wf _ _ _ _ record_inv) Hm record_swaps E0) as (l & El & Sl).
    change (with_history h0 (gm_history h)) with (with_history h (gm_history h)) in El. rewrite with_own in El. exists (with_history k l). split; [exact El|]. split; [|split; [|reflexivity]].
    - assert (X : same_now n g' k); [|destruct X; constructor; assumption]. apply image_now; [exact I|exact C|]. rewrite (try_rule _ _ _ _ _ E), (try_rule _ _ _ _ _ E0). apply A.
    - destruct Sl as (_ & _ & _ & Sl). intros P. unfold on_record. cbn [gm_history with_history]. etransitivity; [|exact (Sl P)]. clear -J. unfold rimage_history in J.
      assert (X : forall a b, rimage n idc idk (pos_of a) (pos_of b) -> rsame_pos n (pos_of a) (pos_of b)) by (intros a b H; apply rid_image, H).
      induction J as [|a b u v Hab _ IH]; [split; intros (y & Hy & _); apply elem_of_nil in Hy; destruct Hy|]. apply X in Hab. split; intros (y & Hy & S).
      + apply elem_of_cons in Hy as [->|Hy]; [exists b; split; [left|eapply rsame_pos_trans; [exact S|exact Hab]]|].
        destruct (proj1 IH (ex_intro _ y (conj Hy S))) as (z & Hz & Sz). exists z. split; [right; exact Hz|exact Sz].
      + apply elem_of_cons in Hy as [->|Hy]; [exists a; split; [left|eapply rsame_pos_trans; [exact S|apply rsame_sym, Hab]]|].
        destruct (proj2 IH (ex_intro _ y (conj Hy S))) as (z & Hz & Sz). exists z. split; [right; exact Hz|exact Sz].
  Qed.

  Lemma record_try m : (forall x y, m = MPlay x y -> ron n (x, y)) -> (N.of_nat (b + w) < 65535)%N -> (N.of_nat (b' + w') < 65535)%N ->
    exists g' h' v, try_play dbg g m = Ok (g', v) /\ try_play dbg' h m = Ok (h', v) /\ same_now n g' h' /\ same_record n g' h'.
  Proof using All.
    intros Hm L L'. destruct (now_image n g h0 record_now) as (I & IC). pose proof (rgreach_inv _ _ _ _ _ Hd HG) as G. pose proof record_inv as G'.
    pose proof (rgi_chains _ _ _ _ G). pose proof (rgi_chains _ _ _ _ G').
    destruct (rimage_try n _ _ _ (rid_sym n) dbg dbg' b w b' w' g h0 G G' I m Hm ltac:(lia) ltac:(lia) (or_intror (fun q _ => eq_refl)) (or_intror record_past)) as (g1 & k & v & E1 & E1' & I1 & J1 & K1).
    rewrite id_move in E1'. destruct (record_back m k v g1 Hm E1 E1' I1 (J1 record_past) (K1 IC)) as (h1 & F & X & Y & _). eauto 10.
  Qed.

  Lemma record_accepted m g' : (forall x y, m = MPlay x y -> ron n (x, y)) -> length (chains (gm_goban h)) = length (chains (gm_goban g)) -> try_play dbg g m = Ok (g', Accepted) ->
    exists h', try_play dbg' h m = Ok (h', Accepted) /\ same_now n g' h' /\ same_record n g' h' /\ length (chains (gm_goban h')) = length (chains (gm_goban g')).
  Proof using All.
    intros Hm L E. destruct (now_image n g h0 record_now) as (I & IC). pose proof (rgreach_inv _ _ _ _ _ Hd HG) as G. pose proof record_inv as G'.
    destruct (rimage_accepted n _ _ _ (rid_sym n) dbg dbg' b w b' w' g h0 G G' I m g' Hm L (or_intror (fun q _ => eq_refl)) record_past E) as (k & E1' & I1 & J1 & K1 & L1).
    rewrite id_move in E1'. destruct (record_back m k Accepted g' Hm E E1' I1 J1 (K1 IC)) as (h1 & F & X & Y & Z). exists h1. rewrite Z. auto.
  Qed.
End Step.

Theorem record_run n dbg dbg' ms : Nat.divide (snd n) (fst n) -> forall b w b' w' g h,
  rgreach dbg n b w g -> rgreach dbg' n b' w' h -> same_now n g h -> same_record n g h ->
  (forall x y, MPlay x y ∈ ms -> ron n (x, y)) ->
  (N.of_nat (b + w + length ms) <= 65535)%N -> (N.of_nat (b' + w' + length ms) <= 65535)%N ->
  exists g' h' tr, run dbg g (List.map OTry ms) = Ok (g', tr) /\ run dbg' h (List.map OTry ms) = Ok (h', tr) /\ same_now n g' h' /\ same_record n g' h'.
Proof.
  intros Hd. induction ms as [|m ms IH]; intros b w b' w' g h HG HG' A R Hon L L'; cbn [List.map run].
  { exists g, h, []. auto. }
  cbn [length] in L, L'.
  assert (Hm : forall x y, m = MPlay x y -> ron n (x, y)) by (intros x y ->; apply Hon; left).
  destruct (record_try n dbg dbg' b w b' w' g h Hd HG HG' A R m Hm ltac:(lia) ltac:(lia)) as (g1 & h1 & v & E1 & E1' & A1 & R1).
  destruct (rgreach_try _ _ _ _ _ _ _ _ Hd HG Hm E1) as (b1 & w1 & HG1 & L1).
  destruct (rgreach_try _ _ _ _ _ _ _ _ Hd HG' Hm E1') as (b1' & w1' & HG1' & L1').
  destruct (IH b1 w1 b1' w1' g1 h1 HG1 HG1' A1 R1) as (g2 & h2 & tr & E2 & E2' & A2).
  { intros x y Hx. apply Hon. right. exact Hx. } { lia. } { lia. }
  cbn [do_op]. rewrite E1, E1'. cbn [bind]. rewrite E2, E2'. cbn [bind]. eexists g2, h2, _. split; [reflexivity|]. split; [reflexivity|exact A2].
Qed.

(** ** Values *)
Record alike_record (dbg dbg' : bool) (n : size_t) (g h : game) : Prop := mkAlikeRecord {
  ar_left : exists b w, rgreach dbg n b w g;
  ar_right : exists b w, rgreach dbg' n b w h;
  ar_now : same_now n g h;
  ar_record : same_record n g h;
  ar_length : length (chains (gm_goban h)) = length (chains (gm_goban g))
}.

Section Value.
  Context (n : size_t).
  Hypothesis Hd : Nat.divide (snd n) (fst n).

  Lemma ar_back dbg dbg' g h : alike_record dbg dbg' n g h -> alike_record dbg' dbg n h g.
  Proof. intros [X Y Z R L]. split; try assumption; [apply now_sym, Z|intros P; symmetry; apply R|congruence]. Qed.

  Lemma ar_step dbg dbg' g h m g' : alike_record dbg dbg' n g h -> may_play dbg n g m g' -> exists h', may_play dbg' n h m h' /\ alike_record dbg dbg' n g' h'.
  Proof using Hd.
    intros [(b & w & HG) (b' & w' & HH) A R L] [Hm E]. assert (Hon : forall x y, m = MPlay x y -> ron n (x, y)) by (intros x y; apply rplain_on, Hm).
    destruct (record_accepted n dbg dbg' b w b' w' g h Hd HG HH A R m g' Hon L E) as (h' & E' & A' & R' & L').
    exists h'. split; [split; assumption|]. split; [| |exact A'|exact R'|exact L'].
    - destruct (rgreach_try _ _ _ _ _ _ _ _ Hd HG Hon E) as (b1 & w1 & K & _). eauto.
    - destruct (rgreach_try _ _ _ _ _ _ _ _ Hd HH Hon E') as (b1 & w1 & K & _). eauto.
  Qed.

  Lemma ar_forces dbg dbg' c (P Q : game -> Prop) g h : (forall x y, alike_record dbg dbg' n x y -> P x -> Q y) ->
    alike_record dbg dbg' n g h -> forces dbg n c P g -> forces dbg' n c Q h.
  Proof using Hd.
    intros HPQ S F. revert h S. induction F as [g Ov HP|g m g' Ov T Hm F IH|g Ov T F IH]; intros h S;
      (assert (Oh : is_over h = is_over g) by (unfold is_over; rewrite (now_passes _ _ _ (ar_now _ _ _ _ _ S)), (now_outcome _ _ _ (ar_now _ _ _ _ _ S)); reflexivity));
      pose proof (now_turn _ _ _ (ar_now _ _ _ _ _ S)) as Th.
    - apply fo_over; [congruence|]. eapply HPQ; eassumption.
    - destruct (ar_step _ _ _ _ _ _ S Hm) as (h' & Hm' & S'). eapply fo_own; [congruence|congruence|exact Hm'|apply IH; exact S'].
    - apply fo_other; [congruence|congruence|]. intros m h' Hm. destruct (ar_step _ _ _ _ _ _ (ar_back _ _ _ _ S) Hm) as (g' & Hm' & S').
      apply (IH _ g' Hm'). apply ar_back, S'.
  Qed.

  Lemma ar_won dbg dbg' c g h : alike_record dbg dbg' n g h -> won dbg c g -> won dbg' c h.
  Proof using Hd.
    intros [(b & w & HG) (b' & w' & HH) A _ _] Hw order Ho. destruct (Hw order Ho) as (e & Ee & We).
    destruct (past_score n order order dbg dbg' b w b' w' g h 0 Hd HG HH Ho Ho A) as (_ & o & _ & _ & E & E'). exists e. split; [congruence|exact We].
  Qed.
  Lemma ar_not_lost dbg dbg' c g h : alike_record dbg dbg' n g h -> not_lost dbg c g -> not_lost dbg' c h.
  Proof using Hd.
    intros [(b & w & HG) (b' & w' & HH) A _ _] Hw order Ho. destruct (Hw order Ho) as (e & Ee & We).
    destruct (past_score n order order dbg dbg' b w b' w' g h 0 Hd HG HH Ho Ho A) as (_ & o & _ & _ & E & E'). exists e. split; [congruence|exact We].
  Qed.
End Value.

Theorem record_value dbg dbg' n b w b' w' g h : Nat.divide (snd n) (fst n) -> rgreach dbg n b w g -> rgreach dbg' n b' w' h -> same_now n g h ->
  same_record n g h -> length (chains (gm_goban h)) = length (chains (gm_goban g)) -> same_value dbg dbg' n (fun c => c) g h.
Proof.
  intros Hd HG HH A R L c. assert (S : alike_record dbg dbg' n g h) by (split; eauto). pose proof (ar_back _ _ _ _ _ S) as S'.
  split; split; intros F.
  - exact (ar_forces n Hd _ _ c _ _ g h (fun x y => ar_won n Hd dbg dbg' c x y) S F).
  - exact (ar_forces n Hd _ _ c _ _ h g (fun x y => ar_won n Hd dbg' dbg c x y) S' F).
  - exact (ar_forces n Hd _ _ c _ _ g h (fun x y => ar_not_lost n Hd dbg dbg' c x y) S F).
  - exact (ar_forces n Hd _ _ c _ _ h g (fun x y => ar_not_lost n Hd dbg' dbg c x y) S' F).
Qed.
