(** What the legality checks compute. *)
From stdpp Require Import relations sorting.
From Verif Require Import MonadFacts Spec Game BitsetFacts CoordFacts Struct Push Inv Remove Capture Bridge GameFacts RulesFacts KoFacts BoardFacts.
From Coq Require Import Lia.

Lemma atari_only n g p q grp : wf n g -> on n p -> on n q -> adj p q -> pos_of g p = None -> group_at n g q grp ->
  is_atari grp = true <-> forall l, liberty n (pos_of g) q l -> l = p.
Proof.
  intros W Hp Hq Ha He HG. rewrite (group_at_atari n g q grp W Hq HG).
  assert (Hl : liberty n (pos_of g) q p).
  { split; [exact Hp|]. split; [exact He|]. exists q. split; [apply rtc_refl|apply adj_sym, Ha]. }
  split.
  - intros (l & H) l' Hl'. apply H in Hl, Hl'. congruence.
  - intros H. exists p. intros l'. split; [apply H|intros ->; exact Hl].
Qed.

Lemma only_dead n P p q c : P p = None -> P q = Some (opp c) ->
  (forall l, liberty n P q l -> l = p) <-> ~ breathes n (put P p c) q.
Proof.
  intros He Hc. rewrite (breathes_put_opp n P p c He q Hc). split.
  - intros H (l & H1 & H2). apply H1, H, H2.
  - intros H l Hl. destruct (decide (l = p)) as [|Hne]; [assumption|]. exfalso. apply H. eauto.
Qed.

Lemma will_capture_ok dbg n g p : wf n (gm_goban g) -> on n p -> pos_of (gm_goban g) p = None ->
  exists v, will_capture dbg g p = Ok v /\
    (v = true <-> exists q, on n q /\ taken n (put (pos_of (gm_goban g)) p (gm_turn g)) p (gm_turn g) q).
Proof.
  intros W Hp He. unfold will_capture.
  destruct (connected_groups_ok dbg n _ p W Hp) as (l & -> & Hl). cbn [bind]. eexists. split; [reflexivity|].
  rewrite existsb_spec. set (c := gm_turn g). set (P := pos_of (gm_goban g)) in *. split.
  - intros (grp & Hg & E). apply andb_true_iff in E as [E1 E2]. apply Hl in Hg as (q & Hq & Ha & HG).
    pose proof (group_at_color n _ q grp W Hq HG) as Hc. fold P in Hc.
    assert (Hc' : P q = Some (opp c)).
    { rewrite Hc. f_equal. apply ne_opp. destruct (color_eqb_spec (g_color grp) c); [discriminate|assumption]. }
    exists q. split; [exact Hq|]. exists q. split; [exact Hq|]. split; [exact Ha|].
    split; [apply put_opp; assumption|]. split; [apply rtc_refl|].
    apply only_dead; try assumption. apply (atari_only n _ p q grp W Hp Hq Ha He HG), E2.
  - intros (q & _ & t & Ht & Ha & Hc & _ & Hb). apply (put_opp P p c He) in Hc.
    destruct (group_at_ex n _ t W Ht) as [grp HG]; [fold P; congruence|]. exists grp. split; [apply Hl; eauto|].
    pose proof (group_at_color n _ t grp W Ht HG) as Hcg. fold P in Hcg. apply andb_true_iff. split.
    + replace (g_color grp) with (opp c) by congruence. destruct (color_eqb_spec (opp c) c) as [E|]; [|reflexivity].
      destruct (opp_ne c E).
    + apply (atari_only n _ p t grp W Hp Ht Ha He HG). apply only_dead with (c := c); assumption.
Qed.

Lemma check_suicide_ok dbg n g p c : wf n (gm_goban g) -> on n p -> pos_of (gm_goban g) p = None ->
  exists v, check_suicide dbg g (p, c) = Ok v /\ (v = true <-> suicidal n (pos_of (gm_goban g)) p c).
Proof.
  intros W Hp He. unfold check_suicide. cbn [fst snd]. pose proof (wf_n n _ W) as Hn.
  destruct (has_liberties_ok dbg n _ p W Hp) as (hl & -> & Hhl). cbn [bind].
  set (P := pos_of (gm_goban g)) in *.
  pose proof (suicidal_iff n P p c) as HS. rewrite (breathes_put_own n P p c ltac:(lia) Hp He) in HS.
  destruct hl.
  - exists false. split; [reflexivity|]. split; [discriminate|]. rewrite HS. intros [_ H]. exfalso. apply H. left. apply Hhl. reflexivity.
  - assert (Hno : ~ exists q, on n q /\ adj p q /\ P q = None) by (intros H; apply Hhl in H; discriminate).
    destruct (connected_groups_ok dbg n _ p W Hp) as (l & -> & Hl). cbn [bind]. eexists. split; [reflexivity|].
    rewrite negb_true_iff, existsb_false, HS. split.
    + intros H. split.
      * intros q _ (t & Ht & Ha & Hc & _ & Hb). apply (put_opp P p c He) in Hc.
        destruct (group_at_ex n _ t W Ht) as [grp HG]; [fold P; congruence|].
        pose proof (group_at_color n _ t grp W Ht HG) as Hcg. fold P in Hcg.
        specialize (H grp (proj2 (Hl grp) (ex_intro _ t (conj Ht (conj Ha HG))))).
        replace (g_color grp) with (opp c) in H by congruence.
        destruct (color_eqb_spec (opp c) c) as [E|_]; [destruct (opp_ne c E)|].
        assert (is_atari grp = true); [|congruence].
        apply (atari_only n _ p t grp W Hp Ht Ha He HG). apply only_dead with (c := c); assumption.
      * intros [H'|(t & m & Ht & Ha & Hc & Hm & Hlib)]; [apply Hno, H'|].
        destruct (group_at_ex n _ t W Ht) as [grp HG]; [fold P; congruence|].
        pose proof (group_at_color n _ t grp W Ht HG) as Hcg. fold P in Hcg.
        specialize (H grp (proj2 (Hl grp) (ex_intro _ t (conj Ht (conj Ha HG))))).
        replace (g_color grp) with c in H by congruence. rewrite color_eqb_refl in H. apply negb_false_iff in H.
        apply Hm. apply (atari_only n _ p t grp W Hp Ht Ha He HG) in Hlib; assumption.
    + intros [H1 H2] grp Hg. apply Hl in Hg as (t & Ht & Ha & HG).
      pose proof (group_at_color n _ t grp W Ht HG) as Hcg. fold P in Hcg.
      destruct (color_eqb_spec (g_color grp) c) as [E|E].
      * apply negb_false_iff. apply (atari_only n _ p t grp W Hp Ht Ha He HG). intros m Hm.
        destruct (decide (m = p)) as [|Hne]; [assumption|]. exfalso. apply H2. right. exists t, m.
        split; [exact Ht|]. split; [exact Ha|]. split; [congruence|]. split; [exact Hne|exact Hm].
      * destruct (is_atari grp) eqn:Ea; [|reflexivity]. exfalso. apply ne_opp in E.
        apply (H1 t Ht). exists t. split; [exact Ht|]. split; [exact Ha|].
        assert (Hc : P t = Some (opp c)) by congruence.
        split; [apply put_opp; assumption|]. split; [apply rtc_refl|].
        apply only_dead; try assumption. apply (atari_only n _ p t grp W Hp Ht Ha He HG), Ea.
Qed.

Lemma check_ko_ok dbg n g p c : wf n (gm_goban g) -> on n p -> pos_of (gm_goban g) p = None ->
  exists v, check_ko dbg g (p, c) = Ok v /\
    (v = true <-> gm_ko_point g = Some p /\ ko_shape n (pos_of (gm_goban g)) p).
Proof.
  intros W Hp He. unfold check_ko. cbn [fst].
  assert (Hk : match gm_ko_point g with Some q => coord_eqb q p | None => false end = true <-> gm_ko_point g = Some p).
  { destruct (gm_ko_point g) as [q|]; [rewrite coord_eqb_eq; split; congruence|split; discriminate]. }
  destruct (match gm_ko_point g with Some q => coord_eqb q p | None => false end).
  - destruct (connected_groups_ok dbg n _ p W Hp) as (l & -> & Hl). cbn [bind]. eexists. split; [reflexivity|].
    rewrite negb_true_iff, existsb_false. set (P := pos_of (gm_goban g)) in *. split.
    + intros H. split; [apply Hk; reflexivity|]. intros t Ht Ha Hne Hlib.
      destruct (group_at_ex n _ t W Ht Hne) as [grp HG].
      specialize (H grp (proj2 (Hl grp) (ex_intro _ t (conj Ht (conj Ha HG))))).
      rewrite (proj2 (atari_only n _ p t grp W Hp Ht Ha He HG) Hlib) in H. cbn [andb] in H. apply Nat.ltb_ge in H.
      pose proof (group_num_pos n _ t grp W Ht HG).
      apply (group_at_single n _ t grp W Ht HG). lia.
    + intros [_ H] grp Hg. apply Hl in Hg as (t & Ht & Ha & HG).
      destruct (is_atari grp) eqn:Ea; [|reflexivity]. cbn [andb]. apply Nat.ltb_ge.
      enough (g_num_stones grp = 1%nat) by lia. apply (group_at_single n _ t grp W Ht HG).
      apply (H t Ht Ha).
      * apply (group_at_stone n _ t grp W Ht HG).
      * apply (atari_only n _ p t grp W Hp Ht Ha He HG), Ea.
  - exists false. split; [reflexivity|]. split; [discriminate|]. intros [H _]. apply Hk in H. discriminate.
Qed.

Lemma verification_ok dbg n g p : wf n (gm_goban g) -> on n p -> pos_of (gm_goban g) p = None ->
  (play_for_verification dbg g p = Panic /\ (N.of_nat (length (chains (gm_goban g))) = 65535)%N /\
   ~ one_friend n (pos_of (gm_goban g)) p (gm_turn g)) \/
  exists x, play_for_verification dbg g p = Ok x /\ wf n x /\
    go_move (flag_contains (flag_illegal (gm_rule g)) SUICIDE) n (pos_of (gm_goban g)) p (gm_turn g) (pos_of x).
Proof.
  intros W Hp He. unfold play_for_verification.
  destruct (move_spec dbg n (gm_goban g) p (gm_turn g) (flag_contains (flag_illegal (gm_rule g)) SUICIDE) W Hp He)
    as [[E F]|(g1 & dead & u & g' & rm & ko & E1 & E2 & W1 & W2 & _ & _ & _ & HM & _)].
  - left. rewrite E. split; [reflexivity|exact F].
  - right. exists g'. rewrite E1. cbn [bind]. rewrite E2. split; [reflexivity|]. split; assumption.
Qed.

Lemma go_move_any s s' n P p c R q : on n q -> taken n (put P p c) p c q -> go_move s n P p c R -> go_move s' n P p c R.
Proof.
  intros Hq Ht HM. pose proof (go_move_capture s n P p c R q Hq Ht HM) as HC. exists R. split; [exact HC|].
  intros x Hx. split; [|reflexivity]. intros (_ & Hb & _). exfalso. apply Hb. eapply capture_breathes; eassumption.
Qed.

Lemma check_super_ko_ok dbg n g p : wf n (gm_goban g) -> Forall (wf n) (gm_history g) ->
  on n p -> pos_of (gm_goban g) p = None ->
  (check_super_ko dbg g (p, gm_turn g) = Panic /\ (N.of_nat (length (chains (gm_goban g))) = 65535)%N) \/
  exists v, check_super_ko dbg g (p, gm_turn g) = Ok v /\
    (v = true <-> (2 < length (gm_history g))%nat /\
       (exists q, on n q /\ taken n (put (pos_of (gm_goban g)) p (gm_turn g)) p (gm_turn g) q) /\
       ((gm_ko_point g = Some p /\ ko_shape n (pos_of (gm_goban g)) p) \/
        exists y R, y ∈ gm_history g /\ go_move false n (pos_of (gm_goban g)) p (gm_turn g) R /\
                    same_pos n R (pos_of y))).
Proof.
  intros W Wh Hp He. unfold check_super_ko. cbn [fst]. pose proof (wf_n n _ W) as Hn.
  destruct (Nat.leb_spec (length (gm_history g)) 2) as [Hl|Hl].
  { right. exists false. split; [reflexivity|]. split; [discriminate|]. intros [H _]. lia. }
  destruct (will_capture_ok dbg n g p W Hp He) as (wc & -> & Hwc). cbn [bind].
  destruct wc; cbn [negb].
  2:{ right. exists false. split; [reflexivity|]. split; [discriminate|]. intros (_ & H & _). apply Hwc in H. discriminate. }
  destruct (proj1 Hwc eq_refl) as (q & Hq & Ht).
  destruct (verification_ok dbg n g p W Hp He) as [[E [F _]]|(x & E & Wx & HM)].
  { left. rewrite E. split; [reflexivity|exact F]. }
  right. rewrite E. cbn [bind].
  destruct (check_ko_ok dbg n g p (gm_turn g) W Hp He) as (k & -> & Hk). cbn [bind].
  pose proof (go_move_any _ false n _ p _ _ q Hq Ht HM) as HM'.
  destruct k.
  - exists true. split; [reflexivity|]. split; [|reflexivity]. intros _. split; [lia|]. split; [eauto|]. left. apply Hk. reflexivity.
  - destruct (history_contains_spec n (gm_history g) x Wh Wx) as (v & -> & Hv). exists v. split; [reflexivity|].
    rewrite Hv. split.
    + intros (y & Hy & Hs). split; [lia|]. split; [eauto|]. right. exists y, (pos_of x). tauto.
    + intros (_ & _ & [H|(y & R & Hy & HR & Hs)]); [apply Hk in H; discriminate|]. exists y. split; [exact Hy|].
      eapply same_pos_trans; [|exact Hs]. 
      apply (go_move_det false n _ _ p (gm_turn g) (pos_of x) R (same_pos_refl n _) HM' HR).
Qed.

(** the superko check needs a group number only for a stone without friends *)
Lemma check_super_ko_friend dbg n g p : wf n (gm_goban g) -> Forall (wf n) (gm_history g) ->
  on n p -> pos_of (gm_goban g) p = None ->
  (check_super_ko dbg g (p, gm_turn g) = Panic /\ (N.of_nat (length (chains (gm_goban g))) = 65535)%N /\
   ~ one_friend n (pos_of (gm_goban g)) p (gm_turn g)) \/
  check_super_ko dbg g (p, gm_turn g) <> Panic.
Proof.
  intros W Wh Hp He. unfold check_super_ko. cbn [fst].
  destruct (Nat.leb_spec (length (gm_history g)) 2) as [Hl|Hl]; [right; discriminate|].
  destruct (will_capture_ok dbg n g p W Hp He) as (wc & -> & Hwc). cbn [bind]. destruct wc; cbn [negb]; [|right; discriminate].
  destruct (verification_ok dbg n g p W Hp He) as [[E F]|(x & E & Wx & HM)]; rewrite E; [left; split; [reflexivity|exact F]|]. right. cbn [bind].
  destruct (check_ko_ok dbg n g p (gm_turn g) W Hp He) as (k & -> & Hk). cbn [bind]. destruct k; [discriminate|].
  destruct (history_contains_spec n (gm_history g) x Wh Wx) as (v & -> & Hv). discriminate.
Qed.

