(** What [chains()] lists, and how many chains a legal position can have. *)
From stdpp Require Import relations sorting.
From Verif Require Import Spec Observe Reach.
From Verif Require Import MonadFacts CoordFacts Struct Push Inv Bridge GameFacts RulesFacts BoardFacts ClaimFacts LegalFacts LegalsFacts QueryFacts LongFacts.
From Verif Require Import Samples SampleFacts RefuteFacts CaseFacts PlayClaims.
From Coq Require Import Lia.

Local Notation length := Datatypes.length.
Open Scope nat_scope.

(** the numbers of the groups listed *)
Lemma live_numbers {A} (l : list (option A)) : exists ks, NoDup ks /\ Forall2 (fun a k => l !! k = Some (Some a)) (omap id l) ks /\
  forall k a, l !! k = Some (Some a) -> k ∈ ks.
Proof.
  induction l as [|o l (ks & Nd & F & H)] using rev_ind.
  - exists []. split; [apply NoDup_nil_2|]. split; [constructor|]. intros k a E. rewrite lookup_nil in E. discriminate.
  - assert (F' : Forall2 (fun a k => (l ++ [o]) !! k = Some (Some a)) (omap id l) ks).
    { eapply Forall2_impl; [exact F|]. intros a k E. rewrite lookup_app_l; [exact E|]. apply lookup_lt_Some in E. exact E. }
    rewrite omap_app. destruct o as [a|].
    + exists (ks ++ [length l]). split; [|split].
      * apply NoDup_app. split; [exact Nd|]. split; [|apply NoDup_singleton]. intros k Hk Hx. apply elem_of_list_singleton in Hx as ->.
        apply elem_of_list_lookup in Hk as (i & Hi). destruct (Forall2_lookup_r _ _ _ _ _ F Hi) as (b & _ & E). apply lookup_lt_Some in E. lia.
      * apply Forall2_app; [exact F'|]. constructor; [|constructor]. rewrite lookup_app_r, Nat.sub_diag by lia. reflexivity.
      * intros k b E. apply elem_of_app. destruct (Nat.lt_ge_cases k (length l)) as [L|L].
        -- rewrite lookup_app_l in E by exact L. left. exact (H k b E).
        -- rewrite lookup_app_r in E by exact L. apply list_lookup_singleton_Some in E as [E _]. right. apply elem_of_list_singleton. lia.
    + exists ks. split; [exact Nd|]. split; [cbn [omap list_omap id]; rewrite app_nil_r; exact F'|].
      intros k b E. destruct (Nat.lt_ge_cases k (length l)) as [L|L].
      * rewrite lookup_app_l in E by exact L. exact (H k b E).
      * rewrite lookup_app_r in E by exact L. apply list_lookup_singleton_Some in E as [_ E]. discriminate.
Qed.

(** the first stone of a live group *)
Lemma first_stone n g k grp : wf n g -> live g k = Some grp -> cell g (g_origin grp) = Some k /\ (g_origin grp < n * n)%nat.
Proof.
  intros W Hk. destruct (wf0_chain g (wf_0 n g W) k grp Hk) as [_ (l & R & Hm)].
  assert (Hc : cell g (g_origin grp) = Some k).
  { apply Hm. pose proof (ring_head _ _ _ R) as E. destruct l as [|a l]; [discriminate|]. injection E as ->. apply elem_of_list_here. }
  split; [exact Hc|]. exact (wf_on n g W _ _ Hc).
Qed.

Theorem chains_listed dbg n m g : breach dbg n m g -> exists ps,
  Forall2 (fun grp p => on n p /\ group_of g p = Some grp /\ pos_of g p = Some (g_color grp)) (all_chains g) ps /\
  (forall i j p q, ps !! i = Some p -> ps !! j = Some q -> connected n (pos_of g) p q -> i = j) /\
  (forall q, on n q -> pos_of g q <> None -> exists p, p ∈ ps /\ connected n (pos_of g) p q).
Proof.
  intros B. pose proof (breach_wf _ _ _ _ B) as W.
  destruct (live_numbers (chains g)) as (ks & Nd & F & H).
  set (ps := List.map (fun grp => pt n (g_origin grp)) (all_chains g)). exists ps.
  assert (Hl : forall grp k, chains g !! k = Some (Some grp) -> live g k = Some grp) by (intros grp k E; unfold live; rewrite E; reflexivity).
  assert (HP : forall i grp, all_chains g !! i = Some grp -> exists k, ks !! i = Some k /\ live g k = Some grp /\ on n (pt n (g_origin grp)) /\ cell g (idx n (pt n (g_origin grp))) = Some k).
  { intros i grp Ei. destruct (Forall2_lookup_l _ _ _ _ _ F Ei) as (k & Ek & E). exists k. apply Hl in E.
    destruct (first_stone n g k grp W E) as [E1 E2]. split; [exact Ek|]. split; [exact E|]. split; [apply pt_on; lia|]. rewrite idx_pt by lia. exact E1. }
  split; [|split].
  - apply Forall2_fmap_r, Forall2_same_length_lookup. split; [reflexivity|]. intros i x y Ex Ey. rewrite Ex in Ey. injection Ey as <-.
    destruct (HP i x Ex) as (k & _ & E & O & C). split; [exact O|].
    assert (G : group_at n g (pt n (g_origin x)) x) by (exists k; auto). split; [|exact (group_at_color n g _ x W O G)].
    unfold group_of, group_no. rewrite (wf_size n g W). change (two_to_1dim (n, n) ?p) with (idx n p).
    apply cell_lookup in C. rewrite C. unfold live in E. destruct (chains g !! k) as [o|]; exact E.
  - intros i j p q Ei Ej Kc. unfold ps in Ei, Ej.
    apply list_lookup_fmap_inv in Ei as (gi & -> & Ei), Ej as (gj & -> & Ej).
    destruct (HP i gi Ei) as (k & Ek & _ & O & C), (HP j gj Ej) as (k' & Ek' & _ & O' & C').
    pose proof (proj2 (proj1 (connected_cell n g _ _ k W O C) Kc)) as Ec. rewrite C' in Ec. injection Ec as ->.
    exact (NoDup_lookup _ _ _ _ Nd Ek Ek').
  - intros q Hq Hn. destruct (stone_group n g q W Hq Hn) as (k & grp & C & E & _).
    assert (Hk : k ∈ ks). { apply (H k grp). unfold live in E. destruct (chains g !! k) as [o|]; [|discriminate]. cbn in E. subst o. reflexivity. }
    apply elem_of_list_lookup in Hk as (i & Hi). destruct (Forall2_lookup_r _ _ _ _ _ F Hi) as (grp' & Ei & E').
    apply Hl in E'. destruct (HP i grp' Ei) as (k' & Ek' & _ & O & C'). rewrite Hi in Ek'. injection Ek' as <-.
    exists (pt n (g_origin grp')). split.
    + apply elem_of_list_lookup. exists i. unfold ps. change (@List.map group) with (@fmap list _ group). rewrite list_lookup_fmap. change (all_chains g) with (omap id (chains g)). rewrite Ei. reflexivity.
    + apply (connected_cell n g _ _ k W O C'). auto.
Qed.

(** ** How many chains *)

(** the four points next to [l] (and perhaps [l] itself, at the edge) *)
Definition beside (l : coord) : list coord :=
  [(S (fst l), snd l); (fst l, S (snd l)); (Nat.pred (fst l), snd l); (fst l, Nat.pred (snd l))].
Lemma beside_adj q l : adj q l -> q ∈ beside l.
Proof.
  destruct q as [a b], l as [x y]. unfold adj, beside. cbn. intros H. rewrite !elem_of_cons.
  destruct H as [[-> [->| ->]]|[-> [->| ->]]]; auto.
Qed.

Definition empties (n : nat) (P : pos) : list coord := filter (fun p => P p = None) (points n).
Definition occupied (n : nat) (P : pos) : list coord := filter (fun p => P p <> None) (points n).
Lemma empties_occupied n P : (length (empties n P) + length (occupied n P) = n * n)%nat.
Proof.
  rewrite <- (points_length n). unfold empties, occupied. induction (points n) as [|p l IH]; [reflexivity|].
  rewrite !filter_cons. destruct (decide (P p = None)), (decide (P p <> None)); try contradiction; cbn [length]; lia.
Qed.

Lemma few_chains n P ps : all_breathe n P -> (forall p, p ∈ ps -> on n p /\ P p <> None) ->
  (forall i j p q, ps !! i = Some p -> ps !! j = Some q -> connected n P p q -> i = j) -> (5 * length ps <= 4 * (n * n))%nat.
Proof.
  intros HB HP HD.
  assert (HW : exists W : list (coord * coord), Forall2 (fun p w => connected n P p (fst w) /\ adj (fst w) (snd w) /\ on n (snd w) /\ P (snd w) = None) ps W).
  { clear HD. induction ps as [|p ps IH]; [exists []; constructor|]. destruct IH as (W & F). { intros q Hq. apply HP, elem_of_cons. auto. }
    destruct (HP p (elem_of_list_here p ps)) as [O S]. destruct (HB p O S) as (l & Ol & El & q & C & A).
    exists ((q, l) :: W). constructor; [auto|exact F]. }
  destruct HW as (W & F).
  assert (NW : NoDup W).
  { apply NoDup_alt. intros i j w Ei Ej. destruct (Forall2_lookup_r _ _ _ _ _ F Ei) as (p & Ep & Kp & _), (Forall2_lookup_r _ _ _ _ _ F Ej) as (q & Eq & Kq & _).
    apply (HD i j p q Ep Eq). apply (connected_trans n P p (fst w) q Kp). apply connected_sym, Kq. }
  assert (NP : NoDup ps). { apply NoDup_alt. intros i j p Ei Ej. apply (HD i j p p Ei Ej). apply rtc_refl. }
  assert (LW : (length W <= 4 * length (empties n P))%nat).
  { assert (I : W ⊆+ flat_map (fun l => List.map (fun q => (q, l)) (beside l)) (empties n P)).
    { apply NoDup_submseteq; [exact NW|]. intros [q l] Hw. apply elem_of_list_lookup in Hw as (i & Ei).
      destruct (Forall2_lookup_r _ _ _ _ _ F Ei) as (p & _ & _ & A & O & E). cbn [fst snd] in *.
      apply elem_of_list_In, in_flat_map. exists l. split.
      - apply elem_of_list_In, elem_of_list_filter. split; [exact E|apply elem_of_points, O].
      - apply in_map_iff. exists q. split; [reflexivity|]. apply elem_of_list_In, beside_adj, A. }
    apply submseteq_length in I. etransitivity; [exact I|]. clear. induction (empties n P) as [|l ls IH]; [reflexivity|].
    cbn [flat_map]. rewrite app_length, map_length. cbn [length beside]. lia. }
  assert (LP : (length ps <= length (occupied n P))%nat).
  { apply submseteq_length, NoDup_submseteq; [exact NP|]. intros p Hp. destruct (HP p Hp) as [O S]. apply elem_of_list_filter. split; [exact S|apply elem_of_points, O]. }
  apply Forall2_length in F. pose proof (empties_occupied n P). lia.
Qed.

Theorem chains_bounded dbg n g : lreach dbg n g -> (5 * length (all_chains (gm_goban g)) <= 4 * (n * n))%nat.
Proof.
  intros L. destruct (lreach_greach _ _ _ L) as (b & w & HG).
  destruct (chains_listed dbg n (b + w) (gm_goban g) (br_game _ _ _ _ _ HG)) as (ps & F & HD & _).
  pose proof (Forall2_length _ _ _ F) as El. rewrite El.
  apply (few_chains n (pos_of (gm_goban g)) ps); [exact (proj1 (lreach_inv _ _ _ L))| |exact HD].
  intros p Hp. apply elem_of_list_lookup in Hp as (i & Ei). destruct (Forall2_lookup_r _ _ _ _ _ F Ei) as (grp & _ & O & _ & E).
  split; [exact O|congruence].
Qed.

(** a move panics only when the numbers of the groups are used up *)
Lemma panic_slots dbg n b w g x y : greach dbg n b w g -> on n (x, y) -> try_play dbg g (MPlay x y) = Panic ->
  no_slot_left g.
Proof.
  intros HG Hm E. pose proof (greach_inv _ _ _ _ _ HG) as G. pose proof (gi_wf _ _ _ _ G) as W. pose proof (wf0_len _ (wf_0 _ _ W)) as Lc.
  unfold no_slot_left. destruct (decide (N.of_nat (length (chains (gm_goban g))) = 65535%N)) as [D|D]; [exact D|exfalso].
  destruct (decide (gm_passes g = 2%nat)) as [P2|P2]; [rewrite (paused_refuses dbg g _ P2) in E; discriminate|].
  rewrite (try_play_point dbg n g x y W Hm P2) in E.
  destruct (check_point_by_total dbg n g (x, y) (flag_illegal (gm_rule g)) W (gi_hist _ _ _ _ G) Hm ltac:(lia)) as (e & Ec).
  unfold check_point in E. rewrite Ec in E. cbn [bind] in E. destruct e as [e|]; [discriminate|].
  pose proof (contains_check Ec W (gi_hist _ _ _ _ G) Hm) as (Hempty & _).
  destruct (play_spec dbg n b w g x y G Hm Hempty) as [(_ & F & _)|(g' & E' & _)]; [lia|]. rewrite E' in E. discriminate.
Qed.

Theorem slots_not_bounded dbg : exists g, lreach dbg 2 g /\ (288 < length (chains (gm_goban g)))%nat /\ (length (all_chains (gm_goban g)) <= 3)%nat.
Proof.
  assert (H : exists g, lreach dbg 2 g /\ (288 < length (chains (gm_goban g)))%nat).
  { destruct (cycle dbg) as (h0 & h1 & b & w & b' & w' & L0 & G0 & _ & HS & E & Es & Ec).
    destruct (rounds dbg h0 h1 b w G0 L0 HS E Es Ec 100) as [(g & x & y & L & O & P)|(g & L & _ & C)].
    - exists g. split; [exact L|]. destruct (lreach_greach _ _ _ L) as (b1 & w1 & HG).
      pose proof (panic_slots dbg 2 b1 w1 g x y HG O P) as K. unfold no_slot_left in K. lia.
    - exists g. split; [exact L|]. lia. }
  destruct H as (g & L & H). exists g. split; [exact L|]. split; [exact H|]. pose proof (chains_bounded dbg 2 g L). lia.
Qed.

(** a legal game with four chains on the board and one taken away *)
Lemma case_chains dbg : exists g m, lreach dbg 3 g /\ breach dbg 3 m (gm_goban g) /\ length (all_chains (gm_goban g)) = 4 /\ length (chains (gm_goban g)) = 5 /\
  position g (0, 0) = None /\ position g (1, 2) = Some Black.
Proof.
  destruct (legal_sampleb dbg 3 CHINESE [MPlay 0 1; MPlay 0 0; MPlay 1 0; MPlay 2 1; MPlay 1 2] (fun g => bool_decide (length (all_chains (gm_goban g)) = 4) &&
    bool_decide (length (chains (gm_goban g)) = 5) && has g (0, 0) None && has g (1, 2) (Some Black)) ltac:(lia)) as (g & HL & F); [destruct dbg; vm_compute; reflexivity|].
  destruct (lreach_greach _ _ _ HL) as (b & w & HG).
  bools F. exists g, (b + w). split; [exact HL|]. split; [exact (br_game _ _ _ _ _ HG)|].
  split; [exact (bool_decide_eq_true_1 _ F)|]. split; [exact (bool_decide_eq_true_1 _ F2)|]. split; [exact (bool_decide_eq_true_1 _ F1)|exact (bool_decide_eq_true_1 _ F0)].
Qed.
