(** The invariant, read through the public API. *)
From stdpp Require Import relations sorting.
From Verif Require Import MonadFacts Spec Observe BitsetFacts CoordFacts Struct Push Inv Remove Capture Bridge GameFacts RulesFacts KoFacts BoardFacts.
From Coq Require Import Lia.

Lemma group_no_cell n g p : wf n g -> group_no g p = cell g (idx n p).
Proof.
  intros W. unfold group_no, cell. rewrite (wf_size n g W), two_idx'. destruct (board g !! idx n p); reflexivity.
Qed.

Lemma group_of_at n g p grp : wf n g -> group_of g p = Some grp <-> group_at n g p grp.
Proof.
  intros W. unfold group_of, group_at. rewrite (group_no_cell n g p W). split.
  - intros H. destruct (cell g (idx n p)) as [k|]; [|discriminate]. exists k. split; [reflexivity|].
    unfold live. destruct (chains g !! k); exact H.
  - intros (k & -> & H). unfold live in H. destruct (chains g !! k); exact H.
Qed.

Lemma live_chains g k grp : chains g !! k = Some (Some grp) <-> live g k = Some grp.
Proof. symmetry. apply live_lookup. Qed.

(** C02 *)
Lemma same_group n g p q : wf n g -> on n p -> on n q -> pos_of g p <> None ->
  (group_no g p = group_no g q <-> connected n (pos_of g) p q).
Proof.
  intros W Hp Hq Hs. destruct (stone_group n g p W Hp Hs) as (k & grp & Hk & Hl & _).
  rewrite !(group_no_cell n g) by exact W. rewrite (connected_cell n g p q k W Hp Hk), Hk. split.
  - intros H. split; [exact Hq|symmetry; exact H].
  - intros [_ H]. symmetry. exact H.
Qed.

Lemma group_no_some n g p : wf n g -> on n p -> (pos_of g p <> None <-> exists k, group_no g p = Some k).
Proof.
  intros W Hp. rewrite (group_no_cell n g p W). split.
  - intros H. destruct (stone_group n g p W Hp H) as (k & _ & E & _). eauto.
  - intros (k & E) H. rewrite (pos_of_col n g p W Hp) in H. apply (col_None n g _ W) in H. congruence.
Qed.

Lemma chain_stones_api dbg n g p k : wf n g -> on n p -> group_no g p = Some k ->
  exists c l, chain_stones dbg g k = Ok (List.map (fun q => (q, c)) l) /\ pos_of g p = Some c /\
    NoDup l /\ forall q, q ∈ l <-> on n q /\ connected n (pos_of g) p q.
Proof.
  intros W Hp Hk. rewrite (group_no_cell n g p W) in Hk.
  destruct (wf0_cell g (wf_0 n g W) _ _ Hk) as [grp Hl].
  destruct (chain_stones_ok dbg n g p k grp W Hp Hk Hl) as (l & _ & E & Nd & _ & _ & _ & Hm).
  exists (g_color grp), (List.map (pt n) l). split; [rewrite E, List.map_map; reflexivity|]. split; [|split].
  - apply (group_at_color n g p grp W Hp). exists k. split; assumption.
  - apply NoDup_fmap_in; [|exact Nd]. intros x y Hx Hy Heq. apply Hm in Hx as (a & -> & Ha & _). apply Hm in Hy as (b & -> & Hb & _).
    rewrite !pt_idx in Heq by assumption. congruence.
  - intros q. rewrite elem_of_lmap. split.
    + intros (i & -> & Hi). apply Hm in Hi as (a & -> & Ha & Hc). rewrite pt_idx by exact Ha. split; assumption.
    + intros [Hq Hc]. exists (idx n q). split; [symmetry; apply pt_idx, Hq|]. apply Hm. eauto.
Qed.

(** C47 *)
Lemma group_walk dbg n g k grp : wf n g -> chains g !! k = Some (Some grp) ->
  exists l, group_iter dbg grp (next_stone g) = Ok l /\ NoDup l /\
    head l = Some (g_origin grp) /\ last l = Some (g_last grp) /\ length l = group_iter_size_hint grp /\
    (1 <= length l)%nat /\
    (forall i, i ∈ l <-> exists p, on n p /\ i = index n p /\ group_no g p = Some k).
Proof.
  intros W Hl. apply live_chains in Hl.
  destruct (wf0_chain g (wf_0 n g W) k grp Hl) as (_ & l & R & Hm).
  exists l. split; [apply (wf0_iter dbg g k grp l (wf_0 n g W) R Hm)|]. destruct R as [_ Hh Hla Nd Hn].
  split; [exact Nd|]. split; [exact Hh|]. split; [exact Hla|]. split; [exact Hn|]. split.
  - destruct l; [discriminate|cbn; lia].
  - intros i. rewrite Hm. split.
    + intros Hi. pose proof (wf_on n g W i k Hi) as Hb. exists (pt n i). split; [apply pt_on, Hb|].
      rewrite (group_no_cell n g _ W). change (index n (pt n i)) with (idx n (pt n i)). rewrite idx_pt by exact Hb. split; [reflexivity|exact Hi].
    + intros (p & Hp & -> & H). rewrite (group_no_cell n g _ W) in H. exact H.
Qed.

(** C03 *)
Lemma liberties_api n g p grp : wf n g -> on n p -> group_of g p = Some grp ->
  exists l, group_liberties grp = Ok l /\ StronglySorted lt l /\
    (forall i, i ∈ l <-> exists q, i = index n q /\ liberty n (pos_of g) p q) /\
    number_of_liberties grp = length l /\
    (is_dead grp = true <-> l = []) /\ (is_atari grp = true <-> length l = 1%nat) /\
    (forall q, on n q -> exists v, contains_liberty grp (index n q) = Ok v /\ (v = true <-> liberty n (pos_of g) p q)).
Proof.
  intros W Hp Hg. apply (group_of_at n) in Hg; [|exact W].
  destruct (group_liberties_ok n g p grp W Hp Hg) as (l & E & S & Hn & Hm).
  exists l. split; [exact E|]. split; [exact S|]. split; [exact Hm|]. split; [exact Hn|]. split; [|split].
  - rewrite (group_at_dead n g p grp W Hp Hg). split.
    + intros Hb. destruct l as [|i l]; [reflexivity|]. exfalso. apply Hb.
      destruct (proj1 (Hm i)) as (q & _ & Hq); [left|]. exists q. exact Hq.
    + intros -> (q & Hq). assert (H : idx n q ∈ []) by (apply Hm; eauto). apply elem_of_nil in H as [].
  - unfold is_atari. rewrite Nat.eqb_eq, Hn. reflexivity.
  - intros q Hq. apply (contains_liberty_ok n g p grp q W Hp Hq Hg).
Qed.

(** C04 *)
Lemma group_size_api n g p grp : wf n g -> on n p -> group_of g p = Some grp ->
  card (fun q => on n q /\ connected n (pos_of g) p q) (g_num_stones grp).
Proof.
  intros W Hp Hg. apply (group_of_at n) in Hg; [|exact W].
  destruct (group_component n g p grp W Hp Hg) as (l & Nd & Hl & Hm). exists l. split; [exact Nd|]. split; [exact Hm|exact Hl].
Qed.

(** C05 *)
Lemma zval_key i c : zopt i c = match c with None => 0%N | Some Black => default 0%N (ZOBRIST !! i) | Some White => default 0%N (ZOBRIST !! (361 + i)%nat) end.
Proof. destruct c as [[]|]; [| |reflexivity]; unfold zopt, zval; do 2 f_equal; lia. Qed.

Lemma foldr_zero (f : nat -> option color) l : (forall i, i ∈ l -> f i = None) ->
  foldr (fun i acc => N.lxor (zopt i (f i)) acc) 0%N l = 0%N.
Proof.
  induction l as [|x l IH]; intros H; [reflexivity|]. cbn [foldr]. rewrite IH by (intros i Hi; apply H; right; exact Hi).
  rewrite (H x) by left. reflexivity.
Qed.

Lemma hash_key n g : wf n g -> zobrist_hash g = position_key n (pos_of g).
Proof.
  intros W. rewrite (wf_hash n g W). unfold hash_of, position_key.
  assert (Hn : (n * n <= 361)%nat) by (pose proof (wf_n n g W); nia).
  replace 361%nat with (n * n + (361 - n * n))%nat by lia. rewrite seq_app, foldr_app. rewrite Nat.add_0_l.
  rewrite (foldr_zero (col g) (seq (n * n) _)) by (intros i Hi; apply elem_of_seq in Hi; apply (col_off n g i W); lia).
  rewrite points_seq.
  assert (H : forall l, (forall i, i ∈ l -> (i < n * n)%nat) ->
    foldr (fun i acc => N.lxor (zopt i (col g i)) acc) 0%N l =
    foldr (fun p acc => N.lxor (stone_key n p (pos_of g p)) acc) 0%N (List.map (pt n) l)).
  { induction l as [|i l IH]; intros Hl; [reflexivity|]. cbn [foldr List.map].
    rewrite IH by (intros j Hj; apply Hl; right; exact Hj). f_equal.
    assert (Hi : (i < n * n)%nat) by (apply Hl; left).
    rewrite (pos_of_col n g _ W) by apply pt_on, Hi. rewrite idx_pt by exact Hi. rewrite zval_key. unfold stone_key.
    change (index n (pt n i)) with (idx n (pt n i)). rewrite idx_pt by exact Hi. reflexivity. }
  apply H. intros i Hi. apply elem_of_seq in Hi. lia.
Qed.

Lemma position_key_ext n P Q : same_pos n P Q -> position_key n P = position_key n Q.
Proof.
  intros H. unfold position_key.
  assert (G : forall l, (forall p, p ∈ l -> on n p) ->
    foldr (fun p acc => N.lxor (stone_key n p (P p)) acc) 0%N l = foldr (fun p acc => N.lxor (stone_key n p (Q p)) acc) 0%N l).
  { induction l as [|p l IH]; intros Hl; [reflexivity|]. cbn [foldr].
    rewrite IH by (intros j Hj; apply Hl; right; exact Hj). rewrite (H p) by (apply Hl; left). reflexivity. }
  apply G. intros p. apply elem_of_points.
Qed.

(** C06 *)
Lemma eq_api n a b : wf n a -> wf n b ->
  exists v, goban_eq a b = Ok v /\ (v = true <-> same_pos n (pos_of a) (pos_of b)) /\
            (v = true -> goban_hash a = goban_hash b).
Proof.
  intros Wa Wb. destruct (goban_eq_spec n a b Wa Wb) as (v & E & Hv). exists v. split; [exact E|]. split; [exact Hv|].
  intros H. unfold goban_hash. rewrite (hash_key n a Wa), (hash_key n b Wb). apply position_key_ext, Hv, H.
Qed.

(** the position determines the groups *)
Lemma bits_list l l' : bits_ok l -> bits_ok l' -> (forall i, lbit l i = lbit l' i) -> lib_iter_ones l = lib_iter_ones l'.
Proof.
  intros H H' E. rewrite !lib_iter_ones_spec by assumption. f_equal. unfold lib_list. apply List.filter_ext. exact E.
Qed.

Lemma same_pos_groups n a b : wf n a -> wf n b -> same_pos n (pos_of a) (pos_of b) -> same_groups n a b.
Proof.
  intros Wa Wb H. pose proof (same_pos_sym n _ _ H) as H'.
  assert (Hng : forall a b, wf n a -> wf n b -> same_pos n (pos_of a) (pos_of b) -> forall p q, on n p -> on n q ->
            group_no a p = group_no a q -> group_no b p = group_no b q).
  { clear. intros a b Wa Wb H p q Hp Hq Hg. destruct (pos_of a p) as [c|] eqn:Ep.
    - apply (same_group n b p q Wb Hp Hq); [rewrite <- (H p Hp); congruence|].
      apply (connected_ext n (pos_of a)); [exact H|]. apply (same_group n a p q Wa Hp Hq); [congruence|exact Hg].
    - destruct (pos_of a q) as [c|] eqn:Eq.
      + exfalso. assert (Hs : pos_of a q <> None) by congruence. apply (group_no_some n a q Wa Hq) in Hs as (k & Hk).
        assert (Hs : pos_of a p <> None) by (apply (group_no_some n a p Wa Hp); exists k; congruence). congruence.
      + assert (Hx : forall r, on n r -> pos_of a r = None -> group_no b r = None).
        { intros r Hr E. destruct (group_no b r) as [k|] eqn:Ek; [|reflexivity]. exfalso.
          assert (Hs : pos_of b r <> None) by (apply (group_no_some n b r Wb Hr); eauto). rewrite <- (H r Hr) in Hs. congruence. }
        rewrite (Hx p Hp Ep), (Hx q Hq Eq). reflexivity. }
  split; [intros p q Hp Hq; split; [apply Hng|apply Hng]; assumption|].
  intros p Hp.
  assert (Hex : forall a, wf n a -> forall p, on n p -> pos_of a p <> None <-> exists grp, group_of a p = Some grp).
  { clear. intros a Wa p Hp. split.
    - intros H. destruct (group_at_ex n a p Wa Hp H) as (grp & Hg). exists grp. apply (group_of_at n); assumption.
    - intros (grp & Hg). apply (group_of_at n) in Hg; [|exact Wa]. apply (group_at_stone n a p grp Wa Hp Hg). }
  destruct (group_of a p) as [ga|] eqn:Ea, (group_of b p) as [gb|] eqn:Eb; [| | |exact I].
  - apply (group_of_at n) in Ea; [|exact Wa]. apply (group_of_at n) in Eb; [|exact Wb]. split; [|split].
    + pose proof (group_at_color n a p ga Wa Hp Ea) as C1. pose proof (group_at_color n b p gb Wb Hp Eb) as C2.
      rewrite (H p Hp) in C1. congruence.
    + destruct (group_component n a p ga Wa Hp Ea) as (l1 & N1 & L1 & M1).
      destruct (group_component n b p gb Wb Hp Eb) as (l2 & N2 & L2 & M2). rewrite <- L1, <- L2.
      apply Permutation_length, NoDup_Permutation; [exact N1|exact N2|]. intros x. rewrite M1, M2.
      split; intros [Hx Hc]; (split; [exact Hx|]); (eapply connected_ext; [|exact Hc]); assumption.
    + unfold group_liberties. apply bits_list; [apply (group_bits n a p ga Wa Ea)|apply (group_bits n b p gb Wb Eb)|].
      intros i. destruct Ea as (ka & Ka & La). destruct Eb as (kb & Kb & Lb).
      assert (Hiff : lbit (g_liberties ga) i = true <-> lbit (g_liberties gb) i = true).
      { split; intros Hi.
        - pose proof (lbit_on n a ka ga i Wa La Hi) as Hb. rewrite <- (idx_pt n i Hb) in Hi |- *.
          assert (L : liberty n (pos_of a) p (pt n i)) by (apply (liberty_lbit n a p ka ga _ Wa Hp Ka La); split; [apply pt_on, Hb|exact Hi]).
          apply (liberty_ext n _ (pos_of b)) in L; [|exact H]. apply (liberty_lbit n b p kb gb _ Wb Hp Kb Lb) in L. apply L.
        - pose proof (lbit_on n b kb gb i Wb Lb Hi) as Hb. rewrite <- (idx_pt n i Hb) in Hi |- *.
          assert (L : liberty n (pos_of b) p (pt n i)) by (apply (liberty_lbit n b p kb gb _ Wb Hp Kb Lb); split; [apply pt_on, Hb|exact Hi]).
          apply (liberty_ext n _ (pos_of a)) in L; [|exact H']. apply (liberty_lbit n a p ka ga _ Wa Hp Ka La) in L. apply L. }
      destruct (lbit (g_liberties ga) i), (lbit (g_liberties gb) i); try reflexivity; [symmetry|]; apply Hiff; reflexivity.
  - exfalso. assert (Hs : pos_of a p <> None) by (apply (Hex a Wa p Hp); eauto). rewrite (H p Hp) in Hs.
    apply (Hex b Wb p Hp) in Hs as (x & Hx). congruence.
  - exfalso. assert (Hs : pos_of b p <> None) by (apply (Hex b Wb p Hp); eauto). rewrite <- (H p Hp) in Hs.
    apply (Hex a Wa p Hp) in Hs as (x & Hx). congruence.
Qed.

(** C29 *)
Lemma find_perm (l l' : list stone) p : l ≡ₚ l' -> NoDup l.*1 ->
  List.find (fun s => coord_eqb (fst s) p) l = List.find (fun s => coord_eqb (fst s) p) l'.
Proof.
  intros HP Nd.
  assert (Key : forall (l : list stone), NoDup l.*1 -> forall s, List.find (fun s => coord_eqb (fst s) p) l = Some s <-> s ∈ l /\ fst s = p).
  { clear. intros l Nd s. split.
    - intros H. apply List.find_some in H as [Hin He]. apply coord_eqb_eq in He. split; [apply elem_of_list_In, Hin|exact He].
    - induction l as [|x l IH]; intros [Hin He]; [apply elem_of_nil in Hin as []|]. cbn [List.find].
      rewrite fmap_cons in Nd. apply NoDup_cons in Nd as [Hx Nd]. apply elem_of_cons in Hin as [->|Hin].
      + rewrite (proj2 (coord_eqb_eq (fst x) p) He). reflexivity.
      + destruct (coord_eqb (fst x) p) eqn:E; [|apply IH; [exact Nd|split; assumption]].
        exfalso. apply coord_eqb_eq in E. apply Hx. rewrite E, <- He. apply elem_of_list_fmap. eauto. }
  assert (Nd' : NoDup l'.*1) by (rewrite <- HP; exact Nd).
  set (f := fun s : coord * color => coord_eqb (fst s) p). fold f in Key.
  destruct (List.find f l) as [s|] eqn:E1, (List.find f l') as [s'|] eqn:E2; [| | |reflexivity].
  - apply (Key l Nd) in E1 as [H1 H2]. rewrite HP in H1. symmetry. rewrite <- E2. apply (Key l' Nd'). split; assumption.
  - apply (Key l Nd) in E1 as [H1 H2]. rewrite HP in H1. assert (E3 := proj2 (Key l' Nd' s) (conj H1 H2)). congruence.
  - apply (Key l' Nd') in E2 as [H1 H2]. rewrite <- HP in H1. assert (E3 := proj2 (Key l Nd s') (conj H1 H2)). congruence.
Qed.

Lemma push_order dbg n g l l' m : breach dbg n m g -> l ≡ₚ l' -> NoDup l.*1 ->
  (forall s, s ∈ l -> on n (fst s) /\ pos_of g (fst s) = None) -> (N.of_nat (m + length l) <= 65535)%N ->
  exists a b,
    foldM (fun g s => push_stone dbg g s) l g = Ok a /\ foldM (fun g s => push_stone dbg g s) l' g = Ok b /\
    (forall p c, on n p -> pos_of a p = Some c <-> (p, c) ∈ l \/ pos_of g p = Some c) /\
    goban_eq a b = Ok true /\ zobrist_hash a = zobrist_hash b /\ same_groups n a b.
Proof.
  intros B HP Nd Hl Hm. apply breach_inv in B as [W Hc].
  assert (Nd' : NoDup l'.*1) by (rewrite <- HP; exact Nd).
  assert (Hl' : forall s, s ∈ l' -> on n (fst s) /\ pos_of g (fst s) = None) by (intros s Hs; apply Hl; rewrite HP; exact Hs).
  assert (Hlen : length l = length l') by (apply Permutation_length, HP).
  destruct (push_list_wf dbg n l g W Nd Hl) as [[_ F]|(a & Ea & Wa & Pa & _)]; [unfold stone in *; lia|].
  destruct (push_list_wf dbg n l' g W Nd' Hl') as [[_ F]|(b & Eb & Wb & Pb & _)]; [unfold stone in *; lia|].
  exists a, b. split; [exact Ea|]. split; [exact Eb|].
  assert (Hs : same_pos n (pos_of a) (pos_of b)).
  { intros p Hp. rewrite (Pa p Hp), (Pb p Hp), (find_perm l l' p HP Nd). reflexivity. }
  split; [|split; [|split]].
  - intros p c Hp. rewrite (Pa p Hp). match goal with |- context [List.find ?f l] => destruct (List.find f l) as [s|] eqn:E end.
    + apply List.find_some in E as [Hin He]. apply coord_eqb_eq in He. apply elem_of_list_In in Hin.
      destruct (Hl s Hin) as [_ Hn]. rewrite He in Hn. split.
      * intros [= <-]. left. rewrite <- He. destruct s; exact Hin.
      * intros [Hin'|H]; [|congruence]. f_equal.
        assert (Hu : forall (l : list stone), NoDup l.*1 -> forall x y, x ∈ l -> y ∈ l -> fst x = fst y -> x = y).
        { clear. intros l Nd. induction l as [|z l IH]; intros x y Hx Hy Hf; [apply elem_of_nil in Hx as []|].
          rewrite fmap_cons in Nd. apply NoDup_cons in Nd as [Hz Nd].
          apply elem_of_cons in Hx as [->|Hx]; apply elem_of_cons in Hy as [->|Hy]; [reflexivity| | |].
          - exfalso. apply Hz. rewrite Hf. apply elem_of_list_fmap. eauto.
          - exfalso. apply Hz. rewrite <- Hf. apply elem_of_list_fmap. eauto.
          - apply IH; assumption. }
        rewrite (Hu l Nd s (p, c) Hin Hin' He). reflexivity.
    + split; [tauto|]. intros [Hin|H]; [|exact H]. exfalso.
      pose proof (List.find_none _ _ E (p, c) (proj1 (elem_of_list_In _ _) Hin)) as F. cbn in F.
      assert (coord_eqb p p = true) by (apply coord_eqb_eq; reflexivity). congruence.
  - destruct (goban_eq_spec n a b Wa Wb) as (v & Ev & Hv). rewrite Ev. f_equal. apply Hv, Hs.
  - rewrite (hash_key n a Wa), (hash_key n b Wb). apply position_key_ext, Hs.
  - apply same_pos_groups; assumption.
Qed.

(** C30 *)
Lemma remove_api dbg n g k grp : wf n g -> chains g !! k = Some (Some grp) ->
  exists g', remove_chain dbg g k = Ok g' /\
    (forall p, on n p -> group_no g p = Some k -> pos_of g' p = None /\ group_no g' p = None) /\
    (forall p, on n p -> group_no g p <> Some k -> pos_of g' p = pos_of g p /\ group_no g' p = group_no g p) /\
    chains g' !! k = Some None /\ length (chains g') = length (chains g) /\
    (forall k' grp', k' <> k -> chains g !! k' = Some (Some grp') -> exists grp'' l l',
       chains g' !! k' = Some (Some grp'') /\ g_color grp'' = g_color grp' /\ g_num_stones grp'' = g_num_stones grp' /\
       group_liberties grp' = Ok l /\ group_liberties grp'' = Ok l' /\
       forall i, i ∈ l' <-> i ∈ l \/ exists p q, on n p /\ on n q /\ i = index n p /\
                                     group_no g p = Some k /\ group_no g q = Some k' /\ adj p q) /\
    (forall k', k' <> k -> (chains g !! k' = Some None <-> chains g' !! k' = Some None)).
Proof.
  intros W Hl. apply live_chains in Hl.
  destruct (remove_chain_spec dbg n g k grp W Hl) as (g' & E & W' & Hlen & Hcell & Hcol & Hk & Hno & Hsame).
  exists g'. split; [exact E|]. split; [|split; [|split; [|split; [|split]]]].
  - intros p Hp Hg. rewrite (group_no_cell n g p W) in Hg. rewrite (group_no_cell n g' p W'), Hcell, (pos_of_col n g' p W' Hp), Hcol.
    rewrite !decide_True by exact Hg. split; reflexivity.
  - intros p Hp Hg. rewrite (group_no_cell n g p W) in Hg |- *. rewrite (group_no_cell n g' p W'), Hcell, (pos_of_col n g' p W' Hp), Hcol, (pos_of_col n g p W Hp).
    rewrite !decide_False by exact Hg. split; reflexivity.
  - unfold live in Hk. pose proof (live_lt g k grp Hl) as Hlt. rewrite <- Hlen in Hlt.
    destruct (lookup_lt_is_Some_2 _ _ Hlt) as [o Ho]. rewrite Ho in Hk |- *. cbn in Hk. rewrite Hk. reflexivity.
  - exact Hlen.
  - intros k' grp' Hkk Hl'. apply live_chains in Hl'. destruct (Hsame k' grp' Hkk Hl') as (grp'' & Hl'' & Hshape).
    assert (B1 : bits_ok (g_liberties grp')) by apply (wf0_chain g (wf_0 n g W) k' grp' Hl').
    assert (B2 : bits_ok (g_liberties grp'')) by apply (wf0_chain g' (wf_0 n g' W') k' grp'' Hl'').
    exists grp'', (lib_list (g_liberties grp')), (lib_list (g_liberties grp'')).
    split; [apply live_chains, Hl''|]. split; [symmetry; apply Hshape|]. split; [symmetry; apply Hshape|].
    split; [apply lib_iter_ones_spec, B1|]. split; [apply lib_iter_ones_spec, B2|].
    intros i. rewrite !elem_of_lib_list by assumption. rewrite (wf_lib n g' W' k' grp'' i Hl''), (wf_lib n g W k' grp' i Hl').
    assert (Hx : forall x, cell g' x = Some k' <-> cell g x = Some k').
    { intros x. rewrite Hcell. destruct (decide (cell g x = Some k)) as [Ex|Ex]; [|tauto]. rewrite Ex. split; congruence. }
    rewrite Hcell. destruct (decide (cell g i = Some k)) as [Ei|Ei].
    + pose proof (wf_on n g W i k Ei) as Hb. split.
      * intros (_ & x & Hcx & Hi). right. apply Hx in Hcx. pose proof (wf_on n g W x k' Hcx) as Hbx.
        exists (pt n i), (pt n x). rewrite !(group_no_cell n g) by exact W. change (index n (pt n i)) with (idx n (pt n i)).
        rewrite !idx_pt by assumption. split; [apply pt_on, Hb|]. split; [apply pt_on, Hbx|]. split; [reflexivity|]. split; [exact Ei|]. split; [exact Hcx|].
        apply adj_sym. apply (adj_nb n); [apply pt_on, Hbx|apply pt_on, Hb|]. rewrite !idx_pt by assumption. exact Hi.
      * intros [[F _]|(p & q & Hp & Hq & -> & _ & Gq & Ha)]; [congruence|]. split; [reflexivity|].
        rewrite (group_no_cell n g q W) in Gq. exists (idx n q). split; [apply Hx, Gq|]. apply (adj_nb n q p Hq Hp), adj_sym, Ha.
    + split.
      * intros (Hn & x & Hcx & Hi). left. split; [exact Hn|]. exists x. split; [apply Hx, Hcx|exact Hi].
      * intros [(Hn & x & Hcx & Hi)|(p & q & Hp & Hq & -> & Gp & _)].
        -- split; [exact Hn|]. exists x. split; [apply Hx, Hcx|exact Hi].
        -- rewrite (group_no_cell n g p W) in Gp. exfalso. apply Ei. exact Gp.
  - intros k' Hkk. split; intros H.
    + assert (L : live g k' = None) by (unfold live; rewrite H; reflexivity). apply Hno in L. unfold live in L.
      apply lookup_lt_Some in H. rewrite <- Hlen in H. destruct (lookup_lt_is_Some_2 _ _ H) as [o Ho]. rewrite Ho in L |- *. cbn in L. rewrite L. reflexivity.
    + assert (Hlt : (k' < length (chains g))%nat) by (rewrite <- Hlen; eapply lookup_lt_Some, H).
      destruct (lookup_lt_is_Some_2 _ _ Hlt) as [[grp'|] Ho]; [|exact Ho]. exfalso.
      apply live_chains in Ho. destruct (Hsame k' grp' Hkk Ho) as (x & Hx & _). apply live_chains in Hx. congruence.
Qed.
