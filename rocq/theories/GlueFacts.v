(** The small functions, and what a new game shows. *)
From stdpp Require Import relations sorting.
From Verif Require Import Spec Observe Ops ScoreSpec VerdictSpec BuildSpec Samples Glue.
From Verif Require Import MonadFacts CoordFacts Struct Push Inv Bridge GameFacts RulesFacts BoardFacts AgreeFacts EyeFacts EyeExact TerritoryFacts ClaimFacts VerdictFacts CaseFacts TableClaims.
From Coq Require Import Lia String.

Local Notation length := Datatypes.length.
Open Scope nat_scope.

(** ** Conversions *)

Theorem conversions : (forall x, color_of_maybe x = Panic <-> x = None) /\ (forall x c, color_of_maybe x = Ok c <-> x = Some c) /\
  (forall p s, stone_of_point p = inl s <-> p = (fst s, Some (snd s))) /\ (forall p e, stone_of_point p = inr e -> snd p = None) /\
  (forall c d, color_name c = color_name d -> c = d) /\ (forall p, exists x y, move_of_coord p = MPlay x y /\ p = (x, y)).
Proof.
  split; [intros [c|]; cbn; split; congruence|]. split; [intros [d|] c; cbn; split; congruence|].
  split. { intros [p [c|]] [q d]; unfold stone_of_point; cbn; split; intros H; [injection H as <- <-; reflexivity|injection H as <- <-; reflexivity|discriminate H|discriminate H]. }
  split. { intros [p [c|]] e; unfold stone_of_point; cbn; congruence. }
  split; [intros [] []; cbn; congruence|]. intros [x y]. exists x, y. split; reflexivity.
Qed.

(** ** Indices and coordinates *)

Theorem index_variants dbg n m g p : breach dbg n m g -> on n p ->
  into_coord_idx (gsize g) (fst p * n + snd p) = Ok p /\ into_idx_coord (gsize g) p = fst p * n + snd p /\
  get_color_idx g (fst p * n + snd p) = Ok (pos_of g p) /\ get_color g p = Ok (pos_of g p) /\
  exists l, get_connected_stones_idx dbg g (fst p * n + snd p) = Ok l /\ get_connected_stones dbg g p = Ok l /\ NoDup l.*1 /\
    forall q c, (q, c) ∈ l <-> on n q /\ adj p q /\ pos_of g q = Some c.
Proof.
  intros B Hp. pose proof (breach_wf dbg n m g B) as W. pose proof (wf_n n g W) as Hn. pose proof (wf_size n g W) as Sz. rewrite Sz.
  destruct p as [r c]. destruct Hp as [Hr Hc]. cbn [fst snd] in *.
  assert (E1 : into_coord_idx (n, n) (r * n + c) = Ok (r, c)).
  { unfold into_coord_idx. rewrite one_to_2dim_sq by (try apply idx_bound; lia). destruct (divmod_idx n r c Hc) as [-> ->]. reflexivity. }
  assert (E2 : get_color g (r, c) = Ok (pos_of g (r, c))) by (apply (get_color_pos n g (r, c) W); split; assumption).
  split; [exact E1|]. split; [apply two_idx|]. split.
  { unfold get_color in E2. rewrite Sz, two_idx in E2. exact E2. }
  split; [exact E2|]. destruct (claim_point_queries dbg n m g (r, c) B (conj Hr Hc)) as (_ & (l & El & Nd & Hl) & _).
  exists l. split; [unfold get_connected_stones_idx; rewrite Sz, E1; exact El|]. auto.
Qed.

(** ** New games *)

(** the only point of the smallest board has no neighbour *)
Lemma one_point n p q : n = 1 -> on n p -> on n q -> ~ adj p q.
Proof. destruct p, q. unfold on, adj. cbn. lia. Qed.
Lemma some_neighbour n p : 2 <= n -> on n p -> exists q, on n q /\ adj p q.
Proof.
  destruct p as [r c]. intros Hn [Hr Hc]. cbn in *. destruct r as [|r].
  - exists (1, c). unfold on, adj. cbn. lia.
  - exists (r, c). unfold on, adj. cbn. lia.
Qed.

Section Empty.
  Context (n : nat) (P : pos) (p : coord) (c : color).
  Hypothesis Hp : on n p.
  Hypothesis E : forall q, on n q -> P q = None.

  Lemma empty_taken q : ~ taken n (put P p c) p c q.
  Proof using Hp E.
    intros (t & Ht & A & B & _). unfold put in B. destruct (decide (t = p)) as [->|]; [|rewrite (E t Ht) in B; discriminate].
    injection B as B. destruct c; discriminate.
  Qed.

  Lemma empty_suicidal : suicidal n P p c <-> n = 1.
  Proof using Hp E.
    split.
    - intros (Q & C & D). destruct (decide (2 <= n)) as [Hn|Hn]; [|destruct Hp; lia]. destruct D.
      destruct (some_neighbour n p Hn Hp) as (q & Hq & A). exists q. split; [exact Hq|]. split.
      + destruct (C q Hq) as [_ Cq]. rewrite (Cq (empty_taken q)). unfold put. destruct (decide (q = p)) as [->|]; [|apply E, Hq].
        destruct p. unfold adj in A. cbn in A. lia.
      + exists p. split; [apply rtc_refl|exact A].
    - intros En. exists (put P p c). split; [intros q Hq; split; [intros D; destruct (empty_taken q D)|reflexivity]|].
      intros (l & Hl & Hn & q & Hc & A). assert (Hq : on n q) by (destruct (rtc_inv_r _ _ Hc) as [<-|(y & _ & S)]; [exact Hp|apply S]).
      exact (one_point n q l En Hq Hl A).
  Qed.

  Lemma empty_eye : eye_shape n P c p <-> n = 1.
  Proof using Hp E.
    split.
    - intros (_ & A & _). destruct (decide (2 <= n)) as [Hn|Hn]; [|destruct Hp; lia].
      destruct (some_neighbour n p Hn Hp) as (q & Hq & Hpq). specialize (A q Hq Hpq). rewrite (E q Hq) in A. discriminate.
    - intros En. split; [apply E, Hp|]. split; [intros q Hq A; destruct (one_point n p q En Hp Hq A)|]. left.
      exists directions. split; [exact NoDup_directions|]. split; [reflexivity|]. intros d. split; [|tauto]. intros Hd. split; [exact Hd|].
      intros q Hq [C1 C2]. unfold on in *. destruct p, q. cbn [fst snd] in *. unfold directions in Hd.
      repeat (apply elem_of_cons in Hd as [->|Hd]; [cbn [fst snd] in *; lia|]). apply elem_of_nil in Hd. destruct Hd.
  Qed.
End Empty.

Theorem fresh_game order dbg n s r g : 1 <= n -> size_of s = (n, n) -> game_new s r = Ok g ->
  gsize (gm_goban g) = (n, n) /\ (forall p, on n p -> position g p = None) /\ number_of_stones (gm_goban g) = (0, 0) /\
  zobrist_hash (gm_goban g) = 0%N /\ gm_turn g = Black /\ gm_prisoners g = (0%N, 0%N) /\ gm_history g = [] /\ gm_rule g = r /\
  is_over g = false /\ outcome order dbg g = Ok None /\
  exists l, legals dbg g = Ok l /\ StronglySorted row_major l /\
    forall p, p ∈ l <-> on n p /\ ~ (n = 1 /\ (forbids_suicide r = true \/ forbids_fill_eye r = true)).
Proof.
  intros Hn Hs E. pose proof (gr_new dbg n s r g Hn Hs E) as HG. pose proof E as E'. unfold game_new in E'. rewrite Hs in E'.
  destruct (goban_new (n, n)) as [gb| |] eqn:Eb; [|discriminate E'..]. cbn [bind] in E'. injection E' as E'.
  pose proof (new_le n gb Eb) as Hle. destruct (new_wf n ltac:(lia)) as (gb' & Eb' & W & Hc & Hcell). rewrite Eb in Eb'. injection Eb' as <-.
  assert (P0 : forall p, on n p -> position g p = None) by (intros p Hp; subst g; apply (pos_new n gb p W Hcell Hp)).
  assert (Hr : gm_rule g = r) by (subst g; reflexivity).
  split; [subst g; apply (wf_size n gb W)|]. split; [exact P0|].
  split; [subst g; unfold number_of_stones, all_chains, chains_iter; cbn [gm_goban]; rewrite Hc; reflexivity|].
  split. { subst g. cbn [gm_goban]. unfold goban_new in Eb. destruct (assert_ _); [|discriminate Eb..]. cbn [bind] in Eb. injection Eb as <-. reflexivity. }
  repeat (split; [subst g; reflexivity|]). 
  assert (Hslot : ~ no_slot_left g) by (unfold no_slot_left; subst g; cbn [gm_goban]; rewrite Hc; cbn; lia).
  destruct (claim_legals_by dbg n 0 0 g (flag_illegal r) HG Hslot) as (l & El & So & Hl).
  exists l. split; [unfold legals; rewrite Hr; exact El|]. split; [exact So|]. intros p. rewrite Hl.
  assert (T : t_pos (table_of g) = position g) by reflexivity.
  assert (K : t_ko (table_of g) = None) by (subst g; reflexivity). assert (Se : t_seen (table_of g) = []) by (subst g; reflexivity).
  unfold first_reason, point_reasons, forbids_suicide, forbids_fill_eye, no_suicide, no_fill_eye.
  split; intros [Hp H]; (split; [exact Hp|]).
  - rewrite !Forall_cons in H. cbn [snd] in H. destruct H as (_ & H1 & _ & H3 & _).
    intros [-> [F|F]]; [apply H1|apply H3]; (split; [exact F|]); rewrite T.
    + apply (empty_suicidal 1 _ p _ Hp P0). reflexivity.
    + apply (empty_eye 1 _ p _ Hp P0). reflexivity.
  - rewrite !Forall_cons. cbn [snd]. rewrite T. split; [intros F; apply F, P0, Hp|]. split.
    { intros [F S]. apply (empty_suicidal n _ p _ Hp P0) in S. tauto. }
    split; [intros [_ [F _]]; rewrite K in F; discriminate|]. split.
    { intros [F S]. apply (empty_eye n _ p _ Hp P0) in S. tauto. }
    split; [intros [_ [F _]]; rewrite Se in F; cbn in F; lia|apply Forall_nil_2].
Qed.

(** the default game, the game of the default builder and the default board *)
Theorem default_games dbg : exists g gb, game_default = Ok g /\ goban_default = Ok gb /\ build dbg game_builder = (game_builder, Ok g) /\
  game_new Nineteen CHINESE = Ok g /\ gm_goban g = gb /\ gsize gb = (19, 19) /\ forall p, on 19 p -> pos_of gb p = None.
Proof.
  destruct (new_wf 19 ltac:(lia)) as (gb & E & W & _ & Hc).
  assert (En : game_new Nineteen CHINESE = Ok (mkGame gb 0 (0%N, 0%N) None Black CHINESE 0%N [] None)) by (unfold game_new; cbn [size_of]; rewrite E; reflexivity).
  eexists _, gb. split; [exact En|]. split; [exact E|]. split.
  { unfold build, build_inner, game_builder, builder_default. cbn [b_size b_handicap b_handicap_points b_setup b_komi b_rule b_turn b_outcome b_moves]. rewrite E. reflexivity. }
  split; [exact En|]. split; [reflexivity|]. split; [apply (wf_size 19 gb W)|]. intros p Hp. apply (pos_new 19 gb p W Hc Hp).
Qed.

Lemma case_fresh dbg : exists g1 g2 g3,
  game_new (Custom 1 257) CHINESE = Ok g1 /\ legals dbg g1 = Ok [] /\
  game_new (Custom 1 1) FREE = Ok g2 /\ legals dbg g2 = Ok [(0, 0)] /\
  game_new (Custom 2 2) JAPANESE = Ok g3 /\ legals dbg g3 = Ok [(0, 0); (0, 1); (1, 0); (1, 1)].
Proof.
  destruct (game_new (Custom 1 257) CHINESE) as [g1| |] eqn:E1; [|vm_compute in E1; discriminate E1..].
  destruct (game_new (Custom 1 1) FREE) as [g2| |] eqn:E2; [|vm_compute in E2; discriminate E2..].
  destruct (game_new (Custom 2 2) JAPANESE) as [g3| |] eqn:E3; [|vm_compute in E3; discriminate E3..].
  exists g1, g2, g3. split; [reflexivity|].
  split; [vm_compute in E1; injection E1 as <-; destruct dbg; vm_compute; reflexivity|]. split; [reflexivity|].
  split; [vm_compute in E2; injection E2 as <-; destruct dbg; vm_compute; reflexivity|]. split; [reflexivity|].
  vm_compute in E3; injection E3 as <-; destruct dbg; vm_compute; reflexivity.
Qed.

(** ** The regions of several points *)

Definition regions_done (n : nat) (P : pos) (l : list coord) (L : list (list point)) : Prop :=
  NoDup (List.concat L) /\
  Forall (fun R => exists p, p ∈ l /\ forall q c, (q, c) ∈ R <-> c = P p /\ connected n P p q) L.

Lemma regions_from dbg n g l0 l acc : wf n g -> (forall p, p ∈ l0 -> on n p) -> (forall p, p ∈ l -> p ∈ l0) ->
  regions_done n (pos_of g) l0 acc ->
  exists L, foldM (fun acc s =>
           if existsb (fun set => set_contains set s) acc then Ok acc
           else let! grp := get_group_from_point dbg g s in Ok (acc ++ [grp])) (List.map (fun p => (p, pos_of g p)) l) acc = Ok L /\
    regions_done n (pos_of g) l0 L /\ (forall x, x ∈ List.concat acc -> x ∈ List.concat L) /\
    forall p, p ∈ l -> (p, pos_of g p) ∈ List.concat L.
Proof.
  intros W Hon. revert acc. induction l as [|p l IH]; intros acc Hl D.
  - exists acc. split; [reflexivity|]. split; [exact D|]. split; [tauto|]. intros p Hp. apply elem_of_nil in Hp. destruct Hp.
  - cbn [List.map foldM]. assert (Hp0 : p ∈ l0) by (apply Hl; left). pose proof (Hon p Hp0) as Hp.
    assert (Hl' : forall q, q ∈ l -> q ∈ l0) by (intros q Hq; apply Hl; right; exact Hq).
    assert (Hmem : existsb (fun set => set_contains set (p, pos_of g p)) acc = true <-> (p, pos_of g p) ∈ List.concat acc).
    { rewrite existsb_spec. split.
      - intros (s & Hs & Hc). apply set_contains_spec in Hc. apply elem_of_list_In, in_concat. exists s. split; apply elem_of_list_In; assumption.
      - intros H. apply elem_of_list_In, in_concat in H as (s & Hs & Hc). exists s. split; [apply elem_of_list_In, Hs|]. apply set_contains_spec, elem_of_list_In, Hc. }
    destruct (existsb _ acc) eqn:Ee.
    + cbn [bind]. destruct (IH acc Hl' D) as (L & E & H1 & H2 & H3). exists L. split; [exact E|]. split; [exact H1|]. split; [exact H2|].
      intros q Hq. apply elem_of_cons in Hq as [->|Hq]; [|apply H3, Hq]. apply H2, Hmem. reflexivity.
    + destruct (group_from_point_ok dbg n g p W Hp) as (R & ER & NR & HR). rewrite ER. cbn [bind].
      assert (HR' : forall q c, (q, c) ∈ R <-> c = pos_of g p /\ connected n (pos_of g) p q) by (intros q c; rewrite HR; reflexivity).
      destruct D as [Nd HD].
      destruct (IH (acc ++ [R]) Hl') as (L & E & H1 & H2 & H3).
      * split.
        -- rewrite concat_app. cbn [List.concat]. rewrite app_nil_r. apply NoDup_app. split; [exact Nd|]. split; [|exact NR].
           intros [q c] Hx HxR. apply HR' in HxR as [-> Hpq]. enough (H : false = true) by discriminate. apply Hmem.
           apply elem_of_list_In, in_concat in Hx as (s & Hs & Hxs). apply elem_of_list_In, in_concat. exists s. split; [exact Hs|].
           rewrite Forall_forall in HD. destruct (HD s ltac:(apply elem_of_list_In, Hs)) as (p' & _ & Hs'). apply elem_of_list_In, Hs' in Hxs as [H4 H5].
           apply elem_of_list_In, Hs'. split; [exact H4|]. eapply connected_trans; [exact H5|]. apply connected_sym, Hpq.
        -- apply Forall_app. split; [exact HD|]. apply Forall_singleton. exists p. split; [exact Hp0|exact HR'].
      * exists L. split; [exact E|]. split; [exact H1|].
        assert (Happ : forall x, x ∈ List.concat acc \/ x ∈ R -> x ∈ List.concat L).
        { intros x Hx. apply H2. rewrite concat_app. cbn [List.concat]. rewrite app_nil_r. apply elem_of_app, Hx. }
        split; [intros x Hx; apply Happ; tauto|]. intros q Hq. apply elem_of_cons in Hq as [->|Hq]; [|apply H3, Hq].
        apply Happ. right. apply HR'. split; [reflexivity|apply rtc_refl].
Qed.

Theorem claim_regions dbg n m g l : breach dbg n m g -> (forall p, p ∈ l -> on n p) ->
  exists L, get_chains_from_stones dbg g (List.map (fun p => (p, pos_of g p)) l) = Ok L /\ NoDup (List.concat L) /\
    Forall (fun R => exists p, p ∈ l /\ forall q c, (q, c) ∈ R <-> c = pos_of g p /\ connected n (pos_of g) p q) L /\
    forall p, p ∈ l -> (p, pos_of g p) ∈ List.concat L.
Proof.
  intros B Hl. apply breach_wf in B. destruct (regions_from dbg n g l l [] B Hl ltac:(tauto)) as (L & E & [H1 H2] & _ & H3); [split; constructor|].
  exists L. auto.
Qed.

Lemma case_regions dbg : exists m g, breach dbg 9 m g /\ (forall p, p ∈ [(1, 2); (1, 1); (2, 2); (0, 0)] -> on 9 p) /\
  pos_of g (1, 2) = Some Black /\ pos_of g (1, 1) = None /\ pos_of g (2, 2) = Some White /\ ~ connected 9 (pos_of g) (1, 2) (2, 2).
Proof.
  destruct (case_board dbg) as (m & g & B & _ & H). exists m, g. split; [exact B|]. split; [|exact H].
  intros p Hp. rewrite !elem_of_cons, elem_of_nil in Hp. destruct Hp as [->|[->|[->|[->|[]]]]]; on_.
Qed.

(** ** The setters of the builder *)

Lemma last_of_snoc {A} (f : setting -> option A) l x : last_of f (l ++ [x]) = match f x with Some a => Some a | None => last_of f l end.
Proof.
  unfold last_of. rewrite omap_app. cbn. destruct (f x); [rewrite last_snoc; reflexivity|rewrite app_nil_r; reflexivity].
Qed.

Theorem setters l : said_everything (fold_left set_to l game_builder) l.
Proof.
  induction l as [|x l IH] using rev_ind; [repeat split|]. rewrite fold_left_app. cbn [fold_left]. revert IH. generalize (fold_left set_to l game_builder).
  intros b (H1 & H2 & H3 & H4 & H5 & H6 & H7 & H8 & H9). unfold said_everything. rewrite !last_of_snoc, omap_app.
  destruct x; cbn; rewrite ?app_nil_r; repeat split; congruence.
Qed.
