(** Counting lines of play. *)
From stdpp Require Import relations sorting.
From Verif Require Import BenchSpec AreaSpec SymSpec.
From Verif Require Import MonadFacts Struct Push Inv Bridge GameFacts LegalFacts LegalsFacts ClaimFacts PropFacts RulesFacts VerdictFacts TableFacts SymFacts SymGame LongFacts CaseFacts.
From Coq Require Import Lia.

Local Notation length := Datatypes.length.

Definition stones_on (ms : list coord) : list move := List.map (fun p : coord => MPlay (fst p) (snd p)) ms.

(** the lists of [d] points that are accepted one after the other *)
Definition goes (dbg : bool) (n : nat) (g : game) (d : nat) (ms : list coord) : Prop :=
  length ms = d /\ (forall p, p ∈ ms -> on n p) /\ exists g', all_accepted dbg g (stones_on ms) g'.

(** the sum over the legal moves, for a starting value that is [s] up to wrapping *)
Lemma sum_children dbg (f : coord -> res N) (k : coord -> N) l : (forall p, p ∈ l -> f p = as_u64 dbg (k p)) -> forall s s0,
  as_u64 dbg s = Ok s0 ->
  foldM (fun s p => let! x := f p in u64_add dbg s x) l s0 = as_u64 dbg (s + foldr (fun p a => k p + a)%N 0%N l).
Proof.
  induction l as [|p l IH]; intros Hf s s0 Hs; cbn [foldM foldr].
  - rewrite N.add_0_r. symmetry. exact Hs.
  - rewrite (Hf p) by left. rewrite N.add_assoc.
    assert (H1 : (let! x := as_u64 dbg (k p) in u64_add dbg s0 x) = as_u64 dbg (s + k p)).
    { unfold as_u64 in *. destruct (N.ltb_spec s (2 ^ 64)) as [H1|H1].
      - injection Hs as <-. destruct (N.ltb_spec (k p) (2 ^ 64)) as [H2|H2]; cbn [bind].
        + unfold u64_add. reflexivity.
        + destruct (N.ltb_spec (s + k p) (2 ^ 64)) as [H3|H3]; [lia|]. destruct dbg; cbn [bind]; [reflexivity|].
          unfold u64_add. destruct (N.ltb_spec (s + k p mod 2 ^ 64) (2 ^ 64)) as [H4|H4]; f_equal.
          * rewrite <- (N.mod_small _ _ H4). apply N.add_mod_idemp_r. discriminate.
          * apply N.add_mod_idemp_r. discriminate.
      - destruct dbg; [discriminate Hs|]. injection Hs as <-. destruct (N.ltb_spec (s + k p) (2 ^ 64)) as [H3|H3]; [lia|].
        assert (H5 : forall y, y = (k p mod 2 ^ 64)%N -> u64_add false (s mod 2 ^ 64) y = Ok ((s + k p) mod 2 ^ 64)%N).
        { intros y ->. unfold u64_add. destruct (N.ltb_spec (s mod 2 ^ 64 + k p mod 2 ^ 64) (2 ^ 64)) as [H4|H4]; f_equal.
          - rewrite <- (N.mod_small _ _ H4). rewrite N.add_mod_idemp_l, N.add_mod_idemp_r by discriminate. reflexivity.
          - rewrite N.add_mod_idemp_l, N.add_mod_idemp_r by discriminate. reflexivity. }
        destruct (N.ltb_spec (k p) (2 ^ 64)) as [H2|H2]; cbn [bind]; apply H5; [symmetry; apply N.mod_small, H2|reflexivity]. }
    rewrite H1. clear H1. destruct (as_u64 dbg (s + k p)) as [s1| |] eqn:E1; cbn [bind].
    + apply IH; [intros q Hq; apply Hf; right; exact Hq|exact E1].
    + unfold as_u64 in *. destruct (N.ltb_spec (s + k p) (2 ^ 64)) as [H|H]; [discriminate E1|]. destruct dbg; [|discriminate E1].
      destruct (N.ltb_spec (s + k p + foldr (fun p a => k p + a)%N 0%N l) (2 ^ 64)); [lia|reflexivity].
    + unfold as_u64 in E1. destruct (s + k p <? 2 ^ 64)%N; [discriminate E1|]. destruct dbg; discriminate E1.
Qed.

Lemma foldM_ext {A S} (f f' : S -> A -> res S) l : (forall s p, p ∈ l -> f s p = f' s p) -> forall s, foldM f l s = foldM f' l s.
Proof.
  induction l as [|p l IH]; intros H s; cbn [foldM]; [reflexivity|]. rewrite (H s p) by left. destruct (f' s p); cbn [bind]; try reflexivity.
  apply IH. intros. apply H. right. assumption.
Qed.

(** gathering the lines of the children *)
Lemma gather (l : list coord) (D : coord -> list coord -> Prop) : NoDup l ->
  (forall p, p ∈ l -> exists ls, NoDup ls /\ forall ms, ms ∈ ls <-> D p ms) ->
  exists ls (k : coord -> N), NoDup ls /\ (forall p, p ∈ l -> number_of (D p) (k p)) /\
    (forall ms, ms ∈ ls <-> exists p t, ms = p :: t /\ p ∈ l /\ D p t) /\
    N.of_nat (length ls) = foldr (fun p a => k p + a)%N 0%N l.
Proof.
  induction l as [|p l IH]; intros ND H.
  - exists [], (fun _ => 0%N). split; [apply NoDup_nil_2|]. split; [intros p Hp; inversion Hp|]. split; [|reflexivity].
    intros ms. split; [intros Hm; inversion Hm|intros (p & t & _ & Hp & _); inversion Hp].
  - apply NoDup_cons in ND as [Hn ND].
    destruct (IH ND) as (ls & k & N1 & K & M & L); [intros q Hq; apply H; right; exact Hq|].
    destruct (H p) as (lp & Np & Mp); [left|].
    exists (List.map (cons p) lp ++ ls), (fun q => if decide (q = p) then N.of_nat (length lp) else k q).
    split; [|split; [|split]].
    + apply NoDup_app. split; [apply (NoDup_fmap_2 (cons p)); exact Np|]. split; [|exact N1].
      intros ms Hm1 Hm2. apply elem_of_list_In, in_map_iff in Hm1 as (t & <- & _). apply M in Hm2 as (q & t' & E & Hq & _).
      injection E as -> ->. contradiction.
    + intros q Hq. destruct (decide (q = p)) as [->|Hne].
      * exists lp. auto.
      * apply K. apply elem_of_cons in Hq as [->|Hq]; [contradiction|exact Hq].
    + intros ms. rewrite elem_of_app, M. split.
      * intros [Hm|(q & t & E & Hq & Hd)].
        -- apply elem_of_list_In, in_map_iff in Hm as (t & <- & Ht). apply elem_of_list_In, Mp in Ht. exists p, t. split; [reflexivity|]. split; [left|exact Ht].
        -- exists q, t. split; [exact E|]. split; [right; exact Hq|exact Hd].
      * intros (q & t & -> & Hq & Hd). apply elem_of_cons in Hq as [->|Hq]; [left|right; eauto].
        apply elem_of_list_In, in_map_iff. exists t. split; [reflexivity|]. apply elem_of_list_In, Mp, Hd.
    + cbn [foldr]. rewrite decide_True by reflexivity. rewrite app_length, map_length, Nat2N.inj_add, L. f_equal.
      clear -Hn. induction l as [|q l IH]; cbn [foldr]; [reflexivity|]. rewrite decide_False by (intros ->; apply Hn; left).
      rewrite IH; [reflexivity|]. intros Hp. apply Hn. right. exact Hp.
Qed.

Lemma number_unique {A} (D : list A -> Prop) k k' : number_of D k -> number_of D k' -> k = k'.
Proof.
  intros (l & N1 & M1 & <-) (l' & N2 & M2 & <-). f_equal. apply Permutation_length, NoDup_Permutation; [exact N1|exact N2|].
  intros ms. rewrite M1, M2. reflexivity.
Qed.

Lemma number_ext {A} (D D' : list A -> Prop) k : (forall ms, D ms <-> D' ms) -> number_of D k -> number_of D' k.
Proof. intros H (l & N1 & M1 & E). exists l. split; [exact N1|]. split; [|exact E]. intros ms. rewrite M1. apply H. Qed.

Theorem perft_goes dbg n d : forall b w g, greach dbg n b w g -> gm_passes g <> 2%nat -> (N.of_nat (b + w + d) <= 65535)%N ->
  exists k, number_of (goes dbg n g d) k /\ perft dbg g d = as_u64 dbg k.
Proof.
  induction d as [|d IH]; intros b w g HG HP HB.
  - exists 1%N. split; [|reflexivity]. exists [[]]. split; [apply NoDup_singleton|]. split; [|reflexivity].
    intros ms. rewrite elem_of_list_singleton. split.
    + intros ->. split; [reflexivity|]. split; [intros p Hp; inversion Hp|]. exists g. reflexivity.
    + intros (E & _). destruct ms; [reflexivity|discriminate E].
  - assert (HS : ~ no_slot_left g) by (apply (few_stones dbg n b w g HG); lia).
    destruct (claim_legals dbg n b w g HG HS HP) as (l & El & NDl & Ml & _).
    assert (Hch : forall p, p ∈ l -> on n p /\ exists g' b' w', play dbg g (MPlay (fst p) (snd p)) = Ok g' /\ try_play dbg g (MPlay (fst p) (snd p)) = Ok (g', Accepted) /\
      greach dbg n b' w' g' /\ gm_passes g' <> 2%nat /\ (b' + w' = S (b + w))%nat).
    { intros [x y] Hp. apply Ml in Hp as [Hon (g' & Et)]. split; [exact Hon|]. cbn [fst snd].
      pose proof (greach_inv _ _ _ _ _ HG) as G.
      destruct (accepted_empty dbg n g x y g' (gi_wf _ _ _ _ G) (gi_hist _ _ _ _ G) Hon Et) as (He & _ & _ & Ep).
      destruct (stone_sim dbg n b w g x y HG Hon He ltac:(lia)) as (g2 & Ep2 & _ & St & HG2). rewrite Ep in Ep2. injection Ep2 as <-.
      eexists g', _, _. split; [exact Ep|]. split; [exact Et|]. split; [exact HG2|]. split; [|apply bump_total].
      pose proof (ss_passes _ _ _ _ _ St) as E. cbn in E. rewrite E. discriminate. }
    set (D := fun p ms => exists g', try_play dbg g (MPlay (fst p) (snd p)) = Ok (g', Accepted) /\ goes dbg n g' d ms).
    assert (HD : forall ms, goes dbg n g (S d) ms <-> exists p t, ms = p :: t /\ p ∈ l /\ D p t).
    { intros ms. split.
      - intros (E & Hon & g' & Ha). destruct ms as [|p t]; [discriminate E|]. cbn in E. injection E as E.
        destruct Ha as (g1 & Et & Ha). exists p, t. split; [reflexivity|]. split.
        + destruct p as [x y]. apply Ml. split; [apply Hon; left|]. exists g1. exact Et.
        + exists g1. split; [exact Et|]. split; [exact E|]. split; [intros q Hq; apply Hon; right; exact Hq|]. exists g'. exact Ha.
      - intros (p & t & -> & Hp & g1 & Et & E & Hon & g' & Ha). split; [cbn; f_equal; exact E|]. split.
        + intros q Hq. apply elem_of_cons in Hq as [->|Hq]; [apply Hch, Hp|apply Hon, Hq].
        + exists g'. exists g1. split; [exact Et|exact Ha]. }
    destruct (gather l D NDl) as (ls & k & N1 & K & M & L).
    { intros p Hp. destruct (Hch p Hp) as [Hon (g' & b' & w' & Ep & Et & HG' & HP' & HB')].
      destruct (IH b' w' g' HG' HP' ltac:(lia)) as (kp & (lp & Np & Mp & _) & _). exists lp. split; [exact Np|].
      intros ms. rewrite Mp. unfold D. split; [intros H; exists g'; split; [exact Et|exact H]|].
      intros (g2 & Et2 & H). rewrite Et in Et2. injection Et2 as <-. exact H. }
    exists (N.of_nat (length ls)). split.
    { exists ls. split; [exact N1|]. split; [|reflexivity]. intros ms. rewrite M. symmetry. apply HD. }
    cbn [perft]. rewrite El. cbn [bind]. destruct d as [|d].
    + assert (Hk : forall p, p ∈ l -> k p = 1%N).
      { intros p Hp. apply (number_unique (D p)); [apply K, Hp|]. exists [[]]. split; [apply NoDup_singleton|]. split; [|reflexivity].
        intros ms. rewrite elem_of_list_singleton. destruct (Hch p Hp) as [Hon (g' & b' & w' & Ep & Et & _)]. split.
        - intros ->. exists g'. split; [exact Et|]. split; [reflexivity|]. split; [intros q Hq; inversion Hq|]. exists g'. reflexivity.
        - intros (g2 & _ & E & _). destruct ms; [reflexivity|discriminate E]. }
      assert (Hs : foldr (fun p a => k p + a)%N 0%N l = N.of_nat (length l)).
      { clear -Hk. induction l as [|p l IH]; cbn [foldr length]; [reflexivity|]. rewrite IH, (Hk p) by (try left; intros q Hq; apply Hk; right; exact Hq). lia. }
      rewrite L, Hs. unfold as_u64. destruct (N.ltb_spec (N.of_nat (length l)) (2 ^ 64)) as [H|H]; [reflexivity|exfalso].
      assert (HL : (length l <= n * n)%nat).
      { transitivity (length (points n)).
        - apply NoDup_incl_length; [apply NoDup_ListNoDup; exact NDl|]. intros p Hp. apply elem_of_list_In in Hp. apply elem_of_list_In, elem_of_points, Hch, Hp.
        - rewrite points_length. reflexivity. }
      pose proof (greach_le _ _ _ _ _ HG). assert (n * n <= 361)%nat by nia. lia.
    + set (f := fun p => let! child := play dbg g (MPlay (fst p) (snd p)) in perft dbg child (S d)).
      rewrite (foldM_ext _ (fun s p => let! x := f p in u64_add dbg s x)) by (intros s p _; unfold f; destruct (play dbg g _); reflexivity).
      rewrite (sum_children dbg f k l) with (s := 0%N); [rewrite L, N.add_0_l; reflexivity| |reflexivity].
      intros p Hp. unfold f. destruct (Hch p Hp) as [Hon (g' & b' & w' & Ep & Et & HG' & HP' & HB')]. rewrite Ep. cbn [bind].
      destruct (IH b' w' g' HG' HP' ltac:(lia)) as (kp & Kp & ->). f_equal. apply (number_unique (D p)); [|apply K, Hp].
      apply (number_ext (goes dbg n g' (S d))); [|exact Kp]. intros ms. unfold D. split; [intros H; exists g'; split; [exact Et|exact H]|].
      intros (g2 & Et2 & H). rewrite Et in Et2. injection Et2 as <-. exact H.
Qed.

(** accepted by the library = accepted by the rules *)
Definition line_ops (ms : list coord) : list op := List.map (fun p : coord => OTry (MPlay (fst p) (snd p))) ms.

Lemma line_calls dbg ms : forall g g', all_accepted dbg g (stones_on ms) g' <-> calls dbg g (line_ops ms) = Ok (g', replicate (length ms) (Some Accepted)).
Proof.
  induction ms as [|p ms IH]; intros g g'; cbn [stones_on line_ops List.map all_accepted calls length replicate].
  - split; [intros ->; reflexivity|intros [= ->]; reflexivity].
  - cbn [call]. split.
    + intros (g1 & Et & Ha). rewrite Et. cbn [bind]. apply IH in Ha. unfold line_ops in Ha. rewrite Ha. reflexivity.
    + intros E. apply bind_ok in E as ([g1 a] & Ec & E). apply bind_ok in Ec as ([g2 v] & Et & Ec). injection Ec as -> <-.
      apply bind_ok in E as ([g3 l] & Er & E). injection E as -> -> ->. exists g1. split; [exact Et|]. apply IH. exact Er.
Qed.

Lemma line_stones ms : all_stones (line_ops ms) = length ms.
Proof. unfold all_stones. induction ms as [|p ms IH]; [reflexivity|]. cbn [line_ops List.map stones_of length]. change (list_sum (?a :: ?l)) with (a + list_sum l)%nat. unfold line_ops in IH. cbn. f_equal. exact IH. Qed.

Lemma line_on n f ms : forall t l t', table_run n f t (line_ops ms) l t' -> forall p, p ∈ ms -> on n p.
Proof.
  induction ms as [|q ms IH]; intros t l t' R p Hp; [inversion Hp|]. cbn [line_ops List.map] in R.
  inversion R as [|t0 o a t1 ops l0 t2 Cs R' E1 E2 E3 E4]; subst. apply elem_of_cons in Hp as [->|Hp]; [|exact (IH _ _ _ R' p Hp)].
  apply call_answerable in Cs. cbn in Cs. rewrite <- surjective_pairing in Cs. exact Cs.
Qed.

Lemma goes_line dbg n b w g d ms : greach dbg n b w g -> (N.of_nat (b + w + d) <= 65535)%N ->
  goes dbg n g d ms <-> length ms = d /\ playable_line n (flag_illegal (gm_rule g)) (table_of g) ms.
Proof.
  intros HG HB. split.
  - intros (E & Hon & g' & Ha). split; [exact E|]. apply line_calls in Ha.
    destruct (calls_sim dbg n (line_ops ms) b w g HG) as (g2 & l & Ec & R).
    { intros o Ho. unfold line_ops in Ho. apply elem_of_list_In, in_map_iff in Ho as (p & <- & Hp). cbn. rewrite <- surjective_pairing. apply Hon, elem_of_list_In, Hp. }
    { rewrite line_stones. lia. }
    rewrite Ha in Ec. injection Ec as <- <-. exists (table_of g'). exact R.
  - intros (E & t' & R). split; [exact E|]. split; [exact (line_on _ _ _ _ _ _ R)|].
    destruct (calls_follow dbg n (flag_illegal (gm_rule g)) (line_ops ms) b w g (table_of g) _ t' HG eq_refl (same_table_refl _ _) R) as (g' & Ec & _).
    { rewrite line_stones. lia. }
    exists g'. apply line_calls. exact Ec.
Qed.

Theorem perft_exact dbg n b w g d : greach dbg n b w g -> gm_passes g <> 2%nat -> (N.of_nat (b + w + d) <= 65535)%N ->
  exists k, number_of (fun ms => length ms = d /\ playable_line n (flag_illegal (gm_rule g)) (table_of g) ms) k /\ perft dbg g d = as_u64 dbg k.
Proof.
  intros HG HP HB. destruct (perft_goes dbg n d b w g HG HP HB) as (k & K & E). exists k. split; [|exact E].
  revert K. apply number_ext. intros ms. exact (goes_line dbg n b w g d ms HG HB).
Qed.

(** passes are not looked at *)
Lemma corners_resume dbg g c l : check_eye_corners dbg (resume g) c l = check_eye_corners dbg g c l.
Proof. induction l as [|p l IH]; [reflexivity|]. cbn [check_eye_corners]. rewrite IH. reflexivity. Qed.

Lemma eye_resume dbg g p c : check_eye dbg (resume g) (p, c) = check_eye dbg g (p, c).
Proof.
  unfold check_eye. change (gm_goban (resume g)) with (gm_goban g). change (helper_check_eye dbg (resume g) p c) with (helper_check_eye dbg g p c).
  destruct (get_color (gm_goban g) p) as [[]| |]; try reflexivity. cbn [bind]. destruct (neighbors_coords dbg (gm_goban g) p); try reflexivity. cbn [bind].
  destruct (anyM _ _) as [[]| |]; try reflexivity. cbn [bind]. destruct (helper_check_eye dbg g p c) as [[[l1 l2] l3]| |]; try reflexivity. cbn [bind].
  rewrite corners_resume. reflexivity.
Qed.

Lemma check_resume dbg g p f : check_point_by dbg (resume g) p f = check_point_by dbg g p f.
Proof.
  unfold check_point_by. change (gm_turn (resume g)) with (gm_turn g). rewrite eye_resume. reflexivity.
Qed.

Lemma legals_resume dbg g : legals dbg (resume g) = legals dbg g.
Proof.
  unfold legals, legals_by. change (pseudo_legals (resume g)) with (pseudo_legals g). change (gm_rule (resume g)) with (gm_rule g).
  destruct (pseudo_legals g) as [l| |]; try reflexivity. cbn [bind]. induction l as [|p l IH]; [reflexivity|]. cbn [filterM].
  rewrite check_resume. destruct (check_point_by dbg g p (flag_illegal (gm_rule g))); try reflexivity. cbn [bind]. rewrite IH. reflexivity.
Qed.

Lemma perft_resume dbg g d : perft dbg (resume g) d = perft dbg g d.
Proof. destruct d as [|d]; [reflexivity|]. cbn [perft]. rewrite legals_resume. reflexivity. Qed.

(** symmetric games *)
Lemma line_run dbg ms : forall g g' tr, run dbg g (List.map OTry (stones_on ms)) = Ok (g', tr) ->
  (length tr <= length ms)%nat /\ (length tr = length ms <-> all_accepted dbg g (stones_on ms) g') /\ (length tr = length ms -> tr = replicate (length ms) EvStone).
Proof.
  induction ms as [|p ms IH]; intros g g' tr E; cbn [stones_on List.map run] in E.
  - injection E as <- <-. split; [reflexivity|]. split; [split; reflexivity|reflexivity].
  - apply bind_ok in E as ([g1 e1] & E1 & E). apply bind_ok in E as ([g2 e2] & E2 & E). injection E as <- <-.
    destruct (IH _ _ _ E2) as (I1 & I2 & I3). cbn [do_op] in E1. apply bind_ok in E1 as ([g3 v] & Et & E1). injection E1 as -> <-.
    rewrite app_length. cbn [stones_on List.map all_accepted length replicate]. destruct v as [|e]; cbn [length app event_of].
    + split; [lia|]. split.
      * split; [intros H; exists g1; split; [exact Et|apply I2; lia]|]. intros (g4 & Et' & Ha). rewrite Et in Et'. injection Et' as <-. apply I2 in Ha. lia.
      * intros H. rewrite I3 by lia. reflexivity.
    + split; [lia|]. split; [split; [lia|]|lia]. intros (g4 & Et' & _). rewrite Et in Et'. discriminate Et'.
Qed.

Lemma accepted_run dbg ms : forall g g2 g' tr, all_accepted dbg g ms g2 -> run dbg g (List.map OTry ms) = Ok (g', tr) -> g2 = g'.
Proof.
  induction ms as [|m ms IH]; intros g g2 g' tr Ha E; cbn [all_accepted List.map run] in *; [injection E; congruence|].
  destruct Ha as (g1 & Et & Ha). cbn [do_op] in E. rewrite Et in E. cbn [bind] in E. apply bind_ok in E as ([g3 e] & E & E'). injection E' as <- <-. exact (IH _ _ _ _ Ha E).
Qed.

Definition image_points (σ : coord -> coord) (ms : list coord) : list coord := List.map σ ms.

Lemma image_line σ γ ms : List.map (image_move σ γ) (stones_on ms) = stones_on (image_points σ ms).
Proof. unfold stones_on, image_points. rewrite !map_map. apply map_ext. intros [x y]. reflexivity. Qed.

Lemma goes_image n σ τ γ dbg dbg' b w b' w' g h d ms : board_sym n σ τ γ -> greach dbg n b w g -> greach dbg' n b' w' h ->
  image_game n σ γ g h -> image_history n σ γ g h -> image_caught γ g h ->
  (N.of_nat (b + w + d) <= 65535)%N -> (N.of_nat (b' + w' + d) <= 65535)%N ->
  forbids_fill_eye (gm_rule g) = false \/ (forall q, on n q -> σ q = q) ->
  (forall p, p ∈ ms -> on n p) -> goes dbg n g d ms <-> goes dbg' n h d (image_points σ ms).
Proof.
  intros HS HG HH I1 I2 I3 B1 B2 HF Hon.
  destruct (decide (length ms = d)) as [Ed|Ed]; [|split; intros [E _]; [contradiction|unfold image_points in E; rewrite map_length in E; contradiction]].
  destruct (image_run n σ τ γ dbg dbg' (stones_on ms) HS b w b' w' g h HG HH I1 I2 I3) as (g' & h' & tr & E1 & E2 & _).
  { intros x y H. apply elem_of_list_In, in_map_iff in H as ([x' y'] & [= <- <-] & H). apply Hon, elem_of_list_In, H. }
  { unfold stones_on. rewrite map_length. lia. }
  { unfold stones_on. rewrite map_length. lia. }
  { exact HF. }
  rewrite image_line in E2. destruct (line_run _ _ _ _ _ E1) as (_ & K1 & _). destruct (line_run _ _ _ _ _ E2) as (_ & K2 & _).
  unfold image_points in K2. rewrite !map_length in K2. unfold goes, image_points. rewrite map_length. split.
  - intros (_ & _ & g2 & Ha). split; [exact Ed|]. split.
    + intros q Hq. apply elem_of_list_In, in_map_iff in Hq as (p & <- & Hp). apply (sy_on _ _ _ _ HS), Hon, elem_of_list_In, Hp.
    + exists h'. apply K2. apply K1. rewrite <- (accepted_run _ _ _ _ _ _ Ha E1). exact Ha.
  - intros (_ & _ & h2 & Ha). split; [exact Ed|]. split; [exact Hon|]. exists g'. apply K1, K2. unfold image_points in E2. rewrite <- (accepted_run _ _ _ _ _ _ Ha E2). exact Ha.
Qed.

Theorem perft_image n σ τ γ dbg b w b' w' g h d : board_sym n σ τ γ -> greach dbg n b w g -> greach dbg n b' w' h ->
  image_game n σ γ g h -> image_history n σ γ g h -> image_caught γ g h -> gm_passes g <> 2%nat ->
  (N.of_nat (b + w + d) <= 65535)%N -> (N.of_nat (b' + w' + d) <= 65535)%N ->
  forbids_fill_eye (gm_rule g) = false \/ (forall q, on n q -> σ q = q) ->
  perft dbg g d = perft dbg h d.
Proof.
  intros HS HG HH I1 I2 I3 HP B1 B2 HF.
  destruct (perft_goes dbg n d b w g HG HP B1) as (k & (l & N1 & M1 & L1) & ->).
  destruct (perft_goes dbg n d b' w' h HH) as (k' & (l' & N2 & M2 & L2) & ->); [rewrite (im_passes _ _ _ _ _ I1); exact HP|exact B2|].
  f_equal. rewrite <- L1, <- L2. f_equal.
  assert (Hinj : forall a c, (forall p, p ∈ a -> on n p) -> (forall p, p ∈ c -> on n p) -> image_points σ a = image_points σ c -> a = c).
  { induction a as [|p a IH]; intros [|q c] Ha Hc E; cbn in E; try discriminate E; [reflexivity|]. injection E as E1 E2. f_equal.
    - rewrite <- (sy_left _ _ _ _ HS p), <- (sy_left _ _ _ _ HS q) by (try (apply Ha; left); apply Hc; left). rewrite E1. reflexivity.
    - apply IH; [intros; apply Ha; right; assumption|intros; apply Hc; right; assumption|exact E2]. }
  transitivity (length (List.map (image_points σ) l)); [symmetry; apply map_length|].
  apply Permutation_length, NoDup_Permutation.
  - clear -N1 M1 Hinj. assert (H : forall ms, ms ∈ l -> forall p, p ∈ ms -> on n p) by (intros ms Hm; apply M1 in Hm as (_ & H & _); exact H). clear M1.
    induction N1 as [|a l Ha N1 IH]; [apply NoDup_nil_2|]. cbn [List.map]. apply NoDup_cons. split.
    + intros Hin. apply elem_of_list_In, in_map_iff in Hin as (c & E & Hc). apply elem_of_list_In in Hc. apply Hinj in E; [subst c; contradiction|..]; apply H; [right; exact Hc|left].
    + apply IH. intros ms Hm. apply H. right. exact Hm.
  - exact N2.
  - intros ms. rewrite M2. split.
    + intros Hin. apply elem_of_list_In, in_map_iff in Hin as (c & <- & Hc). apply elem_of_list_In, M1 in Hc. destruct Hc as (E & Hon & Hx).
      apply (goes_image n σ τ γ dbg dbg b w b' w' g h d c HS HG HH I1 I2 I3 B1 B2 HF Hon). split; [exact E|]. split; [exact Hon|exact Hx].
    + intros Hg. assert (Hon : forall p, p ∈ ms -> on n p) by apply Hg.
      assert (E : image_points σ (List.map τ ms) = ms).
      { unfold image_points. rewrite map_map. rewrite <- (map_id ms) at 2. apply map_ext_in. intros p Hp. apply (sy_right _ _ _ _ HS), Hon, elem_of_list_In, Hp. }
      apply elem_of_list_In, in_map_iff. exists (List.map τ ms). split; [exact E|]. apply elem_of_list_In, M1.
      apply (goes_image n σ τ γ dbg dbg b w b' w' g h d (List.map τ ms) HS HG HH I1 I2 I3 B1 B2 HF).
      * intros q Hq. apply elem_of_list_In, in_map_iff in Hq as (p & <- & Hp). apply (sy_on' _ _ _ _ HS), Hon, elem_of_list_In, Hp.
      * rewrite E. exact Hg.
Qed.
