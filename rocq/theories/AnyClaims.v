(** Claims about boards of any size. *)
From stdpp Require Import relations.
From Verif Require Import MonadFacts Goban Game BitsetFacts CoordFacts Struct Push Inv Remove Capture BoardFacts GameFacts TerritoryFacts RulesFacts RectGo RectTable AnySpec AnyBoard AnyGame AnyViews.
From Coq Require Import Lia.

Local Notation length := Datatypes.length.

Lemma cell_idx s p : cell_of s p = two_to_1dim s p.
Proof. reflexivity. Qed.

Lemma any_panics s b w g x y : areach s b w g -> (N.of_nat (b + w) < 65535)%N ->
  (try_play false g (MPlay x y) = Panic <-> gm_passes g <> 2%nat /\ (361 <= cell_of s (x, y))%nat) /\
  try_play false g (MPlay x y) <> Diverge.
Proof.
  intros H HB. rewrite cell_idx. destruct (Nat.lt_ge_cases (two_to_1dim s (x, y)) 361) as [Hi|Hi].
  - destruct (try_any s b w g x y H HB Hi) as (g' & v & E & _). rewrite E. split; [|discriminate]. split; [discriminate|lia].
  - unfold try_play. destruct (Nat.eqb_spec (gm_passes g) 2) as [E|E].
    + split; [|discriminate]. split; [discriminate|tauto].
    + pose proof (ai_wf _ _ _ _ (areach_inv _ _ _ _ H)) as A.
      assert (EP : get_color (gm_goban g) (x, y) = Panic).
      { unfold get_color, get_color_idx. rewrite (awf_size s _ A). unfold vget.
        rewrite (lookup_ge_None_2 (board (gm_goban g))) by (rewrite (wf0_board _ (awf_0 s _ A)); exact Hi). reflexivity. }
      rewrite EP. cbn [bind]. split; [|discriminate]. tauto.
Qed.

Lemma any_runs s sz r ops : board_size s -> size_of sz = s -> (forall o, o ∈ ops -> aguarded s o) -> (N.of_nat (all_stones ops) <= 65535)%N ->
  exists g g' l b w, game_new sz r = Ok g /\ calls false g ops = Ok (g', l) /\ length l = length ops /\ areach s b w g' /\ (b + w <= all_stones ops)%nat.
Proof.
  intros Hs Es Ho HB. destruct (new_any sz r s Hs Es) as (g & Eg & _). pose proof (ar_new s sz r g Hs Es Eg) as R.
  destruct (calls_any s ops 0 0 g R Ho HB) as (g' & l & E & b & w & R' & L).
  exists g, g', l, b, w. split; [exact Eg|]. split; [exact E|]. split; [|split; [exact R'|exact L]].
  clear -E. revert g g' l E. induction ops as [|o t IH]; intros g g' l E; cbn [calls] in E.
  - injection E as <- <-. reflexivity.
  - destruct (call false g o) as [[g1 a]| |]; [|discriminate..]. cbn [bind] in E.
    destruct (calls false g1 t) as [[g2 l2]| |] eqn:E2; [|discriminate..]. cbn [bind] in E. injection E as <- <-. cbn [length]. f_equal. exact (IH _ _ _ E2).
Qed.

(** ** Which boards answer *)

Definition bad_ops (s : nat * nat) : list op :=
  if (fst s =? 1)%nat then [OTry (MPlay 0 1); OTry (MPlay 0 0)] else [OTry (MPlay 1 0); OTry (MPlay 0 0)].

Definition bad_run (s : nat * nat) : bool :=
  (fst s mod snd s =? 0)%nat ||
  match game_new (Custom (N.of_nat (fst s)) (N.of_nat (snd s))) JAPANESE with
  | Ok g => match calls true g (bad_ops s) with Panic => true | _ => false end
  | _ => false
  end.

Lemma bad_runs : forallb bad_run (list_prod (seq 1 19) (seq 1 19)) = true.
Proof. vm_compute. reflexivity. Qed.

Lemma custom_size h w : (h <= 19)%nat -> (w <= 19)%nat -> size_of (Custom (N.of_nat h) (N.of_nat w)) = (h, w).
Proof. intros Hh Hw. cbn [size_of]. rewrite !N.mod_small by lia. rewrite !Nat2N.id. reflexivity. Qed.

Lemma any_answers dbg s : board_size s -> (answers dbg s <-> dbg = false \/ Nat.divide (snd s) (fst s)).
Proof.
  intros Hs. pose proof Hs as [H1 H2]. split.
  - intros HA. destruct dbg; [right|left; reflexivity]. destruct s as [h w]. cbn [fst snd] in *.
    pose proof (proj1 (forallb_forall _ _) bad_runs (h, w)) as HR. unfold bad_run in HR. cbn [fst snd] in HR.
    apply Nat.mod_divide; [lia|].
    destruct (Nat.eqb_spec (h mod w) 0) as [E|E]; [exact E|exfalso]. cbn [orb] in HR.
    assert (HI : List.In (h, w) (list_prod (seq 1 19) (seq 1 19))) by (apply List.in_prod; apply List.in_seq; lia).
    specialize (HR HI).
    destruct (HA (Custom (N.of_nat h) (N.of_nat w)) JAPANESE (bad_ops (h, w))) as (g & g' & l & Eg & Ec).
    + apply custom_size; lia.
    + unfold bad_ops. cbn [fst]. intros o Ho. destruct (Nat.eqb_spec h 1) as [E1|E1].
      * assert (w <> 1)%nat by (intros ->; apply E, Nat.mod_1_r).
        repeat (apply elem_of_cons in Ho as [->|Ho]; [unfold rguarded, ron; cbn [fst snd]; lia|]). apply elem_of_nil in Ho. destruct Ho.
      * repeat (apply elem_of_cons in Ho as [->|Ho]; [unfold rguarded, ron; cbn [fst snd]; lia|]). apply elem_of_nil in Ho. destruct Ho.
    + unfold bad_ops. cbn [fst]. destruct (h =? 1)%nat; vm_compute; discriminate.
    + rewrite Eg, Ec in HR. discriminate.
  - intros HD sz r ops Es Ho HB. destruct (Bool.bool_dec dbg false) as [->|Hd].
    + destruct (any_runs s sz r ops Hs Es) as (g & g' & l & b & w & Eg & Ec & _); [|exact HB|eauto 6].
      intros o Hin. specialize (Ho o Hin). destruct o as [m|m| |k|pts]; [exact Ho|destruct m as [ |c|x y]|exact Ho|exact Ho|exact Ho]; try exact Ho.
      cbn [rguarded aguarded] in Ho |- *. rewrite cell_idx. apply valid_idx; [exact Hs|]. unfold is_coord_valid. cbn [fst snd].
      destruct Ho as [Ha Hb]. cbn [fst snd] in Ha, Hb. apply andb_true_iff. split; apply Nat.ltb_lt; lia.
    + destruct HD as [->|HD]; [congruence|].
      destruct (rgame_guarded dbg s sz r ops HD H1 ltac:(lia) Es Ho HB) as (g & g' & l & t' & Eg & Ec & _). eauto 6.
Qed.

(** ** Stones *)

Lemma any_stones s b w g : areach s b w g -> exists v, to_vec (gm_goban g) = Ok v /\ length v = 361%nat /\
  number_of_stones (gm_goban g) = (count_of Black v, count_of White v) /\
  (N.of_nat (count_of Black v) + snd (gm_prisoners g) = N.of_nat b)%N /\
  (N.of_nat (count_of White v) + fst (gm_prisoners g) = N.of_nat w)%N /\
  forall p, (cell_of s p < 361)%nat -> v !! cell_of s p = Some (pos_of (gm_goban g) p).
Proof.
  intros H. pose proof (areach_inv _ _ _ _ H) as I. pose proof (ai_wf _ _ _ _ I) as A.
  exists (List.map (col (gm_goban g)) (seq 0 361)). split; [exact (to_vec_any s _ A)|].
  split; [rewrite List.map_length, seq_length; reflexivity|]. rewrite !count_of_icount.
  split; [exact (numbers_any s _ A)|]. split; [exact (ai_b _ _ _ _ I)|]. split; [exact (ai_w _ _ _ _ I)|].
  intros p Hp. change (@List.map nat) with (@fmap list _ nat). rewrite list_lookup_fmap, lookup_seq_lt by exact Hp.
  cbn [fmap option_fmap option_map]. rewrite (pos_of_any s _ p A Hp). reflexivity.
Qed.

Lemma any_same s b w g b' w' g' : areach s b w g -> areach s b' w' g' -> to_vec (gm_goban g) = to_vec (gm_goban g') ->
  zobrist_hash (gm_goban g) = zobrist_hash (gm_goban g') /\ goban_eq (gm_goban g) (gm_goban g') = Ok true.
Proof.
  intros H H' E. pose proof (ai_wf _ _ _ _ (areach_inv _ _ _ _ H)) as A. pose proof (ai_wf _ _ _ _ (areach_inv _ _ _ _ H')) as A'.
  rewrite (to_vec_any s _ A), (to_vec_any s _ A') in E.
  apply (f_equal (fun r => match r with Ok v => v | _ => [] end)) in E. cbv beta iota in E.
  assert (HC : forall i, (i < 361)%nat -> col (gm_goban g) i = col (gm_goban g') i).
  { intros i Hi. apply (f_equal (fun l => l !! i)) in E. change (@List.map nat) with (@fmap list _ nat) in E.
    rewrite !list_lookup_fmap, !lookup_seq_lt in E by exact Hi. cbn [fmap option_fmap option_map] in E. inversion E. reflexivity. }
  assert (HH : zobrist_hash (gm_goban g) = zobrist_hash (gm_goban g')).
  { rewrite (awf_hash s _ A), (awf_hash s _ A'). apply hash_ext, HC. }
  split; [exact HH|]. unfold goban_eq. rewrite HH, (awf_size s _ A), (awf_size s _ A'), !Nat.eqb_refl, N.eqb_refl. cbn [negb andb orb].
  match goal with |- context [anyM ?f ?l] => assert (EA : anyM f l = Ok false) end; [|rewrite EA; reflexivity].
  assert (HL : forall p, p ∈ list_prod (seq 0 (fst s)) (seq 0 (snd s)) -> (two_to_1dim s p < 361)%nat).
  { intros [x y] Hp. apply elem_of_list_In, List.in_prod_iff in Hp as [P1 P2]. apply List.in_seq in P1, P2.
    apply valid_idx; [exact (awf_s s _ A)|]. unfold is_coord_valid. cbn [fst snd]. apply andb_true_iff. split; apply Nat.ltb_lt; lia. }
  induction (list_prod (seq 0 (fst s)) (seq 0 (snd s))) as [|p l IH]; [reflexivity|]. cbn [anyM].
  assert (Hp : (two_to_1dim s p < 361)%nat) by (apply HL; left).
  rewrite (get_color_any s _ p A Hp), (get_color_any s _ p A' Hp), (HC _ Hp). cbn [bind].
  destruct (mcolor_eqb_spec (col (gm_goban g') (two_to_1dim s p)) (col (gm_goban g') (two_to_1dim s p))); [|congruence]. cbn [negb].
  apply IH. intros q Hq. apply HL. right. exact Hq.
Qed.

(** ** A move *)

Lemma any_move s b w g x y g' : areach s b w g -> (N.of_nat (b + w) < 65535)%N -> try_play false g (MPlay x y) = Ok (g', Accepted) ->
  (cell_of s (x, y) < 361)%nat /\ pos_of (gm_goban g) (x, y) = None /\
  areach s (fst (bump_count (gm_turn g) (b, w))) (snd (bump_count (gm_turn g) (b, w))) g' /\ gm_turn g' = opp (gm_turn g) /\
  (forall p, (cell_of s p < 361)%nat -> cell_of s p <> cell_of s (x, y) ->
     pos_of (gm_goban g') p = pos_of (gm_goban g) p \/ pos_of (gm_goban g') p = None) /\
  (pos_of (gm_goban g') (x, y) = Some (gm_turn g) \/ pos_of (gm_goban g') (x, y) = None) /\
  (flag_contains (flag_illegal (gm_rule g)) SUICIDE = true ->
     pos_of (gm_goban g') (x, y) = Some (gm_turn g) /\
     forall p, (cell_of s p < 361)%nat -> pos_of (gm_goban g) p = Some (gm_turn g) -> pos_of (gm_goban g') p = Some (gm_turn g)).
Proof.
  intros H HB E. destruct (Nat.lt_ge_cases (cell_of s (x, y)) 361) as [Hi|Hi].
  2:{ exfalso. destruct (any_panics s b w g x y H HB) as [[_ HP] _].
      destruct (Nat.eq_dec (gm_passes g) 2) as [E2|E2]; [|rewrite HP in E by auto; discriminate].
      unfold try_play in E. rewrite E2 in E. discriminate. }
  pose proof (areach_inv _ _ _ _ H) as I. pose proof (ai_wf _ _ _ _ I) as A.
  destruct (try_any s b w g x y H HB Hi) as (g1 & v & E1 & [(-> & _ & Hc & Ep)|[Hv _]]); rewrite E in E1; injection E1; intros; subst; [|congruence].
  rename g1 into g'. destruct (play_any s b w g x y I Hi Hc HB) as (g1 & Ep1 & I' & Ht & F1 & F2 & F3).
  rewrite Ep in Ep1. injection Ep1 as <-. pose proof (ai_wf _ _ _ _ I') as A'.
  assert (P0 : pos_of (gm_goban g) (x, y) = None) by (rewrite (pos_of_any s _ _ A Hi); exact Hc).
  split; [exact Hi|]. split; [exact P0|]. split; [exact (ar_play s b w g x y g' H Hi P0 HB Ep)|]. split; [exact Ht|].
  split; [|split].
  - intros p Hp Hne. rewrite (pos_of_any s _ p A Hp), (pos_of_any s _ p A' Hp). apply F1. exact Hne.
  - rewrite (pos_of_any s _ _ A' Hi). exact F2.
  - intros Hs. destruct (F3 Hs) as [F4 F5]. rewrite (pos_of_any s _ _ A' Hi). split; [exact F4|].
    intros p Hp. rewrite (pos_of_any s _ p A Hp), (pos_of_any s _ p A' Hp). apply F5.
Qed.

(** ** Queries *)

Lemma any_queries s b w g : areach s b w g -> (N.of_nat (b + w) < 65535)%N ->
  (forall p flags, (cell_of s p < 361)%nat -> exists e, check_point_by false g p flags = Ok e) /\
  (forall flags, exists l, legals_by false g flags = Ok l) /\
  (forall order flags, exists bw, calculate_score_by order false g flags = Ok bw) /\
  (forall order, exists o, outcome order false g = Ok o).
Proof.
  intros H HB. pose proof (areach_inv _ _ _ _ H) as I. pose proof (ai_wf _ _ _ _ I) as A. pose proof (ai_hist _ _ _ _ I) as Hh.
  assert (HL : (N.of_nat (length (chains (gm_goban g))) < 65535)%N) by (pose proof (ai_len _ _ _ _ I); lia).
  split; [|split; [|split]].
  - intros p flags Hp. exact (check_any s g A Hh p flags Hp HL).
  - intros flags. exact (legals_any s g flags A Hh HL).
  - intros order flags. exact (score_any s order g flags A).
  - intros order. exact (outcome_any s order g A).
Qed.

(** ** Cases: a board of five rows and four columns *)

Definition odd_ops : list op := [OTry (MPlay 1 0); OTry (MPlay 0 0); OTry (MPlay 0 1); OTry (MPlay 3 3)].
Definition odd_start : res game := game_new (Custom 5 4) JAPANESE.
Definition odd_run (ops : list op) : res (game * list (option verdict)) := let! g := odd_start in calls false g ops.

Lemma odd_size : board_size (5, 4)%nat.
Proof. split; cbn [fst snd]; lia. Qed.

Lemma odd_guarded : forall o, o ∈ odd_ops -> aguarded (5, 4)%nat o.
Proof.
  intros o Ho. unfold odd_ops in Ho.
  repeat (apply elem_of_cons in Ho as [->|Ho]; [unfold aguarded, cell_of; cbn [fst snd]; lia|]). apply elem_of_nil in Ho. destruct Ho.
Qed.

Lemma odd_reach (P : game -> bool) :
  match odd_run odd_ops with Ok (g, _) => P g | _ => false end = true ->
  exists g b w, areach (5, 4)%nat b w g /\ (N.of_nat (b + w) < 65535)%N /\ odd_run odd_ops = Ok (g, replicate 4 (Some Accepted)) /\ P g = true.
Proof.
  intros HP.
  destruct (any_runs (5, 4)%nat (Custom 5 4) JAPANESE odd_ops odd_size eq_refl odd_guarded) as (g0 & g & l & b & w & E0 & Ec & _ & R & L); [vm_compute; discriminate|].
  exists g, b, w. split; [exact R|]. split; [change (all_stones odd_ops) with 4%nat in L; lia|].
  assert (E : odd_run odd_ops = Ok (g, l)) by (unfold odd_run, odd_start; rewrite E0; exact Ec).
  rewrite E in HP. split; [|exact HP]. rewrite E. f_equal. f_equal.
  assert (F : match odd_run odd_ops with Ok (_, l) => Some l | _ => None end = Some (replicate 4 (Some Accepted))) by (vm_compute; reflexivity).
  rewrite E in F. congruence.
Qed.

Definition panics {A} (m : res A) : bool := match m with Panic => true | _ => false end.
Definition answered {A} (m : res A) : bool := match m with Ok _ => true | _ => false end.

Lemma panics_spec {A} (m : res A) : panics m = true -> m = Panic.
Proof. destruct m; [discriminate|reflexivity|discriminate]. Qed.

Lemma case_any_panics : exists g b w g', areach (5, 4)%nat b w g /\ (N.of_nat (b + w) < 65535)%N /\ gm_passes g <> 2%nat /\
  cell_of (5, 4) (72, 1) = 361%nat /\ try_play false g (MPlay 72 1) = Panic /\
  cell_of (5, 4) (5, 0) = 25%nat /\ try_play false g (MPlay 5 0) = Ok (g', Accepted).
Proof.
  destruct (odd_reach (fun g => negb (gm_passes g =? 2)%nat && panics (try_play false g (MPlay 72 1)) &&
    match try_play false g (MPlay 5 0) with Ok (_, Accepted) => true | _ => false end)) as (g & b & w & R & HB & _ & F); [vm_compute; reflexivity|].
  apply andb_true_iff in F as [F F3]. apply andb_true_iff in F as [F1 F2].
  destruct (try_play false g (MPlay 5 0)) as [[g' []]| |] eqn:E; try discriminate. exists g, b, w, g'.
  split; [exact R|]. split; [exact HB|]. split; [apply Nat.eqb_neq, negb_true_iff, F1|].
  split; [vm_compute; reflexivity|]. split; [apply panics_spec, F2|]. split; [reflexivity|exact E].
Qed.

Lemma case_any_runs : board_size (5, 4)%nat /\ size_of (Custom 5 4) = (5, 4)%nat /\ (forall o, o ∈ odd_ops -> aguarded (5, 4)%nat o) /\ (N.of_nat (all_stones odd_ops) <= 65535)%N /\
  exists g g', game_new (Custom 5 4) JAPANESE = Ok g /\ calls false g odd_ops = Ok (g', replicate 4 (Some Accepted)) /\ gm_prisoners g' = (1, 0)%N.
Proof.
  split; [exact odd_size|]. split; [reflexivity|]. split; [exact odd_guarded|]. split; [vm_compute; discriminate|].
  destruct (odd_reach (fun g => (fst (gm_prisoners g) =? 1)%N && (snd (gm_prisoners g) =? 0)%N)) as (g' & b & w & _ & _ & E & F); [vm_compute; reflexivity|].
  unfold odd_run, odd_start in E. destruct (game_new (Custom 5 4) JAPANESE) as [g| |]; [|discriminate..]. exists g, g'. split; [reflexivity|]. split; [exact E|].
  apply andb_true_iff in F as [F1 F2]. apply N.eqb_eq in F1, F2. destruct (gm_prisoners g') as [a c]. cbn [fst snd] in *. congruence.
Qed.

Lemma case_any_answers : board_size (5, 4)%nat /\ ~ Nat.divide 4 5 /\ ~ answers true (5, 4)%nat /\ answers false (5, 4)%nat /\
  board_size (8, 4)%nat /\ Nat.divide 4 8 /\ answers true (8, 4)%nat /\
  exists g, game_new (Custom 5 4) JAPANESE = Ok g /\ rguarded (5, 4)%nat (OTry (MPlay 1 0)) /\ rguarded (5, 4)%nat (OTry (MPlay 0 0)) /\
    calls true g [OTry (MPlay 1 0); OTry (MPlay 0 0)] = Panic.
Proof.
  assert (H8 : board_size (8, 4)%nat) by (split; cbn [fst snd]; lia).
  assert (D5 : ~ Nat.divide 4 5) by (intros [k Hk]; lia).
  assert (D8 : Nat.divide 4 8) by (exists 2%nat; reflexivity).
  split; [exact odd_size|]. split; [exact D5|].
  split; [intros HA; apply (any_answers true (5, 4)%nat odd_size) in HA as [HA|HA]; [discriminate|exact (D5 HA)]|].
  split; [apply (any_answers false (5, 4)%nat odd_size); left; reflexivity|].
  split; [exact H8|]. split; [exact D8|]. split; [apply (any_answers true (8, 4)%nat H8); right; exact D8|].
  assert (HP : match odd_start with Ok g => panics (calls true g [OTry (MPlay 1 0); OTry (MPlay 0 0)]) | _ => false end = true) by (vm_compute; reflexivity).
  unfold odd_start in HP. destruct (game_new (Custom 5 4) JAPANESE) as [g| |]; [|discriminate..]. exists g.
  split; [reflexivity|]. split; [split; cbn; lia|]. split; [split; cbn; lia|]. apply panics_spec, HP.
Qed.

Lemma case_any_stones : exists g, areach (5, 4)%nat 2 2 g /\ gm_prisoners g = (1, 0)%N /\ number_of_stones (gm_goban g) = (2, 1)%nat /\
  pos_of (gm_goban g) (1, 0) = Some Black /\ pos_of (gm_goban g) (0, 0) = None /\ pos_of (gm_goban g) (3, 3) = Some White.
Proof.
  destruct (odd_reach (fun g => (fst (gm_prisoners g) =? 1)%N && (snd (gm_prisoners g) =? 0)%N &&
     match number_of_stones (gm_goban g) with (2, 1)%nat => true | _ => false end &&
     (mcolor_eqb (pos_of (gm_goban g) (1, 0)%nat) (Some Black) && mcolor_eqb (pos_of (gm_goban g) (0, 0)%nat) None && mcolor_eqb (pos_of (gm_goban g) (3, 3)%nat) (Some White))))
    as (g & b & w & R & _ & _ & F); [vm_compute; reflexivity|].
  apply andb_true_iff in F as [F F4]. apply andb_true_iff in F as [F F3]. apply andb_true_iff in F as [F1 F2].
  apply andb_true_iff in F4 as [F4 F6]. apply andb_true_iff in F4 as [F4 F5].
  destruct (mcolor_eqb_spec (pos_of (gm_goban g) (1, 0)%nat) (Some Black)) as [G1|]; [|discriminate].
  destruct (mcolor_eqb_spec (pos_of (gm_goban g) (0, 0)%nat) None) as [G2|]; [|discriminate].
  destruct (mcolor_eqb_spec (pos_of (gm_goban g) (3, 3)%nat) (Some White)) as [G3|]; [|discriminate].
  assert (EP : gm_prisoners g = (1, 0)%N).
  { apply N.eqb_eq in F1, F2. destruct (gm_prisoners g) as [a c]. cbn [fst snd] in *. congruence. }
  assert (EN : number_of_stones (gm_goban g) = (2, 1)%nat).
  { destruct (number_of_stones (gm_goban g)) as [[|[|[|?]]] [|[|?]]]; try discriminate F3. reflexivity. }
  destruct (any_stones _ _ _ _ R) as (v & _ & _ & Ev & Hb & Hw & _). rewrite EN in Ev. injection Ev as Eb Ew.
  rewrite <- Eb, EP in Hb. rewrite <- Ew, EP in Hw. cbn [fst snd] in Hb, Hw.
  assert (b = 2%nat) by lia. assert (w = 2%nat) by lia. subst b w.
  exists g. split; [exact R|]. split; [exact EP|]. split; [exact EN|]. auto.
Qed.

(** The same stones put down in another order. *)
Definition odd_ops' : list op := [OTry (MPlay 0 1); OTry (MPlay 3 3); OTry (MPlay 1 0); OTry MPass].

Lemma case_any_same : exists g b w g' b' w', areach (5, 4)%nat b w g /\ areach (5, 4)%nat b' w' g' /\ to_vec (gm_goban g) = to_vec (gm_goban g') /\
  gm_prisoners g = (1, 0)%N /\ gm_prisoners g' = (0, 0)%N.
Proof.
  destruct case_any_runs as (_ & _ & _ & _ & g0 & g & E0 & Ec & Hp).
  destruct (any_runs (5, 4)%nat (Custom 5 4) JAPANESE odd_ops' odd_size eq_refl) as (g1 & g' & l' & b' & w' & E1 & Ec' & _ & R' & _).
  { intros o Ho. unfold odd_ops' in Ho.
    repeat (apply elem_of_cons in Ho as [->|Ho]; [unfold aguarded, cell_of; cbn [fst snd]; first [exact I|lia]|]). apply elem_of_nil in Ho. destruct Ho. }
  { vm_compute. discriminate. }
  destruct (any_runs (5, 4)%nat (Custom 5 4) JAPANESE odd_ops odd_size eq_refl odd_guarded) as (g2 & g3 & l & b & w & E2 & Ec2 & _ & R & _); [vm_compute; discriminate|].
  rewrite E0 in E1, E2. injection E1 as <-. injection E2 as <-. rewrite Ec in Ec2. injection Ec2 as <- <-.
  exists g, b, w, g', b', w'. split; [exact R|]. split; [exact R'|].
  assert (F : match odd_run odd_ops, odd_run odd_ops' with
              | Ok (x, _), Ok (y, _) =>
                  match to_vec (gm_goban x), to_vec (gm_goban y) with
                  | Ok v, Ok v' => bool_decide (v = v') && (fst (gm_prisoners y) =? 0)%N && (snd (gm_prisoners y) =? 0)%N
                  | _, _ => false end
              | _, _ => false end = true) by (vm_compute; reflexivity).
  unfold odd_run, odd_start in F. rewrite E0 in F. cbn [bind] in F. rewrite Ec, Ec' in F.
  destruct (to_vec (gm_goban g)) as [v| |]; [|discriminate..]. destruct (to_vec (gm_goban g')) as [v'| |]; [|discriminate..].
  apply andb_true_iff in F as [F F2]. apply andb_true_iff in F as [F0 F1]. apply bool_decide_eq_true in F0. apply N.eqb_eq in F1, F2.
  split; [f_equal; exact F0|]. split; [exact Hp|]. destruct (gm_prisoners g') as [a c]. cbn [fst snd] in *. congruence.
Qed.

Lemma case_any_move : exists g b w g', areach (5, 4)%nat b w g /\ (N.of_nat (b + w) < 65535)%N /\ try_play false g (MPlay 0 1) = Ok (g', Accepted) /\
  flag_contains (flag_illegal (gm_rule g)) SUICIDE = true /\ gm_turn g = Black /\ pos_of (gm_goban g) (1, 0) = Some Black /\
  pos_of (gm_goban g) (0, 0) = Some White /\ pos_of (gm_goban g') (0, 0) = None.
Proof.
  destruct (any_runs (5, 4)%nat (Custom 5 4) JAPANESE (take 2 odd_ops) odd_size eq_refl) as (g0 & g & l & b & w & E0 & Ec & _ & R & L).
  { intros o Ho. apply odd_guarded. rewrite <- (take_drop 2 odd_ops). apply elem_of_app. left. exact Ho. }
  { vm_compute. discriminate. }
  assert (F : match odd_run (take 2 odd_ops) with
              | Ok (x, _) => flag_contains (flag_illegal (gm_rule x)) SUICIDE && color_eqb (gm_turn x) Black &&
                  mcolor_eqb (pos_of (gm_goban x) (1, 0)%nat) (Some Black) && mcolor_eqb (pos_of (gm_goban x) (0, 0)%nat) (Some White) &&
                  match try_play false x (MPlay 0 1) with Ok (y, Accepted) => mcolor_eqb (pos_of (gm_goban y) (0, 0)%nat) None | _ => false end
              | _ => false end = true) by (vm_compute; reflexivity).
  unfold odd_run, odd_start in F. rewrite E0 in F. cbn [bind] in F. rewrite Ec in F.
  apply andb_true_iff in F as [F F5]. apply andb_true_iff in F as [F F4]. apply andb_true_iff in F as [F F3]. apply andb_true_iff in F as [F1 F2].
  destruct (try_play false g (MPlay 0 1)) as [[g' []]| |] eqn:E; try discriminate. exists g, b, w, g'.
  split; [exact R|]. split; [change (all_stones (take 2 odd_ops)) with 2%nat in L; lia|]. split; [exact E|]. split; [exact F1|].
  split; [destruct (gm_turn g); first [reflexivity|discriminate]|].
  destruct (mcolor_eqb_spec (pos_of (gm_goban g) (1, 0)%nat) (Some Black)) as [G1|]; [|discriminate].
  destruct (mcolor_eqb_spec (pos_of (gm_goban g) (0, 0)%nat) (Some White)) as [G2|]; [|discriminate].
  destruct (mcolor_eqb_spec (pos_of (gm_goban g') (0, 0)%nat) None) as [G3|]; [|discriminate]. auto.
Qed.

Lemma case_any_queries : exists g b w l bw, areach (5, 4)%nat b w g /\ (N.of_nat (b + w) < 65535)%N /\
  check_point_by false g (3, 4)%nat SUICIDE = Ok (Some ESuicide) /\ legals_by false g 0%N = Ok l /\ l <> [] /\
  calculate_score_by (fun l => l) false g (N.lor PRISONNERS KOMI) = Ok bw.
Proof.
  destruct (odd_reach (fun g => match check_point_by false g (3, 4)%nat SUICIDE with Ok (Some ESuicide) => true | _ => false end &&
     match legals_by false g 0%N with Ok (_ :: _) => true | _ => false end && answered (calculate_score_by (fun l => l) false g (N.lor PRISONNERS KOMI))))
    as (g & b & w & R & HB & _ & F); [vm_compute; reflexivity|].
  apply andb_true_iff in F as [F F3]. apply andb_true_iff in F as [F1 F2].
  destruct (legals_by false g 0%N) as [[|p l]| |] eqn:E2; try discriminate.
  destruct (calculate_score_by (fun l => l) false g (N.lor PRISONNERS KOMI)) as [bw| |] eqn:E3; try discriminate.
  exists g, b, w, (p :: l), bw. split; [exact R|]. split; [exact HB|].
  split; [|split; [exact E2|split; [discriminate|exact E3]]].
  destruct (check_point_by false g (3, 4)%nat SUICIDE) as [[[]|]| |]; try discriminate. reflexivity.
Qed.
