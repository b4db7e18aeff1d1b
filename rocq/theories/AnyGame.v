(** Games of release builds on boards of any size. *)
From stdpp Require Import relations.
From Verif Require Import MonadFacts Goban BitsetFacts CoordFacts Struct Push Inv Remove Capture AnyBoard.
From Verif Require Export AnySpec.
From Coq Require Import Lia.

Local Notation length := Datatypes.length.

Lemma get_color_any s g p : awf s g -> (two_to_1dim s p < 361)%nat -> get_color g p = Ok (col g (two_to_1dim s p)).
Proof.
  intros A Hi. unfold get_color, get_color_idx. rewrite (awf_size s g A). pose proof (awf_0 s g A) as W.
  rewrite (vget_board g) by (rewrite ?(wf0_board g W); exact Hi). cbn [bind]. unfold col.
  destruct (cell g (two_to_1dim s p)) as [k|] eqn:E; [|reflexivity].
  destruct (wf0_cell g W _ k E) as [grp Hg]. rewrite Hg, (chain_at_live _ _ _ Hg). reflexivity.
Qed.

Lemma col_none_any s g i : awf s g -> col g i = None -> cell g i = None.
Proof.
  intros A H. unfold col in H. destruct (cell g i) as [k|] eqn:E; [|reflexivity].
  destruct (wf0_cell g (awf_0 s g A) i k E) as [grp Hg]. rewrite Hg in H. discriminate.
Qed.

Lemma anyM_any {A} (f : A -> res bool) l : (forall x, x ∈ l -> exists b, f x = Ok b) -> exists b, anyM f l = Ok b.
Proof.
  induction l as [|x l IH]; intros H; cbn [anyM]; [eauto|]. destruct (H x) as [b ->]; [left|]. cbn [bind].
  destruct b; [eauto|]. apply IH. intros y Hy. apply H. right. exact Hy.
Qed.

Lemma mapM_any {A B} (f : A -> res B) l : (forall x, x ∈ l -> exists b, f x = Ok b) -> exists b, mapM f l = Ok b.
Proof.
  induction l as [|x l IH]; intros H; cbn [mapM]; [eauto|]. destruct (H x) as [b ->]; [left|]. cbn [bind].
  destruct IH as [r ->]; [intros y Hy; apply H; right; exact Hy|]. cbn [bind]. eauto.
Qed.

Lemma filterM_any {A} (f : A -> res bool) l : (forall x, x ∈ l -> exists b, f x = Ok b) ->
  exists r, filterM f l = Ok r /\ forall x, x ∈ r -> x ∈ l.
Proof.
  induction l as [|x l IH]; intros H; cbn [filterM]; [eexists; split; [reflexivity|tauto]|].
  destruct (H x) as [b ->]; [left|]. cbn [bind].
  destruct IH as (r & -> & Hr); [intros y Hy; apply H; right; exact Hy|]. cbn [bind].
  eexists. split; [reflexivity|]. intros y Hy. destruct b.
  - apply elem_of_cons in Hy as [->|Hy]; [left|right; apply Hr, Hy].
  - right. apply Hr, Hy.
Qed.

Section Checks.
Variables (s : size_t) (g : game).
Hypothesis A : awf s (gm_goban g).
Hypothesis H : Forall (awf s) (gm_history g).

Lemma nbc_any p : exists l, neighbors_coords false (gm_goban g) p = Ok l /\ (length l <= 4)%nat /\
  forall q, q ∈ l -> is_coord_valid s q = true.
Proof. unfold neighbors_coords. rewrite (awf_size s _ A). apply valid_coords_any, (awf_s s _ A). Qed.

Lemma color_valid q : is_coord_valid s q = true -> exists c, get_color (gm_goban g) q = Ok c.
Proof. intros Hq. eexists. apply (get_color_any s _ _ A). apply valid_idx; [exact (awf_s s _ A)|exact Hq]. Qed.

Lemma points_any p : exists l, get_connected_points false (gm_goban g) p = Ok l.
Proof.
  unfold get_connected_points. destruct (nbc_any p) as (l & -> & _ & Hl). cbn [bind]. apply mapM_any.
  intros q Hq. destruct (color_valid q (Hl q Hq)) as [c ->]. cbn [bind]. eauto.
Qed.

Lemma groups_any p : exists l, get_connected_groups false (gm_goban g) p = Ok l.
Proof.
  unfold get_connected_groups. destruct (connected_any s _ (two_to_1dim (gsize (gm_goban g)) p) A) as (l & -> & _ & Hl). cbn [bind].
  apply mapM_any. intros k Hk. destruct (Hl k Hk) as (j & _ & Hj).
  destruct (wf0_cell _ (awf_0 s _ A) j k Hj) as [grp Hg]. exists grp. exact (chain_at_live _ _ _ Hg).
Qed.

Lemma has_liberties_any p : exists b, has_liberties false (gm_goban g) p = Ok b.
Proof.
  unfold has_liberties. destruct (nbc_any p) as (l & -> & _ & Hl). cbn [bind]. apply anyM_any.
  intros q Hq. destruct (color_valid q (Hl q Hq)) as [c ->]. cbn [bind]. eauto.
Qed.

Lemma suicide_any st : exists b, check_suicide false g st = Ok b.
Proof.
  unfold check_suicide. destruct (has_liberties_any (fst st)) as [b ->]. cbn [bind]. destruct b; [eauto|].
  destruct (groups_any (fst st)) as [l ->]. cbn [bind]. eauto.
Qed.

Lemma ko_any st : exists b, check_ko false g st = Ok b.
Proof.
  unfold check_ko. destruct (match gm_ko_point g with Some q => _ | None => _ end); [|eauto].
  destruct (groups_any (fst st)) as [l ->]. cbn [bind]. eauto.
Qed.

Lemma helper_any p c : exists a o e, helper_check_eye false g p c = Ok (a, o, e).
Proof.
  unfold helper_check_eye. destruct (corner_points_any p) as (l & -> & L). cbn [bind].
  assert (G : forall l a o e, (length a + length l <= 4)%nat -> (length o + length l <= 4)%nat -> (length e + length l <= 4)%nat ->
    exists a' o' e', foldM (fun '(ally, off, emp) q =>
           if is_coord_valid (gsize (gm_goban g)) q then
             let! cc := get_color (gm_goban g) q in
             match cc with
             | None => let! emp' := av_push 4 emp q in Ok (ally, off, emp')
             | Some c' =>
                 if color_eqb c' c then let! ally' := av_push 4 ally q in Ok (ally', off, emp)
                 else Ok (ally, off, emp)
             end
           else let! off' := av_push 4 off q in Ok (ally, off', emp)) l (a, o, e) = Ok (a', o', e')).
  { clear L l. induction l as [|q l IH]; intros a o e Ha Ho He; cbn [foldM length] in *; [eauto|].
    rewrite (awf_size s _ A). destruct (is_coord_valid s q) eqn:V.
    - destruct (color_valid q V) as [cc ->]. cbn [bind]. destruct cc as [c'|].
      + destruct (color_eqb c' c).
        * unfold av_push at 1. destruct (Nat.ltb_spec (length a) 4); [|lia]. cbn [bind]. rewrite (awf_size s _ A) in IH.
          apply IH; rewrite ?app_length; cbn; lia.
        * cbn [bind]. rewrite (awf_size s _ A) in IH. apply IH; lia.
      + unfold av_push at 1. destruct (Nat.ltb_spec (length e) 4); [|lia]. cbn [bind]. rewrite (awf_size s _ A) in IH.
        apply IH; rewrite ?app_length; cbn; lia.
    - unfold av_push at 1. destruct (Nat.ltb_spec (length o) 4); [|lia]. cbn [bind]. rewrite (awf_size s _ A) in IH.
      apply IH; rewrite ?app_length; cbn; lia. }
  apply G; rewrite L; cbn; lia.
Qed.

Lemma corners_any c l : exists b, check_eye_corners false g c l = Ok b.
Proof.
  induction l as [|q l IH]; cbn [check_eye_corners]; [eauto|].
  unfold get_connected_stones. destruct (points_any q) as [st ->]. cbn [bind].
  destruct (existsb _ _); [eauto|]. destruct (helper_any q c) as (a & o & e & ->). cbn [bind].
  destruct (_ || _); eauto.
Qed.

Lemma eye_any p c : (two_to_1dim s p < 361)%nat -> exists b, check_eye false g (p, c) = Ok b.
Proof.
  intros Hp. unfold check_eye. rewrite (get_color_any s _ _ A Hp). cbn [bind].
  destruct (col _ _); [eauto|]. destruct (nbc_any p) as (l & -> & _ & Hl). cbn [bind].
  destruct (anyM_any (fun q => let! cq := get_color (gm_goban g) q in Ok (negb (mcolor_eqb cq (Some c)))) l) as [b ->].
  { intros q Hq. destruct (color_valid q (Hl q Hq)) as [cc ->]. cbn [bind]. eauto. }
  cbn [bind]. destruct b; [eauto|]. destruct (helper_any p c) as (a & o & e & ->). cbn [bind].
  destruct (_ =? 4)%nat; [eauto|]. destruct (_ || _); [apply corners_any|eauto].
Qed.

Lemma goban_eq_any x y : awf s x -> awf s y -> exists b, goban_eq x y = Ok b.
Proof.
  intros Ax Ay. unfold goban_eq. destruct (_ || _); [eauto|].
  match goal with |- context [anyM ?f ?l] => destruct (anyM_any f l) as [b ->] end.
  - intros [r cc] Hp. rewrite (awf_size s x Ax) in Hp. apply elem_of_list_In, List.in_prod_iff in Hp as [P1 P2].
    apply List.in_seq in P1, P2.
    assert (V : (two_to_1dim s (r, cc) < 361)%nat).
    { apply valid_idx; [exact (awf_s s x Ax)|]. unfold is_coord_valid. cbn. apply andb_true_iff. split; apply Nat.ltb_lt; lia. }
    rewrite (get_color_any s x _ Ax V), (get_color_any s y _ Ay V). cbn [bind]. eauto.
  - cbn [bind]. eauto.
Qed.

Lemma contains_any x : awf s x -> exists b, history_contains (gm_history g) x = Ok b.
Proof.
  intros Ax. apply anyM_any. intros y Hy. apply goban_eq_any; [exact Ax|]. exact (proj1 (Forall_forall _ _) H y Hy).
Qed.

Lemma verification_any p : (two_to_1dim s p < 361)%nat -> cell (gm_goban g) (two_to_1dim s p) = None ->
  (N.of_nat (length (chains (gm_goban g))) < 65535)%N ->
  exists x, play_for_verification false g p = Ok x /\ awf s x.
Proof.
  intros Hp Hc HB. unfold play_for_verification.
  destruct (push_any s _ p (gm_turn g) A Hp Hc HB) as (g' & dead & u & gu & -> & A' & L & Cu & Vu & Colu & N0 & Col & Nd & Hd). cbn [bind].
  destruct (captured_any s g' (flag_contains (flag_illegal (gm_rule g)) SUICIDE) dead u gu A' Nd Vu) as (x & rem & ko & -> & Ax & _).
  - rewrite Colu. exact Hd.
  - cbn [bind]. eauto.
Qed.

Lemma superko_any p c : (two_to_1dim s p < 361)%nat -> cell (gm_goban g) (two_to_1dim s p) = None ->
  (N.of_nat (length (chains (gm_goban g))) < 65535)%N ->
  exists b, check_super_ko false g (p, c) = Ok b.
Proof.
  intros Hp Hc HB. unfold check_super_ko. destruct (_ <=? 2)%nat; [eauto|]. cbn [fst].
  unfold will_capture. destruct (groups_any p) as [l ->]. cbn [bind]. destruct (negb _); [eauto|].
  destruct (verification_any p Hp Hc HB) as (x & -> & Ax). cbn [bind].
  destruct (ko_any (p, c)) as [b ->]. cbn [bind]. destruct b; [eauto|]. apply contains_any, Ax.
Qed.

Lemma check_any p flags : (two_to_1dim s p < 361)%nat -> (N.of_nat (length (chains (gm_goban g))) < 65535)%N ->
  exists e, check_point_by false g p flags = Ok e.
Proof.
  intros Hp HB. unfold check_point_by. rewrite (get_color_any s _ _ A Hp). cbn [bind].
  destruct (col _ _) eqn:Ec; [eauto|]. apply (col_none_any s) in Ec; [|exact A].
  assert (B1 : exists b, (if flag_contains flags SUICIDE then check_suicide false g (p, gm_turn g) else Ok false) = Ok b)
    by (destruct (flag_contains _ _); [apply suicide_any|eauto]).
  destruct B1 as [b1 ->]. cbn [bind]. destruct b1; [eauto|].
  assert (B2 : exists b, (if flag_contains flags KO then check_ko false g (p, gm_turn g) else Ok false) = Ok b)
    by (destruct (flag_contains _ _); [apply ko_any|eauto]).
  destruct B2 as [b2 ->]. cbn [bind]. destruct b2; [eauto|].
  assert (B3 : exists b, (if flag_contains flags FILLEYE then check_eye false g (p, gm_turn g) else Ok false) = Ok b)
    by (destruct (flag_contains _ _); [apply eye_any, Hp|eauto]).
  destruct B3 as [b3 ->]. cbn [bind]. destruct b3; [eauto|].
  assert (B4 : exists b, (if flag_contains flags SUPERKO then check_super_ko false g (p, gm_turn g) else Ok false) = Ok b)
    by (destruct (flag_contains _ _); [apply superko_any; assumption|eauto]).
  destruct B4 as [b4 ->]. cbn [bind]. destruct b4; eauto.
Qed.

Lemma insert_any x : awf s x -> exists h, history_insert (gm_history g) x = Ok h /\ Forall (awf s) h.
Proof.
  intros Ax. unfold history_insert. destruct (contains_any x Ax) as [b ->]. cbn [bind]. eexists. split; [reflexivity|].
  destruct b; [exact H|]. apply Forall_app. split; [exact H|]. constructor; [exact Ax|constructor].
Qed.
End Checks.

Lemma u32_add_small a b : (a + b < 4294967296)%N -> u32_add false a b = Ok (a + b)%N.
Proof. intros H. unfold u32_add. destruct (N.ltb_spec (a + b) 4294967296); [reflexivity|lia]. Qed.

(** the invariant of the games *)
Record ainv (s : size_t) (b w : nat) (g : game) : Prop := mkAinv {
  ai_wf : awf s (gm_goban g);
  ai_hist : Forall (awf s) (gm_history g);
  ai_max : (N.of_nat (b + w) <= 65535)%N;
  ai_len : (length (chains (gm_goban g)) <= b + w)%nat;
  ai_pass : (gm_passes g <= 2)%nat;
  ai_b : (N.of_nat (icount 19 (col (gm_goban g)) Black) + snd (gm_prisoners g) = N.of_nat b)%N;
  ai_w : (N.of_nat (icount 19 (col (gm_goban g)) White) + fst (gm_prisoners g) = N.of_nat w)%N
}.

Lemma icount_put n f f' c i x : (i < n * n)%nat -> f i = None -> (forall j, f' j = if decide (j = i) then Some c else f j) ->
  icount n f' x = ((if decide (x = c) then 1 else 0) + icount n f x)%nat.
Proof.
  intros Hi Hf Hf'. rewrite (icount_clear n f' f [i] c x).
  - destruct (decide (x = c)); cbn [length]; lia.
  - apply NoDup_singleton.
  - intros j Hj. apply elem_of_list_singleton in Hj as ->. split; [exact Hi|]. rewrite Hf'. destruct (decide (i = i)); congruence.
  - intros j. rewrite Hf'. destruct (decide (j ∈ [i])) as [D|D].
    + apply elem_of_list_singleton in D as ->. exact Hf.
    + destruct (decide (j = i)) as [->|]; [|reflexivity]. exfalso. apply D. left.
Qed.

Lemma play_any s b w g x y :
  ainv s b w g -> (two_to_1dim s (x, y) < 361)%nat -> col (gm_goban g) (two_to_1dim s (x, y)) = None -> (N.of_nat (b + w) < 65535)%N ->
  exists g', play false g (MPlay x y) = Ok g' /\
    ainv s (fst (bump_count (gm_turn g) (b, w))) (snd (bump_count (gm_turn g) (b, w))) g' /\
    gm_turn g' = opp (gm_turn g) /\
    (forall j, j <> two_to_1dim s (x, y) -> col (gm_goban g') j = col (gm_goban g) j \/ col (gm_goban g') j = None) /\
    (col (gm_goban g') (two_to_1dim s (x, y)) = Some (gm_turn g) \/ col (gm_goban g') (two_to_1dim s (x, y)) = None) /\
    (flag_contains (flag_illegal (gm_rule g)) SUICIDE = true ->
       col (gm_goban g') (two_to_1dim s (x, y)) = Some (gm_turn g) /\
       forall j, col (gm_goban g) j = Some (gm_turn g) -> col (gm_goban g') j = Some (gm_turn g)).
Proof.
  intros I Hp Hc HB. destruct I as [A Hh HM HL HP Hb Hw]. set (i := two_to_1dim s (x, y)) in *.
  pose proof (col_none_any s _ _ A Hc) as Hcell.
  unfold play. destruct (insert_any s g Hh (gm_goban g) A) as (h & -> & Hh'). cbn [bind].
  destruct (push_any s _ (x, y) (gm_turn g) A Hp Hcell) as (g1 & dead & u & gu & -> & A1 & L1 & Cu & Vu & Colu & N0 & Col1 & Nd & Hd); [lia|].
  cbn [bind]. fold i in Cu, Col1. unfold game_remove_captured_stones.
  destruct (captured_any s g1 (negb (flag_contains (flag_illegal (gm_rule g)) SUICIDE)) dead u gu A1 Nd Vu)
    as (g2 & rem & ko & -> & A2 & L2 & C1 & C2 & C3); [rewrite Colu; exact Hd|].
  cbn [bind]. destruct rem as [pb pw].
  pose proof (C3 Black) as CB. pose proof (C3 White) as CW. cbn [rem_of fst snd] in CB, CW.
  assert (Hi : (i < 19 * 19)%nat) by exact Hp.
  pose proof (icount_put 19 _ _ _ i Black Hi Hc Col1) as PB. pose proof (icount_put 19 _ _ _ i White Hi Hc Col1) as PW.
  assert (PB' : (icount 19 (col g1) Black = (if color_eqb (gm_turn g) Black then 1 else 0) + icount 19 (col (gm_goban g)) Black)%nat)
    by (rewrite PB; destruct (gm_turn g); destruct (decide _); try congruence; reflexivity).
  assert (PW' : (icount 19 (col g1) White = (if color_eqb (gm_turn g) White then 1 else 0) + icount 19 (col (gm_goban g)) White)%nat)
    by (rewrite PW; destruct (gm_turn g); destruct (decide _); try congruence; reflexivity).
  clear PB PW. rewrite PB' in CB. rewrite PW' in CW. destruct (gm_prisoners g) as [qb qw] eqn:Eq. cbn [fst snd] in *.
  generalize dependent (icount 19 (col (gm_goban g)) Black). intros cb PB' Hb CB.
  generalize dependent (icount 19 (col (gm_goban g)) White). intros cw PW' Hw CW.
  rewrite u32_add_small by (destruct (gm_turn g); cbn [color_eqb] in *; lia). cbn [bind].
  rewrite u32_add_small by (destruct (gm_turn g); cbn [color_eqb] in *; lia). cbn [bind].
  eexists. split; [reflexivity|]. split; [|split; [reflexivity|]].
  - constructor; cbn [gm_goban gm_history gm_prisoners fst snd].
    + exact A2.
    + exact Hh'.
    + destruct (gm_turn g); cbn; lia.
    + rewrite L2. destruct (gm_turn g); cbn; lia.
    + cbn. lia.
    + destruct (gm_turn g); cbn [bump_count fst snd color_eqb] in *; lia.
    + destruct (gm_turn g); cbn [bump_count fst snd color_eqb] in *; lia.
  - cbn [gm_goban].
    assert (C1i : col g2 i = Some (gm_turn g) \/ col g2 i = None).
    { destruct (C1 i) as [E|E]; [|tauto]. left. rewrite E, Col1. destruct (decide (i = i)); congruence. }
    split.
    { intros j Hj. destruct (C1 j) as [E|E]; [|tauto]. left. rewrite E, Col1. destruct (decide (j = i)); congruence. }
    split; [exact C1i|]. intros Hsu. rewrite Hsu in C2. specialize (C2 eq_refl). rewrite Colu in C2.
    assert (K : forall j, col g1 j = Some (gm_turn g) -> col g2 j = Some (gm_turn g)) by (intros j Hj; rewrite C2; exact Hj).
    split; [apply K; rewrite Col1; destruct (decide (i = i)); congruence|].
    intros j Hj. apply K. rewrite Col1. destruct (decide (j = i)) as [|]; [reflexivity|exact Hj].
Qed.

(** ** Handicap stones and reachable games *)

Lemma pos_of_any s g p : awf s g -> (two_to_1dim s p < 361)%nat -> pos_of g p = col g (two_to_1dim s p).
Proof. intros A H. unfold pos_of. rewrite (get_color_any s g p A H). reflexivity. Qed.

Lemma push_all_any s pts : forall g,
  awf s g -> NoDup (List.map (two_to_1dim s) pts) ->
  (forall p, p ∈ pts -> (two_to_1dim s p < 361)%nat /\ col g (two_to_1dim s p) = None) ->
  (N.of_nat (length (chains g) + length pts) <= 65535)%N ->
  exists g', foldM (fun gb p => push false gb p Black) pts g = Ok g' /\ awf s g' /\
    (length (chains g') <= length (chains g) + length pts)%nat /\
    icount 19 (col g') Black = (icount 19 (col g) Black + length pts)%nat /\
    icount 19 (col g') White = icount 19 (col g) White /\
    (forall j, col g' j = if decide (j ∈ List.map (two_to_1dim s) pts) then Some Black else col g j).
Proof.
  induction pts as [|p pts IH]; intros g A Nd Hp HB.
  - exists g. cbn [foldM length List.map]. split; [reflexivity|]. split; [exact A|]. split; [lia|]. split; [lia|].
    split; [reflexivity|]. intros j. destruct (decide (j ∈ [])) as [D|D]; [apply elem_of_nil in D; destruct D|reflexivity].
  - cbn [foldM List.map length] in *. apply NoDup_cons in Nd as [N1 Nd].
    destruct (Hp p) as [P1 P2]; [left|]. pose proof (col_none_any s _ _ A P2) as Hc.
    destruct (push_any s g p Black A P1 Hc) as (g1 & dead & u & gu & E & A1 & L1 & Cu & Vu & Colu & N0 & Col1 & Ndd & Hd); [lia|].
    unfold push at 1. rewrite E. cbn [bind].
    assert (Hi : (two_to_1dim s p < 19 * 19)%nat) by exact P1.
    pose proof (icount_put 19 _ _ _ _ Black Hi P2 Col1) as PB. pose proof (icount_put 19 _ _ _ _ White Hi P2 Col1) as PW.
    destruct (IH g1 A1 Nd) as (g' & E' & A' & L' & B' & W' & C').
    { intros q Hq. destruct (Hp q) as [Q1 Q2]; [right; exact Hq|]. split; [exact Q1|]. rewrite Col1.
      destruct (decide (two_to_1dim s q = two_to_1dim s p)) as [D|D]; [|exact Q2]. exfalso. apply N1. rewrite <- D. apply elem_of_list_In, List.in_map, elem_of_list_In, Hq. }
    { lia. }
    exists g'. split; [exact E'|]. split; [exact A'|]. split; [lia|].
    split; [rewrite B', PB; destruct (decide (Black = Black)); [lia|contradiction]|].
    split; [rewrite W', PW; destruct (decide (White = Black)); [discriminate|lia]|].
    intros j. rewrite C', Col1. destruct (decide (j ∈ two_to_1dim s p :: _)) as [D|D]; rewrite elem_of_cons in D;
      destruct (decide (j ∈ List.map (two_to_1dim s) pts)); destruct (decide (j = two_to_1dim s p)); tauto.
Qed.

Lemma new_any sz r s : board_size s -> size_of sz = s -> exists g, game_new sz r = Ok g /\ ainv s 0 0 g.
Proof.
  intros [H1 H2] Hs. unfold game_new, goban_new. rewrite Hs.
  destruct (Nat.leb_spec (fst s) 19); [|lia]. destruct (Nat.leb_spec (snd s) 19); [|lia]. cbn [andb assert_ bind].
  eexists. split; [reflexivity|]. unfold BOARD_MAX_LENGTH.
  set (gb := mkGoban [] (replicate 361 None) (replicate 361 0%nat) s 0%N).
  assert (Hcell : forall j, cell gb j = None).
  { intros j. unfold cell, gb. cbn [board]. destruct (Nat.lt_ge_cases j 361).
    - rewrite lookup_replicate_2 by assumption. reflexivity.
    - rewrite lookup_ge_None_2; [reflexivity|]. rewrite replicate_length. assumption. }
  assert (Hcol : forall j, col gb j = None) by (intros j; unfold col; rewrite Hcell; reflexivity).
  assert (HC : forall c, icount 19 (col gb) c = 0%nat).
  { intros c. unfold icount. induction (seq 0 (19 * 19)) as [|a l IH]; [reflexivity|]. rewrite filter_cons, Hcol.
    destruct (decide (None = Some c)); [discriminate|exact IH]. }
  constructor; cbn [gm_goban gm_history gm_prisoners fst snd].
  - constructor; [|split; assumption|reflexivity|].
    + constructor; cbn [board next_stone chains gb].
      * apply replicate_length.
      * apply replicate_length.
      * cbn [length]. lia.
      * intros i k E. rewrite Hcell in E. discriminate.
      * intros k grp E. unfold live in E. cbn in E. discriminate.
    + cbn [zobrist_hash gb]. unfold hash_of. induction (seq 0 361) as [|a l IH]; [reflexivity|]. cbn [foldr].
      rewrite Hcol, <- IH. reflexivity.
  - constructor.
  - cbn. lia.
  - cbn. lia.
  - cbn. lia.
  - rewrite HC. reflexivity.
  - rewrite HC. reflexivity.
Qed.

Lemma areach_inv s b w g : areach s b w g -> ainv s b w g.
Proof.
  induction 1 as [sz r g Hs Hz Hn|b w g x y g' H IH Hp He HB E|b w g g' H IH E|b w g c g' H IH E|b w g H IH|b w g k H IH|b w g pts g' H IH Nd Hp HB E].
  - destruct (new_any sz r s Hs Hz) as (g0 & E0 & I0). congruence.
  - pose proof (ai_wf _ _ _ _ IH) as A. change (cell_of s (x, y)) with (two_to_1dim s (x, y)) in Hp.
    rewrite (pos_of_any s _ _ A Hp) in He. destruct (play_any s b w g x y IH Hp He HB) as (g1 & E1 & I1 & _).
    rewrite E1 in E. injection E as <-. exact I1.
  - unfold play in E. apply bind_ok in E as (? & Ha & [= <-]). unfold assert_ in Ha. destruct (Nat.ltb_spec (gm_passes g) 2); [|discriminate].
    destruct IH. constructor; assumption || (cbn; lia).
  - cbn in E. injection E as <-. destruct IH. constructor; assumption.
  - destruct IH. constructor; assumption || (cbn; lia).
  - destruct IH. constructor; assumption.
  - destruct IH as [A Hh HM HL HP Hb Hw]. unfold put_handicap in E.
    destruct (push_all_any s pts (gm_goban g) A Nd) as (g1 & E1 & A1 & L1 & B1 & W1 & _).
    { intros p Hpt. destruct (Hp p Hpt) as [P1 P2]. change (cell_of s p) with (two_to_1dim s p) in P1. split; [exact P1|].
      rewrite <- (pos_of_any s _ _ A P1). exact P2. }
    { unfold coord in *. lia. }
    rewrite E1 in E. cbn [bind] in E. injection E as <-. unfold coord in *. constructor; cbn [gm_goban gm_history gm_prisoners].
    + exact A1.
    + exact Hh.
    + lia.
    + lia.
    + exact HP.
    + rewrite B1. lia.
    + rewrite W1. exact Hw.
Qed.

(** ** Answers *)

Lemma try_any s b w g x y : areach s b w g -> (N.of_nat (b + w) < 65535)%N -> (two_to_1dim s (x, y) < 361)%nat ->
  exists g' v, try_play false g (MPlay x y) = Ok (g', v) /\
    (v = Accepted /\ gm_passes g <> 2%nat /\ col (gm_goban g) (two_to_1dim s (x, y)) = None /\ play false g (MPlay x y) = Ok g' \/
     v <> Accepted /\ g' = g).
Proof.
  intros R HB Hp. pose proof (areach_inv _ _ _ _ R) as I. pose proof (ai_wf _ _ _ _ I) as A. pose proof (ai_hist _ _ _ _ I) as Hh.
  pose proof (ai_len _ _ _ _ I) as HL. unfold try_play. destruct (Nat.eqb_spec (gm_passes g) 2).
  - eexists _, _. split; [reflexivity|]. right. split; [discriminate|reflexivity].
  - rewrite (get_color_any s _ _ A Hp). cbn [bind]. destruct (col _ _) eqn:Ec; cbn [mcolor_eqb negb].
    + eexists _, _. split; [reflexivity|]. right. split; [discriminate|reflexivity].
    + unfold check_point. destruct (check_any s g A Hh (x, y) (flag_illegal (gm_rule g)) Hp) as [e ->]; [lia|]. cbn [bind].
      destruct e as [e|].
      * eexists _, _. split; [reflexivity|]. right. split; [discriminate|reflexivity].
      * destruct (play_any s b w g x y I Hp Ec HB) as (g1 & -> & _). cbn [bind].
        eexists _, _. split; [reflexivity|]. left. auto.
Qed.

Lemma calls_any s ops : forall b w g, areach s b w g -> (forall o, o ∈ ops -> aguarded s o) ->
  (N.of_nat (b + w + all_stones ops) <= 65535)%N ->
  exists g' l, calls false g ops = Ok (g', l) /\ exists b' w', areach s b' w' g' /\ (b' + w' <= b + w + all_stones ops)%nat.
Proof.
  induction ops as [|o ops IH]; intros b w g R HG HB.
  - exists g, []. split; [reflexivity|]. exists b, w. split; [exact R|]. lia.
  - assert (Ho : aguarded s o) by (apply HG; left).
    assert (HG' : forall o, o ∈ ops -> aguarded s o) by (intros o' Ho'; apply HG; right; exact Ho').
    assert (Hst : all_stones (o :: ops) = (stones_of o + all_stones ops)%nat) by reflexivity.
    cbn [calls]. rewrite Hst in *.
    assert (S : exists g1 a b1 w1, call false g o = Ok (g1, a) /\ areach s b1 w1 g1 /\ (b1 + w1 <= b + w + stones_of o)%nat).
    { destruct o as [m|m| |k|pts]; cbn [aguarded] in Ho; try contradiction; cbn [call].
      - destruct m as [|c|x y].
        + unfold try_play. destruct (Nat.eqb_spec (gm_passes g) 2).
          * cbn [bind]. eexists _, _, b, w. split; [reflexivity|]. split; [exact R|]. lia.
          * assert (Hlt : (gm_passes g <? 2)%nat = true -> exists g1, play false g MPass = Ok g1) by (intros E; unfold play; rewrite E; cbn [assert_ bind]; eauto).
            destruct (gm_passes g <? 2)%nat eqn:Elt.
            -- destruct (Hlt eq_refl) as [g1 E1]. rewrite E1. cbn [bind]. eexists _, _, b, w. split; [reflexivity|].
               split; [exact (ar_pass _ _ _ _ _ R E1)|]. lia.
            -- exfalso. apply Nat.ltb_ge in Elt. pose proof (ai_pass _ _ _ _ (areach_inv _ _ _ _ R)). lia.
        + unfold try_play. destruct (gm_passes g =? 2)%nat; cbn [play bind]; eexists _, _, b, w; (split; [reflexivity|]); split; try lia.
          * exact R.
          * apply (ar_resign s b w g c); [exact R|reflexivity].
        + cbn in HB. destruct (try_any s b w g x y R) as (g1 & v & E & V); [cbn [stones_of] in HB; lia|exact Ho|].
          rewrite E. cbn [bind]. eexists g1, _. destruct V as [(-> & Hn & Hc & Ep)|[_ ->]].
          * eexists _, _. split; [reflexivity|]. split.
            -- apply (ar_play s b w g x y); [exact R|exact Ho| |cbn [stones_of] in HB; lia|exact Ep].
               rewrite (pos_of_any s _ _ (ai_wf _ _ _ _ (areach_inv _ _ _ _ R)) Ho). exact Hc.
            -- destruct (gm_turn g); cbn [bump_count fst snd stones_of]; lia.
          * exists b, w. split; [reflexivity|]. split; [exact R|]. lia.
      - eexists _, _, b, w. split; [reflexivity|]. split; [apply ar_resume, R|]. lia.
      - eexists _, _, b, w. split; [reflexivity|]. split; [apply ar_komi, R|]. lia. }
    destruct S as (g1 & a & b1 & w1 & E1 & R1 & L1). rewrite E1. cbn [bind].
    destruct (IH b1 w1 g1 R1 HG') as (g2 & l & E2 & b2 & w2 & R2 & L2); [lia|]. rewrite E2. cbn [bind].
    eexists g2, _. split; [reflexivity|]. exists b2, w2. split; [exact R2|]. lia.
Qed.
