(** The settings of a game. *)
From stdpp Require Import relations sorting.
From Verif Require Import SettingsSpec Samples.
From Verif Require Import MonadFacts GameFacts SampleFacts RefuteFacts LegalFacts CaseFacts BuildClaims TableFacts KoFacts RulesFacts BoardFacts ApiFacts ClaimFacts PropFacts.
From Coq Require Import Lia.

Local Notation length := Datatypes.length.

Lemma play_settings dbg g m g' : play dbg g m = Ok g' -> gm_rule g' = gm_rule g /\ gm_handicap g' = gm_handicap g.
Proof.
  intros Ep. destruct m as [|c|x y]; unfold play in Ep.
  - apply bind_ok in Ep as (? & _ & Ep). injection Ep as <-. auto.
  - injection Ep as <-. auto.
  - apply bind_ok in Ep as (? & _ & Ep). apply bind_ok in Ep as ([[? ?] ?] & _ & Ep). apply bind_ok in Ep as ([[? ?] ?] & _ & Ep).
    injection Ep as <-. auto.
Qed.

Lemma try_settings dbg g m g' v : try_play dbg g m = Ok (g', v) -> gm_rule g' = gm_rule g /\ gm_handicap g' = gm_handicap g.
Proof.
  intros E. destruct (try_play_inv dbg g m g' v E) as [(e & _ & ->)|(_ & _ & Ep)]; [auto|exact (play_settings dbg g m g' Ep)].
Qed.

Theorem calls_settings dbg ops : forall g g' l, calls dbg g ops = Ok (g', l) ->
  komi g' = last_komi (komi g) ops /\ flag_illegal (gm_rule g') = flag_illegal (gm_rule g) /\ flag_score (gm_rule g') = flag_score (gm_rule g) /\
  gm_handicap g' = last_handicap (gm_handicap g) ops.
Proof.
  induction ops as [|o ops IH]; intros g g' l E; cbn [calls] in E.
  - injection E as <- _. auto.
  - apply bind_ok in E as ([g1 a] & E1 & E). apply bind_ok in E as ([g2 l2] & E2 & E). injection E as <- _. destruct (IH _ _ _ E2) as (K & I & S & H).
    destruct o as [m|m| |k|pts]; cbn [call last_komi last_handicap] in *.
    + apply bind_ok in E1 as (g3 & E1 & E3). injection E3 as <- _. apply play_settings in E1 as [R1 R2]. unfold komi in *. rewrite R1, R2 in *. auto.
    + apply bind_ok in E1 as ([g3 v] & E1 & E3). injection E3 as <- _. apply try_settings in E1 as [R1 R2]. unfold komi in *. rewrite R1, R2 in *. auto.
    + injection E1 as <- _. auto.
    + injection E1 as <- _. auto.
    + apply bind_ok in E1 as (g3 & E1 & E3). injection E3 as <- _. unfold put_handicap in E1. apply bind_ok in E1 as (gb & _ & E1). injection E1 as <-. auto.
Qed.

(** the komi plays no part in anything but the score *)
Lemma corners_komi dbg g k c l : check_eye_corners dbg (set_komi g k) c l = check_eye_corners dbg g c l.
Proof. induction l as [|p l IH]; [reflexivity|]. cbn [check_eye_corners]. rewrite IH. reflexivity. Qed.

Lemma eye_komi dbg g k p c : check_eye dbg (set_komi g k) (p, c) = check_eye dbg g (p, c).
Proof.
  unfold check_eye. change (gm_goban (set_komi g k)) with (gm_goban g). change (helper_check_eye dbg (set_komi g k) p c) with (helper_check_eye dbg g p c).
  destruct (get_color (gm_goban g) p) as [[]| |]; try reflexivity. cbn [bind]. destruct (neighbors_coords dbg (gm_goban g) p); try reflexivity. cbn [bind].
  destruct (anyM _ _) as [[]| |]; try reflexivity. cbn [bind]. destruct (helper_check_eye dbg g p c) as [[[l1 l2] l3]| |]; try reflexivity. cbn [bind].
  rewrite corners_komi. reflexivity.
Qed.

Lemma check_komi dbg g k p : check_point dbg (set_komi g k) p = check_point dbg g p.
Proof.
  unfold check_point. change (flag_illegal (gm_rule (set_komi g k))) with (flag_illegal (gm_rule g)). unfold check_point_by.
  change (gm_turn (set_komi g k)) with (gm_turn g). rewrite eye_komi. reflexivity.
Qed.

Definition lift (k : f32) (r : res game) : res game := let! g := r in Ok (set_komi g k).

Lemma play_komi dbg g k m : play dbg (set_komi g k) m = lift k (play dbg g m).
Proof.
  unfold lift. destruct m as [|c|x y]; unfold play, set_komi; cbn [gm_goban gm_passes gm_prisoners gm_outcome gm_turn gm_rule gm_handicap gm_history gm_ko_point].
  - destruct (assert_ _); reflexivity.
  - reflexivity.
  - destruct (history_insert _ _) as [h| |]; [|reflexivity..]. cbn [bind]. destruct (push_wth_feedback _ _ _ _) as [[[gb dead] u]| |]; [|reflexivity..]. cbn [bind].
    change (game_remove_captured_stones dbg (mkRule k (flag_illegal (gm_rule g)) (flag_score (gm_rule g))) gb (gm_prisoners g) dead u)
      with (game_remove_captured_stones dbg (gm_rule g) gb (gm_prisoners g) dead u).
    destruct (game_remove_captured_stones _ _ _ _ _ _) as [[[? ?] ?]| |]; reflexivity.
Qed.

Lemma try_komi dbg g k m : try_play dbg (set_komi g k) m = let! '(g', v) := try_play dbg g m in Ok (set_komi g' k, v).
Proof.
  unfold try_play. change (gm_passes (set_komi g k)) with (gm_passes g). change (gm_goban (set_komi g k)) with (gm_goban g).
  destruct (gm_passes g =? 2)%nat; [reflexivity|]. destruct m as [|c|x y].
  - rewrite play_komi. unfold lift. destruct (play dbg g MPass); reflexivity.
  - rewrite play_komi. unfold lift. destruct (play dbg g (MResign c)); reflexivity.
  - destruct (get_color _ _) as [c| |]; [|reflexivity..]. cbn [bind]. destruct (negb _); [reflexivity|]. rewrite check_komi.
    destruct (check_point dbg g (x, y)) as [[e|]| |]; [reflexivity| |reflexivity..]. cbn [bind]. rewrite play_komi. unfold lift. destruct (play dbg g (MPlay x y)); reflexivity.
Qed.

Lemma handicap_komi dbg g k pts : put_handicap dbg (set_komi g k) pts = lift k (put_handicap dbg g pts).
Proof.
  unfold put_handicap, lift. change (gm_goban (set_komi g k)) with (gm_goban g). destruct (foldM _ _ _); reflexivity.
Qed.

Lemma set_komi_twice g k k' : set_komi (set_komi g k) k' = set_komi g k'.
Proof. reflexivity. Qed.

Lemma set_komi_same g : set_komi g (komi g) = g.
Proof. destruct g as [gb p pr o t [k fi fs] h hi ko]. reflexivity. Qed.

Lemma call_komi dbg g k o : sets_komi o = false -> call dbg (set_komi g k) o = let! '(g', a) := call dbg g o in Ok (set_komi g' k, a).
Proof.
  destruct o as [m|m| |x|pts]; cbn [sets_komi call]; intros H.
  - rewrite play_komi. unfold lift. destruct (play dbg g m); reflexivity.
  - rewrite try_komi. destruct (try_play dbg g m) as [[]| |]; reflexivity.
  - reflexivity.
  - discriminate H.
  - rewrite handicap_komi. unfold lift. destruct (put_handicap dbg g pts); reflexivity.
Qed.

Lemma calls_any_komi dbg ops : forall g k, forallb (fun o => negb (sets_komi o)) ops = true ->
  calls dbg (set_komi g k) ops = let! '(g', l) := calls dbg g ops in Ok (set_komi g' k, l).
Proof.
  induction ops as [|o ops IH]; intros g k H; cbn [calls forallb] in *; [reflexivity|]. apply andb_true_iff in H as [Ho H]. apply negb_true_iff in Ho.
  rewrite (call_komi dbg g k o Ho). destruct (call dbg g o) as [[g1 a]| |]; [|reflexivity..]. cbn [bind]. rewrite (IH g1 k H).
  destruct (calls dbg g1 ops) as [[g2 l]| |]; reflexivity.
Qed.

(** calls without the changes of komi: the same answers and, but for the komi, the same game *)
Theorem calls_without_komi dbg ops : forall g,
  match calls dbg g ops with
  | Ok (g', l) => calls dbg g (without_komi ops) = Ok (set_komi g' (komi g), answers_without_komi ops l)
  | Panic => calls dbg g (without_komi ops) = Panic
  | Diverge => calls dbg g (without_komi ops) = Diverge
  end.
Proof.
  assert (W : forall ops, forallb (fun o => negb (sets_komi o)) (without_komi ops) = true).
  { intros l. apply forallb_forall. intros o Ho. apply filter_In in Ho. tauto. }
  induction ops as [|o ops IH]; intros g; cbn [calls].
  - cbn. rewrite set_komi_same. reflexivity.
  - unfold without_komi. cbn [List.filter answers_without_komi]. destruct (sets_komi o) eqn:Ho; cbn [negb]; fold (without_komi ops).
    + destruct o as [m|m| |k|pts]; try discriminate Ho. cbn [call bind]. specialize (IH (set_komi g k)). rewrite (calls_any_komi dbg (without_komi ops) g k (W ops)) in IH.
      destruct (calls dbg (set_komi g k) ops) as [[g2 l]| |]; destruct (calls dbg g (without_komi ops)) as [[g3 l3]| |] eqn:E3; cbn [bind] in *; try discriminate IH; try reflexivity.
      assert (IH' : forall (x y : game * list (option verdict)), Ok x = Ok y -> x = y) by (intros x y Exy; injection Exy as <-; reflexivity).
      apply IH', pair_equal_spec in IH as [I1 I2]. rewrite <- I2. f_equal. f_equal.
      destruct (calls_settings dbg (without_komi ops) g g3 l3 E3) as (K & _).
      assert (last_komi (komi g) (without_komi ops) = komi g) as E0.
      { specialize (W ops). generalize (without_komi ops) W. clear. intros l. revert g. induction l as [|o l IH]; intros g H; [reflexivity|]. cbn [forallb] in H. apply andb_true_iff in H as [H1 H2]. destruct o; cbn in *; try discriminate H1; exact (IH g H2). }
      rewrite E0 in K. rewrite <- K. apply (f_equal (fun h => set_komi h (komi g3))) in I1. rewrite set_komi_twice in I1. rewrite set_komi_same in I1. rewrite I1. reflexivity.
    + cbn [calls]. destruct (call dbg g o) as [[g1 a]| |] eqn:E1; cbn [bind]; [|reflexivity..]. specialize (IH g1).
      destruct (calls dbg g1 ops) as [[g2 l]| |]; cbn [bind]; rewrite IH; cbn [bind]; [|reflexivity..].
      assert (K : komi g1 = komi g).
      { assert (C : calls dbg g [o] = Ok (g1, [a])) by (cbn [calls]; rewrite E1; reflexivity). destruct (calls_settings dbg [o] g g1 [a] C) as (K & _). rewrite K. destruct o; try reflexivity. discriminate Ho. }
      rewrite K. reflexivity.
Qed.

(** two handicap stones, two changes of komi, a refused move *)
Definition settings_ops : list op :=
  [OHandicap [(2, 2); (6, 6)]; OTry (MPlay 4 4); OKomi (f32_of_N 1); OTry (MPlay 4 4); OKomi (f32_of_N 5); OTry MPass]%nat.
Definition settings_answers : list (option verdict) :=
  [None; Some Accepted; None; Some (Refused EPointNotEmpty); None; Some Accepted].

#[local] Instance error_dec : EqDecision play_error. Proof. solve_decision. Defined.
#[local] Instance verdict_dec : EqDecision verdict. Proof. solve_decision. Defined.

Lemma case_settings dbg : exists g g', game_new (Custom 9 9) JAPANESE = Ok g /\ calls dbg g settings_ops = Ok (g', settings_answers) /\
  komi g = f32_make 13 (-1) /\ komi g' = f32_of_N 5 /\ gm_handicap g = 0%N /\ gm_handicap g' = 2%N.
Proof.
  destruct (game_new (Custom 9 9) JAPANESE) as [g| |] eqn:E; [|vm_compute in E; discriminate E..].
  assert (F : match calls dbg g settings_ops with Ok (_, l) => bool_decide (l = settings_answers) | _ => false end = true).
  { vm_compute in E. injection E as <-. destruct dbg; vm_compute; reflexivity. }
  destruct (calls dbg g settings_ops) as [[g' l]| |] eqn:C; [|discriminate F..]. apply bool_decide_eq_true_1 in F as ->.
  exists g, g'. split; [reflexivity|]. split; [exact C|]. destruct (calls_settings dbg _ g g' _ C) as (K & _ & _ & H). rewrite K, H.
  vm_compute in E. injection E as <-. repeat split; vm_compute; reflexivity.
Qed.
