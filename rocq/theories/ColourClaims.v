(** The points of a colour, on boards of every shape. *)
From stdpp Require Import relations sorting.
From Verif Require Import Observe RectSpec RectReach AnySpec.
From Verif Require Import MonadFacts BitsetFacts CoordFacts Struct Push Inv GameFacts RulesFacts BoardFacts ApiFacts ViewFacts CaseFacts.
From Verif Require Import RectCoord RectInv RectBridge RectGame RectReachFacts RectVerdict RectGo RefuteFacts AnyBoard AnyGame AnyViews AnyClaims.
From Coq Require Import Lia.

Local Notation length := Datatypes.length.
Open Scope nat_scope.

(** the point that cell [i] is listed as *)
Definition listed_as (s : nat * nat) (i : nat) : coord := (i / fst s, i mod snd s).

Lemma all_kept {A} (f : A -> bool) l : (forall x, f x = true) -> List.filter f l = l.
Proof. intros H. induction l as [|x l IH]; [reflexivity|]. cbn [List.filter]. rewrite H, IH. reflexivity. Qed.

Definition wanted (g : goban) (mc : option color) (i : nat) : bool := is_none mc || mcolor_eqb (col g i) mc.

Lemma by_colour_cells dbg s g mc : awf s g ->
  (dbg = true /\ 256 <= fst s * snd s /\ get_coords_by_color dbg g mc = Panic) \/
  ((dbg = false \/ fst s * snd s < 256) /\
   get_coords_by_color dbg g mc = Ok (List.map (listed_as s) (List.filter (wanted g mc) (seq 0 ((fst s * snd s) mod 256))))).
Proof.
  intros W. unfold get_coords_by_color. rewrite (awf_size s g W). unfold u8_mul.
  destruct (awf_s s g W) as [[H1 H2] [H3 H4]].
  assert (H2d : forall i, i < 256 -> one_to_2dim s i = Ok (listed_as s i)).
  { intros i Hi. unfold one_to_2dim, listed_as. destruct (Nat.eqb_spec (fst s) 0); [lia|]. destruct (Nat.eqb_spec (snd s) 0); [lia|]. cbn [orb].
    unfold as_u8. rewrite (Nat.mod_small (i / fst s)); [rewrite (Nat.mod_small (i mod snd s)); [reflexivity|]|].
    - pose proof (Nat.mod_upper_bound i (snd s) ltac:(lia)). lia.
    - apply Nat.div_lt_upper_bound; nia. }
  assert (HM : forall len, len <= 256 ->
    foldM (fun (acc : list coord) (i : nat) =>
           match mc with
           | None => let! p := one_to_2dim s i in av_push BOARD_MAX_LENGTH acc p
           | Some c =>
               let! cell := vget (board g) i in
               match cell with
               | None => Ok acc
               | Some k =>
                   let! grp := chain_at (chains g) k in
                   if color_eqb (g_color grp) c then
                     let! p := one_to_2dim s i in av_push BOARD_MAX_LENGTH acc p
                   else Ok acc
               end
           end) (seq 0 len) [] =
    Ok (List.map (listed_as s) (List.filter (wanted g mc) (seq 0 len)))).
  { induction len as [|len IH]; intros Hlen; [reflexivity|].
    rewrite seq_S, foldM_app, IH by lia. cbn [Nat.add bind foldM]. rewrite List.filter_app, List.map_app. cbn [List.filter].
    assert (Hcap : length (List.map (listed_as s) (List.filter (wanted g mc) (seq 0 len))) < BOARD_MAX_LENGTH).
    { rewrite map_length. eapply Nat.le_lt_trans; [apply lfilter_length|]. rewrite seq_length. unfold BOARD_MAX_LENGTH. lia. }
    rewrite (H2d len) by lia. cbn [bind].
    destruct mc as [c|]; cbn [is_none orb].
    - rewrite vget_board by (rewrite (wf0_board g (awf_0 s g W)); lia). cbn [bind]. change (wanted g (Some c) len) with (mcolor_eqb (col g len) (Some c)). unfold col.
      destruct (cell g len) as [k|] eqn:E; [|cbn; rewrite app_nil_r; reflexivity].
      destruct (wf0_cell g (awf_0 s g W) len k E) as [grp Hk]. rewrite Hk, (chain_at_live _ _ _ Hk). cbn [bind mcolor_eqb].
      destruct (color_eqb (g_color grp) c); [rewrite av_push_ok by exact Hcap; reflexivity|cbn; rewrite app_nil_r; reflexivity].
    - rewrite av_push_ok by exact Hcap. reflexivity. }
  destruct (Nat.ltb_spec (fst s * snd s) 256) as [Hs|Hs].
  - right. split; [tauto|]. cbn [bind]. rewrite HM by lia. rewrite Nat.mod_small by lia. reflexivity.
  - destruct dbg; [left; split; [reflexivity|split; [exact Hs|reflexivity]]|right]. split; [tauto|]. cbn [bind].
    apply HM. pose proof (Nat.mod_upper_bound (fst s * snd s) 256 ltac:(lia)). lia.
Qed.

Lemma wanted_spec g mc i : wanted g mc i = true <-> mc = None \/ col g i = mc.
Proof.
  unfold wanted. rewrite orb_true_iff. destruct (mcolor_eqb_spec (col g i) mc); destruct mc; cbn; intuition congruence.
Qed.

(** ** Any shape *)

Lemma colour_any s b w g mc : areach s b w g -> exists v l, to_vec (gm_goban g) = Ok v /\
  get_coords_by_color false (gm_goban g) mc = Ok l /\ get_stones_by_color false (gm_goban g) mc = Ok (List.map (fun p => (p, mc)) l) /\
  (mc = None -> length l = (fst s * snd s) mod 256) /\
  forall p, p ∈ l <-> exists i, (i < (fst s * snd s) mod 256) /\ p = (i / fst s, i mod snd s) /\ (mc = None \/ v !! i = Some mc).
Proof.
  intros H. pose proof (ai_wf _ _ _ _ (areach_inv _ _ _ _ H)) as A. set (x := gm_goban g) in *.
  exists (List.map (col x) (seq 0 361)). destruct (by_colour_cells false s x mc A) as [(F & _)|[_ E]]; [discriminate|].
  eexists. split; [exact (to_vec_any s x A)|]. split; [exact E|]. unfold get_stones_by_color. rewrite E. split; [reflexivity|]. split.
  { intros ->. rewrite map_length. rewrite all_kept; [apply seq_length|]. intros i. reflexivity. }
  pose proof (Nat.mod_upper_bound (fst s * snd s) 256 ltac:(lia)) as HL.
  intros p. rewrite elem_of_lmap. split.
  - intros (i & -> & Hi). apply elem_of_lfilter in Hi as [Hi Hw]. apply elem_of_seq in Hi. exists i. split; [lia|]. split; [reflexivity|].
    apply wanted_spec in Hw as [->|<-]; [left; reflexivity|right].
    change (@List.map nat) with (@fmap list _ nat). rewrite list_lookup_fmap, lookup_seq_lt by lia. reflexivity.
  - intros (i & Hi & -> & Hw). exists i. split; [reflexivity|]. apply elem_of_lfilter. split; [apply elem_of_seq; lia|].
    apply wanted_spec. destruct Hw as [->|Hw]; [left; reflexivity|right].
    change (@List.map nat) with (@fmap list _ nat) in Hw. rewrite list_lookup_fmap, lookup_seq_lt in Hw by lia. cbn in Hw. congruence.
Qed.

(** ** The width divides the height *)

Lemma rwf_awf n g : rwf n g -> awf n g.
Proof.
  intros W. pose proof (rwf_n n g W) as F. pose proof (fits_wide n F) as L. destruct F as (H1 & H2 & _).
  constructor; [exact (rwf_0 n g W)|unfold okay; lia|exact (rwf_size n g W)|exact (rwf_hash n g W)].
Qed.

Lemma listed_row_major s i j : fits s -> vi s i -> vi s j -> i < j -> row_major (listed_as s i) (listed_as s j).
Proof.
  intros F Vi Vj Hij. unfold row_major, listed_as. cbn [fst snd]. rewrite (mod_width s i F Vi), (mod_width s j F Vj).
  destruct F as (H1 & _). pose proof (Nat.div_le_mono i j (fst s) ltac:(lia) ltac:(lia)) as Hd.
  pose proof (Nat.div_mod i (fst s) ltac:(lia)). pose proof (Nat.div_mod j (fst s) ltac:(lia)).
  destruct (Nat.eq_dec (i / fst s) (j / fst s)) as [E|E]; [right; split; [exact E|]; rewrite E in *; lia|left; lia].
Qed.

Lemma colour_tall dbg n b w g mc : Nat.divide (snd n) (fst n) -> rgreach dbg n b w g ->
  ((256 <= fst n * snd n) -> dbg = true -> get_coords_by_color dbg (gm_goban g) mc = Panic /\ get_stones_by_color dbg (gm_goban g) mc = Panic) /\
  ((fst n * snd n < 256) \/ dbg = false -> exists l,
     get_coords_by_color dbg (gm_goban g) mc = Ok l /\ get_stones_by_color dbg (gm_goban g) mc = Ok (List.map (fun p => (p, mc)) l) /\
     (mc <> None -> StronglySorted row_major l) /\ (mc = None -> length l = (fst n * snd n) mod 256) /\
     forall p, p ∈ l <-> ron n p /\ (index (fst n) p < (fst n * snd n) mod 256) /\ (mc = None \/ position g p = mc)).
Proof.
  intros Hd HG. unfold position. pose proof (rgi_wf _ _ _ _ (rgreach_inv dbg n b w g Hd HG)) as W. set (x := gm_goban g) in *.
  pose proof (rwf_n n x W) as F. pose proof (fits_wide n F) as Hwh. pose proof F as (H1 & H2 & k & Hk).
  unfold get_stones_by_color. destruct (by_colour_cells dbg n x mc (rwf_awf n x W)) as [(D & Hb & E)|(D & E)]; rewrite E; cbn [bind].
  { split; [auto|]. intros [H|H]; [lia|congruence]. }
  split; [intros HA HB; destruct D; [congruence|lia]|]. intros _. eexists. split; [reflexivity|]. split; [reflexivity|].
  set (L := (fst n * snd n) mod 256) in *. assert (HL : L <= fst n * snd n) by (apply Nat.mod_le; lia).
  assert (HV : forall i, mc <> None -> wanted x mc i = true -> vi n i).
  { intros i Hm Hw. apply wanted_spec in Hw as [|Hw]; [contradiction|]. destruct (cell x i) as [m|] eqn:Em; [exact (rwf_on n x W i m Em)|].
    exfalso. apply Hm. rewrite <- Hw. unfold col. rewrite Em. reflexivity. }
  split; [|split].
  - intros Hm. generalize 0 at 1. revert HV Hm F. clear. intros HV Hm F. revert L. 
    intros L a. revert a. induction L as [|L IH]; intros a; cbn [seq List.filter]; [constructor|].
    destruct (wanted x mc a) eqn:Ew; [|apply IH]. cbn [List.map]. constructor; [apply IH|].
    apply Forall_forall. intros p Hp. apply elem_of_lmap in Hp as (j & -> & Hj). apply elem_of_lfilter in Hj as [Hj Hw]. apply elem_of_seq in Hj.
    apply listed_row_major; [exact F|exact (HV a Hm Ew)|exact (HV j Hm Hw)|lia].
  - intros ->. rewrite map_length. rewrite all_kept; [apply seq_length|]. intros i. reflexivity.
  - intros p. rewrite elem_of_lmap. split.
    + intros (i & -> & Hi). apply elem_of_lfilter in Hi as [Hi Hw]. apply elem_of_seq in Hi.
      pose proof (Nat.div_mod i (fst n) ltac:(lia)) as E1. pose proof (Nat.mod_upper_bound i (fst n) ltac:(lia)) as E2.
      pose proof (Nat.mod_upper_bound i (snd n) ltac:(lia)) as E3.
      assert (Hr : i / fst n < fst n) by (apply Nat.div_lt_upper_bound; nia).
      assert (Ec : i mod snd n = (i mod fst n) mod snd n).
      { rewrite E1 at 1. rewrite Hk at 1. replace (k * snd n * (i / fst n) + i mod fst n) with (i mod fst n + (k * (i / fst n)) * snd n) by lia.
        apply Nat.mod_add. lia. }
      assert (Hle : i mod snd n <= i mod fst n) by (rewrite Ec; apply Nat.mod_le; lia).
      assert (On : ron n (listed_as n i)) by (unfold ron, listed_as; cbn [fst snd]; lia).
      split; [exact On|]. split; [unfold index, listed_as; cbn [fst snd]; nia|].
      destruct mc as [c|]; [right|left; reflexivity].
      assert (V : vi n i) by (apply HV; [discriminate|exact Hw]).
      rewrite (rpos_of_col n x _ W On). apply wanted_spec in Hw as [|Hw]; [discriminate|]. rewrite <- Hw. f_equal.
      unfold ridx, listed_as. cbn [fst snd]. rewrite (mod_width n i F V). lia.
    + intros (On & Hi & Hw). exists (ridx n p). split; [|apply elem_of_lfilter; split].
      * pose proof (ridx_on n p F On) as V. unfold listed_as. rewrite (mod_width n _ F V). symmetry. apply (rpt_idx n p); assumption.
      * apply elem_of_seq. change (index (fst n) p) with (ridx n p) in Hi. lia.
      * apply wanted_spec. destruct Hw as [->|Hw]; [left; reflexivity|right]. rewrite <- (rpos_of_col n x p W On). exact Hw.
Qed.

(** the rows from the width on are never listed *)
Lemma colour_low_rows dbg n b w g mc l p : Nat.divide (snd n) (fst n) -> rgreach dbg n b w g ->
  get_coords_by_color dbg (gm_goban g) mc = Ok l -> p ∈ l -> (fst p < snd n).
Proof.
  intros Hd HG E Hp. destruct (colour_tall dbg n b w g mc Hd HG) as [HA HB].
  assert (D : fst n * snd n < 256 \/ dbg = false).
  { destruct (Nat.lt_ge_cases (fst n * snd n) 256) as [|Hge]; [left; assumption|right]. destruct dbg; [|reflexivity].
    destruct (HA Hge eq_refl) as [P _]. congruence. }
  destruct (HB D) as (l' & E' & _ & _ & _ & Hl). rewrite E in E'. injection E' as <-. apply Hl in Hp as (_ & Hi & _).
  pose proof (rwf_n n _ (rgi_wf _ _ _ _ (rgreach_inv dbg n b w g Hd HG))) as (H1 & H2 & _).
  pose proof (Nat.mod_le (fst n * snd n) 256 ltac:(lia)). unfold index in Hi. nia.
Qed.

(** ** Concrete boards *)

Definition low_moves : list move := [MPlay 0 1; MPlay 2 2; MPlay 3 0; MPass].

Lemma case_colour_tall dbg : exists g b w l, Nat.divide 3 6 /\ rgreach dbg (6, 3) b w g /\
  position g (0, 1) = Some Black /\ position g (2, 2) = Some White /\ position g (3, 0) = Some Black /\
  get_coords_by_color dbg (gm_goban g) (Some Black) = Ok [(0, 1)] /\ get_coords_by_color dbg (gm_goban g) (Some White) = Ok [(2, 2)] /\
  get_coords_by_color dbg (gm_goban g) None = Ok l /\ l = [(0, 0); (0, 1); (0, 2); (0, 0); (0, 1); (0, 2); (1, 0); (1, 1); (1, 2); (1, 0); (1, 1); (1, 2);
    (2, 0); (2, 1); (2, 2); (2, 0); (2, 1); (2, 2)].
Proof.
  destruct (rsample dbg 6 3 JAPANESE low_moves) as [g|] eqn:E; [|destruct dbg; vm_compute in E; discriminate].
  destruct (rsample_reach dbg 6 3 JAPANESE low_moves g ltac:(lia) ltac:(lia) E) as (b & w & HG & _).
  assert (K : match rsample dbg 6 3 JAPANESE low_moves with
    | Some g => bool_decide (position g (0, 1) = Some Black /\ position g (2, 2) = Some White /\ position g (3, 0) = Some Black) &&
       match get_coords_by_color dbg (gm_goban g) (Some Black), get_coords_by_color dbg (gm_goban g) (Some White), get_coords_by_color dbg (gm_goban g) None with
       | Ok a, Ok b, Ok c => bool_decide (a = [(0, 1)]) && bool_decide (b = [(2, 2)]) && bool_decide (c = [(0, 0); (0, 1); (0, 2); (0, 0); (0, 1); (0, 2); (1, 0); (1, 1); (1, 2); (1, 0); (1, 1); (1, 2);
    (2, 0); (2, 1); (2, 2); (2, 0); (2, 1); (2, 2)])
       | _, _, _ => false end
    | None => false end = true) by (destruct dbg; vm_compute; reflexivity).
  rewrite E in K. bools K. apply bool_decide_eq_true in K. destruct K as (P1 & P2 & P3).
  destruct (get_coords_by_color dbg (gm_goban g) (Some Black)) as [a| |] eqn:Ea; try discriminate.
  destruct (get_coords_by_color dbg (gm_goban g) (Some White)) as [a'| |] eqn:Ea'; try discriminate.
  destruct (get_coords_by_color dbg (gm_goban g) None) as [a''| |] eqn:Ea''; try discriminate.
  bools K0. apply bool_decide_eq_true in K0, K1, K2. subst.
  exists g, b, w. eexists. split; [exists 2; reflexivity|]. repeat (split; [eassumption || reflexivity|]). reflexivity.
Qed.

(** the natural claim fails on a small board that is not square *)
Lemma colour_tall_refuted dbg : exists g b w, rgreach dbg (6, 3) b w g /\ ron (6, 3) (3, 0) /\ position g (3, 0) = Some Black /\
  exists l, get_coords_by_color dbg (gm_goban g) (Some Black) = Ok l /\ (3, 0) ∉ l.
Proof.
  destruct (case_colour_tall dbg) as (g & b & w & l & Hd & HG & _ & _ & P & E & _). exists g, b, w.
  split; [exact HG|]. split; [unfold ron; cbn; lia|]. split; [exact P|]. eexists. split; [exact E|]. rewrite elem_of_list_singleton. discriminate.
Qed.

Definition odd_lists (g : game) : bool :=
  bool_decide (pos_of (gm_goban g) (1, 0) = Some Black /\ pos_of (gm_goban g) (3, 3) = Some White) &&
     match get_coords_by_color false (gm_goban g) (Some Black), get_coords_by_color false (gm_goban g) (Some White) with
     | Ok a, Ok b => bool_decide (a = [(0, 1); (1, 1)]) && bool_decide (b = [(3, 2)]) | _, _ => false end.

Lemma case_colour_any : exists g b w, areach (5, 4) b w g /\ pos_of (gm_goban g) (1, 0) = Some Black /\ pos_of (gm_goban g) (3, 3) = Some White /\
  get_coords_by_color false (gm_goban g) (Some Black) = Ok [(0, 1); (1, 1)] /\ get_coords_by_color false (gm_goban g) (Some White) = Ok [(3, 2)].
Proof.
  destruct (odd_reach odd_lists ltac:(vm_compute; reflexivity))
    as (g & b & w & HG & _ & _ & K).
  unfold odd_lists in K. bools K. apply bool_decide_eq_true in K. destruct K as (P1 & P2).
  destruct (get_coords_by_color false (gm_goban g) (Some Black)) as [a| |] eqn:Ea; try discriminate.
  destruct (get_coords_by_color false (gm_goban g) (Some White)) as [a'| |] eqn:Ea'; try discriminate.
  bools K0. apply bool_decide_eq_true in K0, K1. subst. exists g, b, w. auto.
Qed.
