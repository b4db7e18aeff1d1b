(** Games under superko come to an end. *)
From stdpp Require Import relations.
From Verif Require Import EndSpec.
From Verif Require Import MonadFacts Struct Push Inv Bridge GameFacts RulesFacts BoardFacts LegalFacts LegalsFacts ClaimFacts SuperkoFacts TableFacts CaseFacts.
From Coq Require Import Lia.

Local Notation length := Datatypes.length.
Open Scope nat_scope.

(** all lists of [k] contents of points *)
Fixpoint vectors (k : nat) : list (list (option color)) :=
  match k with
  | 0 => [[]]
  | S k => List.map (cons None) (vectors k) ++ List.map (cons (Some Black)) (vectors k) ++ List.map (cons (Some White)) (vectors k)
  end.

Lemma vectors_length k : length (vectors k) = 3 ^ k.
Proof. induction k as [|k IH]; [reflexivity|]. cbn [vectors]. rewrite !app_length, !List.map_length, IH. cbn [Nat.pow]. lia. Qed.

Lemma vectors_all v : v ∈ vectors (length v).
Proof.
  induction v as [|x v IH]; [apply elem_of_list_here|]. cbn [Datatypes.length vectors]. rewrite !elem_of_app.
  assert (M : forall y, y :: v ∈ List.map (cons y) (vectors (length v))) by (intros y; apply elem_of_list_In, List.in_map, elem_of_list_In, IH).
  destruct x as [[]|]; auto.
Qed.

Definition picture (n : nat) (P : pos) : list (option color) := List.map P (points n).

Lemma picture_same n P Q : picture n P = picture n Q <-> same_pos n P Q.
Proof.
  split; [intros H p Hp; exact (shown n P Q p H Hp)|]. intros H. apply List.map_ext_in. intros p Hp. apply H. apply elem_of_points, elem_of_list_In, Hp.
Qed.

Lemma picture_in n P : picture n P ∈ vectors (n * n).
Proof. rewrite <- (points_length n). unfold picture. rewrite <- (List.map_length P (points n)). apply vectors_all. Qed.

(** positions that were seen: now or before a stone move *)
Definition seen (n : nat) (g : game) : list (list (option color)) :=
  picture n (position g) :: List.map (fun y => picture n (pos_of y)) (gm_history g).

Lemma seen_history n g P : picture n P ∈ List.map (fun y => picture n (pos_of y)) (gm_history g) <-> exists y, y ∈ gm_history g /\ same_pos n P (pos_of y).
Proof.
  rewrite elem_of_list_In, List.in_map_iff. split.
  - intros (y & E & Hy). exists y. split; [apply elem_of_list_In, Hy|]. apply picture_same. congruence.
  - intros (y & Hy & S). exists y. split; [symmetry; apply picture_same, S|apply elem_of_list_In, Hy].
Qed.

Definition unseen (n : nat) (g : game) : nat := length (filter (fun v => v ∉ seen n g) (vectors (n * n))).

Lemma filter_le {A} (p q : A -> Prop) `{!forall x, Decision (p x), !forall x, Decision (q x)} l :
  (forall x, p x -> q x) -> length (filter p l) <= length (filter q l).
Proof.
  intros HI. induction l as [|x l IH]; [reflexivity|]. rewrite !filter_cons. destruct (decide (p x)) as [P|P], (decide (q x)) as [Q|Q]; cbn [Datatypes.length]; try lia.
  destruct (Q (HI x P)).
Qed.

Lemma filter_lt {A} (p q : A -> Prop) `{!forall x, Decision (p x), !forall x, Decision (q x)} l a :
  (forall x, p x -> q x) -> a ∈ l -> q a -> ~ p a -> length (filter p l) < length (filter q l).
Proof.
  intros HI Ha Qa Pa. induction l as [|x l IH]; [apply elem_of_nil in Ha; contradiction|]. rewrite !filter_cons.
  pose proof (filter_le p q l HI) as LE. apply elem_of_cons in Ha. destruct Ha as [->|Ha].
  - rewrite decide_False by exact Pa. rewrite decide_True by exact Qa. cbn [Datatypes.length]. lia.
  - specialize (IH Ha). destruct (decide (p x)) as [P|P], (decide (q x)) as [Q|Q]; cbn [Datatypes.length]; try lia. destruct (Q (HI x P)).
Qed.

Definition stones (n : nat) (P : pos) : nat := count n P Black + count n P White.

Lemma stones_le n P : stones n P <= n * n.
Proof.
  unfold stones, count. rewrite <- (points_length n). generalize (points n). induction l as [|p l IH]; [cbn; lia|]. rewrite !filter_cons.
  destruct (decide (P p = Some Black)) as [B|B], (decide (P p = Some White)) as [W|W]; try congruence; cbn [Datatypes.length]; lia.
Qed.

Lemma count_same n P Q c : same_pos n P Q -> count n P c = count n Q c.
Proof.
  intros S. unfold count. f_equal. assert (H : forall p, p ∈ points n -> P p = Q p) by (intros p Hp; apply S, elem_of_points, Hp).
  revert H. generalize (points n). induction l as [|p l IH]; intros H; [reflexivity|]. rewrite !filter_cons. rewrite (H p (elem_of_list_here _ _)).
  rewrite IH by (intros q Hq; apply H, elem_of_list_further, Hq). reflexivity.
Qed.

(** how far the game is from its end *)
Definition left_over (n : nat) (g : game) : nat := unseen n g * (n * n + 1) + (n * n - stones n (position g)).

Lemma left_bound n g : left_over n g < 3 ^ (n * n) * (n * n + 1).
Proof.
  assert (U : unseen n g < 3 ^ (n * n)).
  { unfold unseen. rewrite <- vectors_length.
    assert (E : forall l : list (list (option color)), length l = length (filter (fun _ => True) l)).
    { induction l as [|x l IH]; [reflexivity|]. rewrite filter_cons, decide_True by exact I. cbn. congruence. }
    rewrite (E (vectors (n * n))). apply (filter_lt _ _ _ (picture n (position g))); [auto|apply picture_in|exact I|].
    intros H. apply H. apply elem_of_list_here. }
  unfold left_over. nia.
Qed.

Lemma left_stone dbg n g x y g' : lreach dbg n g -> forbids_superko (gm_rule g) = true -> forbids_suicide (gm_rule g) = true ->
  2 < length (gm_history g) -> on n (x, y) -> try_play dbg g (MPlay x y) = Ok (g', Accepted) ->
  left_over n g' < left_over n g /\ 2 < length (gm_history g') /\ gm_rule g' = gm_rule g.
Proof.
  intros HL HK HS HH Hp E. destruct (lreach_greach _ _ _ HL) as (b & w & HG). pose proof (greach_inv _ _ _ _ _ HG) as G.
  pose proof (greach_le _ _ _ _ _ HG) as N19.
  destruct (accepted_step _ _ _ _ _ _ _ _ G Hp E) as (He & Hs & Ep & M).
  rewrite suicide_bit in Hs, M. rewrite HS in Hs, M. cbn [negb] in Hs, M. destruct Hs as [Hs|Hs]; [discriminate|].
  change (pos_of (gm_goban g)) with (position g) in *. change (pos_of (gm_goban g')) with (position g') in *.
  (* history *)
  destruct (history_insert_spec n _ _ (gi_hist _ _ _ _ G) (gi_wf _ _ _ _ G)) as (h' & Eh & _ & Hh).
  assert (T : gm_rule g' = gm_rule g /\ gm_history g' = h').
  { cbn in Ep. rewrite Eh in Ep. cbn in Ep.
    destruct (push_wth_feedback _ _ _ _) as [[[gb dead] added]| |]; try discriminate. cbn in Ep.
    destruct (game_remove_captured_stones _ _ _ _ _ _) as [[[gb' pris] ko]| |]; try discriminate. cbn in Ep.
    injection Ep as <-. auto. }
  destruct T as [R T]. change (pos_of (gm_goban g)) with (position g) in Hh.
  assert (S1 : forall v, v ∈ seen n g -> v ∈ List.map (fun y => picture n (pos_of y)) (gm_history g')).
  { intros v Hv. unfold seen in Hv. rewrite T. apply elem_of_cons in Hv. destruct Hv as [->|Hv].
    - destruct Hh as [[[z [Hz Sz]] ->]|[_ ->]].
      + rewrite (seen_history n g). eauto.
      + rewrite List.map_app. apply elem_of_app. right. apply elem_of_list_here.
    - destruct Hh as [[_ ->]|[_ ->]]; [exact Hv|]. rewrite List.map_app. apply elem_of_app. auto. }
  assert (S2 : forall v, v ∉ seen n g' -> v ∉ seen n g).
  { intros v Hv Hv'. apply Hv. unfold seen. apply elem_of_cons. right. apply S1, Hv'. }
  split; [|split; [rewrite T; destruct Hh as [[_ ->]|[_ ->]]; [exact HH|rewrite app_length; lia]|exact R]].
  set (P := position g) in *. set (c := gm_turn g) in *. set (p := (x, y)) in *.
  destruct M as (Q & C1 & C2).
  assert (SQ : same_pos n (position g') Q) by (intros q Hq; destruct (C2 q Hq) as [_ B]; apply B; intros [F _]; discriminate).
  assert (Hpp : position g' p = Some c).
  { rewrite (SQ p Hp). destruct (C1 p Hp) as [_ B]. rewrite B.
    - unfold put. rewrite decide_True; reflexivity.
    - intros F. apply taken_color in F. unfold put in F. rewrite decide_True in F by reflexivity. injection F as F. destruct c; discriminate. }
  pose proof (stones_le n (position g')) as L1. pose proof (stones_le n P) as L2.
  destruct (points_ex_dec n (fun q => taken n (put P p c) p c q)) as [Ca|Nc].
  { intros q Hq. apply taken_dec; [exact N19|exact Hq]. }
  - (* a capture: the new position was never seen *)
    assert (NS : picture n (position g') ∉ seen n g).
    { intros F. unfold seen in F. apply elem_of_cons in F. destruct F as [F|F].
      - apply picture_same in F. specialize (F p Hp). fold P in F. congruence.
      - apply seen_history in F. destruct F as (z & Hz & Sz).
        rewrite <- superko_bit in HK.
        exact (superko_capturing dbg n g x y g' HL HK Hp E HH Ca z Hz Sz). }
    assert (U : unseen n g' < unseen n g).
    { unfold unseen. apply (filter_lt _ _ _ (picture n (position g'))); [exact S2|apply picture_in|exact NS|].
      intros F. apply F. apply elem_of_list_here. }
    unfold left_over. fold P. nia.
  - (* no capture: one more stone *)
    assert (U : unseen n g' <= unseen n g) by (unfold unseen; apply filter_le; exact S2).
    assert (SP : same_pos n (position g') (put P p c)).
    { intros q Hq. rewrite (SQ q Hq). destruct (C1 q Hq) as [_ B]. apply B, Nc, Hq. }
    assert (ST : stones n (position g') = S (stones n P)).
    { unfold stones. rewrite !(count_same n _ _ _ SP), !count_put by assumption. destruct c; repeat case_decide; try discriminate; try congruence; lia. }
    unfold left_over. fold P. nia.
Qed.

Theorem superko_games_end dbg n k g g' : lreach dbg n g -> forbids_superko (gm_rule g) = true -> forbids_suicide (gm_rule g) = true ->
  2 < length (gm_history g) -> stone_run dbg n k g g' -> k < 3 ^ (n * n) * (n * n + 1).
Proof.
  intros HL HK HS HH H. enough (L : k <= left_over n g) by (pose proof (left_bound n g); lia).
  revert HL HK HS HH. induction H as [g|k g x y g1 g2 Hp E _ IH|k g m e g1 g2 E _ IH|k g g1 g2 E _ IH|k g c g1 g2 E _ IH|k g g2 _ IH|k g z g2 _ IH];
    intros HL HK HS HH.
  - lia.
  - destruct (left_stone _ _ _ _ _ _ HL HK HS HH Hp E) as (L1 & L2 & R). rewrite R in IH.
    specialize (IH (lr_play _ _ _ _ _ _ HL Hp E) HK HS L2). lia.
  - rewrite (refused_unchanged _ _ _ _ _ E) in IH. auto.
  - pose proof (lr_pass _ _ _ _ HL E) as HL1. destruct (try_play_inv _ _ _ _ _ E) as [(e & F & _)|(_ & _ & Ep)]; [discriminate|].
    cbn in Ep. destruct (assert_ _) as [[]| |]; try discriminate. injection Ep as <-. exact (IH HL1 HK HS HH).
  - pose proof (lr_resign _ _ _ _ _ HL E) as HL1. destruct (try_play_inv _ _ _ _ _ E) as [(e & F & _)|(_ & _ & Ep)]; [discriminate|].
    cbn in Ep. injection Ep as <-. exact (IH HL1 HK HS HH).
  - exact (IH (lr_resume _ _ _ HL) HK HS HH).
  - exact (IH (lr_komi _ _ _ _ HL) HK HS HH).
Qed.
