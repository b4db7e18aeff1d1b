(** Coordinates of boards whose width divides their height, used by the proofs. *)
From Verif Require Import Coord Goban CoordFacts.
From Coq Require Import Lia.

(** a board whose width divides its height *)
Definition fits (s : size_t) : Prop :=
  (1 <= fst s <= 19 /\ 1 <= snd s /\ exists k, fst s = k * snd s)%nat.

(** the indices of its points *)
Definition vi (s : size_t) (i : nat) : Prop := (i / fst s < fst s /\ i mod fst s < snd s)%nat.

(** neighbour indices, in the order the code visits them *)
Definition rnb (s : size_t) (i : nat) : list nat :=
  (if (i + fst s <? fst s * fst s)%nat then [i + fst s] else [])%nat ++
  (if (fst s <=? i)%nat then [i - fst s] else [])%nat ++
  (if (S (i mod fst s) <? snd s)%nat then [S i] else [])%nat ++
  (if (0 <? i mod fst s)%nat then [i - 1] else [])%nat.

Lemma fits_wide s : fits s -> (snd s <= fst s)%nat.
Proof. intros (H1 & H2 & k & H). destruct k; nia. Qed.

Lemma vi_lt s i : fits s -> vi s i -> (i < fst s * fst s)%nat.
Proof.
  intros (H1 & _) (H2 & H3). pose proof (Nat.div_mod i (fst s) ltac:(lia)).
  pose proof (Nat.mod_upper_bound i (fst s) ltac:(lia)). nia.
Qed.
Lemma vi_361 s i : fits s -> vi s i -> (i < 361)%nat.
Proof. intros F V. pose proof (vi_lt s i F V). destruct F as (H1 & _). nia. Qed.

Lemma vi_idx s r c : fits s -> (r < fst s)%nat -> (c < snd s)%nat -> vi s (r * fst s + c).
Proof.
  intros F Hr Hc. pose proof (fits_wide s F). destruct (divmod_idx (fst s) r c ltac:(lia)) as [E1 E2].
  unfold vi. rewrite E1, E2. tauto.
Qed.

(** the column is found although the code takes the remainder by the width *)
Lemma mod_width s i : fits s -> vi s i -> (i mod snd s = i mod fst s)%nat.
Proof.
  intros (H1 & H2 & k & Hk) (H3 & H4). pose proof (Nat.div_mod i (fst s) ltac:(lia)) as E.
  symmetry. apply (Nat.mod_unique i (snd s) (k * (i / fst s)) (i mod fst s)); [exact H4|]. rewrite E at 1. rewrite Hk at 1. lia.
Qed.

Lemma one_to_2dim_rect s i : fits s -> vi s i -> one_to_2dim s i = Ok (i / fst s, i mod fst s)%nat.
Proof.
  intros F V. pose proof (mod_width s i F V) as M. pose proof (fits_wide s F) as L. destruct F as (H1 & H2 & _). destruct V as (V1 & V2).
  unfold one_to_2dim. destruct (Nat.eqb_spec (fst s) 0); [lia|]. destruct (Nat.eqb_spec (snd s) 0); [lia|]. cbn [orb].
  rewrite M. unfold as_u8. rewrite (Nat.mod_small (i / fst s)), (Nat.mod_small (i mod fst s)) by lia. reflexivity.
Qed.

Lemma valid_coords_rect dbg s r c : fits s -> (r < fst s)%nat -> (c < snd s)%nat ->
  valid_coords dbg (r, c) s =
  Ok ((if (S r <? fst s)%nat then [(S r, c)] else []) ++
      (if (0 <? r)%nat then [(r - 1, c)%nat] else []) ++
      (if (S c <? snd s)%nat then [(r, S c)] else []) ++
      (if (0 <? c)%nat then [(r, c - 1)%nat] else [])).
Proof.
  intros F Hr Hc. pose proof (fits_wide s F) as L. destruct F as (H1 & H2 & _). unfold valid_coords, neighbor_coords, u8_add.
  destruct (Nat.ltb_spec (r + 1) 256); [|lia].
  destruct (Nat.ltb_spec (c + 1) 256); [|lia].
  cbn [bind]. f_equal. cbn [List.filter].
  unfold is_coord_valid; cbn [fst snd].
  rewrite !(Nat.add_comm _ 1). cbn [Nat.add].
  assert (Hcn : (c <? snd s)%nat = true) by (apply Nat.ltb_lt; lia).
  assert (Hrn : (r <? fst s)%nat = true) by (apply Nat.ltb_lt; lia).
  rewrite Hcn, Hrn, !andb_true_r, !andb_true_l.
  assert (Hp : forall n x, (n <= 19)%nat -> (x < n)%nat ->
     (u8_wrapping_pred x <? n)%nat = (0 <? x)%nat /\ (0 < x -> u8_wrapping_pred x = x - 1)%nat).
  { intros n x Hn Hx. destruct x; cbn [u8_wrapping_pred].
    - split; [|lia]. apply Nat.ltb_ge. lia.
    - split; [|lia]. transitivity true; [apply Nat.ltb_lt; lia|symmetry; apply Nat.ltb_lt; lia]. }
  destruct (Hp (fst s) r ltac:(lia) Hr) as [Hr1 Hr2]. destruct (Hp (snd s) c ltac:(lia) Hc) as [Hc1 Hc2].
  rewrite Hr1, Hc1.
  destruct (S r <? fst s)%nat; destruct (Nat.ltb_spec 0 r); destruct (S c <? snd s)%nat;
    destruct (Nat.ltb_spec 0 c); cbn [app]; rewrite ?Hr2, ?Hc2 by lia; reflexivity.
Qed.

Lemma neighbors_idx_rect dbg s i : fits s -> vi s i -> neighbors_idx dbg s i = Ok (rnb s i).
Proof.
  intros F V. unfold neighbors_idx. rewrite one_to_2dim_rect by assumption. cbn [bind].
  destruct V as (Hr & Hc). rewrite valid_coords_rect by assumption. cbn [bind]. f_equal. pose proof (fits_wide s F) as L. destruct F as (H1 & H2 & _).
  pose proof (Nat.div_mod i (fst s) ltac:(lia)) as Hdm.
  unfold rnb. set (n := fst s) in *. set (r := (i / n)%nat) in *. set (c := (i mod n)%nat) in *.
  replace (i + n <? n * n)%nat with (S r <? n)%nat.
  2:{ destruct (Nat.ltb_spec (S r) n); destruct (Nat.ltb_spec (i + n) (n * n)); try reflexivity; nia. }
  replace (n <=? i)%nat with (0 <? r)%nat.
  2:{ destruct (Nat.ltb_spec 0 r); destruct (Nat.leb_spec n i); try reflexivity; nia. }
  rewrite !List.map_app. f_equal; [|f_equal; [|f_equal]].
  - destruct (S r <? n)%nat; [|reflexivity]. cbn [List.map]. f_equal. unfold two_to_1dim; cbn [fst snd]. fold n. nia.
  - destruct (Nat.ltb_spec 0 r); [|reflexivity]. cbn [List.map]. f_equal. unfold two_to_1dim; cbn [fst snd]. fold n. nia.
  - destruct (S c <? snd s)%nat; [|reflexivity]. cbn [List.map]. f_equal. unfold two_to_1dim; cbn [fst snd]. fold n. nia.
  - destruct (Nat.ltb_spec 0 c); [|reflexivity]. cbn [List.map]. f_equal. unfold two_to_1dim; cbn [fst snd]. fold n. nia.
Qed.

Lemma elem_of_rnb s i j : fits s -> vi s i ->
  j ∈ rnb s i <-> vi s j /\ adjc (i / fst s, i mod fst s)%nat (j / fst s, j mod fst s)%nat.
Proof.
  intros F V. pose proof (fits_wide s F) as L. destruct F as (F1 & F2 & _). destruct V as (Hr & Hc). unfold vi, rnb. set (n := fst s) in *.
  pose proof (Nat.div_mod i n ltac:(lia)) as Hdm.
  set (r := (i / n)%nat) in *. set (c := (i mod n)%nat) in *.
  assert (Hif : forall (b : bool) (x : nat),
     j ∈ (if b then [x] else []) <-> b = true /\ j = x).
  { intros [] x; rewrite ?elem_of_list_singleton, ?elem_of_nil; intuition congruence. }
  rewrite !elem_of_app, !Hif, !Nat.ltb_lt, Nat.leb_le.
  unfold adjc; cbn [fst snd]. split.
  - assert (Hj : forall r' c', (c' < snd s)%nat -> j = (r' * n + c')%nat -> (r' < n)%nat ->
      ((j / n < n /\ j mod n < snd s) /\ j / n = r' /\ j mod n = c')%nat).
    { intros r' c' H1 H2 H3. subst j. destruct (divmod_idx n r' c' ltac:(lia)). split; [split; lia|auto]. }
    intros [[H ->]|[[H ->]|[[H ->]|[H ->]]]].
    + destruct (Hj (S r) c) as (?&?&?); [lia|nia|nia|]. intuition lia.
    + assert (0 < r)%nat by nia. destruct r as [|r0]; [lia|].
      destruct (Hj r0 c) as (?&?&?); [lia|nia|nia|]. intuition lia.
    + destruct (Hj r (S c)) as (?&?&?); [lia|nia|nia|]. intuition lia.
    + destruct (Hj r (c - 1)%nat) as (?&?&?); [lia|nia|nia|]. intuition lia.
  - intros [[Hr' Hc'] H].
    pose proof (Nat.div_mod j n ltac:(lia)) as Hdm'.
    set (r' := (j / n)%nat) in *. set (c' := (j mod n)%nat) in *.
    destruct H as [[H1 [H2|H2]]|[H1 [H2|H2]]].
    + right; right; right. split; [lia|nia].
    + right; right; left. split; [lia|nia].
    + right; left. split; nia.
    + left. split; nia.
Qed.

Lemma rnb_vi s i j : fits s -> vi s i -> j ∈ rnb s i -> vi s j.
Proof. intros F V Hj. apply elem_of_rnb in Hj; tauto. Qed.

Lemma rnb_sym s i j : fits s -> vi s i -> j ∈ rnb s i -> i ∈ rnb s j.
Proof.
  intros F V Hj. apply elem_of_rnb in Hj as [Hj Ha]; [|assumption..].
  apply elem_of_rnb; [assumption..|]. split; [assumption|]. apply adjc_sym, Ha.
Qed.

Lemma rnb_irrefl s i : fits s -> vi s i -> i ∉ rnb s i.
Proof.
  intros F V Hj. apply elem_of_rnb in Hj as [_ Ha]; [|assumption..].
  unfold adjc in Ha; cbn in Ha. lia.
Qed.

Lemma rnb_length s i : (length (rnb s i) <= 4)%nat.
Proof.
  unfold rnb. rewrite !app_length.
  repeat match goal with |- context [if ?b then _ else _] => destruct b end; cbn; lia.
Qed.
