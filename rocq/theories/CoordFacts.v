(** Facts about the coordinates of square boards, used by the proofs. *)
From Verif Require Import Coord Goban.
From Coq Require Import Lia.

(** Neighbour indices of a square board, in the order the code visits them. *)
Definition nb (n i : nat) : list nat :=
  (if (i + n <? n * n)%nat then [i + n] else [])%nat ++
  (if (n <=? i)%nat then [i - n] else [])%nat ++
  (if (S (i mod n) <? n)%nat then [S i] else [])%nat ++
  (if (0 <? i mod n)%nat then [i - 1] else [])%nat.

Lemma divmod_idx n r c : (c < n)%nat -> ((r * n + c) / n = r /\ (r * n + c) mod n = c)%nat.
Proof.
  intros H. split.
  - symmetry. apply (Nat.div_unique _ n r c); lia.
  - symmetry. apply (Nat.mod_unique _ n r c); lia.
Qed.

Lemma two_idx n r c : two_to_1dim (n, n) (r, c) = (r * n + c)%nat.
Proof. reflexivity. Qed.

Lemma idx_bound n r c : (r < n -> c < n -> r * n + c < n * n)%nat.
Proof. nia. Qed.

Lemma one_to_2dim_sq n i :
  (1 <= n <= 19)%nat -> (i < n * n)%nat ->
  one_to_2dim (n, n) i = Ok (i / n, i mod n)%nat.
Proof.
  intros Hn Hi. unfold one_to_2dim; cbn [fst snd].
  destruct (Nat.eqb_spec n 0) as [->|_]; [lia|]. cbn [orb].
  assert (i / n < n)%nat by (apply Nat.div_lt_upper_bound; lia).
  assert (i mod n < n)%nat by (apply Nat.mod_upper_bound; lia).
  unfold as_u8. rewrite (Nat.mod_small (i / n)), (Nat.mod_small (i mod n)) by lia.
  reflexivity.
Qed.

Lemma two_one_sq n i : (1 <= n)%nat -> two_to_1dim (n, n) (i / n, i mod n)%nat = i.
Proof.
  intros Hn. unfold two_to_1dim; cbn [fst snd].
  pose proof (Nat.div_mod i n). lia.
Qed.

Lemma valid_coords_eq dbg n r c :
  (1 <= n <= 19)%nat -> (r < n)%nat -> (c < n)%nat ->
  valid_coords dbg (r, c) (n, n) =
  Ok ((if (S r <? n)%nat then [(S r, c)] else []) ++
      (if (0 <? r)%nat then [(r - 1, c)%nat] else []) ++
      (if (S c <? n)%nat then [(r, S c)] else []) ++
      (if (0 <? c)%nat then [(r, c - 1)%nat] else [])).
Proof.
  intros Hn Hr Hc. unfold valid_coords, neighbor_coords, u8_add.
  destruct (Nat.ltb_spec (r + 1) 256); [|lia].
  destruct (Nat.ltb_spec (c + 1) 256); [|lia].
  cbn [bind]. f_equal. cbn [List.filter].
  unfold is_coord_valid; cbn [fst snd].
  rewrite !(Nat.add_comm _ 1). cbn [Nat.add].
  assert (Hcn : (c <? n)%nat = true) by (apply Nat.ltb_lt; lia).
  assert (Hrn : (r <? n)%nat = true) by (apply Nat.ltb_lt; lia).
  rewrite Hcn, Hrn, !andb_true_r, !andb_true_l.
  assert (Hp : forall x, (x < n)%nat ->
     (u8_wrapping_pred x <? n)%nat = (0 <? x)%nat /\ (0 < x -> u8_wrapping_pred x = x - 1)%nat).
  { intros x Hx. destruct x; cbn [u8_wrapping_pred].
    - split; [|lia]. apply Nat.ltb_ge. lia.
    - split; [|lia]. transitivity true; [apply Nat.ltb_lt; lia|symmetry; apply Nat.ltb_lt; lia]. }
  destruct (Hp r Hr) as [Hr1 Hr2]. destruct (Hp c Hc) as [Hc1 Hc2].
  rewrite Hr1, Hc1.
  destruct (S r <? n)%nat; destruct (Nat.ltb_spec 0 r); destruct (S c <? n)%nat;
    destruct (Nat.ltb_spec 0 c); cbn [app]; rewrite ?Hr2, ?Hc2 by lia; reflexivity.
Qed.

Lemma neighbors_idx_sq dbg n i :
  (1 <= n <= 19)%nat -> (i < n * n)%nat ->
  neighbors_idx dbg (n, n) i = Ok (nb n i).
Proof.
  intros Hn Hi. unfold neighbors_idx. rewrite one_to_2dim_sq by lia. cbn [bind].
  assert (Hr : (i / n < n)%nat) by (apply Nat.div_lt_upper_bound; lia).
  assert (Hc : (i mod n < n)%nat) by (apply Nat.mod_upper_bound; lia).
  rewrite valid_coords_eq by lia. cbn [bind]. f_equal.
  pose proof (Nat.div_mod i n ltac:(lia)) as Hdm.
  set (r := (i / n)%nat) in *. set (c := (i mod n)%nat) in *.
  unfold nb. fold c.
  replace (i + n <? n * n)%nat with (S r <? n)%nat.
  2:{ destruct (Nat.ltb_spec (S r) n); destruct (Nat.ltb_spec (i + n) (n * n)); try reflexivity; nia. }
  replace (n <=? i)%nat with (0 <? r)%nat.
  2:{ destruct (Nat.ltb_spec 0 r); destruct (Nat.leb_spec n i); try reflexivity; nia. }
  rewrite !List.map_app. f_equal; [|f_equal; [|f_equal]].
  - destruct (S r <? n)%nat; [|reflexivity]. cbn [List.map two_to_1dim fst snd]. f_equal.
    unfold two_to_1dim; cbn [fst snd]. nia.
  - destruct (Nat.ltb_spec 0 r); [|reflexivity]. cbn [List.map]. f_equal.
    unfold two_to_1dim; cbn [fst snd]. nia.
  - destruct (S c <? n)%nat; [|reflexivity]. cbn [List.map]. f_equal.
    unfold two_to_1dim; cbn [fst snd]. nia.
  - destruct (Nat.ltb_spec 0 c); [|reflexivity]. cbn [List.map]. f_equal.
    unfold two_to_1dim; cbn [fst snd]. nia.
Qed.

(** Orthogonal adjacency of (row, column) pairs. *)
Definition adjc (p q : coord) : Prop :=
  (fst p = fst q /\ (snd p = S (snd q) \/ snd q = S (snd p))) \/
  (snd p = snd q /\ (fst p = S (fst q) \/ fst q = S (fst p))).

Lemma adjc_sym p q : adjc p q -> adjc q p.
Proof. unfold adjc; intuition lia. Qed.

Lemma elem_of_nb n i j :
  (1 <= n)%nat -> (i < n * n)%nat ->
  j ∈ nb n i <->
  (j < n * n)%nat /\ adjc (i / n, i mod n)%nat (j / n, j mod n)%nat.
Proof.
  intros Hn Hi.
  assert (Hr : (i / n < n)%nat) by (apply Nat.div_lt_upper_bound; lia).
  assert (Hc : (i mod n < n)%nat) by (apply Nat.mod_upper_bound; lia).
  pose proof (Nat.div_mod i n ltac:(lia)) as Hdm.
  set (r := (i / n)%nat) in *. set (c := (i mod n)%nat) in *.
  assert (Hif : forall (b : bool) (x : nat),
     j ∈ (if b then [x] else []) <-> b = true /\ j = x).
  { intros [] x; rewrite ?elem_of_list_singleton, ?elem_of_nil; intuition congruence. }
  unfold nb. fold c. rewrite !elem_of_app, !Hif, !Nat.ltb_lt, Nat.leb_le.
  unfold adjc; cbn [fst snd]. split.
  - assert (Hj : forall r' c', (c' < n)%nat -> j = (r' * n + c')%nat -> (r' < n)%nat ->
      (j < n * n /\ j / n = r' /\ j mod n = c')%nat).
    { intros r' c' H1 H2 H3. subst j. destruct (divmod_idx n r' c' H1). split; [nia|auto]. }
    intros [[H ->]|[[H ->]|[[H ->]|[H ->]]]].
    + destruct (Hj (S r) c) as (?&?&?); [lia|nia|nia|]. intuition lia.
    + assert (0 < r)%nat by nia. destruct r as [|r0]; [lia|].
      destruct (Hj r0 c) as (?&?&?); [lia|nia|nia|]. intuition lia.
    + destruct (Hj r (S c)) as (?&?&?); [lia|nia|nia|]. intuition lia.
    + destruct (Hj r (c - 1)%nat) as (?&?&?); [lia|nia|nia|]. intuition lia.
  - intros [Hj H].
    assert (Hr' : (j / n < n)%nat) by (apply Nat.div_lt_upper_bound; lia).
    assert (Hc' : (j mod n < n)%nat) by (apply Nat.mod_upper_bound; lia).
    pose proof (Nat.div_mod j n ltac:(lia)) as Hdm'.
    set (r' := (j / n)%nat) in *. set (c' := (j mod n)%nat) in *.
    destruct H as [[H1 [H2|H2]]|[H1 [H2|H2]]].
    + right; right; right. split; [lia|nia].
    + right; right; left. split; [lia|nia].
    + right; left. split; nia.
    + left. split; nia.
Qed.

Lemma nb_bound n i j : (1 <= n)%nat -> (i < n * n)%nat -> j ∈ nb n i -> (j < n * n)%nat.
Proof. intros Hn Hi Hj. apply elem_of_nb in Hj; tauto. Qed.

Lemma nb_sym n i j : (1 <= n)%nat -> (i < n * n)%nat -> j ∈ nb n i -> i ∈ nb n j.
Proof.
  intros Hn Hi Hj. apply elem_of_nb in Hj as [Hj Ha]; [|lia..].
  apply elem_of_nb; [lia..|]. split; [lia|]. apply adjc_sym, Ha.
Qed.

Lemma nb_irrefl n i : (1 <= n)%nat -> (i < n * n)%nat -> i ∉ nb n i.
Proof.
  intros Hn Hi Hj. apply elem_of_nb in Hj as [_ Ha]; [|lia..].
  unfold adjc in Ha; cbn in Ha. lia.
Qed.

Lemma nb_length n i : (length (nb n i) <= 4)%nat.
Proof.
  unfold nb. rewrite !app_length.
  repeat match goal with |- context [if ?b then _ else _] => destruct b end; cbn; lia.
Qed.

Lemma nb_NoDup n i : (1 <= n)%nat -> (i < n * n)%nat -> NoDup (nb n i).
Proof.
  intros Hn Hi. unfold nb.
  assert (Hc : (i mod n < n)%nat) by (apply Nat.mod_upper_bound; lia).
  pose proof (Nat.mod_le i n ltac:(lia)) as Hle.
  destruct (Nat.ltb_spec (i + n) (n * n)); destruct (Nat.leb_spec n i);
    destruct (Nat.ltb_spec (S (i mod n)) n); destruct (Nat.ltb_spec 0 (i mod n));
    cbn [app]; repeat (apply NoDup_cons; split); rewrite ?elem_of_cons, ?elem_of_nil;
    try apply NoDup_nil_2; try apply NoDup_nil; try (intuition lia).
Qed.
