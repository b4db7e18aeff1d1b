(** The Zobrist table (C57). *)
From Verif Require Import Observe Struct Inv Bridge GameFacts BoardFacts ClaimFacts RefuteFacts.
From Coq Require Import Lia.

Local Notation length := Datatypes.length.

Fixpoint distinct (l : list N) : bool :=
  match l with [] => true | x :: l => negb (existsb (N.eqb x) l) && distinct l end.

Lemma distinct_spec l : distinct l = true -> NoDup l.
Proof.
  induction l as [|x l IH]; intros H; [constructor|]. cbn in H. apply andb_true_iff in H as [H1 H2]. constructor; [|auto].
  intros Hx. apply negb_true_iff in H1. assert (existsb (N.eqb x) l = true); [|congruence].
  apply existsb_exists. exists x. split; [apply elem_of_list_In; exact Hx|apply N.eqb_refl].
Qed.

Lemma table_ok : length ZOBRIST = 722%nat /\ NoDup ZOBRIST /\ 0%N ∉ ZOBRIST.
Proof.
  assert (E : distinct (0%N :: ZOBRIST) = true) by (vm_compute; reflexivity). apply distinct_spec, NoDup_cons in E as [E1 E2].
  split; [vm_compute; reflexivity|]. split; assumption.
Qed.

Lemma index_lt n p : (n <= 19)%nat -> on n p -> (index n p < 361)%nat.
Proof. intros Hn [A B]. unfold index. nia. Qed.

Lemma index_inj n p q : on n p -> on n q -> index n p = index n q -> p = q.
Proof. destruct p as [a b], q as [c d]. unfold on, index. cbn. intros [A B] [C D] E. assert (a = c) by nia. subst. f_equal. lia. Qed.

(** two stones with the same key are the same stone *)
Lemma stone_key_inj n p q c d : (n <= 19)%nat -> on n p -> on n q ->
  stone_key n p (Some c) = stone_key n q (Some d) -> p = q /\ c = d.
Proof.
  intros Hn Hp Hq. pose proof (index_lt n p Hn Hp) as Lp. pose proof (index_lt n q Hn Hq) as Lq. destruct table_ok as (L & Nd & _).
  assert (K : forall i j, (i < 722)%nat -> (j < 722)%nat -> default 0%N (ZOBRIST !! i) = default 0%N (ZOBRIST !! j) -> i = j).
  { intros i j Hi Hj. destruct (ZOBRIST !! i) as [x|] eqn:Ei; [|apply lookup_ge_None in Ei; rewrite L in Ei; lia].
    destruct (ZOBRIST !! j) as [y|] eqn:Ej; [|apply lookup_ge_None in Ej; rewrite L in Ej; lia]. cbn. intros ->.
    eapply NoDup_lookup; eassumption. }
  unfold stone_key. destruct c, d; intros E; apply K in E; try lia; (split; [|reflexivity]); apply (index_inj n); trivial; lia.
Qed.

Lemma stone_key_zero n p c : (n <= 19)%nat -> on n p -> stone_key n p (Some c) <> 0%N.
Proof.
  intros Hn Hp. pose proof (index_lt n p Hn Hp) as Lp. destruct table_ok as (L & _ & Z).
  assert (K : forall i, (i < 722)%nat -> default 0%N (ZOBRIST !! i) <> 0%N).
  { intros i Hi. destruct (ZOBRIST !! i) as [x|] eqn:Ei; [|apply lookup_ge_None in Ei; rewrite L in Ei; lia]. cbn. intros ->.
    apply Z. eapply elem_of_list_lookup_2, Ei. }
  unfold stone_key. destruct c; apply K; lia.
Qed.

Lemma stone_key_inj' n p a b : (n <= 19)%nat -> on n p -> stone_key n p a = stone_key n p b -> a = b.
Proof.
  intros Hn Hp E. destruct a as [c|], b as [d|]; [|exfalso; exact (stone_key_zero n p c Hn Hp E)|exfalso; exact (stone_key_zero n p d Hn Hp (eq_sym E))|reflexivity].
  apply (stone_key_inj n p p c d Hn Hp Hp) in E as [_ ->]. reflexivity.
Qed.

Definition key_of (n : nat) (P : pos) (l : list coord) : N :=
  foldr (fun p acc => N.lxor (stone_key n p (P p)) acc) 0%N l.

Lemma key_perm n P l l' : l ≡ₚ l' -> key_of n P l = key_of n P l'.
Proof.
  intros E. induction E as [|x l l' E IH|x y l|l1 l2 l3 E1 IH1 E2 IH2]; cbn; [reflexivity|fold (key_of n P l) (key_of n P l'); rewrite IH; reflexivity| |congruence].
  rewrite <- !N.lxor_assoc. f_equal. apply N.lxor_comm.
Qed.

Lemma key_ext n P Q l : (forall p, p ∈ l -> P p = Q p) -> key_of n P l = key_of n Q l.
Proof.
  induction l as [|x l IH]; intros H; [reflexivity|]. cbn. fold (key_of n P l) (key_of n Q l). rewrite (H x) by left. rewrite IH; [reflexivity|].
  intros p Hp. apply H. right. exact Hp.
Qed.

Lemma points_split n p : on n p -> exists l, points n ≡ₚ p :: l /\ NoDup (p :: l).
Proof.
  intros Hp. apply elem_of_points in Hp. apply elem_of_Permutation in Hp as [l El]. exists l. split; [exact El|]. rewrite <- El. apply NoDup_points.
Qed.

Lemma lxor_cancel_r a b c : N.lxor a c = N.lxor b c -> a = b.
Proof. intros E. rewrite <- (N.lxor_0_r a), <- (N.lxor_0_r b), <- (N.lxor_nilpotent c), <- !N.lxor_assoc, E. reflexivity. Qed.

(** positions that differ in one intersection have different keys *)
Lemma key_one n P Q p : (n <= 19)%nat -> on n p -> P p <> Q p ->
  (forall q, on n q -> q <> p -> P q = Q q) -> position_key n P <> position_key n Q.
Proof.
  intros Hn Hp Hd Hs E. unfold position_key in E. fold (key_of n P (points n)) (key_of n Q (points n)) in E.
  destruct (points_split n p Hp) as (l & El & Nd). rewrite (key_perm n P _ _ El), (key_perm n Q _ _ El) in E. cbn in E.
  fold (key_of n P l) (key_of n Q l) in E. apply NoDup_cons in Nd as [Hl _].
  rewrite (key_ext n P Q l) in E.
  - apply lxor_cancel_r, (stone_key_inj' n p _ _ Hn Hp) in E. contradiction.
  - intros q Hq. apply Hs; [apply elem_of_points; rewrite El; right; exact Hq|intros ->; contradiction].
Qed.

(** a stone moved elsewhere, whatever its colour there, changes the key *)
Lemma key_moved n P Q p q c d : (n <= 19)%nat -> on n p -> on n q -> p <> q ->
  P p = Some c -> Q p = None -> P q = None -> Q q = Some d ->
  (forall r, on n r -> r <> p -> r <> q -> P r = Q r) -> position_key n P <> position_key n Q.
Proof.
  intros Hn Hp Hq Hpq Pp Qp Pq Qq Hs E. unfold position_key in E. fold (key_of n P (points n)) (key_of n Q (points n)) in E.
  destruct (points_split n p Hp) as (l & El & Nd). pose proof Nd as Nd0. apply NoDup_cons in Nd as [Hl Ndl].
  assert (Hql : q ∈ l). { apply elem_of_points in Hq. rewrite El in Hq. apply elem_of_cons in Hq as [->|]; [contradiction|assumption]. }
  apply elem_of_Permutation in Hql as [l' El']. rewrite El' in El, Ndl. apply NoDup_cons in Ndl as [Hql' _].
  rewrite (key_perm n P _ _ El), (key_perm n Q _ _ El) in E. cbn in E. fold (key_of n P l') (key_of n Q l') in E.
  rewrite (key_ext n P Q l') in E.
  - rewrite Pp, Qp, Pq, Qq, !N.lxor_0_l in E. apply lxor_cancel_r in E.
    apply (stone_key_inj n p q c d Hn Hp Hq) in E as [E _]. contradiction.
  - intros r Hr. apply Hs; [apply elem_of_points; rewrite El; right; right; exact Hr| |intros ->; contradiction].
    intros ->. apply Hl. rewrite El'. right. exact Hr.
Qed.

(** the same for the hash of boards *)
Theorem hash_one dbg n m m' a b p : breach dbg n m a -> breach dbg n m' b -> on n p ->
  pos_of a p <> pos_of b p -> (forall q, on n q -> q <> p -> pos_of a q = pos_of b q) -> zobrist_hash a <> zobrist_hash b.
Proof.
  intros A B Hp Hd Hs. rewrite (proj1 (claim_hash _ _ _ _ _ _ _ A B)), (proj1 (claim_hash _ _ _ _ _ _ _ B A)).
  apply (key_one n _ _ p); trivial. pose proof (wf_n _ _ (breach_wf _ _ _ _ A)). lia.
Qed.

Theorem hash_moved dbg n m m' a b p q c d : breach dbg n m a -> breach dbg n m' b -> on n p -> on n q -> p <> q ->
  pos_of a p = Some c -> pos_of b p = None -> pos_of a q = None -> pos_of b q = Some d ->
  (forall r, on n r -> r <> p -> r <> q -> pos_of a r = pos_of b r) -> zobrist_hash a <> zobrist_hash b.
Proof.
  intros A B. intros. rewrite (proj1 (claim_hash _ _ _ _ _ _ _ A B)), (proj1 (claim_hash _ _ _ _ _ _ _ B A)).
  eapply (key_moved n _ _ p q c d); eauto. pose proof (wf_n _ _ (breach_wf _ _ _ _ A)). lia.
Qed.

(** a legal 9 x 9 position of 21 black stones whose hash is that of the empty board *)
Definition colliding : list nat := [5; 6; 10; 14; 15; 16; 30; 31; 34; 36; 39; 55; 56; 58; 63; 69; 71; 72; 73; 77; 78]%nat.
Definition colliding_moves : list move := flat_map (fun i => [MPlay (i / 9) (i mod 9); MPass]) colliding.

Theorem collision dbg : exists g h,
  lreach dbg 9 g /\ lreach dbg 9 h /\ (exists p, on 9 p /\ position g p <> position h p) /\
  zobrist_hash (gm_goban g) = zobrist_hash (gm_goban h) /\ goban_eq (gm_goban g) (gm_goban h) = Ok false.
Proof.
  assert (E : exists g0 g1, game_new (Custom (N.of_nat 9) (N.of_nat 9)) CHINESE = Ok g0 /\ tries dbg 9 g0 colliding_moves = Some g1 /\
    position g0 (0, 5)%nat = None /\ position g1 (0, 5)%nat = Some Black /\ zobrist_hash (gm_goban g0) = zobrist_hash (gm_goban g1) /\
    goban_eq (gm_goban g0) (gm_goban g1) = Ok false).
  { destruct dbg; (eexists _, _; split; [vm_compute; reflexivity|]; split; [vm_compute; reflexivity|]; repeat split; vm_compute; reflexivity). }
  destruct E as (g0 & g1 & E0 & E1 & P0 & P1 & Ez & Eq).
  assert (L0 : lreach dbg 9 g0) by (eapply lr_new; [lia|apply custom_size; lia|exact E0]).
  exists g0, g1. split; [exact L0|]. split; [exact (tries_lreach _ _ _ _ _ L0 E1)|]. split; [|auto].
  exists (0, 5)%nat. split; [unfold on; cbn; lia|]. rewrite P0, P1. discriminate.
Qed.
