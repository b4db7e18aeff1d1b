(** Positions that differ in at most three points have different hashes: no three
    differences of table entries cancel, unless they belong to one point.  The
    differences are kept in a binary tree, by their bits from the lowest on. *)
From Verif Require Import Observe Struct Inv Bridge GameFacts RulesFacts BoardFacts ClaimFacts LegalFacts RefuteFacts ZobristFacts.
From Coq Require Import Lia.

Local Notation length := Datatypes.length.

Inductive trie := Nil | End (l : list nat) | Fork (even odd : trie).

Definition half (x : N * nat) : N * nat := (N.div2 (fst x), snd x).

Fixpoint trie_of (fuel : nat) (l : list (N * nat)) : trie :=
  match l with
  | [] => Nil
  | _ => match fuel with
         | O => End (List.map snd l)
         | S fuel => Fork (trie_of fuel (List.map half (List.filter (fun x => N.even (fst x)) l)))
                          (trie_of fuel (List.map half (List.filter (fun x => N.odd (fst x)) l)))
         end
  end.

Fixpoint mem (t : trie) (x : N) (i : nat) : Prop :=
  match t with
  | Nil => False
  | End l => i ∈ l
  | Fork e o => if N.odd x then mem o (N.div2 x) i else mem e (N.div2 x) i
  end.

Lemma mem_of fuel : forall l x i, (x, i) ∈ l -> mem (trie_of fuel l) x i.
Proof.
  induction fuel as [|fuel IH]; intros l x i Hx; (destruct l as [|y l]; [inversion Hx|]); apply elem_of_list_In in Hx.
  - cbn [trie_of mem]. apply elem_of_list_In, List.in_map_iff. exists (x, i). auto.
  - set (k := y :: l) in *. change (mem (Fork (trie_of fuel (List.map half (List.filter (fun x => N.even (fst x)) k))) (trie_of fuel (List.map half (List.filter (fun x => N.odd (fst x)) k)))) x i).
    cbn [mem]. assert (Hh : half (x, i) = (N.div2 x, i)) by reflexivity.
    destruct (N.odd x) eqn:O; apply IH, elem_of_list_In; rewrite <- Hh; apply List.in_map, List.filter_In; (split; [exact Hx|]); cbn [fst];
      [exact O|]. rewrite <- N.negb_odd, O. reflexivity.
Qed.

Definition one_point (l m k : list nat) : bool :=
  forallb (fun i => forallb (fun j => (i =? j)%nat) m && forallb (fun j => (i =? j)%nat) k) l.

Lemma one_point_ok l m k i j j' : one_point l m k = true -> i ∈ l -> j ∈ m -> j' ∈ k -> i = j /\ i = j'.
Proof.
  unfold one_point. rewrite List.forallb_forall. intros H Hi Hj Hk. rewrite elem_of_list_In in Hi, Hj, Hk.
  specialize (H i Hi). apply andb_true_iff in H as [A B]. rewrite List.forallb_forall in A, B. split; apply Nat.eqb_eq; auto.
Qed.

(** if [x] of [a], [y] of [b] and [z] of [c] cancel, they belong to one point *)
Fixpoint apart (a b c : trie) : bool :=
  match a, b, c with
  | Fork ae ao, Fork be bo, Fork ce co => apart ae be ce && apart ae bo co && apart ao be co && apart ao bo ce
  | End l, End m, End k => one_point l m k
  | Nil, _, _ | _, Nil, _ | _, _, Nil => true
  | _, _, _ => false
  end.

Fixpoint apart2 (a b : trie) : bool :=
  match a, b with
  | Fork ae ao, Fork be bo => apart2 ae be && apart2 ae bo && apart ao be bo
  | End l, End m => one_point l m m
  | Nil, _ | _, Nil => true
  | _, _ => false
  end.

Fixpoint apart1 (a : trie) : bool :=
  match a with
  | Fork e o => apart1 e && apart2 e o
  | Nil => true
  | End l => one_point l l l
  end.

Lemma div2_lxor x y : N.div2 (N.lxor x y) = N.lxor (N.div2 x) (N.div2 y).
Proof. rewrite !N.div2_spec. apply N.shiftr_lxor. Qed.
Lemma odd_lxor x y : N.odd (N.lxor x y) = xorb (N.odd x) (N.odd y).
Proof. rewrite <- !N.bit0_odd. apply N.lxor_spec. Qed.

Lemma apart_ok a : forall b c x y i j k, apart a b c = true -> mem a x i -> mem b y j -> mem c (N.lxor x y) k -> i = j /\ i = k.
Proof.
  induction a as [|l|ae IHe ao IHo]; intros b c x y i j k H A B C; [destruct A|destruct b as [|m|], c as [|q|]; first [discriminate|exact (one_point_ok _ _ _ _ _ _ H A B C)|destruct B; fail|destruct C; fail]|].
  destruct b as [| |be bo]; [destruct B|destruct c; [destruct C|discriminate..]|]. destruct c as [| |ce co]; [destruct C|discriminate|].
  cbn [apart] in H. apply andb_true_iff in H as [H H4]. apply andb_true_iff in H as [H H3]. apply andb_true_iff in H as [H1 H2].
  cbn [mem] in A, B, C. rewrite odd_lxor, div2_lxor in C. destruct (N.odd x), (N.odd y); cbn [xorb] in C; eauto.
Qed.

Lemma lxor_back x y : N.lxor (N.lxor x y) y = x.
Proof. rewrite N.lxor_assoc, N.lxor_nilpotent. apply N.lxor_0_r. Qed.

Lemma apart2_ok a : forall b x y i j k, apart2 a b = true -> mem b x i -> mem b y j -> mem a (N.lxor x y) k -> i = j /\ i = k.
Proof.
  induction a as [|l|ae IHe ao IHo]; intros b x y i j k H B B' A; [destruct A|destruct b as [|m|]; [destruct B| |discriminate]|].
  { destruct (one_point_ok _ _ _ _ _ _ H A B B'). split; congruence. }
  destruct b as [| |be bo]; [destruct B|discriminate|].
  cbn [apart2] in H. apply andb_true_iff in H as [H H3]. apply andb_true_iff in H as [H1 H2].
  cbn [mem] in A, B, B'. rewrite odd_lxor, div2_lxor in A.
  assert (K : forall u v i j, mem be u i -> mem bo v j -> mem ao (N.lxor u v) k -> i = j /\ i = k).
  { intros u v i' j' U V W. destruct (apart_ok ao be bo (N.lxor u v) u k i' j' H3 W U) as [E1 E2]; [|split; congruence].
    rewrite (N.lxor_comm u v), lxor_back. exact V. }
  destruct (N.odd x), (N.odd y); cbn [xorb] in A; eauto. rewrite N.lxor_comm in A. destruct (K _ _ _ _ B' B A). split; congruence.
Qed.

Lemma apart1_ok a : forall x y i j k, apart1 a = true -> mem a x i -> mem a y j -> mem a (N.lxor x y) k -> i = j /\ i = k.
Proof.
  induction a as [|l|ae IHe ao IHo]; intros x y i j k H A B C; [destruct A|exact (one_point_ok _ _ _ _ _ _ H A B C)|].
  cbn [apart1] in H. apply andb_true_iff in H as [H1 H2]. cbn [mem] in A, B, C. rewrite odd_lxor, div2_lxor in C.
  assert (K : forall u v i j k, mem ae u i -> mem ao v j -> mem ao (N.lxor u v) k -> i = j /\ i = k).
  { intros u v i' j' k' U V W. destruct (apart2_ok ae ao (N.lxor u v) v k' j' i' H2 W V) as [E1 E2]; [|split; congruence]. rewrite lxor_back. exact U. }
  destruct (N.odd x), (N.odd y); cbn [xorb] in C; eauto using apart2_ok.
  rewrite N.lxor_comm in C. destruct (K _ _ _ _ _ B A C). split; congruence.
Qed.

(** ** The differences of the table *)

(** what a change at the point with index [i] does to the hash, for the black
    entry [x] and the white entry [y] of the point *)
Fixpoint changes (i : nat) (b w : list N) : list (N * nat) :=
  match b, w with
  | x :: b, y :: w => (x, i) :: (y, i) :: (N.lxor x y, i) :: changes (S i) b w
  | _, _ => []
  end.
Definition all_changes : list (N * nat) := changes 0 (take 361 ZOBRIST) (drop 361 ZOBRIST).

Lemma no_short_cancel : distinct (0%N :: List.map fst all_changes) && apart1 (trie_of 64 all_changes) = true.
Proof. vm_compute. reflexivity. Qed.

Lemma changes_in b w : forall a i x y, b !! i = Some x -> w !! i = Some y ->
  (x, (a + i)%nat) ∈ changes a b w /\ (y, (a + i)%nat) ∈ changes a b w /\ (N.lxor x y, (a + i)%nat) ∈ changes a b w.
Proof.
  revert w. induction b as [|x0 b IH]; intros [|y0 w] a [|i] x y Hb Hw; try discriminate.
  - injection Hb as ->. injection Hw as ->. cbn [changes]. rewrite Nat.add_0_r, !elem_of_cons. tauto.
  - destruct (IH w (S a) i x y Hb Hw) as (A & B & C). replace (a + S i)%nat with (S a + i)%nat by lia.
    cbn [changes]. rewrite !elem_of_cons. tauto.
Qed.

(** the change at a point between two states of it *)
Definition change (n : nat) (P Q : pos) (p : coord) : N := N.lxor (stone_key n p (P p)) (stone_key n p (Q p)).

Lemma entries n p : (n <= 19)%nat -> on n p ->
  take 361 ZOBRIST !! index n p = Some (stone_key n p (Some Black)) /\ drop 361 ZOBRIST !! index n p = Some (stone_key n p (Some White)).
Proof.
  intros Hn Hp. pose proof (index_lt n p Hn Hp) as L. destruct table_ok as (T & _ & _). cbn [stone_key]. rewrite lookup_take by lia. rewrite lookup_drop.
  destruct (ZOBRIST !! index n p) eqn:E; [|apply lookup_ge_None in E; rewrite T in E; lia].
  destruct (ZOBRIST !! (361 + index n p)%nat) eqn:E'; [|apply lookup_ge_None in E'; rewrite T in E'; lia]. auto.
Qed.

Lemma change_in n P Q p : (n <= 19)%nat -> on n p -> P p <> Q p -> (change n P Q p, index n p) ∈ all_changes.
Proof.
  intros Hn Hp Hd. destruct (entries n p Hn Hp) as [Eb Ew]. destruct (changes_in _ _ 0 _ _ _ Eb Ew) as (A & B & C).
  unfold change, all_changes. cbn [Nat.add] in A, B, C.
  destruct (P p) as [[]|], (Q p) as [[]|]; try congruence;
    change (stone_key n p None) with 0%N; rewrite ?N.lxor_0_l, ?N.lxor_0_r; try assumption. rewrite N.lxor_comm. assumption.
Qed.

Lemma change_none n P Q p : P p = Q p -> change n P Q p = 0%N.
Proof. intros E. unfold change. rewrite E. apply N.lxor_nilpotent. Qed.

Definition total (n : nat) (P Q : pos) (l : list coord) : N := foldr (fun p acc => N.lxor (change n P Q p) acc) 0%N l.

Lemma key_total n P Q l : N.lxor (key_of n P l) (key_of n Q l) = total n P Q l.
Proof.
  induction l as [|p l IH]; [reflexivity|]. cbn. fold (key_of n P l) (key_of n Q l) (total n P Q l). rewrite <- IH. unfold change.
  generalize (stone_key n p (P p)), (stone_key n p (Q p)), (key_of n P l), (key_of n Q l). intros a b c d.
  apply N.bits_inj. intros k. rewrite !N.lxor_spec. destruct (N.testbit a k), (N.testbit b k), (N.testbit c k), (N.testbit d k); reflexivity.
Qed.

Lemma total_filter n P Q l : total n P Q l = total n P Q (filter (fun p => P p <> Q p) l).
Proof.
  induction l as [|p l IH]; [reflexivity|]. rewrite filter_cons. destruct (decide (P p <> Q p)) as [H|H]; cbn; fold (total n P Q l); rewrite IH; [reflexivity|].
  destruct (decide (P p = Q p)) as [E|E]; [|contradiction]. rewrite (change_none n P Q p E). apply N.lxor_0_l.
Qed.

Lemma key_three n P Q D : (n <= 19)%nat -> (length D <= 3)%nat -> (forall p, on n p -> P p <> Q p -> p ∈ D) ->
  (exists p, on n p /\ P p <> Q p) -> position_key n P <> position_key n Q.
Proof.
  intros Hn HD Hc (p0 & Hp0 & Hd0) E. unfold position_key in E. fold (key_of n P (points n)) (key_of n Q (points n)) in E.
  assert (T : total n P Q (points n) = 0%N) by (rewrite <- key_total, E; apply N.lxor_nilpotent). rewrite total_filter in T.
  pose proof no_short_cancel as NC. apply andb_true_iff in NC as [NC1 NC2]. apply distinct_spec, NoDup_cons in NC1 as [NZ ND].
  set (l := filter (fun p => P p <> Q p) (points n)) in *.
  assert (Nl : NoDup l) by apply NoDup_filter, NoDup_points.
  assert (Hl : forall p, p ∈ l <-> on n p /\ P p <> Q p) by (intros p; unfold l; rewrite elem_of_list_filter, elem_of_points; tauto).
  assert (Ll : (length l <= 3)%nat).
  { transitivity (length D); [|exact HD]. apply submseteq_length, NoDup_submseteq; [exact Nl|]. intros p Hp. apply Hl in Hp as [A B]. auto. }
  assert (Hin : forall p, p ∈ l -> (change n P Q p, index n p) ∈ all_changes) by (intros p Hp; apply Hl in Hp as [A B]; apply change_in; assumption).
  assert (Hnz : forall p, p ∈ l -> change n P Q p <> 0%N).
  { intros p Hp Z. apply NZ. rewrite <- Z. apply elem_of_list_In, List.in_map_iff. eexists. split; [|apply elem_of_list_In, (Hin p Hp)]. reflexivity. }
  assert (Hix : forall p q, p ∈ l -> q ∈ l -> index n p = index n q -> p = q) by (intros p q Hp Hq; apply Hl in Hp as [? _], Hq as [? _]; apply index_inj; assumption).
  assert (Hne : forall p q, p ∈ l -> q ∈ l -> change n P Q p = change n P Q q -> p = q).
  { intros p q Hp Hq Ec. apply Hix; trivial. pose proof (Hin p Hp) as A. pose proof (Hin q Hq) as B. rewrite Ec in A.
    apply elem_of_list_lookup in A as [i A], B as [j B].
    assert (i = j) as ->.
    { refine (NoDup_lookup (all_changes.*1) i j (change n P Q q) ND _ _); rewrite list_lookup_fmap; [rewrite A|rewrite B]; reflexivity. }
    congruence. }
  destruct l as [|p [|q [|r [|? ?]]]]; cbn in T, Ll; [pose proof (proj2 (Hl p0) (conj Hp0 Hd0)) as K; inversion K| | | |lia].
  - rewrite N.lxor_0_r in T. apply (Hnz p); [left|exact T].
  - rewrite N.lxor_0_r in T. apply N.lxor_eq in T. apply Hne in T; [|left|right; left]. subst. apply NoDup_cons in Nl as [Nl _]. apply Nl. left.
  - rewrite N.lxor_0_r in T. apply N.lxor_eq in T.
    destruct (apart1_ok _ (change n P Q q) (change n P Q r) (index n q) (index n r) (index n p) NC2) as [Eqr _].
    + apply mem_of, Hin. right. left.
    + apply mem_of, Hin. right. right. left.
    + rewrite <- T. apply mem_of, Hin. left.
    + apply Hix in Eqr; [|right; left|right; right; left]. subst. apply NoDup_cons in Nl as [_ Nl]. apply NoDup_cons in Nl as [Nl _]. apply Nl. left.
Qed.

Theorem hash_three dbg dbg' n m m' a b D : breach dbg n m a -> breach dbg' n m' b -> (length D <= 3)%nat ->
  (forall p, on n p -> pos_of a p <> pos_of b p -> p ∈ D) -> (exists p, on n p /\ pos_of a p <> pos_of b p) ->
  zobrist_hash a <> zobrist_hash b.
Proof.
  intros A B HD Hc He. rewrite (proj1 (claim_hash _ _ _ _ _ _ _ A B)), (proj1 (claim_hash _ _ _ _ _ _ _ B A)).
  apply (key_three n _ _ D); trivial. pose proof (wf_n _ _ (breach_wf _ _ _ _ A)). lia.
Qed.

(** ** Moves that take few stones *)

Lemma taken_colour n P p c q : taken n P p c q -> P q = Some (opp c).
Proof.
  intros (t & _ & _ & Et & Hc & _). rewrite <- Et. clear Et. induction Hc as [|x y z (_ & _ & _ & E) _ IH]; [reflexivity|]. rewrite IH. congruence.
Qed.

(** without suicide a move changes its own point and the points it takes *)
Lemma move_changes n P p c R : go_move false n P p c R -> on n p -> P p = None ->
  R p = Some c /\ forall q, on n q -> R q <> P q -> q = p \/ (P q = Some (opp c) /\ R q = None).
Proof.
  intros (Q & HQ & HR) Hp He.
  assert (HR' : forall q, on n q -> R q = Q q) by (intros q Hq; apply (HR q Hq); intros [K _]; discriminate). split.
  - rewrite (HR' p Hp). rewrite (proj2 (HQ p Hp)); [unfold put; rewrite decide_True by reflexivity; reflexivity|].
    intros T. apply taken_colour in T. unfold put in T. rewrite decide_True in T by reflexivity. injection T. destruct c; discriminate.
  - intros q Hq Hd. rewrite (HR' q Hq) in *. destruct (decide (q = p)) as [->|Hqp]; [left; reflexivity|right].
    assert (Eq : put P p c q = P q) by (unfold put; rewrite decide_False by exact Hqp; reflexivity).
    destruct (decide (P q = Some (opp c))) as [Ec|Ec].
    + split; [exact Ec|]. destruct (Q q) eqn:EQ; [|reflexivity]. exfalso. rewrite <- EQ in Hd. apply Hd. rewrite (proj2 (HQ q Hq)); [exact Eq|].
      intros T. apply (HQ q Hq) in T. congruence.
    + exfalso. apply Hd. rewrite (proj2 (HQ q Hq)); [exact Eq|]. intros T. apply taken_colour in T. congruence.
Qed.

Lemma lost_stones (P R : pos) c l : (forall q, q ∈ l -> R q = Some c -> P q = Some c) ->
  (length (filter (fun q => P q = Some c /\ R q = None) l) + length (filter (fun q => R q = Some c) l) <= length (filter (fun q => P q = Some c) l))%nat.
Proof.
  induction l as [|q l IH]; intros H; [cbn; lia|].
  specialize (IH ltac:(intros r Hr; apply H; right; exact Hr)). specialize (H q (elem_of_list_here _ _)). rewrite !filter_cons.
  destruct (decide (P q = Some c /\ R q = None)) as [[A B]|A], (decide (R q = Some c)) as [C|C], (decide (P q = Some c)) as [D|D]; cbn [length]; try lia;
    first [congruence|exfalso; auto; fail|idtac].
Qed.

Theorem hash_moves dbg n b w g g' x y : greach dbg n b w g -> forbids_suicide (gm_rule g) = true -> on n (x, y) ->
  try_play dbg g (MPlay x y) = Ok (g', Accepted) ->
  (count n (position g) (opp (gm_turn g)) <= count n (position g') (opp (gm_turn g)) + 2)%nat ->
  zobrist_hash (gm_goban g') <> zobrist_hash (gm_goban g).
Proof.
  intros HG Hf Hp E Hc. destruct (accepted_step dbg n b w g x y g' (greach_inv _ _ _ _ _ HG) Hp E) as (He & _ & Hpl & HM).
  rewrite suicide_bit, Hf in HM. cbn [negb] in HM.
  destruct (move_changes n _ _ _ _ HM Hp He) as [Hself Hrest].
  pose proof (br_game _ _ _ _ _ HG) as BR.
  assert (BR' : exists m', breach dbg n m' (gm_goban g')).
  { eexists. eapply br_game. eapply gr_play; eassumption. }
  destruct BR' as [m' BR'].
  set (c := opp (gm_turn g)) in *. set (P := pos_of (gm_goban g)) in *. set (R := pos_of (gm_goban g')) in *.
  pose proof (lost_stones P R c (points n)) as L.
  eapply (hash_three _ _ n _ _ _ _ ((x, y) :: filter (fun q => P q = Some c /\ R q = None) (points n)) BR' BR).
  - cbn [length]. change (count n (position g) c) with (length (filter (fun q => P q = Some c) (points n))) in Hc.
    change (count n (position g') c) with (length (filter (fun q => R q = Some c) (points n))) in Hc.
    assert (length (filter (fun q => P q = Some c /\ R q = None) (points n)) + length (filter (fun q => R q = Some c) (points n)) <= length (filter (fun q => P q = Some c) (points n)))%nat; [|lia].
    apply L. intros q Hq ER. apply elem_of_points in Hq. destruct (decide (R q = P q)) as [D|D]; [congruence|].
    destruct (Hrest q Hq D) as [->|[_ D']]; [|congruence]. exfalso. rewrite Hself in ER. injection ER. unfold c. destruct (gm_turn g); discriminate.
  - intros q Hq D. apply elem_of_cons. destruct (Hrest q Hq D) as [->|D']; [left; reflexivity|right]. apply elem_of_list_filter. split; [exact D'|apply elem_of_points, Hq].
  - exists (x, y). split; [exact Hp|]. fold R P. rewrite Hself, He. discriminate.
Qed.
