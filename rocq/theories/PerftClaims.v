(** Lines of play from the empty board. *)
From stdpp Require Import relations sorting.
From Verif Require Import BenchSpec AreaSpec SymSpec.
From Verif Require Import MonadFacts Struct Push Inv Bridge GameFacts LegalFacts LegalsFacts ClaimFacts PropFacts RulesFacts VerdictFacts TableFacts CaseFacts KoFacts PerftFacts.
From Verif Require Import Samples SampleFacts RefuteFacts.
From Coq Require Import Lia.

Local Notation length := Datatypes.length.

(** every point of a board of two or more rows has two neighbours, and they do not touch *)
Lemma two_neighbours n p : (2 <= n)%nat -> on n p -> exists u v, on n u /\ on n v /\ adj p u /\ adj p v /\ u <> v.
Proof.
  destruct p as [x y]. unfold on, adj. cbn [fst snd]. intros Hn [Hx Hy].
  exists (if (S x <? n)%nat then S x else (x - 1)%nat, y), (x, if (S y <? n)%nat then S y else (y - 1)%nat).
  destruct (Nat.ltb_spec (S x) n), (Nat.ltb_spec (S y) n); cbn [fst snd]; (repeat split; try lia); intros E; injection E; lia.
Qed.

Lemma other_neighbour n p a : (2 <= n)%nat -> on n p -> exists u, on n u /\ adj p u /\ u <> a.
Proof.
  intros Hn Hp. destruct (two_neighbours n p Hn Hp) as (u & v & Hu & Hv & Au & Av & Ne).
  destruct (decide (u = a)) as [->|]; [exists v; auto|exists u; auto].
Qed.

Lemma no_triangle p u v : adj p u -> adj p v -> ~ adj u v.
Proof. destruct p as [x y], u as [x1 y1], v as [x2 y2]. unfold adj. cbn [fst snd]. lia. Qed.

(** at most one stone of each colour *)
Definition sparse (n : nat) (P : pos) : Prop := exists a b, forall q, on n q -> (P q = Some Black -> q = a) /\ (P q = Some White -> q = b).

Lemma sparse_same n P q q' c : sparse n P -> on n q -> on n q' -> P q = Some c -> P q' = Some c -> q = q'.
Proof. intros (a & b & H) Hq Hq' E E'. destruct (H q Hq) as [H1 H2], (H q' Hq') as [H3 H4]. destruct c; [rewrite (H2 E), (H4 E')|rewrite (H1 E), (H3 E')]; reflexivity. Qed.


(** what the captures leave of the other points *)
Lemma left_empty n P p c Q q : cleared n (taken n (put P p c) p c) (put P p c) Q -> on n q -> put P p c q = None -> Q q = None.
Proof.
  intros HQ Hq E. destruct (decide (Q q = None)) as [|Ne]; [assumption|]. exfalso. apply Ne. rewrite (proj2 (HQ q Hq)); [exact E|].
  intros T. apply Ne. exact (proj1 (HQ q Hq) T).
Qed.
Lemma left_own n P p c Q q : cleared n (taken n (put P p c) p c) (put P p c) Q -> on n q -> put P p c q = Some c -> Q q = Some c.
Proof.
  intros HQ Hq E. rewrite (proj2 (HQ q Hq)); [exact E|]. intros (t & _ & _ & Et & Hc & _). apply connected_same in Hc. rewrite Et, E in Hc.
  injection Hc as Hc. exact (opp_ne c Hc).
Qed.
Lemma put_here P p c : put P p c p = Some c.
Proof. unfold put. rewrite decide_True; reflexivity. Qed.
Lemma put_other P p c q : q <> p -> put P p c q = P q.
Proof. intros H. unfold put. rewrite decide_False by exact H. reflexivity. Qed.
Lemma adj_ne p q : adj p q -> q <> p.
Proof. intros H ->. exact (adj_irrefl p H). Qed.

Lemma sparse_no_suicide n P p c : (2 <= n)%nat -> sparse n P -> on n p -> ~ suicidal n P p c.
Proof.
  intros Hn HS Hp (Q & HQ & HB). apply HB. clear HB.
  destruct (two_neighbours n p Hn Hp) as (u & v & Hu & Hv & Au & Av & Ne).
  assert (Q0 : Q p = Some c) by (apply (left_own n P p c Q p HQ Hp), put_here).
  assert (Hfree : forall w, on n w -> adj p w -> Q w = None -> breathes n Q p).
  { intros w Hw Aw E. exists w. split; [exact Hw|]. split; [exact E|]. exists p. split; [apply rtc_refl|exact Aw]. }
  assert (Hown : forall w w', on n w -> on n w' -> adj p w -> adj p w' -> P w = Some c -> P w' = Some (opp c) -> breathes n Q p).
  { intros w w' Hw Hw' Aw Aw' E E'. destruct (other_neighbour n w p Hn Hw) as (z & Hz & Az & Nz).
    assert (Ez : P z = None).
    { destruct (P z) as [d|] eqn:Ez; [|reflexivity]. exfalso. destruct (decide (d = c)) as [->|Hd].
      - pose proof (sparse_same n P w z c HS Hw Hz E Ez) as <-. exact (adj_irrefl w Az).
      - assert (d = opp c) as -> by (destruct d, c; try reflexivity; contradiction).
        pose proof (sparse_same n P w' z _ HS Hw' Hz E' Ez) as <-. exact (no_triangle p w w' Aw Aw' Az). }
    exists z. split; [exact Hz|]. split; [apply (left_empty n P p c Q z HQ Hz); rewrite put_other; assumption|].
    exists w. split; [|exact Az]. apply rtc_once. split; [exact Hp|]. split; [exact Hw|]. split; [exact Aw|]. rewrite Q0. symmetry.
    apply (left_own n P p c Q w HQ Hw). rewrite put_other; [exact E|apply adj_ne, Aw]. }
  destruct (P u) as [cu|] eqn:Eu; [|apply (Hfree u Hu Au), (left_empty n P p c Q u HQ Hu); rewrite put_other; [exact Eu|apply adj_ne, Au]].
  destruct (P v) as [cv|] eqn:Ev; [|apply (Hfree v Hv Av), (left_empty n P p c Q v HQ Hv); rewrite put_other; [exact Ev|apply adj_ne, Av]].
  destruct (decide (cu = cv)) as [->|Hc]; [exfalso; apply Ne; exact (sparse_same n P u v cv HS Hu Hv Eu Ev)|].
  destruct (decide (cu = c)) as [->|Hcu].
  - apply (Hown u v); try assumption. rewrite Ev. destruct cv, c; try reflexivity; contradiction.
  - apply (Hown v u); try assumption; [rewrite Ev|rewrite Eu]; destruct cu, cv, c; try reflexivity; contradiction.
Qed.

Lemma sparse_no_eye n P p c : (2 <= n)%nat -> sparse n P -> on n p -> ~ eye_shape n P c p.
Proof.
  intros Hn HS Hp (_ & H & _). destruct (two_neighbours n p Hn Hp) as (u & v & Hu & Hv & Au & Av & Ne). apply Ne.
  exact (sparse_same n P u v c HS Hu Hv (H u Hu Au) (H v Hv Av)).
Qed.

(** next to a single stone nothing is captured *)
Lemma lone_no_capture n P p c q : (2 <= n)%nat -> (forall a b, on n a -> on n b -> P a <> None -> P b <> None -> a = b) -> on n p ->
  ~ taken n (put P p c) p c q.
Proof.
  intros Hn H1 Hp (t & Ht & At & Et & _ & HB). apply HB. destruct (other_neighbour n t p Hn Ht) as (z & Hz & Az & Nz).
  rewrite put_other in Et by (apply adj_ne, At). exists z. split; [exact Hz|]. split.
  - rewrite put_other by exact Nz. destruct (P z) eqn:Ez; [|reflexivity]. exfalso. apply (adj_ne _ _ Az). apply H1; try assumption; [rewrite Ez|rewrite Et]; discriminate.
  - exists t. split; [apply rtc_refl|exact Az].
Qed.

(** the first moves of a game: the stones stand on the points of [S] *)
Record opening (dbg : bool) (n : nat) (g : game) (S : list coord) : Prop := mkOpening {
  op_reach : exists b w, greach dbg n b w g /\ (b + w = length S)%nat;
  op_pos : forall q, on n q -> position g q <> None <-> q ∈ S;
  op_sparse : sparse n (position g);
  op_turn : (length S <= 1)%nat -> forall q, on n q -> position g q <> Some (gm_turn g);
  op_ko : gm_ko_point g = None;
  op_passes : gm_passes g = 0%nat;
  op_history : (length (gm_history g) <= length S)%nat
}.

Lemma opening_accepts dbg n g S p : (2 <= n)%nat -> opening dbg n g S -> (length S <= 2)%nat -> on n p ->
  (exists g', try_play dbg g (MPlay (fst p) (snd p)) = Ok (g', Accepted)) <-> p ∉ S.
Proof.
  intros Hn O HL Hp. destruct (op_reach _ _ _ _ O) as (b & w & HG & HB). 
  assert (HS : ~ no_slot_left g) by (apply (few_stones dbg n b w g HG); lia).
  assert (Hp' : on n (fst p, snd p)) by (rewrite <- surjective_pairing; exact Hp).
  rewrite (verdict_exact dbg n b w g (fst p) (snd p) Accepted HG Hp' HS). rewrite <- surjective_pairing. unfold judged, first_reason, reasons, point_reasons.
  cbn [table_of t_passes t_pos t_turn t_ko t_seen]. rewrite !Forall_cons. cbn [snd]. split.
  - intros (_ & H & _) Hin. apply H. apply (op_pos _ _ _ _ O p Hp), Hin.
  - intros Hin. split; [rewrite (op_passes _ _ _ _ O); discriminate|]. split; [rewrite (op_pos _ _ _ _ O p Hp); exact Hin|].
    split; [intros [_ H]; exact (sparse_no_suicide n _ p _ Hn (op_sparse _ _ _ _ O) Hp H)|].
    split; [intros [_ [H _]]; cbn in H; rewrite (op_ko _ _ _ _ O) in H; discriminate H|].
    split; [intros [_ H]; exact (sparse_no_eye n _ p _ Hn (op_sparse _ _ _ _ O) Hp H)|].
    split; [|constructor]. intros [_ [H _]]. cbn in H. rewrite map_length in H. pose proof (op_history _ _ _ _ O). lia.
Qed.

Lemma opening_step dbg n g S p g' : (2 <= n)%nat -> opening dbg n g S -> (length S <= 1)%nat -> on n p ->
  try_play dbg g (MPlay (fst p) (snd p)) = Ok (g', Accepted) -> opening dbg n g' (p :: S).
Proof.
  intros Hn O HL Hp Et. destruct (op_reach _ _ _ _ O) as (b & w & HG & HB).
  assert (Hin : p ∉ S) by (apply (opening_accepts dbg n g S p Hn O ltac:(lia) Hp); exists g'; exact Et).
  assert (He : position g p = None). { destruct (position g p) eqn:E; [|reflexivity]. exfalso. apply Hin, (op_pos _ _ _ _ O p Hp). rewrite E. discriminate. }
  destruct p as [x y]. cbn [fst snd] in Et.
  destruct (stone_sim dbg n b w g x y HG Hp He ltac:(lia)) as (g2 & Ep & _ & St & HG2).
  assert (g2 = g') as ->. { destruct (try_play_inv dbg g _ g' _ Et) as [(e & E & _)|(_ & _ & E)]; [discriminate E|congruence]. }
  assert (H1 : forall a c, on n a -> on n c -> position g a <> None -> position g c <> None -> a = c).
  { intros a c Ha Hc E1 E2. apply (op_pos _ _ _ _ O a Ha) in E1. apply (op_pos _ _ _ _ O c Hc) in E2. destruct S as [|s [|]]; cbn in HL; [inversion E1| |lia].
    apply elem_of_list_singleton in E1, E2. congruence. }
  pose proof (fun q => lone_no_capture n (position g) (x, y) (gm_turn g) q Hn H1 Hp) as HT.
  assert (HP : forall q, on n q -> position g' q = put (position g) (x, y) (gm_turn g) q).
  { destruct (ss_pos _ _ _ _ _ St) as (Q & HQ & HR). cbn [table_of t_pos t_turn] in HQ, HR. intros q Hq.
    assert (EQ : Q q = put (position g) (x, y) (gm_turn g) q) by (apply (HQ q Hq), HT). rewrite <- EQ. apply (HR q Hq).
    intros (_ & HB' & _). apply (sparse_no_suicide n (position g) (x, y) (gm_turn g) Hn (op_sparse _ _ _ _ O) Hp). exists Q. auto. }
  pose proof (ss_turn _ _ _ _ _ St) as ET. cbn in ET.
  constructor.
  - eexists _, _. split; [exact HG2|]. rewrite bump_total. cbn. f_equal. exact HB.
  - intros q Hq. rewrite (HP q Hq), elem_of_cons. destruct (decide (q = (x, y))) as [->|Ne].
    + rewrite put_here. split; [left; reflexivity|discriminate].
    + rewrite put_other by exact Ne. rewrite (op_pos _ _ _ _ O q Hq). tauto.
  - exists (match gm_turn g with Black => (x, y) | White => hd (0, 0) S end), (match gm_turn g with Black => hd (0, 0) S | White => (x, y) end).
    assert (HS : forall q, on n q -> position g q <> None -> q = hd (0, 0) S).
    { intros q Hq E. apply (op_pos _ _ _ _ O q Hq) in E. destruct S as [|s [|]]; cbn in HL; [inversion E| |lia]. apply elem_of_list_singleton in E. exact E. }
    intros q Hq. rewrite (HP q Hq). destruct (decide (q = (x, y))) as [->|Ne].
    + rewrite put_here. destruct (gm_turn g); split; intros E; try discriminate E; reflexivity.
    + rewrite put_other by exact Ne. pose proof (op_turn _ _ _ _ O HL q Hq) as Hc. destruct (gm_turn g); (split; intros E; [|]); try contradiction; apply (HS q Hq); rewrite E; discriminate.
  - intros HL2 q Hq. destruct S; cbn in HL2; [|lia]. rewrite (HP q Hq), ET. destruct (decide (q = (x, y))) as [->|Ne].
    + rewrite put_here. intros E. injection E as E. exact (opp_ne _ (eq_sym E)).
    + rewrite put_other by exact Ne. destruct (position g q) eqn:E; [|discriminate]. exfalso. assert (Hx : q ∈ []) by (apply (op_pos _ _ _ _ O q Hq); rewrite E; discriminate). inversion Hx.
  - pose proof (ss_ko _ _ _ _ _ St) as HK. cbn in HK. destruct (gm_ko_point g') as [q|]; [|reflexivity]. exfalso.
    destruct (proj1 (HK q) eq_refl) as (_ & T & _). exact (HT q T).
  - exact (ss_passes _ _ _ _ _ St).
  - pose proof (ss_seen _ _ _ _ _ St) as HH. cbn [table_of t_seen] in HH. pose proof (op_history _ _ _ _ O).
    destruct HH as [[_ E]|[_ E]]; apply (f_equal length) in E; rewrite ?app_length, ?map_length in E; cbn in E; cbn [length]; lia.
Qed.

Lemma opening_new dbg n s r g : (1 <= n)%nat -> size_of s = (n, n) -> game_new s r = Ok g -> opening dbg n g [].
Proof.
  intros Hn Es Eg. destruct (start_table dbg n s r g Hn Es Eg) as [T HG].
  assert (HP : forall q, on n q -> position g q = None) by (intros q Hq; exact (sa_pos _ _ _ T q Hq)).
  constructor.
  - exists 0%nat, 0%nat. auto.
  - intros q Hq. rewrite (HP q Hq). split; [intros H; exfalso; apply H; reflexivity|intros H; inversion H].
  - exists (0, 0), (0, 0). intros q Hq. rewrite (HP q Hq). split; discriminate.
  - intros _ q Hq. rewrite (HP q Hq). discriminate.
  - exact (sa_ko _ _ _ T).
  - exact (sa_passes _ _ _ T).
  - pose proof (Forall2_length _ _ _ (sa_seen _ _ _ T)) as E. cbn in E. rewrite map_length in E. rewrite E. reflexivity.
Qed.

Lemma opening_goes dbg n d : (2 <= n)%nat -> forall g S, opening dbg n g S -> (d + length S <= 3)%nat -> forall ms,
  goes dbg n g d ms <-> length ms = d /\ (forall p, p ∈ ms -> on n p /\ p ∉ S) /\ NoDup ms.
Proof.
  intros Hn. induction d as [|d IH]; intros g S O HL ms.
  - split.
    + intros (E & _). destruct ms; [|discriminate E]. split; [reflexivity|]. split; [intros p Hp; inversion Hp|apply NoDup_nil_2].
    + intros (E & _). destruct ms; [|discriminate E]. split; [reflexivity|]. split; [intros p Hp; inversion Hp|]. exists g. reflexivity.
  - destruct ms as [|p ms]; [split; intros [E _]; discriminate E|].
    assert (HA : on n p -> ((exists g', try_play dbg g (MPlay (fst p) (snd p)) = Ok (g', Accepted)) <-> p ∉ S)) by (intros Hp; apply (opening_accepts dbg n g S p Hn O); [lia|exact Hp]).
    assert (Hrest : forall g1, on n p -> try_play dbg g (MPlay (fst p) (snd p)) = Ok (g1, Accepted) ->
      goes dbg n g1 d ms <-> length ms = d /\ (forall q, q ∈ ms -> on n q /\ q ∉ p :: S) /\ NoDup ms).
    { intros g1 Hp Et. destruct d as [|d].
      - split.
        + intros (E & _). destruct ms; [|discriminate E]. split; [reflexivity|]. split; [intros q Hq; inversion Hq|apply NoDup_nil_2].
        + intros (E & _). destruct ms; [|discriminate E]. split; [reflexivity|]. split; [intros q Hq; inversion Hq|]. exists g1. reflexivity.
      - apply IH; [apply (opening_step dbg n g S p g1 Hn O ltac:(lia) Hp Et)|cbn [length]; lia]. }
    split.
    + intros (E & Hon & g' & g1 & Et & Ha). cbn in E. injection E as E. assert (Hp : on n p) by (apply Hon; left).
      destruct (proj1 (Hrest g1 Hp Et)) as (_ & H2 & H3).
      { split; [exact E|]. split; [intros q Hq; apply Hon; right; exact Hq|]. exists g'. exact Ha. }
      assert (Hn2 : p ∉ S) by (apply HA; [exact Hp|exists g1; exact Et]).
      split; [cbn; f_equal; exact E|]. split.
      * intros q Hq. apply elem_of_cons in Hq as [->|Hq]; [auto|]. destruct (H2 q Hq) as [Hq1 Hq2]. split; [exact Hq1|]. intros Hx. apply Hq2. right. exact Hx.
      * apply NoDup_cons. split; [|exact H3]. intros Hx. destruct (H2 p Hx) as [_ Hy]. apply Hy. left.
    + intros (E & H2 & H3). cbn in E. injection E as E. apply NoDup_cons in H3 as [H3 H4]. destruct (H2 p) as [Hp Hn2]; [left|].
      destruct (proj2 (HA Hp) Hn2) as (g1 & Et). destruct (proj2 (Hrest g1 Hp Et)) as (_ & _ & g' & Ha).
      { split; [exact E|]. split; [|exact H4]. intros q Hq. destruct (H2 q) as [Hq1 Hq2]; [right; exact Hq|]. split; [exact Hq1|].
        intros Hx. apply elem_of_cons in Hx as [->|Hx]; [contradiction|contradiction]. }
      split; [cbn; f_equal; exact E|]. split; [intros q Hq; apply H2, Hq|]. exists g'. exists g1. split; [exact Et|exact Ha].
Qed.

(** lists without repetition *)
Fixpoint falling (m : N) (d : nat) : N := match d with O => 1 | S d => m * falling (N.pred m) d end%N.

Lemma count_arrangements (d : nat) : forall l : list coord, NoDup l ->
  number_of (fun ms => length ms = d /\ (forall p, p ∈ ms -> p ∈ l) /\ NoDup ms) (falling (N.of_nat (length l)) d).
Proof.
  induction d as [|d IH]; intros l ND; cbn [falling].
  - exists [[]]. split; [apply NoDup_singleton|]. split; [|reflexivity]. intros ms. rewrite elem_of_list_singleton. split.
    + intros ->. split; [reflexivity|]. split; [intros p Hp; inversion Hp|apply NoDup_nil_2].
    + intros (E & _). destruct ms; [reflexivity|discriminate E].
  - set (D := fun p ms => length ms = d /\ (forall q, q ∈ ms -> q ∈ filter (.≠ p) l) /\ NoDup ms).
    assert (HD : forall p, p ∈ l -> number_of (D p) (falling (N.pred (N.of_nat (length l))) d)).
    { intros p Hp. replace (N.pred (N.of_nat (length l))) with (N.of_nat (length (filter (.≠ p) l))).
      - apply IH. apply NoDup_filter, ND.
      - assert (H : l ≡ₚ p :: filter (.≠ p) l).
        { apply NoDup_Permutation; [exact ND|apply NoDup_cons; split; [|apply NoDup_filter, ND]; intros Hx; apply elem_of_list_filter in Hx as [Hx _]; apply Hx; reflexivity|].
          intros q. rewrite elem_of_cons, elem_of_list_filter. destruct (decide (q = p)) as [->|]; tauto. }
        apply Permutation_length in H. cbn in H. lia. }
    destruct (gather l D ND) as (ls & k & N1 & K & M & L).
    { intros p Hp. destruct (HD p Hp) as (lp & Np & Mp & _). exists lp. auto. }
    exists ls. split; [exact N1|]. split.
    + intros ms. rewrite M. split.
      * intros (p & t & -> & Hp & E & Ht & Nt). split; [cbn; f_equal; exact E|]. split.
        -- intros q Hq. apply elem_of_cons in Hq as [->|Hq]; [exact Hp|]. apply Ht in Hq. apply elem_of_list_filter in Hq as [_ Hq]. exact Hq.
        -- apply NoDup_cons. split; [|exact Nt]. intros Hx. apply Ht in Hx. apply elem_of_list_filter in Hx as [Hx _]. apply Hx. reflexivity.
      * intros (E & Hm & Nm). destruct ms as [|p t]; [discriminate E|]. injection E as E. apply NoDup_cons in Nm as [Hn Nm]. exists p, t. split; [reflexivity|].
        split; [apply Hm; left|]. split; [exact E|]. split; [|exact Nm]. intros q Hq. apply elem_of_list_filter. split; [intros ->; contradiction|apply Hm; right; exact Hq].
    + rewrite L. assert (Hk : forall p, p ∈ l -> k p = falling (N.pred (N.of_nat (length l))) d) by (intros p Hp; apply (number_unique (D p)); [apply K, Hp|apply HD, Hp]).
      revert Hk. generalize (falling (N.pred (N.of_nat (length l))) d). intros x Hk. clear -Hk. induction l as [|p l IH]; cbn [foldr length]; [reflexivity|].
      rewrite IH, (Hk p) by (try left; intros q Hq; apply Hk; right; exact Hq). lia.
Qed.

Theorem perft_empty dbg n s r g : (2 <= n)%nat -> size_of s = (n, n) -> game_new s r = Ok g ->
  let m := N.of_nat (n * n) in
  perft dbg g 1 = Ok m /\ perft dbg g 2 = Ok (m * (m - 1))%N /\ perft dbg g 3 = Ok (m * (m - 1) * (m - 2))%N.
Proof.
  intros Hn Es Eg m. pose proof (opening_new dbg n s r g ltac:(lia) Es Eg) as O. destruct (op_reach _ _ _ _ O) as (b & w & HG & HB). cbn in HB.
  pose proof (greach_le _ _ _ _ _ HG) as Hle.
  assert (H : forall d, (d <= 3)%nat -> perft dbg g d = as_u64 dbg (falling m d)).
  { intros d Hd. destruct (perft_goes dbg n d b w g HG) as (k & K & ->); [rewrite (op_passes _ _ _ _ O); discriminate|lia|]. f_equal.
    apply (number_unique _ _ _ K). unfold m. rewrite <- points_length. revert dependent d. intros d Hd _.
    apply (number_ext (fun ms => length ms = d /\ (forall p, p ∈ ms -> p ∈ points n) /\ NoDup ms)).
    - intros ms. rewrite (opening_goes dbg n d Hn g [] O ltac:(cbn; lia) ms). split; intros (H1 & H2 & H3); (split; [exact H1|]; split; [|exact H3]); intros p Hp.
      + split; [apply elem_of_points, H2, Hp|]. intros Hx. inversion Hx.
      + apply elem_of_points, H2, Hp.
    - apply count_arrangements. apply NoDup_points. }
  assert (Hm : (4 <= m <= 361)%N) by (unfold m; nia).
  rewrite !H by lia. cbn [falling]. unfold as_u64.
  replace (N.pred (N.pred m)) with (m - 2)%N by lia. replace (N.pred m) with (m - 1)%N by lia. rewrite !N.mul_1_r, N.mul_assoc.
  assert (H2 : (m * (m - 1) <= 361 * 361)%N) by nia. assert (H3 : (m * (m - 1) * (m - 2) <= 361 * 361 * 361)%N) by nia.
  rewrite !(proj2 (N.ltb_lt _ _)); [auto|..]; (eapply N.le_lt_trans; [eassumption || (transitivity 361%N; [apply Hm|reflexivity])|reflexivity]).
Qed.

(** stones on points of one colour of the chessboard do not touch *)
Definition dark (p : coord) : bool := Nat.even (fst p + snd p).

Lemma dark_adj p q : dark p = true -> adj p q -> dark q = false.
Proof.
  unfold dark, adj. destruct p as [x y], q as [x' y']. cbn [fst snd]. intros H A. rewrite <- Nat.negb_odd in H. apply negb_true_iff in H.
  rewrite <- Nat.negb_odd. apply negb_false_iff. destruct A as [[-> [->| ->]]|[-> [->| ->]]]; rewrite ?Nat.add_succ_r, ?Nat.add_succ_l, ?Nat.odd_succ in *; rewrite <- ?Nat.negb_odd in *; rewrite ?negb_false_iff in *; try assumption.
  all: rewrite <- ?Nat.negb_even in *; rewrite ?negb_true_iff, ?negb_false_iff in *; assumption.
Qed.

Record scattered (dbg : bool) (n : nat) (g : game) (S : list coord) : Prop := mkScattered {
  sc_reach : exists b w, greach dbg n b w g /\ (b + w = length S)%nat;
  sc_pos : forall q, on n q -> position g q <> None <-> q ∈ S;
  sc_dark : forall q, q ∈ S -> dark q = true;
  sc_ko : gm_ko_point g = None;
  sc_passes : gm_passes g = 0%nat
}.

Lemma scattered_free dbg n g S p q : scattered dbg n g S -> dark p = true -> on n q -> adj p q -> position g q = None.
Proof.
  intros O Hd Hq A. destruct (position g q) eqn:E; [|reflexivity]. exfalso. assert (Hx : q ∈ S) by (apply (sc_pos _ _ _ _ O q Hq); rewrite E; discriminate).
  apply (sc_dark _ _ _ _ O) in Hx. rewrite (dark_adj p q Hd A) in Hx. discriminate Hx.
Qed.

Lemma scattered_step dbg n g S p : (2 <= n)%nat -> scattered dbg n g S -> (N.of_nat (length S) < 65535)%N -> on n p -> dark p = true -> p ∉ S ->
  exists g', try_play dbg g (MPlay (fst p) (snd p)) = Ok (g', Accepted) /\ scattered dbg n g' (p :: S).
Proof.
  intros Hn O HL Hp Hd Hin. destruct (sc_reach _ _ _ _ O) as (b & w & HG & HB).
  assert (HS : ~ no_slot_left g) by (apply (few_stones dbg n b w g HG); lia).
  assert (He : position g p = None). { destruct (position g p) eqn:E; [|reflexivity]. exfalso. apply Hin, (sc_pos _ _ _ _ O p Hp). rewrite E. discriminate. }
  assert (HT : forall c q, ~ taken n (put (position g) p c) p c q).
  { intros c q (t & Ht & At & Et & _). rewrite put_other in Et by (apply adj_ne, At). rewrite (scattered_free dbg n g S p t O Hd Ht At) in Et. discriminate Et. }
  assert (HB0 : forall c Q, cleared n (taken n (put (position g) p c) p c) (put (position g) p c) Q -> breathes n Q p).
  { intros c Q HQ. destruct (other_neighbour n p p Hn Hp) as (u & Hu & Au & _). exists u. split; [exact Hu|]. split; [|exists p; split; [apply rtc_refl|exact Au]].
    apply (left_empty n _ p c Q u HQ Hu). rewrite put_other by (apply adj_ne, Au). exact (scattered_free dbg n g S p u O Hd Hu Au). }
  destruct p as [x y]. cbn [fst snd].
  assert (HA : exists g', try_play dbg g (MPlay x y) = Ok (g', Accepted)).
  { apply (verdict_exact dbg n b w g x y Accepted HG Hp HS). unfold judged, first_reason, reasons, point_reasons.
    cbn [table_of t_passes t_pos t_turn t_ko t_seen]. rewrite !Forall_cons. cbn [snd].
    split; [rewrite (sc_passes _ _ _ _ O); discriminate|]. split; [intros H; apply H, He|].
    split; [intros [_ (Q & HQ & HN)]; exact (HN (HB0 _ Q HQ))|].
    split; [intros [_ [H _]]; cbn in H; rewrite (sc_ko _ _ _ _ O) in H; discriminate H|].
    split; [|split; [|constructor]].
    - intros [_ (_ & H & _)]. destruct (other_neighbour n (x, y) (x, y) Hn Hp) as (u & Hu & Au & _). pose proof (H u Hu Au) as E. rewrite (scattered_free dbg n g S (x, y) u O Hd Hu Au) in E. discriminate E.
    - intros [_ (_ & (q & _ & T) & _)]. exact (HT _ q T). }
  destruct HA as (g' & Et). exists g'. split; [exact Et|].
  destruct (stone_sim dbg n b w g x y HG Hp He ltac:(lia)) as (g2 & Ep & _ & St & HG2).
  assert (g2 = g') as ->. { destruct (try_play_inv dbg g _ g' _ Et) as [(e & E & _)|(_ & _ & E)]; [discriminate E|congruence]. }
  assert (HP : forall q, on n q -> position g' q = put (position g) (x, y) (gm_turn g) q).
  { destruct (ss_pos _ _ _ _ _ St) as (Q & HQ & HR). cbn [table_of t_pos t_turn] in HQ, HR. intros q Hq.
    assert (EQ : Q q = put (position g) (x, y) (gm_turn g) q) by (apply (HQ q Hq), HT). rewrite <- EQ. apply (HR q Hq).
    intros (_ & HB' & _). exact (HB' (HB0 _ Q HQ)). }
  constructor.
  - eexists _, _. split; [exact HG2|]. rewrite bump_total. cbn. f_equal. exact HB.
  - intros q Hq. rewrite (HP q Hq), elem_of_cons. destruct (decide (q = (x, y))) as [->|Ne].
    + rewrite put_here. split; [left; reflexivity|discriminate].
    + rewrite put_other by exact Ne. rewrite (sc_pos _ _ _ _ O q Hq). tauto.
  - intros q Hq. apply elem_of_cons in Hq as [->|Hq]; [exact Hd|exact (sc_dark _ _ _ _ O q Hq)].
  - pose proof (ss_ko _ _ _ _ _ St) as HK. cbn in HK. destruct (gm_ko_point g') as [q|]; [|reflexivity]. exfalso.
    destruct (proj1 (HK q) eq_refl) as (_ & T & _). exact (HT _ q T).
  - exact (ss_passes _ _ _ _ _ St).
Qed.

Lemma scattered_goes dbg n ms : (2 <= n)%nat -> forall g S, scattered dbg n g S -> (N.of_nat (length S + length ms) <= 65535)%N -> NoDup ms ->
  (forall p, p ∈ ms -> on n p /\ dark p = true /\ p ∉ S) -> goes dbg n g (length ms) ms.
Proof.
  intros Hn. induction ms as [|p ms IH]; intros g S O HL ND H; cbn [length] in *.
  - split; [reflexivity|]. split; [intros q Hq; inversion Hq|]. exists g. reflexivity.
  - apply NoDup_cons in ND as [Hni ND]. destruct (H p) as (Hp & Hd & Hin); [left|].
    destruct (scattered_step dbg n g S p Hn O ltac:(lia) Hp Hd Hin) as (g1 & Et & O1).
    destruct (IH g1 (p :: S) O1 ltac:(cbn [length]; lia) ND) as (_ & _ & g' & Ha).
    { intros q Hq. destruct (H q) as (H1 & H2 & H3); [right; exact Hq|]. split; [exact H1|]. split; [exact H2|]. intros Hx. apply elem_of_cons in Hx as [->|Hx]; contradiction. }
    split; [reflexivity|]. split; [intros q Hq; apply H, Hq|]. exists g'. exists g1. split; [exact Et|exact Ha].
Qed.

Theorem perft_overflow : exists g k, game_new Nineteen CHINESE = Ok g /\
  number_of (fun ms => length ms = 9%nat /\ playable_line 19 (flag_illegal CHINESE) (table_of g) ms) k /\
  perft true g 9 = Panic /\ exists k', perft false g 9 = Ok k' /\ k' <> k.
Proof.
  destruct (game_new Nineteen CHINESE) as [g| |] eqn:Eg; [|vm_compute in Eg; discriminate Eg..]. exists g.
  assert (HN : forall dbg, exists k, number_of (fun ms => length ms = 9%nat /\ playable_line 19 (flag_illegal CHINESE) (table_of g) ms) k /\
    perft dbg g 9 = as_u64 dbg k /\ (2 ^ 64 <= k)%N).
  { intros dbg. pose proof (opening_new dbg 19 Nineteen CHINESE g ltac:(lia) eq_refl Eg) as O.
    assert (SC : scattered dbg 19 g []).
    { destruct O as [O1 O2 O3 O4 O5 O6 O7]. constructor; try assumption. intros q Hq. inversion Hq. }
    destruct (op_reach _ _ _ _ O) as (b & w & HG & HB). cbn in HB.
    destruct (perft_exact dbg 19 b w g 9 HG) as (k & K & E); [rewrite (op_passes _ _ _ _ O); discriminate|lia|].
    assert (Er : flag_illegal (gm_rule g) = flag_illegal CHINESE) by (vm_compute in Eg; injection Eg as <-; reflexivity). rewrite Er in K.
    exists k. split; [exact K|]. split; [exact E|].
    destruct (count_arrangements 9 (List.filter dark (points 19))) as (l & Nl & Ml & Ll).
    { apply NoDup_ListNoDup, List.NoDup_filter. apply NoDup_ListNoDup, NoDup_points. }
    destruct K as (lk & Nk & Mk & <-).
    transitivity (N.of_nat (length l)); [rewrite Ll; vm_compute; discriminate|].
    assert (HI : (length l <= length lk)%nat); [|lia].
    apply NoDup_incl_length; [apply NoDup_ListNoDup; exact Nl|]. intros ms Hm. apply elem_of_list_In in Hm. apply elem_of_list_In, Mk.
    apply Ml in Hm as (Em & Hm & Nm). rewrite <- Er. apply (goes_line dbg 19 b w g 9 ms HG ltac:(lia)). pose proof (scattered_goes dbg 19 ms ltac:(lia) g [] SC ltac:(cbn; lia) Nm) as HH. rewrite Em in HH. apply HH. clear HH. intros p Hp. apply Hm in Hp. apply elem_of_list_In, filter_In in Hp as [Hp Hd].
    split; [apply elem_of_points, elem_of_list_In, Hp|]. split; [exact Hd|]. intros Hx. inversion Hx. }
  destruct (HN true) as (k & K & E & Hk). destruct (HN false) as (k2 & K2 & E2 & Hk2). rewrite (number_unique _ _ _ K2 K) in *. clear k2 K2.
  exists k. split; [reflexivity|]. split; [exact K|]. unfold as_u64 in E, E2. destruct (N.ltb_spec k (2 ^ 64)) as [H|H]; [lia|]. split; [exact E|].
  eexists. split; [exact E2|]. pose proof (N.mod_lt k (2 ^ 64) ltac:(discriminate)). lia.
Qed.
