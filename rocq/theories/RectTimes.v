(** How often each point counts as territory on boards at least twice as high as wide (C110). *)
From stdpp Require Import relations sorting.
From Verif Require Import MonadFacts Spec Reach Territory Struct Bridge GameFacts RulesFacts BoardFacts TerritoryFacts ScoreFacts Observe.
From Verif Require Import RectReach RectCoord RectInv RectBridge RectGame RectBoard RectMoves RectList RectReachFacts RectScore RectCountSpec RectCount.
From Coq Require Import Lia.

Local Notation length := Datatypes.length.
Open Scope nat_scope.

(** ** Regions *)

Lemma rspread_refl n P p : rspread n P p p.
Proof. left. reflexivity. Qed.

Lemma rspread_trans n P a b c : rspread n P a b -> rspread n P b c -> rspread n P a c.
Proof.
  intros [->|(r & Hr & Ha & Hn & H)]; [tauto|]. intros [->|(s & Hs & Hb & Hm & H')]; [right; exists r; auto|].
  right. exists r. split; [exact Hr|]. split; [exact Ha|]. split; [exact Hn|]. eapply rconnected_trans; [exact H|].
  eapply rconnected_trans; [|exact H']. apply rtc_once. split; [exact (rconnected_on n P r b Hr H)|]. split; [exact Hs|]. split; [exact Hb|].
  rewrite <- (rconnected_same n P _ _ H). congruence.
Qed.

Lemma rspread_stone n P p q : rspread n P p q -> P q <> None -> q = p.
Proof. intros [E|(r & _ & _ & Hn & H)] Hq; [exact E|]. rewrite <- (rconnected_same n P _ _ H) in Hq. contradiction. Qed.

Lemma rspread_empty n P p q : ron n p -> P p = None -> rspread n P p q <-> rconnected n P p q.
Proof.
  intros Hp Hn. split.
  - intros [->|(r & Hr & Ha & Hm & H)]; [apply rtc_refl|]. eapply rconnected_trans; [|exact H]. apply rtc_once.
    split; [exact Hp|]. split; [exact Hr|]. split; [exact Ha|]. congruence.
  - intros H. apply rtc_inv in H as [<-|(r & (H1 & H2 & H3 & H4) & H)]; [left; reflexivity|]. right. exists r.
    split; [exact H2|]. split; [exact H3|]. split; [congruence|exact H].
Qed.

(** ** Where regions are taken from *)

Lemma rchosen_app n P G l1 l2 G' : rchosen n P G (l1 ++ l2) G' -> exists G1, rchosen n P G l1 G1 /\ rchosen n P G1 l2 G'.
Proof.
  revert G. induction l1 as [|p l1 IH]; intros G H; cbn [app] in H; [exists G; split; [constructor|exact H]|].
  inversion H as [|? ? ? ? S T|? ? R ? ? S N E T]; subst.
  - destruct (IH _ T) as (G1 & A & B). exists G1. split; [apply rt_seen; assumption|exact B].
  - destruct (IH _ T) as (G1 & A & B). exists G1. split; [apply rt_new with R; assumption|exact B].
Qed.

Definition region_of (n : size_t) (P : pos) (p : coord) (R : list coord) : Prop := NoDup R /\ forall q, q ∈ R <-> rspread n P p q.

Record starts (n : size_t) (P : pos) (l ps : list coord) (G : list (list coord)) : Prop := {
  st_regions : Forall2 (region_of n P) ps G;
  st_first : forall p, p ∈ ps -> exists l1 l2, l = l1 ++ p :: l2 /\ forall p', p' ∈ l1 -> ~ rspread n P p' p;
  st_all : forall l1 p l2, l = l1 ++ p :: l2 -> exists p', p' ∈ ps /\ p' ∈ l1 ++ [p] /\ rspread n P p' p;
  st_nodup : NoDup ps;
  st_once : forall p p', p ∈ ps -> p' ∈ ps -> rspread n P p p' -> rspread n P p' p -> p = p' }.

Lemma forall2_in {A B} (R : A -> B -> Prop) l k y : Forall2 R l k -> y ∈ k -> exists x, x ∈ l /\ R x y.
Proof.
  induction 1 as [|x b l k Hx Hl IH]; intros Hy; [apply elem_of_nil in Hy; destruct Hy|].
  apply elem_of_cons in Hy as [->|Hy]; [exists x; split; [left|exact Hx]|].
  destruct (IH Hy) as (x' & H1 & H2). exists x'. split; [right; exact H1|exact H2].
Qed.

Lemma forall2_in_l {A B} (R : A -> B -> Prop) l k x : Forall2 R l k -> x ∈ l -> exists y, y ∈ k /\ R x y.
Proof.
  induction 1 as [|z b l k Hx Hl IH]; intros Hy; [apply elem_of_nil in Hy; destruct Hy|].
  apply elem_of_cons in Hy as [->|Hy]; [exists b; split; [left|exact Hx]|].
  destruct (IH Hy) as (x' & H1 & H2). exists x'. split; [right; exact H1|exact H2].
Qed.

Lemma exists_last_or {A} (l : list A) : l = [] \/ exists x k, l = k ++ [x].
Proof. induction l as [|x l _] using rev_ind; [auto|]. right. eauto. Qed.

Lemma snoc_split {A} (l l1 l2 : list A) x p : l ++ [x] = l1 ++ p :: l2 ->
  (exists l2', l = l1 ++ p :: l2') \/ (l1 = l /\ p = x).
Proof.
  destruct (exists_last_or l2) as [->|(y & l2' & ->)]; intros E.
  - apply app_inj_tail in E as [-> ->]. auto.
  - change (p :: l2' ++ [y]) with ((p :: l2') ++ [y]) in E. rewrite app_assoc in E. apply app_inj_tail in E as [-> ->]. left. eauto.
Qed.

Lemma taken_starts n P l : forall G, rchosen n P [] l G -> exists ps, starts n P l ps G.
Proof.
  induction l as [|x l IH] using rev_ind; intros G H.
  { inversion H; subst. exists []. split; [constructor| | |constructor|].
    - intros p Hp. apply elem_of_nil in Hp. destruct Hp.
    - intros [|] ? ? ?; discriminate.
    - intros p p' Hp. apply elem_of_nil in Hp. destruct Hp. }
  apply rchosen_app in H as (G1 & H1 & H2). destruct (IH _ H1) as (ps & S).
  inversion H2 as [|? ? ? ? Se T|? ? R ? ? Se N E T]; subst; inversion T; subst.
  - exists ps. split; [apply (st_regions _ _ _ _ _ S)| | |apply (st_nodup _ _ _ _ _ S)|apply (st_once _ _ _ _ _ S)].
    + intros p Hp. destruct (st_first _ _ _ _ _ S p Hp) as (l1 & l2 & -> & F). exists l1, (l2 ++ [x]). split; [rewrite <- app_assoc; reflexivity|exact F].
    + intros l1 p l2 El. apply snoc_split in El as [(l2' & El)|[-> ->]]; [exact (st_all _ _ _ _ _ S _ _ _ El)|].
      destruct Se as (R & HR & Hx). destruct (forall2_in _ _ _ _ (st_regions _ _ _ _ _ S) HR) as (p' & Hp' & _ & Hr).
      exists p'. split; [exact Hp'|]. split; [|apply Hr, Hx].
      destruct (st_first _ _ _ _ _ S p' Hp') as (a & b & -> & _). rewrite !elem_of_app, elem_of_cons. auto.
  - assert (NS : forall p, p ∈ ps -> ~ rspread n P p x).
    { intros p Hp K. destruct (forall2_in_l _ _ _ _ (st_regions _ _ _ _ _ S) Hp) as (R' & HR' & _ & Hr). apply (Se R' HR'), Hr, K. }
    exists (ps ++ [x]). split.
    + apply Forall2_app; [apply (st_regions _ _ _ _ _ S)|]. constructor; [split; assumption|constructor].
    + intros p Hp. apply elem_of_app in Hp as [Hp|Hp].
      * destruct (st_first _ _ _ _ _ S p Hp) as (l1 & l2 & -> & F). exists l1, (l2 ++ [x]). split; [rewrite <- app_assoc; reflexivity|exact F].
      * apply elem_of_list_singleton in Hp as ->. exists l, []. split; [reflexivity|]. intros p' Hp' K.
        apply elem_of_list_split in Hp' as (a & b & El). destruct (st_all _ _ _ _ _ S _ _ _ El) as (p2 & Hp2 & _ & K2).
        apply (NS p2 Hp2). eapply rspread_trans; eassumption.
    + intros l1 p l2 El. apply snoc_split in El as [(l2' & El)|[-> ->]].
      * destruct (st_all _ _ _ _ _ S _ _ _ El) as (p' & A & B). exists p'. split; [apply elem_of_app; auto|exact B].
      * exists x. split; [apply elem_of_app; right; left|]. split; [apply elem_of_app; right; left|apply rspread_refl].
    + apply NoDup_app. split; [apply (st_nodup _ _ _ _ _ S)|]. split; [|apply NoDup_singleton].
      intros p Hp Hx. apply elem_of_list_singleton in Hx as ->. exact (NS x Hp (rspread_refl n P x)).
    + intros p p' Hp Hp' K K'. apply elem_of_app in Hp as [Hp|Hp], Hp' as [Hp'|Hp'].
      * exact (st_once _ _ _ _ _ S p p' Hp Hp' K K').
      * apply elem_of_list_singleton in Hp' as ->. destruct (NS p Hp K).
      * apply elem_of_list_singleton in Hp as ->. destruct (NS p' Hp' K').
      * apply elem_of_list_singleton in Hp, Hp'. congruence.
Qed.

(** ** Counting *)

Lemma times_NoDup p l : NoDup l -> times p l = if bool_decide (p ∈ l) then 1 else 0.
Proof.
  induction 1 as [|x l Hx Hl IH]; [rewrite bool_decide_eq_false_2 by (intros H; apply elem_of_nil in H; destruct H); reflexivity|].
  rewrite times_cons, IH. destruct (decide (x = p)) as [->|Hn].
  - rewrite (bool_decide_eq_false_2 (p ∈ l)) by exact Hx. rewrite bool_decide_eq_true_2 by left. reflexivity.
  - destruct (bool_decide (p ∈ l)) eqn:E.
    + apply bool_decide_eq_true in E. rewrite bool_decide_eq_true_2 by (right; exact E). reflexivity.
    + apply bool_decide_eq_false in E. rewrite bool_decide_eq_false_2; [reflexivity|]. intros H. apply elem_of_cons in H as [H|H]; congruence.
Qed.

Lemma times_perm p l l' : l ≡ₚ l' -> times p l = times p l'.
Proof. intros H. unfold times. rewrite H. reflexivity. Qed.

Lemma ronly_ext n P c (D D' : coord -> Prop) : (forall q, D q <-> D' q) -> ronly n P c D <-> ronly n P c D'.
Proof.
  intros H. unfold ronly, rborders. split; intros [(a & b & A) B].
  - split; [exists a, b; rewrite <- H; exact A|]. intros (a' & b' & A'). apply B. exists a', b'. rewrite H. exact A'.
  - split; [exists a, b; rewrite H; exact A|]. intros (a' & b' & A'). apply B. exists a', b'. rewrite <- H. exact A'.
Qed.

Lemma times_regions n P c f ps G q : Forall2 (region_of n P) ps G -> NoDup ps ->
  (forall R, R ∈ G -> f R = true <-> ronly n P c (fun r => r ∈ R)) ->
  exists ps', NoDup ps' /\ (forall p, p ∈ ps' <-> p ∈ ps /\ rspread n P p q /\ ronly n P c (rspread n P p)) /\
    times q (concat (List.filter f G)) = length ps'.
Proof.
  intros H. induction H as [|p R ps G [NR HR] HG IH]; intros Nd Hf.
  { exists []. split; [constructor|]. split; [|reflexivity]. intros p. rewrite elem_of_nil. tauto. }
  apply NoDup_cons in Nd as [Np Nd].
  destruct IH as (ps' & N' & E' & T'); [exact Nd|intros R' HR'; apply Hf; right; exact HR'|].
  assert (HO : ronly n P c (fun r => r ∈ R) <-> ronly n P c (rspread n P p)).
  { apply ronly_ext. exact HR. }
  assert (D : {f R = true /\ q ∈ R} + {~ (f R = true /\ q ∈ R)}).
  { destruct (f R); [|right; intros [? _]; discriminate]. destruct (decide (q ∈ R)); [left|right]; tauto. }
  destruct D as [[Df Dq]|D].
  - exists (p :: ps'). split; [apply NoDup_cons; split; [rewrite E'; tauto|exact N']|]. split.
    + intros x. rewrite !elem_of_cons, E'. split; [|tauto]. intros [->|K]; [|tauto]. split; [auto|]. split; [apply HR, Dq|]. apply HO, Hf; [left|exact Df].
    + cbn [List.filter]. rewrite Df. cbn [concat]. rewrite times_app, T', (times_NoDup q R NR), bool_decide_eq_true_2 by exact Dq. reflexivity.
  - exists ps'. split; [exact N'|]. split.
    + intros x. rewrite elem_of_cons, E'. split; [tauto|]. intros ([->|K] & K2 & K3); [|tauto]. exfalso. apply D. split; [apply Hf; [left|apply HO, K3]|apply HR, K2].
    + cbn [List.filter]. destruct (f R) eqn:Ef; [|exact T']. cbn [concat]. rewrite times_app, T', (times_NoDup q R NR), bool_decide_eq_false_2 by tauto. reflexivity.
Qed.

(** ** The order of the listing *)

Definition by_row (a b : coord) : Prop := fst a <= fst b.

Lemma sorted_app (l k : list coord) : StronglySorted by_row l -> StronglySorted by_row k -> (forall a b, a ∈ l -> b ∈ k -> by_row a b) ->
  StronglySorted by_row (l ++ k).
Proof.
  intros Hl Hk H. induction Hl as [|a l Hl IH Ha]; cbn [app]; [exact Hk|]. constructor.
  - apply IH. intros x y Hx. apply H. right. exact Hx.
  - apply Forall_app. split; [exact Ha|]. apply Forall_forall. intros b Hb. apply H; [left|exact Hb].
Qed.

Lemma sorted_const (l : list coord) r : (forall a, a ∈ l -> fst a = r) -> StronglySorted by_row l.
Proof.
  induction l as [|a l IH]; intros H; [constructor|]. constructor; [apply IH; intros x Hx; apply H; right; exact Hx|].
  apply Forall_forall. intros b Hb. unfold by_row. rewrite (H a), (H b); [lia|right; exact Hb|left].
Qed.

Lemma sorted_rows (f : nat -> list coord) : (forall r a, a ∈ f r -> fst a = r) -> forall m s, StronglySorted by_row (flat_map f (seq s m)).
Proof.
  intros Hf. induction m as [|m IH]; intros s; cbn [seq flat_map]; [constructor|]. apply sorted_app; [apply (sorted_const _ s), Hf|apply IH|].
  intros a b Ha Hb. apply elem_of_list_In, in_flat_map in Hb as (r & Hr & Hb). apply in_seq in Hr. apply elem_of_list_In in Hb.
  unfold by_row. rewrite (Hf _ _ Ha), (Hf _ _ Hb). lia.
Qed.

Lemma sorted_tail (l1 l2 : list coord) p : StronglySorted by_row (l1 ++ p :: l2) -> forall q, q ∈ l2 -> by_row p q.
Proof.
  induction l1 as [|a l1 IH]; cbn [app]; intros H q Hq; inversion H as [|? ? H1 H2]; subst; [|exact (IH H1 q Hq)].
  rewrite Forall_forall in H2. apply H2, Hq.
Qed.

(** rows in order, and in the first row the empty points before all others *)
Lemma rempty_order n g k : rwf n g -> fst n = k * snd n -> exists l, get_empty_coords g = Ok l /\ length l <= 361 /\
  StronglySorted by_row l /\
  forall p, ron n p -> fst p = 0 -> pos_of g p = None -> exists l1 l2, l = l1 ++ p :: l2 /\ forall q, q ∈ l1 -> ron n q /\ pos_of g q = None.
Proof.
  intros W Hk. pose proof (rwf_n n g W) as F. pose proof (fits_wide n F) as Hw. pose proof F as (H19 & H1 & _).
  rewrite (rget_empty_coords n g k W Hk). eexists. split; [reflexivity|]. split.
  { set (w := snd n) in *. assert (HB : forall r, length (flat_map (fun j => flat_map (fun c => match cell g (r * fst n + (j * w + c)) with Some _ => [] | None => [(r, c)] end)
      (seq 0 w)) (seq 0 k)) <= k * w).
    { intros r. assert (HC : forall j m s, length (flat_map (fun c => match cell g (r * fst n + (j * w + c)) with Some _ => [] | None => [(r, c)] end) (seq s m)) <= m).
      { intros j. induction m as [|m IH]; intros s; cbn [seq flat_map length]; [lia|]. rewrite app_length. specialize (IH (S s)). destruct (cell g _); cbn [length]; lia. }
      generalize 0 at 2. generalize k. intros m. induction m as [|m IH]; intros s; cbn [seq flat_map length]; [lia|]. rewrite app_length. specialize (IH (S s)). specialize (HC s w 0). lia. }
    assert (HT : forall m s, length (flat_map (fun r => flat_map (fun j => flat_map (fun c => match cell g (r * fst n + (j * w + c)) with Some _ => [] | None => [(r, c)] end)
      (seq 0 w)) (seq 0 k)) (seq s m)) <= m * (k * w)).
    { induction m as [|m IH]; intros s; [cbn; lia|]. cbn [seq flat_map]. rewrite app_length. specialize (IH (S s)). specialize (HB s). lia. }
    specialize (HT w 0). rewrite <- Hk in HT. etransitivity; [exact HT|]. nia. }
  split.
  { apply sorted_rows. intros r a Ha. apply elem_of_list_In, in_flat_map in Ha as (j & _ & Ha). apply in_flat_map in Ha as (c & _ & Ha).
    destruct (cell g _); [destruct Ha|]. destruct Ha as [<-|[]]. reflexivity. }
  intros [r c] Hp E0 Hn. cbn [fst] in E0. subst r. destruct k as [|k]; [lia|]. destruct (snd n) as [|w] eqn:Ew; [lia|].
  set (f := fun c => match cell g (0 * fst n + (0 * S w + c)) with Some _ => [] | None => [(0, c)] end).
  set (row := flat_map f (seq 0 (S w))).
  assert (HE : forall q, q ∈ row -> ron n q /\ pos_of g q = None).
  { intros q Hq. apply elem_of_list_In, in_flat_map in Hq as (c' & Hc' & Hq). apply in_seq in Hc'. unfold f in Hq.
    destruct (cell g _) eqn:Ec; [destruct Hq|]. destruct Hq as [<-|[]]. assert (Hon : ron n (0, c')) by (split; cbn; lia). split; [exact Hon|].
    rewrite (rpos_of_col n g _ W Hon). apply (proj2 (rcol_None n g _ W)). unfold ridx. cbn [fst snd]. exact Ec. }
  assert (Hin : (0, c) ∈ row).
  { apply elem_of_list_In, in_flat_map. exists c. split; [apply in_seq; destruct Hp as [_ Hc]; cbn in Hc; lia|]. unfold f.
    rewrite (rpos_of_col n g _ W Hp) in Hn. apply (proj1 (rcol_None n g _ W)) in Hn. unfold ridx in Hn. cbn [fst snd] in Hn.
    change (0 * S w + c) with c. rewrite Hn. left. reflexivity. }
  apply elem_of_list_split in Hin as (l1 & l2 & El). exists l1. eexists. split.
  - change (seq 0 (S w)) with (0 :: seq 1 w) at 2. cbn [flat_map]. change (seq 0 (S k)) with (0 :: seq 1 k) at 1. cbn [flat_map].
    fold f. fold row. rewrite El, <- !app_assoc. cbn [app]. reflexivity.
  - intros q Hq. apply HE. rewrite El, elem_of_app. auto.
Qed.

(** ** The theorem *)

Lemma rtop_point n P p : ron n p -> P p = None ->
  (exists q, ron n q /\ fst q = 0 /\ rconnected n P q p) \/
  (exists s, ron n s /\ fst s < fst p /\ P s <> None /\ rspread n P s p).
Proof.
  assert (HI : forall m q, fst q <= m -> ron n q -> P q = None -> rconnected n P q p -> fst q <= fst p ->
    (exists q, ron n q /\ fst q = 0 /\ rconnected n P q p) \/ (exists s, ron n s /\ fst s < fst p /\ P s <> None /\ rspread n P s p)).
  { induction m as [|m IH]; intros q Hm Hq Hn Hc Hle; [left; exists q; split; [exact Hq|]; split; [lia|exact Hc]|].
    destruct q as [[|r] c]; [left; exists (0, c); auto|]. cbn [fst] in *.
    assert (Hs : ron n (r, c)) by (destruct Hq; split; cbn in *; lia).
    assert (Ha : adj (r, c) (S r, c)) by (unfold adj; cbn; lia).
    destruct (P (r, c)) as [x|] eqn:Es.
    - right. exists (r, c). split; [exact Hs|]. split; [cbn; lia|]. split; [congruence|]. right. exists (S r, c). auto.
    - apply (IH (r, c)); cbn [fst]; [lia|exact Hs|exact Es| |lia]. eapply rtc_l; [|exact Hc]. split; [exact Hs|]. split; [exact Hq|]. split; [exact Ha|congruence]. }
  intros Hp Hn. apply (HI (fst p) p); [lia|exact Hp|exact Hn|apply rtc_refl|lia].
Qed.

Lemma split_stones (P : pos) (l : list coord) : NoDup l -> exists a b, NoDup a /\ NoDup b /\
  (forall p, p ∈ a <-> p ∈ l /\ P p <> None) /\ (forall p, p ∈ b <-> p ∈ l /\ P p = None) /\ length l = length a + length b.
Proof.
  induction 1 as [|x l Hx Hl (a & b & Na & Nb & Ea & Eb & Ln)].
  { exists [], []. split; [constructor|]. split; [constructor|]. split; [|split; [|reflexivity]]; intros p; rewrite elem_of_nil; tauto. }
  destruct (P x) as [y|] eqn:Ex.
  - exists (x :: a), b. split; [apply NoDup_cons; split; [rewrite Ea; tauto|exact Na]|]. split; [exact Nb|].
    split; [|split; [|cbn; lia]]; intros p; rewrite ?elem_of_cons, ?Ea, ?Eb; (split; [|intuition congruence]).
    + intros [->|K]; [split; [auto|congruence]|tauto].
    + tauto.
  - exists a, (x :: b). split; [exact Na|]. split; [apply NoDup_cons; split; [rewrite Eb; tauto|exact Nb]|].
    split; [|split; [|cbn; lia]]; intros p; rewrite ?elem_of_cons, ?Ea, ?Eb; (split; [|intuition congruence]).
    + tauto.
    + intros [->|K]; [split; [auto|congruence]|tauto].
Qed.

Theorem rcounted_times n P c k l G L q :
  fst n = k * snd n -> 2 <= k -> rchosen n P [] l G -> rcounted n P c G L ->
  (forall p, p ∈ l <-> ron n p /\ fst p < snd n) -> StronglySorted by_row l ->
  (forall p, ron n p -> fst p = 0 -> P p = None -> exists l1 l2, l = l1 ++ p :: l2 /\ forall q, q ∈ l1 -> ron n q /\ P q = None) ->
  exists a e, card (stone_counts n P c q) a /\ card (fun p => p = q /\ region_counts n P c q) e /\ times q L = a + e.
Proof.
  intros Hk K2 T (f & Hf & HL) Hl Sl Hfirst. destruct (taken_starts n P l G T) as (ps & S).
  destruct (times_regions n P c f ps G q (st_regions _ _ _ _ _ S) (st_nodup _ _ _ _ _ S) Hf) as (ps' & N' & E' & T').
  destruct (split_stones P ps' N') as (a & b & Na & Nb & Ea & Eb & Ln).
  assert (Hin : forall p, p ∈ ps -> p ∈ l).
  { intros p Hp. destruct (st_first _ _ _ _ _ S p Hp) as (x & y & -> & _). rewrite elem_of_app, elem_of_cons. auto. }
  assert (HA : forall p, p ∈ a <-> stone_counts n P c q p).
  { intros p. rewrite Ea, E'. unfold stone_counts. split.
    - intros ((H1 & H2 & H3) & H4). pose proof (proj1 (Hl p) (Hin p H1)). tauto.
    - intros (H1 & H2 & H3 & H4 & H5). split; [|exact H3]. split; [|split; assumption].
      assert (Hp : p ∈ l) by (apply Hl; auto). apply elem_of_list_split in Hp as (x & y & El).
      destruct (st_all _ _ _ _ _ S _ _ _ El) as (p' & Hp' & _ & Hs). rewrite (rspread_stone n P p' p Hs H3). exact Hp'. }
  assert (HB : forall p, p ∈ b <-> p ∈ ps /\ ron n p /\ P p = None /\ rconnected n P p q /\ ronly n P c (rconnected n P p)).
  { intros p. rewrite Eb, E'. split.
    - intros ((H1 & H2 & H3) & H4). pose proof (proj1 (Hl p) (Hin p H1)) as [Hp _].
      rewrite (ronly_ext n P c (rspread n P p) (rconnected n P p)) in H3 by (intros x; apply rspread_empty; assumption).
      rewrite rspread_empty in H2 by assumption. auto.
    - intros (H1 & Hp & H2 & H3 & H4). split; [|exact H2]. split; [exact H1|].
      rewrite (ronly_ext n P c (rspread n P p) (rconnected n P p)) by (intros x; apply rspread_empty; assumption).
      rewrite rspread_empty by assumption. auto. }
  assert (HB1 : forall p p', p ∈ b -> p' ∈ b -> p = p').
  { intros p p' Hp Hp'. apply HB in Hp as (H1 & H2 & H3 & H4 & _), Hp' as (H1' & H2' & H3' & H4' & _).
    apply (st_once _ _ _ _ _ S); [assumption..| |]; apply rspread_empty; try assumption; (eapply rconnected_trans; [eassumption|apply rconnected_sym; assumption]). }
  assert (HC : forall p r, rconnected n P p r -> ronly n P c (rconnected n P p) <-> ronly n P c (rconnected n P r)).
  { intros p r Hr. apply ronly_ext. intros x. split; intros Hx; [eapply rconnected_trans; [apply rconnected_sym, Hr|exact Hx]|eapply rconnected_trans; [exact Hr|exact Hx]]. }
  assert (HR : (exists p, p ∈ b) <-> region_counts n P c q).
  { split.
    - intros (p & Hp). apply HB in Hp as (H1 & H2 & H3 & H4 & H5). split; [rewrite <- (rconnected_same n P _ _ H4); exact H3|].
      split; [|apply (HC p q H4), H5].
      destruct (rtop_point n P p H2 H3) as [(t & Ht & Ht0 & Htp)|(s & Hs & Hlt & Hns & Hsp)].
      + exists t. split; [exact Ht|]. split; [exact Ht0|]. eapply rconnected_trans; eassumption.
      + exfalso. destruct (st_first _ _ _ _ _ S p H1) as (l1 & l2 & El & F). apply (F s); [|exact Hsp].
        pose proof (proj1 (Hl p) (Hin p H1)) as [_ Hpw].
        assert (Hsl : s ∈ l) by (apply Hl; split; [exact Hs|lia]). rewrite El in Hsl. apply elem_of_app in Hsl as [Hsl|Hsl]; [exact Hsl|].
        apply elem_of_cons in Hsl as [->|Hsl]; [lia|]. rewrite El in Sl. pose proof (sorted_tail _ _ _ Sl s Hsl) as Hb. unfold by_row in Hb. lia.
    - intros (Hq & (t & Ht & Ht0 & Htq) & Ho).
      assert (Hnt : P t = None) by (rewrite (rconnected_same n P _ _ Htq); exact Hq).
      destruct (Hfirst t Ht Ht0 Hnt) as (l1 & l2 & El & Hemp). destruct (st_all _ _ _ _ _ S _ _ _ El) as (p & Hp & Hpl & Hpt).
      assert (Hpe : ron n p /\ P p = None).
      { apply elem_of_app in Hpl as [Hpl|Hpl]; [apply Hemp, Hpl|]. apply elem_of_list_singleton in Hpl as ->. auto. }
      destruct Hpe as [Hpo Hpe]. apply rspread_empty in Hpt; [|assumption..]. assert (Hpq : rconnected n P p q) by (eapply rconnected_trans; eassumption).
      exists p. apply HB. split; [exact Hp|]. split; [exact Hpo|]. split; [exact Hpe|]. split; [exact Hpq|]. apply (HC p q Hpq), Ho. }
  exists (length a), (length b). split; [exists a; auto|]. split.
  - destruct b as [|p [|p' b]].
    + exists []. split; [constructor|]. split; [|reflexivity]. intros p. split; [intros H; apply elem_of_nil in H; destruct H|].
      intros [_ H]. apply HR in H as (p0 & H). apply elem_of_nil in H. destruct H.
    + exists [q]. split; [apply NoDup_singleton|]. split; [|reflexivity]. intros x. rewrite elem_of_list_singleton.
      assert (region_counts n P c q) by (apply HR; exists p; left). tauto.
    + exfalso. apply NoDup_cons in Nb as [Nb _]. apply Nb. rewrite (HB1 p p'); [left|left|right; left].
  - rewrite (times_perm q _ _ HL), T', Ln. reflexivity.
Qed.

Theorem rterritories_times order dbg n b w g k : fst n = k * snd n -> 2 <= k -> rgreach dbg n b w g -> (forall l, order l ≡ₚ l) ->
  exists bt wt, get_territories order dbg (gm_goban g) = Ok (bt, wt) /\
    forall q, exists ab eb aw ew,
      card (stone_counts n (position g) Black q) ab /\ card (fun p => p = q /\ region_counts n (position g) Black q) eb /\
      card (stone_counts n (position g) White q) aw /\ card (fun p => p = q /\ region_counts n (position g) White q) ew /\
      times q bt.*1 = ab + eb /\ times q wt.*1 = aw + ew.
Proof.
  intros Hk K2 HG Ho. pose proof (rgi_wf _ _ _ _ (rgreach_inv _ _ _ _ _ (ex_intro _ k Hk) HG)) as W.
  destruct (rterritories_exact order dbg n b w g (ex_intro _ k Hk) HG Ho) as (l & G & bt & wt & El & T & E & HB & HW & _).
  exists bt, wt. split; [exact E|]. unfold pseudo_legals in El.
  destruct (rempty_order n (gm_goban g) k W Hk) as (l' & El' & _ & Sl & Hf). rewrite El in El'. injection El' as <-.
  assert (Hl : forall p, p ∈ l <-> ron n p /\ fst p < snd n).
  { intros p. destruct (rempty_times n (gm_goban g) k p W Hk) as (l' & El' & Hon & Ht). rewrite El in El'. injection El' as <-. split.
    - intros Hp. split; [apply Hon, Hp|]. destruct (Nat.ltb_spec (fst p) (snd n)) as [|Hge]; [assumption|]. cbn [andb] in Ht. apply times_zero in Ht. contradiction.
    - intros [[_ Hc] Hr]. destruct (decide (p ∈ l)) as [|Hn]; [assumption|]. apply times_zero in Hn. rewrite Hn in Ht.
      apply Nat.ltb_lt in Hc, Hr. rewrite Hc, Hr in Ht. cbn [andb] in Ht. destruct (pos_of (gm_goban g) p); lia. }
  intros q. destruct (rcounted_times n (position g) Black k l G bt.*1 q Hk K2 T HB Hl Sl Hf) as (ab & eb & H1 & H2 & H3).
  destruct (rcounted_times n (position g) White k l G wt.*1 q Hk K2 T HW Hl Sl Hf) as (aw & ew & H4 & H5 & H6).
  exists ab, eb, aw, ew. auto 10.
Qed.
