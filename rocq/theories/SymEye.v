(** The eye check under symmetries, where no empty corner is attacked. *)
From stdpp Require Import relations.
From Verif Require Import SymSpec EyeSpec.
From Verif Require Import MonadFacts Struct Push Inv Remove Capture Bridge GameFacts RulesFacts BoardFacts ScoreFacts EyeFacts EyeExact ReprFacts ClaimFacts SymFacts SymScore.
From Coq Require Import Lia.

Local Notation length := Datatypes.length.
Local Open Scope nat_scope.

Lemma two_between p q u v : u <> v -> p <> q -> adj p u -> adj u q -> adj p v -> adj v q -> diag p q \/ (fst p = fst q /\ snd p = snd q).
Proof.
  destruct p as [a b], q as [c d], u as [e f], v as [h k]. unfold adj, diag. cbn [fst snd]. intros Huv Hpq A B C D.
  assert (K : e <> h \/ f <> k) by (destruct (Nat.eq_dec e h), (Nat.eq_dec f k); [subst; congruence|tauto..]). lia.
Qed.

Section Half.
  Context (n : nat) (σ τ : coord -> coord) (γ : color -> color) (P Q : pos).
  Hypothesis S : board_sym n σ τ γ.
  Hypothesis I : image n σ γ P Q.

  Lemma diag_image p q : on n p -> on n q -> diag p q -> diag (σ p) (σ q).
  Proof using S.
    destruct p as [a b], q as [c d]. intros Hp Hq D.
    assert (Hu : on n (a, d)) by (destruct Hp, Hq; split; assumption). assert (Hv : on n (c, b)) by (destruct Hp, Hq; split; assumption).
    assert (Ne : forall x y, on n x -> on n y -> x <> y -> σ x <> σ y) by (intros x y Hx Hy N E; apply N; exact (sigma_inj n σ τ γ S x y Hx Hy E)).
    unfold diag in D. cbn [fst snd] in D.
    destruct (two_between (σ (a, b)) (σ (c, d)) (σ (a, d)) (σ (c, b))) as [K|[K1 K2]]; try (apply (sy_adj _ _ _ _ S); trivial; unfold adj; cbn [fst snd]; lia); try (apply Ne; trivial; intros E; injection E; lia); [exact K|].
    exfalso. apply (Ne (a, b) (c, d) Hp Hq); [intros E; injection E; lia|]. destruct (σ (a, b)), (σ (c, d)). cbn in K1, K2. congruence.
  Qed.
End Half.

(** the corners that are not safe *)
Definition open_corner (n : nat) (P : pos) (c : color) (p q : coord) : Prop := on n q /\ diag p q /\ P q <> Some c.

Lemma NoDup_corners p : on 19 p -> NoDup (corner_list p).
Proof.
  destruct p as [[|x] [|y]]; intros [Hx Hy]; cbn [fst snd] in Hx, Hy; cbn [corner_list u8_wrapping_pred];
    repeat (apply NoDup_cons; split; [rewrite ?elem_of_cons, elem_of_nil; intros K; repeat (destruct K as [K|K]; [injection K; lia|]); exact K|]); apply NoDup_nil_2.
Qed.

Lemma good_card n P c p : n <= 19 -> on n p -> good_corners n P c p <= 4 /\ card (open_corner n P c p) (4 - good_corners n P c p).
Proof.
  intros Hn Hp. set (bad := fun q => is_coord_valid (n, n) q && negb (mcolor_eqb (P q) (Some c))).
  assert (L : good_corners n P c p + length (List.filter bad (corner_list p)) = 4).
  { transitivity (length (corner_list p)); [|destruct p; reflexivity]. unfold good_corners. generalize (corner_list p). intros l. induction l as [|q l IH]; [reflexivity|].
    cbn [List.filter]. unfold is_ally at 1, is_off at 1, bad at 1. destruct (is_coord_valid (n, n) q), (mcolor_eqb (P q) (Some c)); cbn [andb negb length]; lia. }
  split; [lia|]. exists (List.filter bad (corner_list p)). split; [|split; [|lia]].
  - apply NoDup_ListNoDup, List.NoDup_filter, NoDup_ListNoDup, NoDup_corners. destruct Hp. split; lia.
  - intros q. rewrite elem_of_list_In, List.filter_In, <- elem_of_list_In. unfold bad, open_corner. rewrite andb_true_iff, valid_on, negb_true_iff.
    destruct (mcolor_eqb_spec (P q) (Some c)) as [E|E].
    + split; [intros (_ & _ & K); discriminate|tauto].
    + split; [intros (A & B & _); split; [exact B|]; split; [apply (corners_diag n p q Hn Hp B), A|exact E]|].
      intros (A & B & _). split; [apply (corners_diag n p q Hn Hp A), B|auto].
Qed.

(** an eye, if nothing is attacked *)
Definition calm_eye (n : nat) (P : pos) (c : color) (p : coord) : Prop :=
  P p = None /\ (forall q, on n q -> adj p q -> P q = Some c) /\
  (good_corners n P c p = 4 \/ (good_corners n P c p = 3 \/ good_corners n P c p = 2) /\
     exists q, on n q /\ diag p q /\ P q = None /\ (good_corners n P c q = 3 \/ good_corners n P c q = 2)).

Definition calm (n : nat) (P : pos) (c : color) (p : coord) : Prop :=
  forall q, on n q -> diag p q -> P q = None -> ~ attacked n P c q.

Lemma enemy_near_attacked n P c q : on n q -> enemy_near n P c q = true <-> attacked n P c q.
Proof.
  intros Hq. unfold enemy_near, attacked. rewrite existsb_exists. split.
  - intros (t & Ht & E). apply elem_of_list_In, (elem_of_nbrs n q t Hq) in Ht as [Ht Ha]. exists t. destruct (mcolor_eqb_spec (P t) (Some (opp c))); [auto|discriminate].
  - intros (t & Ht & Ha & E). exists t. split; [apply elem_of_list_In, (elem_of_nbrs n q t Hq); auto|]. rewrite E. cbn. apply color_eqb_refl.
Qed.

Lemma calm_scan n P c l : (forall q, q ∈ l -> enemy_near n P c q = false) ->
  corner_scan n P c l = true <-> exists q, q ∈ l /\ (good_corners n P c q = 3 \/ good_corners n P c q = 2).
Proof.
  induction l as [|q l IH]; intros H.
  - cbn. split; [discriminate|]. intros (q & Hq & _). inversion Hq.
  - cbn [corner_scan]. rewrite (H q) by left. specialize (IH (fun r Hr => H r (elem_of_list_further _ _ _ Hr))).
    destruct ((good_corners n P c q =? 3) || (good_corners n P c q =? 2)) eqn:E.
    + split; [|reflexivity]. intros _. exists q. split; [left|]. apply orb_true_iff in E. rewrite !Nat.eqb_eq in E. exact E.
    + rewrite IH. apply orb_false_iff in E as [E1 E2]. apply Nat.eqb_neq in E1, E2. split; intros (r & Hr & G); exists r.
      * split; [right; exact Hr|exact G].
      * apply elem_of_cons in Hr as [->|Hr]; [lia|auto].
Qed.

Lemma eye_calm n P c p : n <= 19 -> on n p -> calm n P c p -> eye n P c p = true <-> calm_eye n P c p.
Proof.
  intros Hn Hp Hc. unfold eye, calm_eye. rewrite !andb_true_iff, orb_true_iff, andb_true_iff, orb_true_iff, !Nat.eqb_eq.
  assert (H0 : is_none (P p) = true <-> P p = None) by (destruct (P p); cbn; split; congruence).
  assert (H1 : forallb (fun q => mcolor_eqb (P q) (Some c)) (nbrs n p) = true <-> forall q, on n q -> adj p q -> P q = Some c).
  { rewrite List.forallb_forall. split.
    - intros H q Hq Ha. specialize (H q). rewrite <- elem_of_list_In, (elem_of_nbrs n p q Hp) in H. specialize (H (conj Hq Ha)). destruct (mcolor_eqb_spec (P q) (Some c)); [assumption|discriminate].
    - intros H q Hq. apply elem_of_list_In, (elem_of_nbrs n p q Hp) in Hq as [Hq Ha]. rewrite (H q Hq Ha). cbn. apply color_eqb_refl. }
  assert (Hh : forall q, q ∈ List.filter (is_emp n P) (corner_list p) <-> on n q /\ diag p q /\ P q = None).
  { intros q. rewrite elem_of_list_In, List.filter_In, <- elem_of_list_In. unfold is_emp. rewrite andb_true_iff, valid_on.
    assert (is_none (P q) = true <-> P q = None) by (destruct (P q); cbn; split; congruence).
    split.
    - intros (A & B & C). split; [exact B|]. split; [apply (corners_diag n p q Hn Hp B), A|tauto].
    - intros (A & B & C). split; [apply (corners_diag n p q Hn Hp A), B|tauto]. }
  assert (H2 : corner_scan n P c (List.filter (is_emp n P) (corner_list p)) = true <->
     exists q, on n q /\ diag p q /\ P q = None /\ (good_corners n P c q = 3 \/ good_corners n P c q = 2)).
  { rewrite calm_scan.
    - split; intros (q & Hq).
      + destruct Hq as [Hq G]. apply Hh in Hq. exists q. tauto.
      + exists q. rewrite Hh. tauto.
    - intros q Hq. apply Hh in Hq as (Hq & Hd & He). destruct (enemy_near n P c q) eqn:E; [|reflexivity].
      apply (enemy_near_attacked n P c q Hq) in E. destruct (Hc q Hq Hd He E). }
  rewrite H0, H1, H2. tauto.
Qed.

Section Image.
  Context (n : nat) (σ τ : coord -> coord) (γ : color -> color) (P Q : pos).
  Hypothesis S : board_sym n σ τ γ.
  Hypothesis I : image n σ γ P Q.
  Hypothesis Hn : n <= 19.

  Lemma diag_iff p q : on n p -> on n q -> diag p q <-> diag (σ p) (σ q).
  Proof using S.
    intros Hp Hq. split; [apply (diag_image n σ τ γ S p q Hp Hq)|]. intros D.
    pose proof (diag_image n τ σ γ (board_sym_sym _ _ _ _ S) (σ p) (σ q) (sy_on _ _ _ _ S p Hp) (sy_on _ _ _ _ S q Hq) D) as K.
    rewrite (sy_left _ _ _ _ S p Hp), (sy_left _ _ _ _ S q Hq) in K. exact K.
  Qed.

  Lemma colour_image p c : on n p -> P p = Some c <-> Q (σ p) = Some (γ c).
  Proof using S I. intros Hp. rewrite (I p Hp), (omap_some n σ τ γ S). tauto. Qed.

  Lemma good_image c p : on n p -> good_corners n Q (γ c) (σ p) = good_corners n P c p.
  Proof using S I Hn.
    intros Hp. destruct (good_card n P c p Hn Hp) as [L C]. destruct (good_card n Q (γ c) (σ p) Hn (sy_on _ _ _ _ S p Hp)) as [L' C'].
    assert (4 - good_corners n Q (γ c) (σ p) = 4 - good_corners n P c p); [|lia].
    eapply card_unique; [exact C'|]. eapply (card_image n σ τ γ S); [| | |exact C]; [intros q Hq; apply Hq..|].
    intros q Hq. unfold open_corner. rewrite <- diag_iff by assumption. rewrite (colour_image q c Hq). pose proof (sy_on _ _ _ _ S q Hq). tauto.
  Qed.

  Lemma calm_image c p : on n p -> calm n P c p -> calm n Q (γ c) (σ p).
  Proof using S I.
    intros Hp H q Hq Hd He (r & Hr & Ha & Er). destruct (onto n σ τ γ S q Hq) as (q0 & Hq0 & ->). destruct (onto n σ τ γ S r Hr) as (r0 & Hr0 & ->).
    apply (H q0 Hq0); [exact (proj2 (diag_iff p q0 Hp Hq0) Hd)|rewrite (I q0 Hq0), (omap_none γ) in He; exact He|].
    exists r0. split; [exact Hr0|]. split; [exact (proj2 (adj_iff n σ τ γ S q0 r0 Hq0 Hr0) Ha)|]. apply (colour_image r0 (opp c) Hr0). rewrite (gamma_opp n σ τ γ S). exact Er.
  Qed.

  Lemma calm_eye_image c p : on n p -> calm_eye n P c p -> calm_eye n Q (γ c) (σ p).
  Proof using S I Hn.
    intros Hp (A & B & C). split; [rewrite (I p Hp), A; reflexivity|]. split.
    - intros q Hq Ha. destruct (onto n σ τ γ S q Hq) as (q0 & Hq0 & ->). apply (colour_image q0 c Hq0), B; [exact Hq0|]. exact (proj2 (adj_iff n σ τ γ S p q0 Hp Hq0) Ha).
    - rewrite (good_image c p Hp). destruct C as [C|[C (q & Hq & D & E & G)]]; [left; exact C|right]. split; [exact C|].
      exists (σ q). split; [apply (sy_on _ _ _ _ S), Hq|]. split; [exact (proj1 (diag_iff p q Hp Hq) D)|]. split; [rewrite (I q Hq), E; reflexivity|]. rewrite (good_image c q Hq). exact G.
  Qed.
End Image.

Theorem eye_image n σ τ γ dbg dbg' b w b' w' g h p c : board_sym n σ τ γ -> greach dbg n b w g -> greach dbg' n b' w' h ->
  image n σ γ (position g) (position h) -> on n p ->
  (forall q, on n q -> diag p q -> position g q = None -> ~ attacked n (position g) c q) ->
  exists v, check_eye dbg g (p, c) = Ok v /\ check_eye dbg' h (σ p, γ c) = Ok v.
Proof.
  intros S HG HH I Hp Hc. pose proof (gi_wf _ _ _ _ (greach_inv _ _ _ _ _ HG)) as W. pose proof (gi_wf _ _ _ _ (greach_inv _ _ _ _ _ HH)) as W'.
  pose proof (wf_n _ _ W) as Hn. assert (Hn' : n <= 19) by lia. pose proof (sy_on _ _ _ _ S p Hp) as Hp'.
  exists (eye n (position g) c p). split; [apply (check_eye_ok dbg n g p c W Hp)|]. rewrite (check_eye_ok dbg' n h (σ p) (γ c) W' Hp'). f_equal.
  change (pos_of (gm_goban h)) with (position h).
  pose proof (calm_image n σ τ γ _ _ S I c p Hp Hc) as Hc'.
  pose proof (eye_calm n (position g) c p Hn' Hp Hc) as E. pose proof (eye_calm n (position h) (γ c) (σ p) Hn' Hp' Hc') as E'.
  assert (K : eye n (position g) c p = true <-> eye n (position h) (γ c) (σ p) = true).
  { rewrite E, E'. split; [apply (calm_eye_image n σ τ γ _ _ S I Hn' c p Hp)|]. intros H.
    pose proof (calm_eye_image n τ σ γ _ _ (board_sym_sym _ _ _ _ S) (image_back n σ τ γ S _ _ I) Hn' (γ c) (σ p) Hp' H) as K.
    rewrite (sy_left _ _ _ _ S p Hp), (sy_color _ _ _ _ S) in K. exact K. }
  destruct (eye n (position g) c p), (eye n (position h) (γ c) (σ p)); try reflexivity; destruct K as [K1 K2]; [discriminate (K1 eq_refl)|discriminate (K2 eq_refl)].
Qed.
