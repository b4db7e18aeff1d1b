(** A position may be set up instead of played. *)
From stdpp Require Import relations.
From Verif Require Import OrderSpec VerdictSpec ScoreSpec.
From Verif Require Import MonadFacts Spec Game Builder Struct Push Inv Remove Capture Bridge GameFacts RulesFacts LegalFacts LegalsFacts CheckFacts ClaimFacts LongFacts SymFacts SymGame SymScore ScoreFacts ReprFacts RectCount RectCoord RectBridge RectRules RectKo RectBoard RectCheck RectEye RectVerdict.
From Verif Require Import RectScore RectSpec RectReach RectVerdictSpec RectTableSpec RectInv RectGame RectMoves RectLegal RectTable RectReachFacts RectSymFacts RectSymGame RectSymClaims RectCases PastFacts OrderFacts FreeFacts.
From Coq Require Import Lia.

Local Notation length := Datatypes.length.
Local Open Scope nat_scope.

Lemma find_stone (l : list stone) p : (exists c, (p, c) ∈ l /\ List.find (fun s => coord_eqb (fst s) p) l = Some (p, c)) \/
  (p ∉ l.*1 /\ List.find (fun s => coord_eqb (fst s) p) l = None).
Proof.
  assert (Hceq : forall a b : coord, coord_eqb a b = true <-> a = b).
  { intros [a1 a2] [b1 b2]. unfold coord_eqb. cbn. rewrite andb_true_iff, !Nat.eqb_eq. split; [intros [-> ->]; reflexivity|intros [= -> ->]; tauto]. }
  destruct (List.find (fun s => coord_eqb (fst s) p) l) as [[q c]|] eqn:E.
  - left. apply List.find_some in E as [I E]. cbn in E. apply Hceq in E. subst q. exists c. split; [apply elem_of_list_In, I|reflexivity].
  - right. split; [|reflexivity]. intros H. apply elem_of_list_fmap in H as (s & -> & H). apply elem_of_list_In in H. apply (List.find_none _ _ E) in H.
    rewrite (proj2 (Hceq (fst s) (fst s)) eq_refl) in H. discriminate.
Qed.

Lemma nodup_value (l : list stone) q d c : NoDup l.*1 -> (q, d) ∈ l -> (q, c) ∈ l -> d = c.
Proof.
  induction l as [|[p e] l IH]; [intros _ H; inversion H|]. cbn [fmap list_fmap fst]. intros Nd I J. apply NoDup_cons in Nd as [N Nd].
  apply elem_of_cons in I as [[= -> ->]|I]; apply elem_of_cons in J as [J|J].
  - injection J as ->. reflexivity.
  - destruct N. apply elem_of_list_fmap. exists (p, c). split; [reflexivity|exact J].
  - injection J as -> ->. destruct N. apply elem_of_list_fmap. exists (p, d). split; [reflexivity|exact I].
  - apply IH; assumption.
Qed.

(** what a builder without moves builds *)
Lemma staged dbg n bl g : fits n -> b_size bl = n -> b_moves bl = [] -> NoDup (setup_stones bl).*1 -> (forall s, s ∈ setup_stones bl -> ron n (fst s)) ->
  build_inner dbg bl = Ok g -> gm_passes g = 0 /\ gm_ko_point g = None /\ gm_prisoners g = (0%N, 0%N) /\
  forall q c, ron n q -> position g q = Some c <-> (q, c) ∈ setup_stones bl.
Proof.
  intros Hn Hs Hm Nd Hon E. rewrite build_inner_eq, Hs, Hm in E.
  apply bind_ok in E as (gb0 & E0 & E). destruct (rnew_wf n Hn) as (gb' & E' & W & Hc & Hcell). rewrite E0 in E'. injection E' as <-.
  destruct (rpush_list_wf dbg n (setup_stones bl) gb0 W Nd) as [[Ep _]|(g1 & E1 & W1 & HP & _)].
  { intros s Hs'. split; [apply Hon, Hs'|]. apply (rpos_new n); [exact W|exact Hcell|apply Hon, Hs']. }
  { rewrite Ep in E. discriminate. }
  rewrite E1 in E. cbn [bind foldM] in E. injection E as <-. unfold built. cbn [gm_passes gm_ko_point gm_prisoners]. do 3 (split; [reflexivity|]).
  intros q c Hq. unfold position. cbn [gm_goban]. rewrite (HP q Hq), (rpos_new n gb0 q W Hcell Hq).
  destruct (find_stone (setup_stones bl) q) as [(d & I & ->)|[N ->]]; cbn [snd].
  - split; [intros [= ->]; exact I|]. intros J. f_equal. exact (nodup_value (setup_stones bl) q d c Nd I J).
  - split; [discriminate|]. intros J. destruct N. apply elem_of_list_fmap. exists (q, c). split; [reflexivity|exact J].
Qed.

Lemma started n s r g0 : fits n -> size_of s = n -> game_new s r = Ok g0 -> gm_passes g0 = 0 /\ gm_ko_point g0 = None /\ gm_prisoners g0 = (0%N, 0%N) /\
  gm_turn g0 = Black /\ gm_outcome g0 = None /\ gm_rule g0 = r /\ forall q, ron n q -> position g0 q = None.
Proof.
  intros Hn Hs H. unfold game_new in H. rewrite Hs in H. apply bind_ok in H as (gb & E & H). injection H as <-.
  destruct (rnew_wf n Hn) as (gb' & E' & W & Hc & Hcell). rewrite E in E'. injection E' as <-. do 6 (split; [reflexivity|]).
  intros q Hq. unfold position. cbn [gm_goban]. apply (rpos_new n); assumption.
Qed.

(** ** Set up or played *)
Theorem staged_played dbg dbg' n bl g s r g0 ms l : Nat.divide (snd n) (fst n) -> 1 <= fst n -> 1 <= snd n ->
  b_size bl = n -> b_moves bl = [] -> b_outcome bl = None -> NoDup (setup_stones bl).*1 -> (forall s, s ∈ setup_stones bl -> ron n (fst s)) -> build_inner dbg bl = Ok g ->
  size_of s = n -> game_new s r = Ok g0 -> gm_rule g = r -> laid_stones Black ms = Some l -> l ≡ₚ setup_stones bl ->
  gm_turn g = (if Nat.even (length ms) then Black else White) -> rall_breathe n (position g) -> forbids_fill_eye r = false -> (N.of_nat (length ms) < 65535)%N ->
  exists g2 b w, all_accepted dbg' g0 ms g2 /\ same_now n g g2 /\ rgreach dbg' n b w g2 /\ b + w <= length ms.
Proof.
  intros Hd H1 H2 Bs Bm Bo Nd Hon E Ss En Er S P Ht B Hf L.
  assert (Hn : fits n). { apply fits_new; try assumption. rewrite build_inner_eq, Bs in E. apply bind_ok in E as (gb0 & E0 & _). eauto. }
  destruct (staged dbg n bl g Hn Bs Bm Nd Hon E) as (G1 & G2 & G3 & G4).
  destruct (started n s r g0 Hn Ss En) as (N1 & N2 & N3 & N4 & N5 & N6 & N7).
  assert (HG0 : rgreach dbg' n 0 0 g0) by (eapply rg_new; eassumption).
  assert (P1 : l.*1 ≡ₚ (setup_stones bl).*1) by (apply fmap_Permutation, P).
  assert (On : forall q, q ∈ l.*1 -> ron n q).
  { intros q Hq. rewrite P1 in Hq. apply elem_of_list_fmap in Hq as (z & -> & Hz). apply Hon, Hz. }
  assert (S0 : laid_stones (gm_turn g0) ms = Some l) by (rewrite N4; exact S).
  destruct (free_line dbg' n (position g) ms Hd B 0 0 g0 l HG0 S0 On) as (g2 & A & Pr).
  - rewrite P1. exact Nd.
  - intros q Hq. apply N7, On, Hq.
  - intros q c I. apply G4; [|rewrite <- P; exact I]. apply On, elem_of_list_fmap. exists (q, c). split; [reflexivity|exact I].
  - intros q c Hq F. rewrite (N7 q Hq) in F. discriminate.
  - rewrite N1. discriminate.
  - exact N2.
  - rewrite N6. exact Hf.
  - exact L.
  - assert (Onm : forall x y, MPlay x y ∈ ms -> ron n (x, y)) by (intros x y I; apply On; exact (laid_on _ _ _ _ _ S I)).
    destruct (stones_line dbg' n ms Hd 0 0 g0 g2 l HG0 Onm A S0) as (_ & (b & w & HG2 & L2) & O & R & T & Ps & Q). destruct (Q Pr) as (K & H).
    exists g2, b, w. split; [exact A|]. split; [|split; [exact HG2|lia]]. pose proof (laid_length _ _ _ S) as Len.
    constructor.
    + intros q Hq. assert (X : forall c, position g q = Some c <-> position g2 q = Some c).
      { intros c. rewrite (G4 q c Hq), (H q c Hq), (N7 q Hq), P. split; [tauto|]. intros [F|F]; [discriminate|exact F]. }
      destruct (position g q) as [c|] eqn:F; [symmetry; apply X; reflexivity|]. destruct (position g2 q) as [c|] eqn:F2; [|reflexivity]. discriminate (proj2 (X c) eq_refl).
    + rewrite T, Ht, N4, Len. reflexivity.
    + rewrite G1, Ps, N1. destruct (length l =? 0); reflexivity.
    + rewrite O, N5. rewrite build_inner_eq, Bm in E. apply bind_ok in E as (gb0 & _ & E). apply bind_ok in E as (gb1 & _ & E). injection E as <-. exact Bo.
    + rewrite G2, K, N2. destruct (length l =? 0); reflexivity.
    + rewrite G3, Pr, N3. reflexivity.
    + rewrite R, N6. exact Er.
Qed.

Theorem staged_answers dbg dbg' n bl g s r g0 ms l rest : Nat.divide (snd n) (fst n) -> 1 <= fst n -> 1 <= snd n ->
  b_size bl = n -> b_moves bl = [] -> b_outcome bl = None -> NoDup (setup_stones bl).*1 -> (forall s, s ∈ setup_stones bl -> ron n (fst s)) -> build_inner dbg bl = Ok g ->
  size_of s = n -> game_new s r = Ok g0 -> gm_rule g = r -> laid_stones Black ms = Some l -> l ≡ₚ setup_stones bl ->
  gm_turn g = (if Nat.even (length ms) then Black else White) -> rall_breathe n (position g) -> forbids_fill_eye r = false -> forbids_superko r = false ->
  (forall x y, MPlay x y ∈ rest -> ron n (x, y)) -> (N.of_nat (length ms + length rest) < 65535)%N ->
  exists g2 g' g2' tr, all_accepted dbg' g0 ms g2 /\ run dbg g (List.map OTry rest) = Ok (g', tr) /\ run dbg' g2 (List.map OTry rest) = Ok (g2', tr) /\ same_now n g' g2'.
Proof.
  intros Hd H1 H2 Bs Bm Bo Nd Hon E Ss En Er S P Ht B Hf Hk Or L.
  destruct (staged_played dbg dbg' n bl g s r g0 ms l Hd H1 H2 Bs Bm Bo Nd Hon E Ss En Er S P Ht B Hf ltac:(lia)) as (g2 & b & w & A & N & HG2 & L2).
  pose proof (rg_build dbg n bl g H1 H2 Bs Bm Nd Hon E) as HG. pose proof (of_color_total (setup_stones bl)) as Hlen.
  pose proof (laid_length _ _ _ S) as Len. pose proof (Permutation_length P) as LP.
  destruct (past_run n dbg dbg' rest Hd _ _ _ _ g g2 HG HG2 N) as (g' & g2' & tr & X & Y & Z); [rewrite Er; exact Hk|exact Or|lia|lia|].
  exists g2, g', g2', tr. tauto.
Qed.
