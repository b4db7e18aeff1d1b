(** Scores and results on boards whose width divides their height (C109, C110). *)
From stdpp Require Import relations.
From Verif Require Import Float32 Float32Facts ScoreSpec MonadFacts Spec Reach Territory Struct Bridge GameFacts RulesFacts BoardFacts TerritoryFacts ScoreFacts Observe.
From Verif Require Import RectReach RectCoord RectInv RectBridge RectGame RectBoard RectMoves RectList RectReachFacts RectScore RectCountSpec RectCount RectTimes.
From Verif Require Import RectGo RectSymSpec RectSymFacts RectSymGame RectSymClaims RefuteFacts Samples CaseFacts.
From Coq Require Import Lia ZArith.

Local Notation length := Datatypes.length.
Open Scope nat_scope.

(** ** The regions do not depend on the build or on the order of hash sets *)

Lemma forall2_perm_in (G G' : list (list coord)) R : Forall2 (≡ₚ) G G' -> R ∈ G -> exists R', R' ∈ G' /\ R ≡ₚ R'.
Proof.
  induction 1 as [|a b G G' Hab HG IH]; intros HR; [apply elem_of_nil in HR; destruct HR|].
  apply elem_of_cons in HR as [->|HR]; [exists b; split; [left|exact Hab]|].
  destruct (IH HR) as (R' & H1 & H2). exists R'. split; [right; exact H1|exact H2].
Qed.

Lemma rchosen_unique n P l : forall G G' G1 G1', Forall2 (≡ₚ) G G' -> rchosen n P G l G1 -> rchosen n P G' l G1' -> Forall2 (≡ₚ) G1 G1'.
Proof.
  induction l as [|p l IH]; intros G G' G1 G1' HG T T'.
  { inversion T; inversion T'; subst. exact HG. }
  inversion T as [|? ? ? ? Se U|? ? R ? ? Se N E U]; inversion T' as [|? ? ? ? Se' U'|? ? R' ? ? Se' N' E' U']; subst.
  - eapply IH; eassumption.
  - exfalso. destruct Se as (R & HR & Hp). destruct (forall2_perm_in G G' R HG HR) as (R2 & HR2 & HP). apply (Se' R2 HR2). rewrite <- HP. exact Hp.
  - exfalso. destruct Se' as (R2 & HR & Hp). apply Forall2_flip in HG.
    assert (HG' : Forall2 (≡ₚ) G' G) by (eapply Forall2_impl; [exact HG|]; intros x y Hxy; symmetry; exact Hxy).
    destruct (forall2_perm_in G' G R2 HG' HR) as (R3 & HR3 & HP). apply (Se R3 HR3). rewrite <- HP. exact Hp.
  - eapply (IH (G ++ [R]) (G' ++ [R'])); [|exact U|exact U']. apply Forall2_app; [exact HG|]. constructor; [|constructor].
    apply NoDup_Permutation; [assumption..|]. intros x. rewrite E, E'. reflexivity.
Qed.

Lemma rcounted_unique n P c l l' G G' : Forall2 (≡ₚ) G G' -> rcounted n P c G l -> rcounted n P c G' l' -> l ≡ₚ l'.
Proof.
  intros HG (f & Hf & ->) (f' & Hf' & ->).
  assert (HF : Forall2 (fun R R' => R ≡ₚ R' /\ f R = f' R') G G').
  { revert Hf Hf'. induction HG as [|R R' G G' HR HG IH]; intros Hf Hf'; constructor.
    - split; [exact HR|]. specialize (Hf R (elem_of_list_here _ _)). specialize (Hf' R' (elem_of_list_here _ _)).
      rewrite (ronly_ext n P c (fun q => q ∈ R) (fun q => q ∈ R')) in Hf by (intros q; rewrite HR; reflexivity).
      destruct (f R), (f' R'); intuition congruence.
    - apply IH; intros Q HQ; [apply Hf|apply Hf']; right; exact HQ. }
  clear Hf Hf' HG. induction HF as [|R R' G G' [HR HE] HG IH]; [reflexivity|]. cbn [List.filter]. rewrite HE.
  destruct (f' R'); cbn [concat]; [rewrite HR, IH; reflexivity|exact IH].
Qed.

Theorem rcount_determined n P c l G G' L L' : rchosen n P [] l G -> rchosen n P [] l G' -> rcounted n P c G L -> rcounted n P c G' L' -> L ≡ₚ L'.
Proof. intros T T'. apply rcounted_unique. eapply rchosen_unique; [apply Forall2_nil; exact I|exact T|exact T']. Qed.

Lemma rterritory_any order order' dbg dbg' n g : rwf n g -> Nat.divide (snd n) (fst n) -> (forall l, order l ≡ₚ l) -> (forall l, order' l ≡ₚ l) ->
  calculate_territories order dbg g = calculate_territories order' dbg' g.
Proof.
  intros W [k Hk] Ho Ho'.
  destruct (rterritories_core order dbg n g k W Hk Ho) as (l & G & bt & wt & El & T & E & HB & HW & _).
  destruct (rterritories_core order' dbg' n g k W Hk Ho') as (l' & G' & bt' & wt' & El' & T' & E' & HB' & HW' & _).
  rewrite El in El'. injection El' as <-. unfold calculate_territories. rewrite E, E'. cbn [bind].
  assert (HG : Forall2 (≡ₚ) G G') by (eapply rchosen_unique; [apply Forall2_nil; exact I|exact T|exact T']).
  pose proof (Permutation_length (rcounted_unique _ _ _ _ _ _ _ HG HB HB')) as LB. pose proof (Permutation_length (rcounted_unique _ _ _ _ _ _ _ HG HW HW')) as LW.
  rewrite !fmap_length in LB, LW. unfold point in *. rewrite LB, LW. reflexivity.
Qed.

Theorem ralike_score_any n order order' dbg dbg' b w b' w' g h flags : Nat.divide (snd n) (fst n) ->
  rgreach dbg n b w g -> rgreach dbg' n b' w' h -> (forall l, order l ≡ₚ l) -> (forall l, order' l ≡ₚ l) -> rlook_alike n g h ->
  exists s o, calculate_score_by order dbg g flags = Ok s /\ calculate_score_by order' dbg' h flags = Ok s /\
    outcome order dbg g = Ok o /\ outcome order' dbg' h = Ok o.
Proof.
  intros Hd HG HH Ho Ho' A.
  pose proof (rgi_wf _ _ _ _ (rgreach_inv _ _ _ _ _ Hd HG)) as W. pose proof (rgi_wf _ _ _ _ (rgreach_inv _ _ _ _ _ Hd HH)) as V.
  assert (E : forall flags, calculate_score_by order dbg g flags = calculate_score_by order' dbg' h flags).
  { intros fl. unfold calculate_score_by.
    rewrite (rterritory_any order order dbg dbg' n _ W Hd Ho Ho), (rterritory_any order' order dbg' dbg' n _ V Hd Ho' Ho).
    unfold calculate_territories. rewrite (rsame_territories n _ _ W V (proj1 (rsame_pos_col n _ _ W V) (ral_pos _ _ _ A))).
    rewrite (rnumber_of_stones_ok n _ W), (rnumber_of_stones_ok n _ V).
    rewrite !(rcount_same n (pos_of (gm_goban g)) (pos_of (gm_goban h))) by exact (ral_pos _ _ _ A).
    rewrite (ral_prisoners _ _ _ A). unfold komi. rewrite (ral_rule _ _ _ A). reflexivity. }
  assert (X : forall fl, exists s, calculate_score_by order dbg g fl = Ok s).
  { intros fl. destruct Hd as [k Hk]. destruct (rterritories_core order dbg n (gm_goban g) k W Hk Ho) as (l & G & bt & wt & _ & _ & Et & _).
    unfold calculate_score_by, calculate_territories. rewrite Et. cbn [bind]. destruct (number_of_stones (gm_goban g)) as [x y].
    destruct (flag_contains fl PRISONNERS), (flag_contains fl STONES); eauto. }
  destruct (X flags) as (s & Es). exists s.
  assert (EO : outcome order dbg g = outcome order' dbg' h).
  { unfold outcome, is_over, calculate_score. rewrite E, (ral_rule _ _ _ A), (ral_outcome _ _ _ A), (ral_passes _ _ _ A). reflexivity. }
  assert (XO : exists o, outcome order dbg g = Ok o).
  { unfold outcome. destruct (negb (is_over g)); [eauto|]. destruct (gm_outcome g); [eauto|]. unfold calculate_score.
    destruct (X (flag_score (gm_rule g))) as ([x y] & ->). cbn [bind]. destruct (f32_lt _ _); [eauto|]. destruct (f32_lt _ _); eauto. }
  destruct XO as (o & Eo). exists o. split; [exact Es|]. split; [rewrite <- E; exact Es|]. split; [exact Eo|]. rewrite <- EO. exact Eo.
Qed.

(** ** How many points are counted *)

Lemma rchosen_length n P l : forall G G', rchosen n P G l G' -> length G' <= length G + length l.
Proof.
  induction l as [|p l IH]; intros G G' T; inversion T as [|? ? ? ? Se U|? ? R ? ? Se N E U]; subst; cbn [length]; [lia| |].
  - specialize (IH _ _ U). lia.
  - specialize (IH _ _ U). rewrite app_length in IH. cbn [length] in IH. lia.
Qed.

Lemma rchosen_sizes n P l : (forall p, p ∈ l -> ron n p) -> forall G G', rchosen n P G l G' -> (forall R, R ∈ G -> length R <= fst n * snd n) ->
  forall R, R ∈ G' -> length R <= fst n * snd n.
Proof.
  induction l as [|p l IH]; intros Hl G G' T HG; inversion T as [|? ? ? ? Se U|? ? R ? ? Se N E U]; subst; [exact HG| |].
  - apply (IH (fun q Hq => Hl q (elem_of_list_further _ _ _ Hq)) _ _ U HG).
  - apply (IH (fun q Hq => Hl q (elem_of_list_further _ _ _ Hq)) _ _ U). intros R' HR'. apply elem_of_app in HR' as [HR'|HR']; [apply HG, HR'|].
    apply elem_of_list_singleton in HR' as ->. rewrite <- rpoints_length. apply submseteq_length, NoDup_submseteq; [exact N|].
    intros q Hq. apply elem_of_rpoints. apply E in Hq as [->|(r & Hr & _ & _ & H)]; [apply Hl; left|]. exact (rconnected_on n P r q Hr H).
Qed.

Lemma concat_length f (G : list (list coord)) m : (forall R, R ∈ G -> length R <= m) -> length (concat (List.filter f G)) <= length G * m.
Proof.
  induction G as [|R G IH]; intros H; cbn [List.filter concat length]; [lia|].
  assert (IH' := IH (fun R' HR' => H R' (elem_of_list_further _ _ _ HR'))). specialize (H R (elem_of_list_here _ _)).
  destruct (f R); cbn [concat]; rewrite ?app_length; lia.
Qed.

Lemma rcounted_bound n g k l G c L : rwf n g -> fst n = k * snd n -> get_empty_coords g = Ok l -> rchosen n (pos_of g) [] l G -> rcounted n (pos_of g) c G L ->
  (Z.of_nat (length L) <= 130321)%Z.
Proof.
  intros W Hk El T (f & _ & ->).
  destruct (rempty_order n g k W Hk) as (l' & El' & Ln & _). rewrite El in El'. injection El' as <-.
  destruct (rempty_times n g k (0, 0) W Hk) as (l' & El' & Hon & _). rewrite El in El'. injection El' as <-.
  assert (HS := rchosen_sizes n (pos_of g) l Hon _ _ T). specialize (HS (fun R HR => False_ind _ (proj1 (elem_of_nil R) HR))).
  pose proof (concat_length f G _ HS) as HC. pose proof (rchosen_length _ _ _ _ _ T) as HL. cbn [length] in HL.
  pose proof (rwf_n n g W) as F. pose proof (fits_wide n F) as Hw. pose proof F as (H19 & H1 & _).
  assert (fst n * snd n <= 361) by nia. nia.
Qed.

Lemma rcount_bound n P c : fits n -> rcount n P c <= 361.
Proof.
  intros F. pose proof (fits_wide n F) as Hw. pose proof F as (H19 & H1 & _). unfold rcount.
  etransitivity; [apply filter_length|]. rewrite rpoints_length. nia.
Qed.

Local Ltac sm := unfold small in *; lia.

Section Score.
  Variables (order : list point -> list point) (dbg : bool) (n : size_t) (g : game) (k2 : Z).
  Hypothesis W : rwf n (gm_goban g).
  Hypothesis Hd : Nat.divide (snd n) (fst n).
  Hypothesis Ho : forall l, order l ≡ₚ l.
  Hypothesis Hk : is_f32 (komi g) /\ halves (komi g) k2 /\ (Z.abs k2 <= 200000)%Z.
  Hypothesis HpB : (fst (gm_prisoners g) < 1000000)%N.
  Hypothesis HpW : (snd (gm_prisoners g) < 1000000)%N.

  Definition rblack (flags : N) (bl : list coord) : Z :=
    black2 flags (N.of_nat (length bl)) (N.of_nat (rcount n (pos_of (gm_goban g)) Black)) (fst (gm_prisoners g)).
  Definition rwhite (flags : N) (wl : list coord) : Z :=
    white2 flags (N.of_nat (length wl)) (N.of_nat (rcount n (pos_of (gm_goban g)) White)) (snd (gm_prisoners g)) k2.

  Lemma rscore_isC flags : exists b w l G bl wl,
    calculate_score_by order dbg g flags = Ok (b, w) /\
    pseudo_legals g = Ok l /\ rchosen n (position g) [] l G /\ rcounted n (position g) Black G bl /\ rcounted n (position g) White G wl /\
    isC b (rblack flags bl) /\ isC w (rwhite flags wl) /\
    (Z.abs (rblack flags bl) < 2500000)%Z /\ (Z.abs (rwhite flags wl) < 2700000)%Z.
  Proof using W Hd Ho Hk HpB HpW.
    destruct Hd as [k Hk'].
    destruct (rterritories_core order dbg n (gm_goban g) k W Hk' Ho) as (l & G & bt & wt & El & T & E & CB & CW & _).
    unfold calculate_score_by, calculate_territories. rewrite E. cbn [bind]. rewrite (rnumber_of_stones_ok n _ W).
    pose proof (rcounted_bound n _ k l G Black _ W Hk' El T CB) as BB. pose proof (rcounted_bound n _ k l G White _ W Hk' El T CW) as BW.
    pose proof (rcount_bound n (pos_of (gm_goban g)) Black (rwf_n n _ W)) as SB.
    pose proof (rcount_bound n (pos_of (gm_goban g)) White (rwf_n n _ W)) as SW.
    replace (length bt) with (length (bt.*1)) by apply fmap_length. replace (length wt) with (length (wt.*1)) by apply fmap_length.
    set (bl := bt.*1) in *. set (wl := wt.*1) in *. unfold rblack, rwhite.
    set (cb := rcount n (pos_of (gm_goban g)) Black) in *. set (cw := rcount n (pos_of (gm_goban g)) White) in *.
    destruct Hk as (Hk1 & Hk2 & Hk3). assert (IK : isC (komi g) k2) by (apply valid_isC; [assumption..|sm]).
    assert (ITB : isC (f32_of_N (N.of_nat (length bl))) (2 * Z.of_N (N.of_nat (length bl)))) by (apply of_N_isC; sm).
    assert (ITW : isC (f32_of_N (N.of_nat (length wl))) (2 * Z.of_N (N.of_nat (length wl)))) by (apply of_N_isC; sm).
    assert (ISB : isC (f32_of_N (N.of_nat cb)) (2 * Z.of_N (N.of_nat cb))) by (apply of_N_isC; sm).
    assert (ISW : isC (f32_of_N (N.of_nat cw)) (2 * Z.of_N (N.of_nat cw))) by (apply of_N_isC; sm).
    assert (IPB : isC (f32_of_N (fst (gm_prisoners g))) (2 * Z.of_N (fst (gm_prisoners g)))) by (apply of_N_isC; sm).
    assert (IPW : isC (f32_of_N (snd (gm_prisoners g))) (2 * Z.of_N (snd (gm_prisoners g)))) by (apply of_N_isC; sm).
    unfold white2, black2.
    rewrite (flag_bit flags 0 STONES), (flag_bit flags 1 KOMI), (flag_bit flags 2 PRISONNERS) by reflexivity.
    destruct (N.testbit flags 2), (N.testbit flags 0), (N.testbit flags 1);
      eexists _, _, l, G, bl, wl; (split; [reflexivity|]); (split; [exact El|]); (split; [exact T|]); (split; [exact CB|]); (split; [exact CW|]);
      rewrite ?Z.add_0_r; (split; [|split; [|split; lia]]);
      repeat first [assumption | apply add_isC | sm].
  Qed.
End Score.

Theorem rscore_exact order dbg n b0 w0 g k2 flags : Nat.divide (snd n) (fst n) ->
  rgreach dbg n b0 w0 g -> (forall l, order l ≡ₚ l) ->
  is_f32 (komi g) -> halves (komi g) k2 -> (Z.abs k2 <= 200000)%Z ->
  (fst (gm_prisoners g) < 1000000)%N -> (snd (gm_prisoners g) < 1000000)%N ->
  exists b w l G bl wl,
    calculate_score_by order dbg g flags = Ok (b, w) /\
    pseudo_legals g = Ok l /\ rchosen n (position g) [] l G /\ rcounted n (position g) Black G bl /\ rcounted n (position g) White G wl /\
    is_f32 b /\ is_f32 w /\
    halves b (black2 flags (N.of_nat (length bl)) (N.of_nat (rcount n (position g) Black)) (fst (gm_prisoners g))) /\
    halves w (white2 flags (N.of_nat (length wl)) (N.of_nat (rcount n (position g) White)) (snd (gm_prisoners g)) k2).
Proof.
  intros Hd HG Ho V H K PB PW. pose proof (rgi_wf _ _ _ _ (rgreach_inv _ _ _ _ _ Hd HG)) as W.
  destruct (rscore_isC order dbg n g k2 W Hd Ho (conj V (conj H K)) PB PW flags) as (b & w & l & G & bl & wl & E & E1 & E2 & E3 & E4 & IB & IW & _).
  exists b, w, l, G, bl, wl. destruct (isC_valid _ _ IB), (isC_valid _ _ IW). tauto.
Qed.

Theorem routcome_exact order dbg n b0 w0 g k2 : Nat.divide (snd n) (fst n) ->
  rgreach dbg n b0 w0 g -> (forall l, order l ≡ₚ l) ->
  is_f32 (komi g) -> halves (komi g) k2 -> (Z.abs k2 <= 200000)%Z ->
  (fst (gm_prisoners g) < 1000000)%N -> (snd (gm_prisoners g) < 1000000)%N ->
  gm_outcome g = None -> gm_passes g = 2%nat ->
  exists l G bl wl,
    pseudo_legals g = Ok l /\ rchosen n (position g) [] l G /\ rcounted n (position g) Black G bl /\ rcounted n (position g) White G wl /\
    let B := black2 (flag_score (gm_rule g)) (N.of_nat (length bl)) (N.of_nat (rcount n (position g) Black)) (fst (gm_prisoners g)) in
    let Wh := white2 (flag_score (gm_rule g)) (N.of_nat (length wl)) (N.of_nat (rcount n (position g) White)) (snd (gm_prisoners g)) k2 in
    (outcome order dbg g = Ok (Some Draw) /\ B = Wh) \/
    (exists m, outcome order dbg g = Ok (Some (WinnerByScore Black m)) /\ (B > Wh)%Z /\ is_f32 m /\ halves m (B - Wh)) \/
    (exists m, outcome order dbg g = Ok (Some (WinnerByScore White m)) /\ (Wh > B)%Z /\ is_f32 m /\ halves m (Wh - B)).
Proof.
  intros Hd HG Ho V H K PB PW Ou Pa. pose proof (rgi_wf _ _ _ _ (rgreach_inv _ _ _ _ _ Hd HG)) as W.
  destruct (rscore_isC order dbg n g k2 W Hd Ho (conj V (conj H K)) PB PW (flag_score (gm_rule g))) as (b & w & l & G & bl & wl & E & E1 & E2 & E3 & E4 & IB & IW & LB & LW).
  exists l, G, bl, wl. split; [exact E1|]. split; [exact E2|]. split; [exact E3|]. split; [exact E4|].
  unfold rblack, rwhite in *. change (pos_of (gm_goban g)) with (position g) in *.
  set (B := black2 _ _ _ _) in *. set (Wh := white2 _ _ _ _ _) in *. cbv zeta.
  unfold outcome, is_over. rewrite Ou, Pa. cbn [Nat.leb negb]. unfold calculate_score. rewrite E. cbn [bind].
  assert (ID : isC (f32_sub b w) (B - Wh)) by (apply sub_isC; [assumption..|sm]).
  assert (ID' : isC (f32_sub w b) (Wh - B)) by (apply sub_isC; [assumption..|sm]).
  rewrite (abs_lt_eps _ _ ID), (lt_isC w b Wh B IW IB).
  destruct (Z.eqb_spec (B - Wh) 0) as [E0|E0]; [left; split; [reflexivity|lia]|].
  destruct (Z.ltb_spec Wh B) as [L|L]; right; [left|right]; eexists; (split; [reflexivity|]); (split; [lia|]).
  - apply isC_valid, ID.
  - apply isC_valid, ID'.
Qed.

(** ** A case *)

(** The 6x3 game of C99: the corner counts three times for Black, the stone at (1, 1) once,
    and the six points White holds count for nobody. *)
Lemma case_rcount dbg : exists g b w bt,
  Nat.divide 3 6 /\ 6 = 2 * 3 /\ rgreach dbg (6, 3) b w g /\ gm_passes g = 2 /\ gm_outcome g = None /\
  is_f32 (komi g) /\ halves (komi g) 15 /\ gm_prisoners g = (0%N, 0%N) /\
  get_territories (fun l => l) dbg (gm_goban g) = Ok (bt, []) /\ length bt = 10 /\
  times (0, 0) bt.*1 = 3 /\ position g (0, 0) = None /\ times (1, 1) bt.*1 = 1 /\ position g (1, 1) = Some Black /\
  rowned (6, 3) (position g) White (5, 1).
Proof.
  destruct (rsample dbg 6 3 CHINESE wrong_moves) as [g|] eqn:E; [|destruct dbg; vm_compute in E; discriminate].
  assert (K : match rsample dbg 6 3 CHINESE wrong_moves with
    | Some g => Some (gm_passes g, gm_outcome g, gm_rule g, gm_prisoners g, get_territories (fun l => l) dbg (gm_goban g),
        forallb (fun p => has g p (wrong_position p)) (rpoints (6, 3))) | None => None end
    = Some (2, None, CHINESE, (0%N, 0%N),
        Ok (List.map (fun p => (p, None)) [(0, 0); (0, 2); (0, 1); (0, 0); (0, 2); (1, 0); (0, 0); (1, 1); (1, 2); (0, 2)], []), true))
    by (destruct dbg; vm_compute; reflexivity).
  rewrite E in K. injection K as K1 K2 K3 K4 K5 K6.
  destruct (rsample_reach dbg 6 3 CHINESE _ g ltac:(lia) ltac:(lia) E) as (b & w & HG & _).
  assert (HP : forall p, ron (6, 3) p -> position g p = wrong_position p).
  { intros p Hp. change (forallb (fun p => has g p (wrong_position p)) (rpoints (6, 3)) = true) in K6. rewrite forallb_forall in K6. apply elem_of_rpoints, elem_of_list_In in Hp. exact (bool_decide_eq_true_1 _ (K6 p Hp)). }
  eexists g, b, w, _. split; [exact divides_6_3|]. split; [reflexivity|]. split; [exact HG|]. split; [exact K1|]. split; [exact K2|].
  split; [unfold komi; rewrite K3; vm_compute; reflexivity|]. split; [unfold komi; rewrite K3; vm_compute; reflexivity|]. split; [exact K4|].
  split; [exact K5|]. split; [reflexivity|]. split; [reflexivity|]. split; [rewrite HP by (split; cbn; lia); reflexivity|]. split; [reflexivity|].
  split; [rewrite HP by (split; cbn; lia); reflexivity|].
  assert (H51 : ron (6, 3) (5, 1)) by (split; cbn; lia).
  destruct (proj2 (proj2 (wrong_owned _ HP (5, 1) H51)) ltac:(cbn; lia)) as [H|H]; [|exact H]. rewrite HP in H by exact H51. discriminate.
Qed.

Lemma case_rdetermined dbg : exists g b w l G L,
  rgreach dbg (6, 3) b w g /\ pseudo_legals g = Ok l /\ rchosen (6, 3) (position g) [] l G /\ rcounted (6, 3) (position g) Black G L /\ length L = 10.
Proof.
  destruct (case_rcount dbg) as (g & b & w & bt & Hd & _ & HG & _ & _ & _ & _ & _ & Et & Ln & _).
  destruct (rterritories_exact (fun l => l) dbg (6, 3) b w g Hd HG (fun l => Permutation_refl l)) as (l & G & bt' & wt' & El & T & E & HB & _).
  rewrite Et in E. injection E as <- <-. exists g, b, w, l, G, bt.*1. split; [exact HG|]. split; [exact El|]. split; [exact T|]. split; [exact HB|].
  etransitivity; [apply fmap_length|exact Ln].
Qed.
