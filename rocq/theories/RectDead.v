(** [get_floating_stones] and [dead_stones] on boards whose width divides their height. *)
From stdpp Require Import relations sorting.
From Verif Require Import RectPlayoutSpec PlayoutSpec Samples RectReach.
From Verif Require Import CoordFacts Struct Push Inv Remove Capture Bridge MonadFacts GameFacts RulesFacts BoardFacts CheckFacts EyeFacts EyeExact LegalFacts LegalsFacts ApiFacts ViewFacts FloatingFacts PlayoutFacts DeadFacts.
From Verif Require Import RectCoord RectInv RectRemove RectCapture RectBridge RectGame RectReachFacts RectRules RectBoard RectCheck RectEye RectVerdict RectMoves RectLegal RectList RectViews RectPlayout.
From Coq Require Import Lia.

Local Notation length := Datatypes.length.

Section Search.
  Variables (dbg : bool) (n : size_t) (search : nat -> game -> list move -> res move) (g0 : game).
  Hypothesis Hd : Nat.divide (snd n) (fst n).
  Hypothesis Hsearch : answers_offered dbg search g0.

  Lemma rsearch_one b w g i : rtc (offered_step dbg) g0 g -> rgreach dbg n b w g -> is_over g = false ->
    (let! ms := legals_moves dbg g in let! m := search i g ms in play dbg g m) = Panic /\ gave_up dbg search g \/
    exists g' b' w', (let! ms := legals_moves dbg g in let! m := search i g ms in play dbg g m) = Ok g' /\ offered_step dbg g g' /\
      rgreach dbg n b' w' g' /\ (left b' w' g' < left b w g)%N.
  Proof using Hsearch Hd.
    intros HR HG HO. pose proof (rgreach_inv _ _ _ _ _ Hd HG) as G. pose proof (rgi_wf _ _ _ _ G) as W. destruct (not_over g HO) as [_ HP].
    unfold legals_moves. destruct (rlegals_panic dbg n b w g (N.lor (flag_illegal (gm_rule g)) FILLEYE) G) as [[l E]|[E L]]; rewrite E; cbn [bind]; [|left; unfold gave_up; auto].
    rewrite HO. set (ms := match List.map _ l with [] => [MPass] | _ :: _ => _ end).
    assert (EL : legals_moves dbg g = Ok ms) by (unfold legals_moves; rewrite E; cbn [bind]; rewrite HO; reflexivity).
    
    destruct (Hsearch i g ms HR HO EL) as [Ep|(m & Em & Hm)]; [left; rewrite Ep; unfold gave_up; eauto 8|]. rewrite Em. cbn [bind]. clear Em.
    assert (K : (l = [] /\ m = MPass) \/ exists p, p ∈ l /\ m = MPlay (fst p) (snd p)).
    { subst ms. clear EL. destruct l as [|p l]; [left; apply elem_of_list_singleton in Hm; auto|right].
      cbn [List.map] in Hm. apply elem_of_list_In in Hm. apply (in_map_iff (fun p : coord => MPlay (fst p) (snd p)) (p :: l)) in Hm as (q & <- & Hq). exists q. split; [apply elem_of_list_In, Hq|reflexivity]. }
    destruct K as [[-> ->]|(p & Hp & ->)].
    - right. destruct (play_pass dbg g HP) as (g' & Eg & _). exists g', b, w. split; [exact Eg|].
      destruct (rleft_pass dbg n b w g g' HG HO Eg) as [HG' HL]. split; [|auto]. econstructor; [exact HO|exact EL|exact Hm|]. apply try_pass; assumption.
    - destruct (proj1 (proj2 (rlegals_checks dbg n b w g _ l G E) p) Hp) as [Hsq Ec]. pose proof (square_on n p (rwf_n n _ W) Hsq) as Hon. pose proof (check_point_by_mono dbg g p _ _ (sub_flags _) Ec) as Ec'. destruct p as [x y]. cbn [fst snd] in *.
      destruct (rcheck_point_by_ok dbg n g (x, y) (flag_illegal (gm_rule g)) W (rgi_hist _ _ _ _ G) Hon) as [[E' _]|(e & E' & HT)]; [congruence|].
      rewrite Ec' in E'. injection E' as <-. assert (He : pos_of (gm_goban g) (x, y) = None) by tauto.
      destruct (rplay_spec dbg n b w g x y G Hon He) as [[F [L _]]|(g' & Eg & _)]; [left; unfold gave_up; auto|right].
      destruct (rleft_stone dbg n b w g x y g' Hd HG HO Hon He Eg) as (b' & w' & HG' & HL). exists g', b', w'. split; [exact Eg|]. split; [|auto].
      econstructor; [exact HO|exact EL|exact Hm|]. rewrite (rtry_play_point dbg n g x y W Hon) by lia. unfold check_point. rewrite Ec'. cbn [bind]. rewrite Eg. reflexivity.
  Qed.

  Theorem rplay_out_spec fuel : forall i b w g, rtc (offered_step dbg) g0 g -> rgreach dbg n b w g -> (left b w g < N.of_nat fuel)%N ->
    (exists g' b' w', play_out fuel i search dbg g = Ok g' /\ rtc (offered_step dbg) g g' /\ is_over g' = true /\ rgreach dbg n b' w' g') \/
    (play_out fuel i search dbg g = Panic /\ exists g1, rtc (offered_step dbg) g g1 /\ gave_up dbg search g1).
  Proof using Hsearch Hd.
    induction fuel as [|fuel IH]; intros i b w g HR HG HL; [lia|]. rewrite play_out_unfold. destruct (is_over g) eqn:HO.
    { left. exists g, b, w. split; [reflexivity|]. split; [apply rtc_refl|auto]. }
    destruct (rsearch_one b w g i HR HG HO) as [[E L]|(g' & b' & w' & E & HS & HG' & HL')]; rewrite E; cbn [bind].
    - right. split; [reflexivity|]. exists g. split; [apply rtc_refl|exact L].
    - destruct (IH (S i) b' w' g' (rtc_r _ _ _ HR HS) HG' ltac:(lia)) as [(g2 & b2 & w2 & E2 & R & O & HG2)|(E2 & g1 & R & L)].
      + left. exists g2, b2, w2. split; [exact E2|]. split; [eapply rtc_l; eassumption|auto].
      + right. split; [exact E2|]. exists g1. split; [eapply rtc_l; eassumption|exact L].
  Qed.
End Search.


(** ** Groups that count as having eyes *)

Lemma length_times l ps : NoDup ps -> (forall p, p ∈ l -> p ∈ ps) -> length l = sum_list_with (fun p => times p l) ps.
Proof.
  intros Nd. induction l as [|q l IH]; intros H; [symmetry; apply sum_zero; reflexivity|].
  cbn [Datatypes.length]. rewrite IH by (intros p Hp; apply H; right; exact Hp).
  assert (Hq : q ∈ ps) by (apply H; left). clear IH H. induction Nd as [|p ps Hp Nd IH]; [inversion Hq|].
  cbn [sum_list_with]. rewrite times_cons. apply elem_of_cons in Hq as [->|Hq].
  - destruct (decide (p = p)); [|contradiction]. rewrite (sum_ext (fun x => times x (p :: l)) (fun x => times x l)); [lia|].
    intros x Hx. rewrite times_cons. destruct (decide (p = x)) as [->|]; [contradiction|reflexivity].
  - destruct (decide (q = p)) as [->|]; [contradiction|]. rewrite <- (IH Hq). lia.
Qed.

Lemma length_uniform l k : (forall p, p ∈ l -> times p l = k) -> exists ps, NoDup ps /\ (forall p, p ∈ ps <-> p ∈ l) /\ length l = (k * length ps)%nat.
Proof.
  intros H. exists (remove_dups l). split; [apply NoDup_remove_dups|]. split; [intros p; apply elem_of_remove_dups|].
  rewrite (length_times l (remove_dups l)); [|apply NoDup_remove_dups|intros p Hp; apply elem_of_remove_dups, Hp].
  apply sum_const. intros p Hp. apply H, elem_of_remove_dups, Hp.
Qed.

Definition nearb (n : size_t) (g : goban) (i : nat) (p : coord) : bool := existsb (fun q => bool_decide (group_no g q = Some i)) (rnbrs n p).

Lemma nearb_iff n g i p : ron n p -> nearb n g i p = true <-> rnear_group n g i p.
Proof.
  intros Hp. unfold nearb, rnear_group. rewrite existsb_exists. split.
  - intros (q & Hq & E). apply elem_of_list_In, (relem_of_nbrs n p q Hp) in Hq as [H1 H2]. apply bool_decide_eq_true in E. eauto.
  - intros (q & H1 & H2 & E). exists q. split; [apply elem_of_list_In, (relem_of_nbrs n p q Hp); auto|]. apply bool_decide_eq_true, E.
Qed.

Theorem rfloating_exact dbg n b w g k : fst n = (k * snd n)%nat -> rgreach dbg n b w g ->
  exists l, get_floating_stones dbg g = Ok l /\ StronglySorted lt l /\
    forall i, i ∈ l <-> (i < length (all_chains (gm_goban g)))%nat /\
      exists m, (3 <= k * m)%nat /\ card (fun p => in_square n p /\ rsome_eye n g p /\ rnear_group n (gm_goban g) i p) m.
Proof.
  intros Hk HG. pose proof (ex_intro _ k Hk : Nat.divide (snd n) (fst n)) as Hd.
  pose proof (rgi_wf _ _ _ _ (rgreach_inv _ _ _ _ _ Hd HG)) as W. set (gb := gm_goban g) in *. pose proof (rwf_n n _ W) as F.
  unfold get_floating_stones. destruct (rpseudo_ok n g W) as (pts & Epts & Hin & Hpts). rewrite Epts. cbn [bind].
  assert (T : forall p, in_square n p -> pos_of gb p = None -> times p pts = k).
  { intros p [A B] He. destruct (rempty_times n gb k p W Hk) as (v & Ev & _ & T). unfold pseudo_legals in Epts. fold gb in Epts. rewrite Ev in Epts. injection Epts as ->.
    apply Nat.ltb_lt in A, B. rewrite A, B, He in T. exact T. }
  rewrite (filterM_ok _ (fun p => reye n (pos_of gb) Black p || reye n (pos_of gb) White p)).
  2:{ intros p Hp. destruct (Hin p Hp) as [_ On]. rewrite !(rcheck_eye_ok dbg n g p _ W On). cbn [bind]. fold gb. destruct (reye n (pos_of gb) Black p); reflexivity. }
  cbn [bind]. set (eyes := List.filter _ pts).
  assert (Heyes : forall p, p ∈ eyes <-> in_square n p /\ rsome_eye n g p).
  { intros p. unfold eyes. rewrite elem_of_lfilter. unfold rsome_eye. change (position g) with (pos_of gb). split.
    - intros [Hp H]. destruct (Hin p Hp) as [Hq On]. split; [exact Hq|].
      apply orb_true_iff in H as [H|H]; [left|right]; apply (reye_iff n (pos_of gb) _ F p On); exact H.
    - intros [Hq H]. pose proof (square_on n p F Hq) as On. split.
      + apply Hpts; [exact Hq|]. destruct H as [[H _]|[H _]]; exact H.
      + apply orb_true_iff. destruct H as [H|H]; [left|right]; apply (reye_iff n (pos_of gb) _ F p On); exact H. }
  assert (Te : forall p, p ∈ eyes -> times p eyes = k).
  { intros p Hp. pose proof (proj1 (Heyes p) Hp) as [Hq He]. pose proof Hp as Hp'. unfold eyes in Hp' |- *. apply elem_of_lfilter in Hp' as [_ Hb].
    rewrite times_filter, Hb. apply T; [exact Hq|]. destruct He as [[He _]|[He _]]; exact He. }
  assert (X : forall es m, (forall p, p ∈ es -> ron n p) -> NoDup m.*1 ->
    exists m', foldM (fun m p => let! l := get_connected_groups_idx dbg gb (two_to_1dim (gsize gb) p) in Ok (fold_left (fun m k => bump k m) l m)) es m = Ok m' /\
      NoDup m'.*1 /\ forall i, tally i m' = (tally i m + length (List.filter (nearb n gb i) es))%nat).
  { induction es as [|p es IH]; intros m Hes Ndm; cbn [foldM].
    { exists m. split; [reflexivity|]. split; [exact Ndm|]. intros i. cbn. lia. }
    assert (On : ron n p) by (apply Hes; left).
    destruct (rconnected_spec dbg n gb (ridx n p) F (rwf_size n gb W) (wf0_board gb (rwf_0 n gb W)) (ridx_on n p F On)) as (l & El & Ndl & Hl).
    replace (two_to_1dim (gsize gb) p) with (ridx n p) by (rewrite (rwf_size n gb W); reflexivity). rewrite El. cbn [bind].
    destruct (bump_all l m Ndm) as [Nd1 T1]. destruct (IH _ (fun q Hq => Hes q ltac:(right; exact Hq)) Nd1) as (m' & E' & Nd' & T').
    exists m'. split; [exact E'|]. split; [exact Nd'|]. intros i. rewrite T', T1, (once i l Ndl). cbn [List.filter].
    assert (Hi : i ∈ l <-> nearb n gb i p = true).
    { rewrite (nearb_iff n gb i p On), Hl. unfold rnear_group. split.
      - intros (j & Hj & Hc). pose proof (rnb_vi n _ j F (ridx_on n p F On) Hj) as Vj. exists (rpt n j). split; [apply rpt_on, Vj|].
        split; [apply (radj_nb n p _ F On (rpt_on n j Vj)); rewrite (ridx_pt n j Vj); exact Hj|]. rewrite (rgroup_no_cell n gb _ W), (ridx_pt n j Vj). exact Hc.
      - intros (q & Hq1 & Hq2 & Hq3). exists (ridx n q). split; [apply (radj_nb n p q F On Hq1); exact Hq2|]. rewrite (rgroup_no_cell n gb q W) in Hq3. exact Hq3. }
    destruct (decide (i ∈ l)) as [Hil|Hil].
    - rewrite (proj1 Hi Hil). cbn [Datatypes.length]. lia.
    - destruct (nearb n gb i p); [destruct Hil; apply Hi; reflexivity|]. lia. }
  destruct (X eyes [] (fun p Hp => square_on n p F (proj1 (proj1 (Heyes p) Hp))) ltac:(constructor)) as (m & Em & Ndm & Tm).
  fold gb. rewrite Em. cbn [bind]. eexists. split; [reflexivity|]. split.
  { generalize (seq 0 (length (all_chains gb))) (sorted_seq (length (all_chains gb)) 0%nat). intros l S.
    induction S as [|x l S IH Fx]; cbn; [constructor|]. destruct (mem _ _); [|exact IH]. constructor; [exact IH|].
    apply Forall_forall. intros y Hy. apply elem_of_lfilter in Hy as [Hy _]. rewrite Forall_forall in Fx. exact (Fx y Hy). }
  intros i. rewrite elem_of_lfilter, elem_of_seq. unfold mem. rewrite existsb_spec.
  assert (K : (exists x, x ∈ List.map fst (List.filter (fun '(_, v) => (2 <=? v)%nat) m) /\ (i =? x)%nat = true) <-> (3 <= tally i m)%nat).
  { split.
    - intros (x & Hx & Ex). apply Nat.eqb_eq in Ex. subst x. apply elem_of_lmap in Hx as ([j v] & -> & Hv). apply elem_of_lfilter in Hv as [Hv H2].
      apply (tally_elem _ _ _ Ndm) in Hv. cbn. rewrite Hv. apply Nat.leb_le in H2. lia.
    - intros H. exists i. split; [|apply Nat.eqb_refl]. apply elem_of_lmap. exists (i, pred (tally i m)). split; [reflexivity|]. apply elem_of_lfilter. split.
      + apply tally_elem; [exact Ndm|]. lia.
      + apply Nat.leb_le. lia. }
  rewrite K, Tm. cbn [tally Nat.add].
  destruct (length_uniform (List.filter (nearb n gb i) eyes) k) as (ps & N1 & N2 & N3).
  { intros p Hp. apply elem_of_lfilter in Hp as [Hp Hb]. rewrite times_filter, Hb. apply Te, Hp. }
  rewrite N3.
  assert (C : forall j, card (fun p => in_square n p /\ rsome_eye n g p /\ rnear_group n gb i p) j <-> j = length ps).
  { assert (HE : forall p, p ∈ ps <-> in_square n p /\ rsome_eye n g p /\ rnear_group n gb i p).
    { intros p. rewrite N2, elem_of_lfilter, Heyes. split.
      - intros [[Hq He] Hb]. rewrite (nearb_iff n gb i p (square_on n p F Hq)) in Hb. auto.
      - intros (Hq & He & Hb). rewrite <- (nearb_iff n gb i p (square_on n p F Hq)) in Hb. auto. }
    intros j. split.
    - intros (ps' & M1 & M2 & <-). apply Permutation_length, NoDup_Permutation; [exact M1|exact N1|]. intros p. rewrite M2, HE. reflexivity.
    - intros ->. exists ps. split; [exact N1|]. split; [|reflexivity]. intros p. apply HE. }
  split.
  - intros [H1 H2]. split; [lia|]. exists (length ps). split; [exact H2|]. apply C. reflexivity.
  - intros (H1 & j & H2 & H3). apply C in H3 as ->. split; [lia|exact H2].
Qed.

(** ** The comparison with the final position *)

(** the groups of [fl] that lost a stone *)
Lemma rcompare_ok dbg n b w b' w' g h fl : Nat.divide (snd n) (fst n) -> rgreach dbg n b w g -> rgreach dbg n b' w' h ->
  (forall k, k ∈ fl -> exists p, ron n p /\ group_no (gm_goban g) p = Some k) -> StronglySorted lt fl ->
  exists l, filterM (fun k =>
             let! l := chain_stones dbg (gm_goban g) k in
             anyM (fun s : stone =>
                     let! c := get_color (gm_goban h) (fst s) in
                     Ok (negb (mcolor_eqb c (Some (snd s))))) l) fl = Ok l /\ StronglySorted lt l /\
    forall k, k ∈ l <-> k ∈ fl /\ exists p, ron n p /\ group_no (gm_goban g) p = Some k /\ position h p <> position g p.
Proof.
  intros Hd HG HH. pose proof (rgi_wf _ _ _ _ (rgreach_inv _ _ _ _ _ Hd HG)) as W. pose proof (rgi_wf _ _ _ _ (rgreach_inv _ _ _ _ _ Hd HH)) as W'.
  induction fl as [|k fl IH]; intros Hfl Hs.
  { exists []. split; [reflexivity|]. split; [constructor|]. intros k. split; [intros H; apply elem_of_nil in H; contradiction|intros [H _]; exact H]. }
  apply StronglySorted_inv in Hs as [Hs Hlt]. destruct IH as (l & E & Hl & Hin); [intros j Hj; apply Hfl; right; exact Hj|exact Hs|].
  destruct (Hfl k) as (p & Hp & Ek); [left|].
  assert (Hsome : position g p <> None).
  { unfold position. rewrite (rpos_of_col n _ p W Hp). intros H. apply (rcol_None n _ _ W) in H. rewrite (rgroup_no_cell n _ p W) in Ek. congruence. }
  destruct (rect_groups dbg n b w g p Hd HG Hp Hsome) as (Hgr & (k' & c & st & Ek' & E1 & E2 & Nd & Hst) & _). rewrite Ek in Ek'. injection Ek' as <-.
  assert (Hcol : forall q, q ∈ st -> ron n q /\ position g q = Some c /\ group_no (gm_goban g) q = Some k).
  { intros q Hq. apply Hst in Hq as [Hq Hc]. split; [exact Hq|]. assert (Eg : group_no (gm_goban g) p = group_no (gm_goban g) q) by (apply (Hgr q Hq); exact Hc).
    split; [|congruence]. rewrite <- E1. symmetry. revert Hc. clear. induction 1 as [|x y z (_ & _ & _ & E) _ IH]; congruence. }
  assert (Hall : forall q, ron n q -> group_no (gm_goban g) q = Some k -> q ∈ st).
  { intros q Hq Eq. apply Hst. split; [exact Hq|]. apply (Hgr q Hq). congruence. }
  cbn [filterM]. rewrite E2. cbn [bind].
  rewrite (anyM_ok _ (fun s : stone => negb (mcolor_eqb (position h (fst s)) (Some (snd s))))).
  2:{ intros s Hs'. apply elem_of_list_fmap in Hs' as (q & -> & Hq). cbn [fst snd]. rewrite (rget_color_pos n _ _ W') by (apply Hcol, Hq). reflexivity. }
  cbn [bind]. rewrite E. cbn [bind]. eexists. split; [reflexivity|].
  set (d := existsb _ _). assert (Hdd : d = true <-> exists p, ron n p /\ group_no (gm_goban g) p = Some k /\ position h p <> position g p).
  { subst d. rewrite existsb_exists. split.
    - intros (s & Hs' & Hb). apply elem_of_list_In, elem_of_list_fmap in Hs' as (q & -> & Hq). cbn [fst snd] in Hb. destruct (Hcol q Hq) as (Hq' & Ec & Eq).
      exists q. split; [exact Hq'|]. split; [exact Eq|]. rewrite Ec. intros F. rewrite F in Hb. destruct c; discriminate.
    - intros (q & Hq & Eq & Hne). pose proof (Hall q Hq Eq) as Hin'. destruct (Hcol q Hin') as (_ & Ec & _). exists (q, c). split; [apply elem_of_list_In, elem_of_list_fmap; eauto|].
      cbn [fst snd]. destruct (mcolor_eqb_spec (position h q) (Some c)) as [F|_]; [congruence|reflexivity]. }
  assert (Hk : k ∉ l). { intros Hkl. apply Hin in Hkl as [Hkl _]. rewrite Forall_forall in Hlt. pose proof (Hlt k Hkl). lia. }
  destruct d.
  - split.
    + constructor; [exact Hl|]. apply Forall_forall. intros j Hj. apply Hin in Hj as [Hj _]. rewrite Forall_forall in Hlt. exact (Hlt j Hj).
    + intros j. rewrite !elem_of_cons, Hin. split; [intros [->|[Hj K]]; [split; [left; reflexivity|apply Hdd; reflexivity]|auto]|]. intros [[->|Hj] K]; auto.
  - split; [exact Hl|]. intros j. rewrite elem_of_cons, Hin. split; [intros [Hj K]; auto|]. intros [[->|Hj] K]; [apply Hdd in K; discriminate|auto].
Qed.

Lemma rfloating_live dbg n b w g fl : Nat.divide (snd n) (fst n) -> rgreach dbg n b w g -> get_floating_stones dbg g = Ok fl ->
  StronglySorted lt fl /\ forall k, k ∈ fl -> exists p, ron n p /\ group_no (gm_goban g) p = Some k.
Proof.
  intros Hd HG E. pose proof Hd as [kk Hkk]. destruct (rfloating_exact dbg n b w g kk Hkk HG) as (l & E' & Hs & Hin). rewrite E in E'. injection E' as <-. split; [exact Hs|].
  intros k Hk. apply Hin in Hk as (_ & m & Hm & (pts & Nd & Hpts & Hlen)). destruct pts as [|p pts]; [cbn in Hlen; lia|].
  assert (Hp : p ∈ p :: pts) by left. apply Hpts in Hp as (_ & _ & q & Hq & _ & Eq). eauto.
Qed.

Theorem rdead_stones_spec dbg n b w g search fuel : Nat.divide (snd n) (fst n) -> rgreach dbg n b w g ->
  answers_offered dbg search g -> (47316994 < N.of_nat fuel)%N ->
  (exists l fl final, dead_stones fuel search dbg g = Ok l /\ get_floating_stones dbg g = Ok fl /\
     rtc (offered_step dbg) g final /\ is_over final = true /\ StronglySorted lt l /\
     forall k, k ∈ l <-> k ∈ fl /\ exists p, ron n p /\ group_no (gm_goban g) p = Some k /\ position final p <> position g p) \/
  (dead_stones fuel search dbg g = Panic /\ exists g1, rtc (offered_step dbg) g g1 /\ gave_up dbg search g1).
Proof.
  intros Hd HG Hs Hf. pose proof Hd as [kk Hkk]. destruct (rfloating_exact dbg n b w g kk Hkk HG) as (fl & Ef & _). destruct (rfloating_live dbg n b w g fl Hd HG Ef) as [Hsort Hlive].
  unfold dead_stones. rewrite Ef. cbn [bind]. pose proof (left_max b w g).
  destruct (rplay_out_spec dbg n search g Hd Hs fuel 0 b w g (rtc_refl _ _) HG ltac:(lia)) as [(h & b' & w' & E & R & HO & HH)|[E K]]; rewrite E; cbn [bind]; [left|right; auto].
  destruct (rcompare_ok dbg n b w b' w' g h fl Hd HG HH Hlive Hsort) as (l & El & Hl & Hin). exists l, fl, h. auto 10.
Qed.

Theorem rdead_stones_over dbg n b w g search fuel : Nat.divide (snd n) (fst n) -> rgreach dbg n b w g -> is_over g = true -> dead_stones fuel search dbg g = Ok [].
Proof.
  intros Hd HG HO. pose proof Hd as [kk Hkk]. destruct (rfloating_exact dbg n b w g kk Hkk HG) as (fl & Ef & _). destruct (rfloating_live dbg n b w g fl Hd HG Ef) as [Hsort Hlive].
  unfold dead_stones. rewrite Ef. cbn [bind]. replace (play_out fuel 0 search dbg g) with (Ok g) by (destruct fuel; cbn [play_out]; rewrite HO; reflexivity). cbn [bind].
  destruct (rcompare_ok dbg n b w b w g g fl Hd HG HG Hlive Hsort) as (l & El & _ & Hin). rewrite El. destruct l as [|k l]; [reflexivity|].
  assert (Hk : k ∈ k :: l) by left. apply Hin in Hk as (_ & p & _ & _ & F). contradiction.
Qed.

