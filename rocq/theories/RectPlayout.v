(** Random playouts on boards whose width divides their height. *)
From stdpp Require Import relations sorting.
From Verif Require Import RectPlayoutSpec Samples RectReach.
From Verif Require Import Struct Push Inv Remove Capture Bridge MonadFacts GameFacts RulesFacts BoardFacts EyeFacts EyeExact LegalFacts LegalsFacts ApiFacts PlayoutFacts.
From Verif Require Import RectCoord RectInv RectRemove RectCapture RectBridge RectGame RectReachFacts RectRules RectBoard RectCheck RectEye RectVerdict RectMoves RectLegal RectList.
From Coq Require Import Lia.

Local Notation length := Datatypes.length.

Lemma rcount_le n P : (rcount n P Black + rcount n P White <= fst n * snd n)%nat.
Proof.
  unfold rcount. rewrite <- (rpoints_length n).
  generalize (rpoints n). intros l. induction l as [|p l IH]; [cbn; lia|]. rewrite !filter_cons.
  destruct (P p) as [[]|]; repeat case_decide; try congruence; cbn; lia.
Qed.

(** every stone took a group number or joined a group *)
Lemma rstones_bound dbg n b w g : Nat.divide (snd n) (fst n) -> rgreach dbg n b w g -> (N.of_nat (b + w) <= 23658496)%N.
Proof.
  intros Hd HG. pose proof (rgreach_inv _ _ _ _ _ Hd HG) as G. pose proof (rgi_pris _ _ _ _ G) as H.
  pose proof (dslots_le (gm_goban g)). pose proof (wf0_len _ (rwf_0 n _ (rgi_wf _ _ _ _ G))).
  pose proof (rgi_black _ _ _ _ G). pose proof (rgi_white _ _ _ _ G). pose proof (rcount_le n (pos_of (gm_goban g))).
  pose proof (fits_points n (rwf_n n _ (rgi_wf _ _ _ _ G))). unfold rem_total in H. lia.
Qed.

Lemma rleft_stone dbg n b w g x y g' : Nat.divide (snd n) (fst n) -> rgreach dbg n b w g -> is_over g = false -> ron n (x, y) ->
  pos_of (gm_goban g) (x, y) = None -> play dbg g (MPlay x y) = Ok g' ->
  exists b' w', rgreach dbg n b' w' g' /\ (left b' w' g' < left b w g)%N.
Proof.
  intros Hd HG HO Hp He E. pose proof (rg_play _ _ _ _ _ _ _ _ HG Hp He E) as HG'. apply not_over in HO as [_ HO].
  pose proof (rstones_bound _ _ _ _ _ Hd HG'). exists (fst (bump_count (gm_turn g) (b, w))), (snd (bump_count (gm_turn g) (b, w))).
  split; [exact HG'|]. unfold left. destruct (gm_turn g); cbn [bump_count fst snd] in *; lia.
Qed.

Lemma rleft_pass dbg n b w g g' : rgreach dbg n b w g -> is_over g = false -> play dbg g MPass = Ok g' ->
  rgreach dbg n b w g' /\ (left b w g' < left b w g)%N.
Proof.
  intros HG HO E. split; [exact (rg_pass _ _ _ _ _ _ HG E)|]. apply not_over in HO as [_ HO].
  destruct (play_pass dbg g HO) as (g1 & E1 & HP). rewrite E in E1. injection E1 as <-. unfold left. lia.
Qed.

(** the eye check on any board *)
Lemma reye_exact dbg n g p c : rwf n (gm_goban g) -> ron n p ->
  exists v, check_eye dbg g (p, c) = Ok v /\ (v = true <-> reye_shape n (position g) c p).
Proof. intros W Hp. exists (reye n (position g) c p). split; [exact (rcheck_eye_ok dbg n g p c W Hp)|]. exact (reye_iff n (position g) c (rwf_n n _ W) p Hp). Qed.

Lemma square_on n p : fits n -> in_square n p -> ron n p.
Proof. intros F [H1 H2]. pose proof (fits_wide n F). split; lia. Qed.

Lemma rfirst_playable_spec dbg n b w g l : rginv n b w g -> (forall p, p ∈ l -> ron n p) ->
  (first_playable dbg g l = Panic /\ no_slot_left g) \/
  (first_playable dbg g l = Ok MPass /\
   forall p, p ∈ l -> exists e, check_point dbg g p = Ok e /\ (e = None -> check_eye dbg g (p, gm_turn g) = Ok true)) \/
  exists x y, first_playable dbg g l = Ok (MPlay x y) /\ (x, y) ∈ l /\ useful dbg g (x, y).
Proof.
  intros G. pose proof (rgi_wf _ _ _ _ G) as W. induction l as [|p l IH]; intros Hl; cbn [first_playable].
  { right. left. split; [reflexivity|]. intros p Hp. apply elem_of_nil in Hp. contradiction. }
  assert (Hp : ron n p) by (apply Hl; left).
  assert (Hl' : forall q, q ∈ l -> ron n q) by (intros q Hq; apply Hl; right; exact Hq).
  unfold check_point at 1 2 4.
  destruct (rcheck_point_by_ok dbg n g p (flag_illegal (gm_rule g)) W (rgi_hist _ _ _ _ G) Hp) as [(E & L & _)|(e & E & _)].
  { left. rewrite E. split; [reflexivity|exact L]. }
  rewrite E. cbn [bind]. destruct e as [e|].
  - destruct (IH Hl') as [IH'|[[IH1 IH2]|(x & y & IH1 & IH2 & IH3)]]; [left; exact IH'|right; left|right; right].
    + split; [exact IH1|]. intros q Hq. apply elem_of_cons in Hq as [->|Hq]; [|apply IH2, Hq]. exists (Some e). split; [exact E|discriminate].
    + exists x, y. split; [exact IH1|]. split; [right; exact IH2|exact IH3].
  - rewrite (rcheck_eye_ok dbg n g p (gm_turn g) W Hp). cbn [bind]. destruct (reye n (pos_of (gm_goban g)) (gm_turn g) p) eqn:Ey.
    + destruct (IH Hl') as [IH'|[[IH1 IH2]|(x & y & IH1 & IH2 & IH3)]]; [left; exact IH'|right; left|right; right].
      * split; [exact IH1|]. intros q Hq. apply elem_of_cons in Hq as [->|Hq]; [|apply IH2, Hq]. exists None. split; [exact E|].
        intros _. rewrite (rcheck_eye_ok dbg n g p (gm_turn g) W Hp), Ey. reflexivity.
      * exists x, y. split; [exact IH1|]. split; [right; exact IH2|exact IH3].
    + right. right. exists (fst p), (snd p). split; [reflexivity|]. rewrite <- surjective_pairing. split; [left|].
      split; [exact E|]. rewrite (rcheck_eye_ok dbg n g p (gm_turn g) W Hp), Ey. reflexivity.
Qed.

(** the points listed: those of the square, the empty ones among them *)
Lemma rpseudo_ok n g : rwf n (gm_goban g) -> exists v, pseudo_legals g = Ok v /\
  (forall p, p ∈ v -> in_square n p /\ ron n p) /\ (forall p, in_square n p -> pos_of (gm_goban g) p = None -> p ∈ v).
Proof.
  intros W. pose proof (rwf_n n _ W) as F. pose proof F as (_ & H1 & [k Hk]). unfold pseudo_legals.
  destruct (rempty_times n _ k (0, 0)%nat W Hk) as (v & E & _). exists v. split; [exact E|].
  assert (T : forall p, times p v = if ((fst p <? snd n) && (snd p <? snd n))%nat then match pos_of (gm_goban g) p with None => k | Some _ => k - 1 end%nat else 0%nat).
  { intros p. destruct (rempty_times n _ k p W Hk) as (v' & E' & _ & T). rewrite E in E'. injection E' as <-. exact T. }
  split.
  - intros p Hp. assert (S : in_square n p); [|split; [exact S|apply square_on; assumption]].
    assert (Hz : times p v <> 0%nat) by (intros Hz; apply times_zero in Hz; contradiction). rewrite T in Hz. split.
    + destruct (Nat.ltb_spec (fst p) (snd n)); [assumption|]. contradiction Hz. reflexivity.
    + destruct (Nat.ltb_spec (snd p) (snd n)); [assumption|]. contradiction Hz. rewrite andb_false_r. reflexivity.
  - intros p [A B] He. destruct (decide (p ∈ v)) as [|Hn]; [assumption|exfalso]. apply times_zero in Hn. rewrite T, He in Hn.
    apply Nat.ltb_lt in A, B. rewrite A, B in Hn. cbn in Hn. pose proof (fits_wide n F). nia.
Qed.

Lemma rchecked_empty dbg n b w g p f : rginv n b w g -> ron n p -> check_point_by dbg g p f = Ok None -> pos_of (gm_goban g) p = None.
Proof.
  intros G Hp K. destruct (rcheck_point_by_ok dbg n g p f (rgi_wf _ _ _ _ G) (rgi_hist _ _ _ _ G) Hp) as [[E' _]|(e & E' & HT)]; [congruence|].
  rewrite K in E'. injection E' as <-. tauto.
Qed.

Lemma roccupied_check dbg n b w g p f : rginv n b w g -> ron n p -> pos_of (gm_goban g) p <> None -> exists e, check_point_by dbg g p f = Ok (Some e).
Proof.
  intros G Hp He. unfold check_point_by. rewrite (rget_color_pos n _ p (rgi_wf _ _ _ _ G) Hp). cbn [bind].
  destruct (pos_of (gm_goban g) p); [eauto|contradiction].
Qed.

(** the list of points that pass the check under flags [f] *)
Lemma rlegals_of_checks dbg n b w g f : rginv n b w g ->
  (forall p, in_square n p -> pos_of (gm_goban g) p = None -> exists e, check_point_by dbg g p f = Ok e) ->
  exists l, legals_by dbg g f = Ok l /\ forall p, p ∈ l <-> in_square n p /\ check_point_by dbg g p f = Ok None.
Proof.
  intros G H. pose proof (rgi_wf _ _ _ _ G) as W. destruct (rpseudo_ok n g W) as (v & Ev & Hv & Hv').
  unfold legals_by. rewrite Ev. cbn [bind].
  rewrite (filterM_ok _ (fun p => match check_point_by dbg g p f with Ok None => true | _ => false end)).
  - eexists. split; [reflexivity|]. intros p. rewrite elem_of_list_In, filter_In, <- elem_of_list_In. split.
    + intros [Hp K]. apply Hv in Hp as [Hp _]. split; [exact Hp|]. destruct (check_point_by dbg g p f) as [[]| |]; try discriminate. reflexivity.
    + intros [Hp K]. rewrite K. split; [|reflexivity]. apply Hv'; [exact Hp|].
      apply (rchecked_empty dbg n b w g p f G (square_on n p (rwf_n n _ W) Hp) K).
  - intros p Hp. apply Hv in Hp as [Hp Hon]. destruct (pos_of (gm_goban g) p) eqn:He.
    + destruct (roccupied_check dbg n b w g p f G Hon ltac:(congruence)) as [e E]. rewrite E. reflexivity.
    + destruct (H p Hp He) as [e E]. rewrite E. cbn [bind]. destruct e; reflexivity.
Qed.

Lemma rlegals_checks dbg n b w g f l : rginv n b w g -> legals_by dbg g f = Ok l ->
  (forall p, in_square n p -> pos_of (gm_goban g) p = None -> exists e, check_point_by dbg g p f = Ok e) /\
  forall p, p ∈ l <-> in_square n p /\ check_point_by dbg g p f = Ok None.
Proof.
  intros G E. pose proof (rgi_wf _ _ _ _ G) as W.
  assert (H : forall p, in_square n p -> pos_of (gm_goban g) p = None -> exists e, check_point_by dbg g p f = Ok e).
  { destruct (rpseudo_ok n g W) as (v & Ev & _ & Hv). unfold legals_by in E. rewrite Ev in E. cbn [bind] in E.
    intros p Hp He. assert (Hin : p ∈ v) by (apply Hv; auto). clear Hv Ev He. revert l E. induction Hin as [p v|p q v Hin IH]; intros l E; cbn [filterM] in E.
    - apply bind_ok in E as (x & E & _). apply bind_ok in E as (e & E & _). exists e. exact E.
    - apply bind_ok in E as (x & _ & E). apply bind_ok in E as (ys & E & _). exact (IH Hp ys E). }
  split; [exact H|]. destruct (rlegals_of_checks dbg n b w g f G H) as (l' & E' & Hl). rewrite E in E'. injection E' as <-. exact Hl.
Qed.

Lemma rlegals_panic dbg n b w g f : rginv n b w g -> (exists l, legals_by dbg g f = Ok l) \/ (legals_by dbg g f = Panic /\ no_slot_left g).
Proof.
  intros G. pose proof (rgi_wf _ _ _ _ G) as W. destruct (rpseudo_ok n g W) as (v & Ev & Hv & _). unfold legals_by. rewrite Ev. cbn [bind].
  assert (K : forall p, p ∈ v -> ron n p) by (intros p Hp; apply Hv in Hp; tauto). clear Hv Ev.
  induction v as [|q v IH]; cbn [filterM]; [left; eauto|].
  destruct (rcheck_point_by_ok dbg n g q f W (rgi_hist _ _ _ _ G) (K q (elem_of_list_here _ _))) as [(E & L & _)|(e & E & _)]; rewrite E; cbn [bind]; [right; auto|].
  destruct IH as [[l E2]|[E2 L]]; [intros p Hp; apply K; right; exact Hp| |]; rewrite E2; cbn [bind]; [left; eauto|right; auto].
Qed.

Section Playout.
  Variables (dbg : bool) (n : size_t) (shuffles : nat -> list coord -> list coord).
  Hypothesis Hd : Nat.divide (snd n) (fst n).
  Hypothesis Hsh : forall i l, shuffles i l ≡ₚ l.

  Lemma rfast_step b w g i : rgreach dbg n b w g -> is_over g = false ->
    (let! m := fast_play_random (shuffles i) dbg g in play dbg g m) = Panic /\ no_slot_left g \/
    exists g' b' w', (let! m := fast_play_random (shuffles i) dbg g in play dbg g m) = Ok g' /\ rplayout_step dbg n g g' /\
      rgreach dbg n b' w' g' /\ (left b' w' g' < left b w g)%N.
  Proof using Hsh Hd.
    intros HG HO. pose proof (rgreach_inv _ _ _ _ _ Hd HG) as G. pose proof (rgi_wf _ _ _ _ G) as W. destruct (not_over g HO) as [_ HP].
    pose proof (rwf_n n _ W) as F.
    destruct (rpseudo_ok n g W) as (v & Ev & Hv & Hv2). unfold fast_play_random. rewrite Ev. cbn [bind].
    assert (Hs : forall p, p ∈ shuffles i v <-> p ∈ v) by (intros p; rewrite (Hsh i v); reflexivity).
    destruct (rfirst_playable_spec dbg n b w g (shuffles i v) G) as [[E L]|[[E HA]|(x & y & E & Hin & Hc & Hy)]]; [intros p Hp; apply Hv, Hs, Hp|..]; rewrite E; cbn [bind].
    - left. auto.
    - right. destruct (play_pass dbg g HP) as (g' & Eg & _). exists g', b, w. split; [exact Eg|].
      destruct (rleft_pass dbg n b w g g' HG HO Eg) as [HG' HL]. split; [|auto].
      destruct (rlegals_of_checks dbg n b w g (flag_illegal (gm_rule g)) G) as (l & El & Hl).
      { intros p Hp He. destruct (HA p) as (e & Ee & _); [apply Hs; auto|eauto]. }
      apply (rstep_pass dbg n g g' l HO El); [|apply try_pass; assumption].
      intros p Hp. apply Hl in Hp as [Hp Ec]. pose proof (square_on n p F Hp) as Hon.
      destruct (HA p) as (e & Ee & K); [apply Hs, Hv2; [exact Hp|exact (rchecked_empty dbg n b w g p _ G Hon Ec)]|].
      destruct (reye_exact dbg n g p (gm_turn g) W Hon) as (v' & Ev' & Hv'). apply Hv'. unfold check_point in Ee. rewrite K in Ev' by congruence. congruence.
    - apply Hs, Hv in Hin as [Hq Hp]. pose proof (rchecked_empty dbg n b w g (x, y) _ G Hp Hc) as He.
      destruct (rplay_spec dbg n b w g x y G Hp He) as [[X [L _]]|(g' & Eg & _)]; [left; auto|right].
      destruct (rleft_stone dbg n b w g x y g' Hd HG HO Hp He Eg) as (b' & w' & HG' & HL). exists g', b', w'. split; [exact Eg|]. split; [|auto].
      apply (rstep_stone dbg n g g' x y HO Hq).
      + rewrite (rtry_play_point dbg n g x y W Hp) by lia. rewrite Hc. cbn [bind]. rewrite Eg. reflexivity.
      + destruct (reye_exact dbg n g (x, y) (gm_turn g) W Hp) as (v' & Ev' & Hv'). rewrite <- Hv'. congruence.
  Qed.

  Theorem rplayout_spec fuel : forall i b w g, rgreach dbg n b w g -> (left b w g < N.of_nat fuel)%N ->
    (exists g', playout fuel i shuffles dbg g = Ok g' /\ rtc (rplayout_step dbg n) g g' /\ is_over g' = true) \/
    (playout fuel i shuffles dbg g = Panic /\ exists g1, rtc (rplayout_step dbg n) g g1 /\ no_slot_left g1).
  Proof using Hsh Hd.
    induction fuel as [|fuel IH]; intros i b w g HG HL; [lia|]. rewrite playout_unfold. destruct (is_over g) eqn:HO.
    { left. exists g. split; [reflexivity|]. split; [apply rtc_refl|exact HO]. }
    destruct (rfast_step b w g i HG HO) as [[E L]|(g' & b' & w' & E & HS & HG' & HL')]; rewrite E; cbn [bind].
    - right. split; [reflexivity|]. exists g. split; [apply rtc_refl|exact L].
    - destruct (IH (S i) b' w' g' HG' ltac:(lia)) as [(g2 & E2 & R & O)|(E2 & g1 & R & L)].
      + left. exists g2. split; [exact E2|]. split; [eapply rtc_l; eassumption|exact O].
      + right. split; [exact E2|]. exists g1. split; [eapply rtc_l; eassumption|exact L].
  Qed.
End Playout.

Lemma rstep_greach dbg n b w g g' : Nat.divide (snd n) (fst n) -> rgreach dbg n b w g -> rplayout_step dbg n g g' -> exists b' w', rgreach dbg n b' w' g'.
Proof.
  intros Hd HG [x y HO Hp E _|l HO El _ E].
  - pose proof (rgreach_inv _ _ _ _ _ Hd HG) as G. pose proof (square_on n _ (rwf_n n _ (rgi_wf _ _ _ _ G)) Hp) as Hon.
    destruct (raccepted_empty dbg n g x y g' (rgi_wf _ _ _ _ G) (rgi_hist _ _ _ _ G) Hon E) as (He & _ & _ & Ep). eauto using rg_play.
  - apply try_pass_inv in E. eauto using rg_pass.
Qed.

Lemma rstep_lreach dbg n g g' : Nat.divide (snd n) (fst n) -> rlreach dbg n g -> rplayout_step dbg n g g' -> rlreach dbg n g'.
Proof.
  intros Hd HL [x y HO Hp E _|l HO El _ E]; [|eauto using rl_pass]. destruct (rlreach_greach dbg n g Hd HL) as (b & w & HG).
  pose proof (rgreach_inv _ _ _ _ _ Hd HG) as G. pose proof (square_on n _ (rwf_n n _ (rgi_wf _ _ _ _ G)) Hp). eauto using rl_play.
Qed.

Lemma rsteps_lreach dbg n g g' : Nat.divide (snd n) (fst n) -> rlreach dbg n g -> rtc (rplayout_step dbg n) g g' -> rlreach dbg n g'.
Proof. intros Hd HL R. induction R; eauto using rstep_lreach. Qed.

Lemma rfast_bring dbg n b w g x y : rginv n b w g -> in_square n (x, y) -> pos_of (gm_goban g) (x, y) = None ->
  fast_play_random (bring (x, y)) dbg g =
  let! e := check_point dbg g (x, y) in
  match e with
  | None => let! b := check_eye dbg g ((x, y), gm_turn g) in
            if b then let! v := pseudo_legals g in first_playable dbg g (tl (bring (x, y) v)) else Ok (MPlay x y)
  | Some _ => let! v := pseudo_legals g in first_playable dbg g (tl (bring (x, y) v))
  end.
Proof.
  intros G Hp He. destruct (rpseudo_ok n g (rgi_wf _ _ _ _ G)) as (v & Ev & _ & Hv). unfold fast_play_random. rewrite Ev. cbn [bind].
  destruct (bring_head (x, y) v) as [t Et]; [apply Hv; auto|]. rewrite Et. cbn [first_playable tl fst snd].
  destruct (check_point dbg g (x, y)) as [[e|]| |]; reflexivity.
Qed.

(** every step can be made by some shuffle *)
Lemma rstep_possible dbg n b w g g' : Nat.divide (snd n) (fst n) -> rgreach dbg n b w g -> rplayout_step dbg n g g' ->
  exists sh, (forall l, sh l ≡ₚ l) /\ (let! m := fast_play_random sh dbg g in play dbg g m) = Ok g'.
Proof.
  intros Hd HG HS. pose proof (rgreach_inv _ _ _ _ _ Hd HG) as G. pose proof (rgi_wf _ _ _ _ G) as W. pose proof (rwf_n n _ W) as F. destruct HS as [x y HO Hq E Ey|l HO El HA E].
  - pose proof (square_on n _ F Hq) as Hp.
    destruct (raccepted_empty dbg n g x y g' W (rgi_hist _ _ _ _ G) Hp E) as (He & _ & Ec & Ep).
    exists (bring (x, y)). split; [apply bring_perm|]. rewrite (rfast_bring dbg n b w g x y G Hq He), Ec. cbn [bind].
    destruct (reye_exact dbg n g (x, y) (gm_turn g) W Hp) as ([] & Ev & Hv); [destruct Ey; apply Hv; reflexivity|].
    assert (Ev' : check_eye dbg g ((x, y), gm_turn g) = Ok false) by exact Ev. rewrite Ev'. exact Ep.
  - exists (fun l => l). split; [reflexivity|]. apply try_pass_inv in E. destruct (rlegals_checks dbg n b w g _ l G El) as [H1 H2].
    destruct (rpseudo_ok n g W) as (v & Ev & Hv & _). unfold fast_play_random. rewrite Ev. cbn [bind].
    replace (first_playable dbg g v) with (@Ok move MPass); [exact E|]. symmetry. clear Ev.
    induction v as [|p v IH]; [reflexivity|]. cbn [first_playable]. destruct (Hv p) as [Hq Hp]; [left|].
    assert (IH' : first_playable dbg g v = Ok MPass) by (apply IH; intros q Hq'; apply Hv; right; exact Hq').
    assert (Ee : exists e, check_point dbg g p = Ok e).
    { unfold check_point. destruct (pos_of (gm_goban g) p) eqn:He; [|apply H1; assumption].
      destruct (roccupied_check dbg n b w g p (flag_illegal (gm_rule g)) G Hp ltac:(congruence)) as [e Ee]. eauto. }
    destruct Ee as [e Ee]. rewrite Ee. cbn [bind].
    destruct e; [exact IH'|]. destruct (reye_exact dbg n g p (gm_turn g) W Hp) as (v' & Ev & Hv').
    rewrite (proj2 Hv' (HA p ltac:(apply H2; auto))) in Ev. rewrite Ev. exact IH'.
Qed.

Theorem rplayout_complete dbg n g g' : Nat.divide (snd n) (fst n) -> rtc (rplayout_step dbg n) g g' -> forall b w, rgreach dbg n b w g -> is_over g' = true ->
  forall i, exists shuffles fuel, (forall j l, shuffles j l ≡ₚ l) /\ playout fuel i shuffles dbg g = Ok g'.
Proof.
  intros Hd. induction 1 as [g|g g1 g' HS R IH]; intros b w HG HO i.
  { exists (fun _ l => l), 0%nat. split; [reflexivity|]. cbn [playout]. rewrite HO. reflexivity. }
  destruct (rstep_greach dbg n b w g g1 Hd HG HS) as (b1 & w1 & HG1).
  destruct (IH b1 w1 HG1 HO (S i)) as (sh & fuel & Hp & E). destruct (rstep_possible dbg n b w g g1 Hd HG HS) as (s & Hs & Es).
  exists (fun j => if (j =? i)%nat then s else sh j), (S fuel). split; [intros j l; destruct (j =? i)%nat; auto|].
  rewrite playout_unfold. assert (HN : is_over g = false) by (destruct HS; assumption). rewrite HN, Nat.eqb_refl, Es. cbn [bind].
  rewrite <- E. assert (K : forall fuel k g, (i < k)%nat -> playout fuel k (fun j => if (j =? i)%nat then s else sh j) dbg g = playout fuel k sh dbg g); [|apply K; lia].
  clear. induction fuel as [|fuel IH]; intros k g Hk; [reflexivity|]. rewrite !playout_unfold. destruct (is_over g); [reflexivity|].
  replace (k =? i)%nat with false by (symmetry; apply Nat.eqb_neq; lia). destruct (let! m := fast_play_random (sh k) dbg g in play dbg g m); cbn [bind]; [|reflexivity..].
  apply IH. lia.
Qed.

(** ** Below the square nothing is ever put *)

Lemma rmove_below s n P p c R q : rgo_move s n P p c R -> ron n q -> q <> p -> R q = P q \/ R q = None.
Proof.
  intros (Q & HQ & HR) Hq Hne. destruct (R q) as [x|] eqn:E; [left|right; reflexivity].
  destruct (rcleared_stone n _ _ _ q HR Hq ltac:(congruence)) as [_ E1].
  destruct (rcleared_stone n _ _ _ q HQ Hq ltac:(congruence)) as [_ E2]. rewrite <- E, E1, E2. apply put_other, Hne.
Qed.

Lemma rplay_below dbg n b w g x y g' p : rginv n b w g -> in_square n (x, y) -> try_play dbg g (MPlay x y) = Ok (g', Accepted) ->
  ron n p -> ~ in_square n p -> position g' p = position g p \/ position g' p = None.
Proof.
  intros G Hq E Hp Hn. pose proof (square_on n _ (rwf_n n _ (rgi_wf _ _ _ _ G)) Hq) as Hon.
  destruct (raccepted_step dbg n b w g x y g' G Hon E) as (_ & _ & _ & HM). apply (rmove_below _ _ _ _ _ _ p HM Hp). intros ->. contradiction.
Qed.

Lemma rstep_below dbg n b w g g' p : Nat.divide (snd n) (fst n) -> rgreach dbg n b w g -> rplayout_step dbg n g g' ->
  ron n p -> ~ in_square n p -> position g' p = position g p \/ position g' p = None.
Proof.
  intros Hd HG HS Hp Hn. pose proof (rgreach_inv _ _ _ _ _ Hd HG) as G. destruct HS as [x y HO Hq E _|l HO El _ E].
  - exact (rplay_below dbg n b w g x y g' p G Hq E Hp Hn).
  - left. apply try_pass_inv in E. unfold play in E. destruct (gm_passes g <? 2)%nat; [|discriminate]. cbn in E. injection E as <-. reflexivity.
Qed.

Theorem rsteps_below dbg n g g' p : Nat.divide (snd n) (fst n) -> rtc (rplayout_step dbg n) g g' -> forall b w, rgreach dbg n b w g ->
  ron n p -> ~ in_square n p -> position g' p = position g p \/ position g' p = None.
Proof.
  intros Hd. induction 1 as [g|g g1 g' HS R IH]; intros b w HG Hp Hn; [left; reflexivity|].
  destruct (rstep_greach dbg n b w g g1 Hd HG HS) as (b1 & w1 & HG1).
  destruct (IH b1 w1 HG1 Hp Hn) as [->| ->]; [exact (rstep_below dbg n b w g g1 p Hd HG HS Hp Hn)|right; reflexivity].
Qed.

(** ** The moves offered to the tree search *)

Lemma rlegals_times dbg n b w g f k : fst n = (k * snd n)%nat -> rginv n b w g -> ~ no_slot_left g ->
  exists l, legals_by dbg g f = Ok l /\ (forall p, p ∈ l <-> in_square n p /\ check_point_by dbg g p f = Ok None) /\
    forall p, p ∈ l -> times p l = k.
Proof.
  intros Hk G HL. pose proof (rgi_wf _ _ _ _ G) as W. destruct (rlegals_panic dbg n b w g f G) as [[l El]|[_ L]]; [|contradiction].
  exists l. destruct (rlegals_checks dbg n b w g f l G El) as [H1 H2]. split; [exact El|]. split; [exact H2|].
  intros p Hin. pose proof (proj1 (H2 p) Hin) as [Hq Hc]. pose proof (square_on n p (rwf_n n _ W) Hq) as Hp. pose proof (rchecked_empty dbg n b w g p f G Hp Hc) as He.
  destruct (rempty_times n _ k p W Hk) as (v & Ev & Hon & T). rewrite He in T. destruct Hq as [A B]. apply Nat.ltb_lt in A, B. rewrite A, B in T. cbn [andb] in T.
  unfold legals_by, pseudo_legals in El. rewrite Ev in El. cbn [bind] in El.
  rewrite (filterM_ok _ (fun p => match check_point_by dbg g p f with Ok None => true | _ => false end)) in El.
  - injection El as <-. rewrite times_filter, Hc. exact T.
  - intros q Hq. apply Hon in Hq. destruct (rcheck_point_by_ok dbg n g q f W (rgi_hist _ _ _ _ G) Hq) as [(_ & L & _)|(e & -> & _)]; [contradiction|]. destruct e; reflexivity.
Qed.

Lemma raccepted_iff dbg n b w g x y : rginv n b w g -> ~ no_slot_left g -> gm_passes g <> 2%nat -> ron n (x, y) ->
  (exists g', try_play dbg g (MPlay x y) = Ok (g', Accepted)) <-> check_point dbg g (x, y) = Ok None.
Proof.
  intros G HL HP Hp. rewrite (rtry_play_point dbg n g x y (rgi_wf _ _ _ _ G) Hp HP). split.
  - intros [g' E]. apply bind_ok in E as (e & Ee & E). destruct e; [discriminate|exact Ee].
  - intros E. rewrite E. cbn [bind]. pose proof (rchecked_empty dbg n b w g (x, y) _ G Hp E) as He.
    destruct (rplay_spec dbg n b w g x y G Hp He) as [[_ [L _]]|(g' & -> & _)]; [contradiction|]. eexists. reflexivity.
Qed.

Lemma raccepted_reasons n f t p :
  first_reason (rpoint_reasons n (N.lor f FILLEYE) t p) Accepted <->
  first_reason (rpoint_reasons n f t p) Accepted /\ ~ reye_shape n (t_pos t) (t_turn t) p.
Proof.
  assert (H3 : no_fill_eye (N.lor f FILLEYE) = true) by (unfold no_fill_eye; rewrite N.lor_spec; apply orb_true_r).
  assert (H2 : no_suicide (N.lor f FILLEYE) = no_suicide f) by (unfold no_suicide; rewrite N.lor_spec; apply orb_false_r).
  assert (H1 : no_superko (N.lor f FILLEYE) = no_superko f) by (unfold no_superko; rewrite N.lor_spec; apply orb_false_r).
  assert (H0 : no_ko (N.lor f FILLEYE) = no_ko f) by (unfold no_ko; rewrite N.lor_spec; apply orb_false_r).
  unfold first_reason, rpoint_reasons. rewrite H0, H1, H2, H3, !Forall_cons. cbn [snd].
  assert (T : true = true) by reflexivity. tauto.
Qed.

Lemma occurs_map p l : length (filter (fun m => m = MPlay (fst p) (snd p)) (List.map (fun p : coord => MPlay (fst p) (snd p)) l)) = times p l.
Proof.
  unfold times. induction l as [|q l IH]; [reflexivity|]. cbn [List.map]. rewrite !filter_cons.
  destruct (decide (MPlay (fst q) (snd q) = MPlay (fst p) (snd p))) as [E|E]; destruct (decide (q = p)) as [E'|E']; cbn [Datatypes.length]; rewrite ?IH; try reflexivity.
  - exfalso. injection E as E1 E2. apply E'. destruct p, q; cbn in *; congruence.
  - subst. contradiction.
Qed.

Theorem rsearch_moves dbg n b w g k : fst n = (k * snd n)%nat -> rgreach dbg n b w g -> ~ no_slot_left g -> gm_passes g <> 2%nat ->
  exists ms, legals_moves dbg g = Ok ms /\
    (forall x y, MPlay x y ∈ ms <->
       in_square n (x, y) /\ (exists g', try_play dbg g (MPlay x y) = Ok (g', Accepted)) /\ ~ reye_shape n (position g) (gm_turn g) (x, y)) /\
    (forall x y, MPlay x y ∈ ms -> length (filter (fun m => m = MPlay x y) ms) = k) /\
    (MPass ∈ ms <-> is_over g = false /\ forall x y, MPlay x y ∉ ms) /\
    (forall c, MResign c ∉ ms).
Proof.
  intros Hk HG HS HP. pose proof (ex_intro _ k Hk : Nat.divide (snd n) (fst n)) as Hd. pose proof (rgreach_inv _ _ _ _ _ Hd HG) as G.
  pose proof (rwf_n n _ (rgi_wf _ _ _ _ G)) as F.
  destruct (rlegals_times dbg n b w g (N.lor (flag_illegal (gm_rule g)) FILLEYE) k Hk G HS) as (l & E & Hl & Ht).
  assert (Hp : forall x y, (x, y) ∈ l <->
    in_square n (x, y) /\ (exists g', try_play dbg g (MPlay x y) = Ok (g', Accepted)) /\ ~ reye_shape n (position g) (gm_turn g) (x, y)).
  { intros x y. rewrite Hl. split; intros [Hq H]; pose proof (square_on n _ F Hq) as Ho; (split; [exact Hq|]).
    - apply (rcheck_exact dbg n b w g (x, y) _ Accepted Hd HG Ho HS), raccepted_reasons in H as [H He]. split; [|exact He].
      apply (raccepted_iff dbg n b w g x y G HS HP Ho). apply (rcheck_exact dbg n b w g (x, y) _ Accepted Hd HG Ho HS). exact H.
    - destruct H as [H He]. apply (raccepted_iff dbg n b w g x y G HS HP Ho) in H.
      apply (rcheck_exact dbg n b w g (x, y) _ Accepted Hd HG Ho HS), raccepted_reasons. split; [|exact He].
      apply (rcheck_exact dbg n b w g (x, y) _ Accepted Hd HG Ho HS). exact H. }
  assert (Hm : forall m, m ∈ List.map (fun p : coord => MPlay (fst p) (snd p)) l <-> exists x y, m = MPlay x y /\ (x, y) ∈ l).
  { intros m. rewrite elem_of_list_In, in_map_iff. split.
    - intros ([x y] & <- & H). exists x, y. split; [reflexivity|]. apply elem_of_list_In, H.
    - intros (x & y & -> & H). exists (x, y). split; [reflexivity|]. apply elem_of_list_In, H. }
  assert (Hc : forall x y, MPlay x y ∈ List.map (fun p : coord => MPlay (fst p) (snd p)) l ->
     length (filter (fun m => m = MPlay x y) (List.map (fun p : coord => MPlay (fst p) (snd p)) l)) = k).
  { intros x y H. apply Hm in H as (a & c & [= -> ->] & H). pose proof (occurs_map (a, c) l) as K. cbn [fst snd] in K. rewrite K. apply Ht, H. }
  unfold legals_moves. rewrite E. cbn [bind]. eexists. split; [reflexivity|]. destruct l as [|p l].
  - cbn [List.map] in *. assert (N0 : forall m, m ∉ ([] : list move)) by (intros m H; inversion H).
    assert (NN : forall x y, ~ (in_square n (x, y) /\ (exists g', try_play dbg g (MPlay x y) = Ok (g', Accepted)) /\ ~ reye_shape n (position g) (gm_turn g) (x, y))).
    { intros x y H. apply Hp in H. inversion H. }
    destruct (is_over g).
    + split; [|split; [|split]].
      * intros x y. split; [intros H; destruct (N0 _ H)|intros H; destruct (NN _ _ H)].
      * intros x y H. destruct (N0 _ H).
      * split; [intros H; destruct (N0 _ H)|intros [H _]; discriminate].
      * intros c. apply N0.
    + split; [|split; [|split]].
      * intros x y. rewrite elem_of_list_singleton. split; [discriminate|intros H; destruct (NN _ _ H)].
      * intros x y. rewrite elem_of_list_singleton. discriminate.
      * rewrite elem_of_list_singleton. split; [|reflexivity]. intros _. split; [reflexivity|]. intros x y. rewrite elem_of_list_singleton. discriminate.
      * intros c. rewrite elem_of_list_singleton. discriminate.
  - set (ms := List.map _ _) in *. assert (Ems : match ms with [] => if is_over g then [] else [MPass] | _ :: _ => ms end = ms) by reflexivity.
    rewrite Ems. split; [|split; [|split]].
    + intros x y. rewrite Hm, <- Hp. split; [intros (a & c & [= -> ->] & H); exact H|eauto].
    + exact Hc.
    + split.
      * intros H. apply Hm in H as (x & y & H & _). discriminate.
      * intros [_ H]. destruct p as [x y]. destruct (H x y). apply Hm. exists x, y. split; [reflexivity|left].
    + intros c H. apply Hm in H as (x & y & H & _). discriminate.
Qed.
