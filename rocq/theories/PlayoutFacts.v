(** Random playouts end, follow the rules, and may run out of group numbers;
    [dead_stones]. *)
From stdpp Require Import relations sorting.
From Verif Require Import PlayoutSpec Samples.
From Verif Require Import Struct Push Inv Remove Capture Bridge MonadFacts GameFacts RulesFacts BoardFacts EyeFacts EyeExact LegalFacts LegalsFacts ApiFacts.
From Coq Require Import Lia.

Local Notation length := Datatypes.length.

Lemma count_le n P : (count n P Black + count n P White <= n * n)%nat.
Proof.
  unfold count. transitivity (length (points n)).
  - generalize (points n). intros l. induction l as [|p l IH]; [cbn; lia|]. rewrite !filter_cons.
    destruct (P p) as [[]|]; repeat case_decide; try congruence; cbn; lia.
  - rewrite points_length. lia.
Qed.

(** every stone took a group number or joined a group *)
Lemma stones_bound dbg n b w g : greach dbg n b w g -> (N.of_nat (b + w) <= 23658496)%N.
Proof.
  intros HG. pose proof (greach_inv _ _ _ _ _ HG) as G. pose proof (gi_pris _ _ _ _ G) as H.
  pose proof (dslots_le (gm_goban g)). pose proof (wf0_len _ (wf_0 n _ (gi_wf _ _ _ _ G))).
  pose proof (gi_black _ _ _ _ G). pose proof (gi_white _ _ _ _ G). pose proof (count_le n (pos_of (gm_goban g))).
  pose proof (wf_n n _ (gi_wf _ _ _ _ G)). assert (n * n <= 361)%nat by nia. unfold rem_total in H. lia.
Qed.

(** what is left to be played, as a number that goes down with every move *)
Definition left (b w : nat) (g : game) : N := (2 * (23658496 - N.of_nat (b + w)) + (2 - N.of_nat (gm_passes g)))%N.

Lemma left_max b w g : (left b w g <= 47316994)%N.
Proof. unfold left. lia. Qed.

Lemma not_over g : is_over g = false -> gm_outcome g = None /\ (gm_passes g <= 1)%nat.
Proof. unfold is_over. destruct (gm_outcome g); [discriminate|]. intros H. apply Nat.leb_gt in H. split; [reflexivity|lia]. Qed.

Lemma left_stone dbg n b w g x y g' : greach dbg n b w g -> is_over g = false -> on n (x, y) ->
  pos_of (gm_goban g) (x, y) = None -> play dbg g (MPlay x y) = Ok g' ->
  exists b' w', greach dbg n b' w' g' /\ (left b' w' g' < left b w g)%N.
Proof.
  intros HG HO Hp He E. pose proof (gr_play _ _ _ _ _ _ _ _ HG Hp He E) as HG'. apply not_over in HO as [_ HO].
  pose proof (stones_bound _ _ _ _ _ HG'). exists (fst (bump_count (gm_turn g) (b, w))), (snd (bump_count (gm_turn g) (b, w))).
  split; [exact HG'|]. unfold left. destruct (gm_turn g); cbn [bump_count fst snd] in *; lia.
Qed.

Lemma play_pass dbg g : (gm_passes g <= 1)%nat -> exists g', play dbg g MPass = Ok g' /\ gm_passes g' = S (gm_passes g).
Proof.
  intros H. unfold play. destruct (play dbg g MPass) eqn:E.
  - unfold play in E. cbn in *. rewrite E. eexists. split; [reflexivity|].
    unfold play in E. destruct (gm_passes g) as [|[|]]; try lia; cbn in E; injection E as <-; reflexivity.
  - apply pass_panics in E. lia.
  - unfold play in E. destruct (gm_passes g) as [|[|]]; try lia; cbn in E; discriminate.
Qed.

Lemma left_pass dbg n b w g g' : greach dbg n b w g -> is_over g = false -> play dbg g MPass = Ok g' ->
  greach dbg n b w g' /\ (left b w g' < left b w g)%N.
Proof.
  intros HG HO E. split; [exact (gr_pass _ _ _ _ _ _ HG E)|]. apply not_over in HO as [_ HO].
  destruct (play_pass dbg g HO) as (g1 & E1 & HP). rewrite E in E1. injection E1 as <-. unfold left. lia.
Qed.

Lemma try_pass dbg g g' : (gm_passes g <= 1)%nat -> play dbg g MPass = Ok g' -> try_play dbg g MPass = Ok (g', Accepted).
Proof. intros H E. unfold try_play. destruct (Nat.eqb_spec (gm_passes g) 2); [lia|]. rewrite E. reflexivity. Qed.

Lemma try_pass_inv dbg g g' : try_play dbg g MPass = Ok (g', Accepted) -> play dbg g MPass = Ok g'.
Proof. unfold try_play. destruct (Nat.eqb_spec (gm_passes g) 2); [discriminate|]. intros H. apply bind_ok in H as (x & E & H). congruence. Qed.

(** what the scan of the points finds *)
Definition useful (dbg : bool) (g : game) (p : coord) : Prop :=
  check_point dbg g p = Ok None /\ check_eye dbg g (p, gm_turn g) = Ok false.

Lemma first_playable_spec dbg n b w g l : ginv n b w g -> (forall p, p ∈ l -> on n p) ->
  (first_playable dbg g l = Panic /\ no_slot_left g) \/
  (first_playable dbg g l = Ok MPass /\
   forall p, p ∈ l -> exists e, check_point dbg g p = Ok e /\ (e = None -> check_eye dbg g (p, gm_turn g) = Ok true)) \/
  exists x y, first_playable dbg g l = Ok (MPlay x y) /\ (x, y) ∈ l /\ useful dbg g (x, y).
Proof.
  intros G. pose proof (gi_wf _ _ _ _ G) as W. induction l as [|p l IH]; intros Hl; cbn [first_playable].
  { right. left. split; [reflexivity|]. intros p Hp. apply elem_of_nil in Hp. contradiction. }
  assert (Hp : on n p) by (apply Hl; left).
  assert (Hl' : forall q, q ∈ l -> on n q) by (intros q Hq; apply Hl; right; exact Hq).
  unfold check_point at 1 2 4. 
  destruct (check_point_by_ok dbg n g p (flag_illegal (gm_rule g)) W (gi_hist _ _ _ _ G) Hp) as [(E & L & _)|(e & E & _)].
  { left. rewrite E. split; [reflexivity|exact L]. }
  rewrite E. cbn [bind]. destruct e as [e|].
  - destruct (IH Hl') as [IH'|[[IH1 IH2]|(x & y & IH1 & IH2 & IH3)]]; [left; exact IH'|right; left|right; right].
    + split; [exact IH1|]. intros q Hq. apply elem_of_cons in Hq as [->|Hq]; [|apply IH2, Hq]. exists (Some e). split; [exact E|discriminate].
    + exists x, y. split; [exact IH1|]. split; [right; exact IH2|exact IH3].
  - rewrite (check_eye_ok dbg n g p (gm_turn g) W Hp). cbn [bind]. destruct (eye n (pos_of (gm_goban g)) (gm_turn g) p) eqn:Ey.
    + destruct (IH Hl') as [IH'|[[IH1 IH2]|(x & y & IH1 & IH2 & IH3)]]; [left; exact IH'|right; left|right; right].
      * split; [exact IH1|]. intros q Hq. apply elem_of_cons in Hq as [->|Hq]; [|apply IH2, Hq]. exists None. split; [exact E|].
        intros _. rewrite (check_eye_ok dbg n g p (gm_turn g) W Hp), Ey. reflexivity.
      * exists x, y. split; [exact IH1|]. split; [right; exact IH2|exact IH3].
    + right. right. exists (fst p), (snd p). split; [reflexivity|]. rewrite <- surjective_pairing. split; [left|].
      split; [exact E|]. rewrite (check_eye_ok dbg n g p (gm_turn g) W Hp), Ey. reflexivity.
Qed.

Lemma pseudo_ok n g : wf n (gm_goban g) -> exists v, pseudo_legals g = Ok v /\ forall p, p ∈ v <-> on n p /\ pos_of (gm_goban g) p = None.
Proof. intros W. destruct (legals_none true n g W) as (l & E & _ & H). exists l. auto. Qed.

(** [legals] is total once every point can be checked *)
Lemma legals_of_checks dbg n b w g : ginv n b w g ->
  (forall p, on n p -> pos_of (gm_goban g) p = None -> exists e, check_point dbg g p = Ok e) ->
  exists l, legals dbg g = Ok l /\ forall p, p ∈ l <-> on n p /\ check_point dbg g p = Ok None.
Proof.
  intros G H. pose proof (gi_wf _ _ _ _ G) as W. destruct (pseudo_ok n g W) as (v & Ev & Hv).
  unfold legals, legals_by. rewrite Ev. cbn [bind].
  rewrite (filterM_ok _ (fun p => match check_point dbg g p with Ok None => true | _ => false end)).
  - eexists. split; [reflexivity|]. intros p. rewrite elem_of_list_In, filter_In, <- elem_of_list_In, Hv. split.
    + intros [[Hp He] K]. split; [exact Hp|]. destruct (check_point dbg g p) as [[]| |]; try discriminate. reflexivity.
    + intros [Hp K]. rewrite K. split; [|reflexivity]. split; [exact Hp|].
      destruct (check_point_by_ok dbg n g p (flag_illegal (gm_rule g)) W (gi_hist _ _ _ _ G) Hp) as [[E' _]|(e & E' & HT)]; unfold check_point in K; [congruence|].
      rewrite K in E'. injection E' as <-. tauto.
  - intros p Hp. apply Hv in Hp as [Hp He]. destruct (H p Hp He) as [e E]. unfold check_point in *. rewrite E. cbn [bind]. destruct e; reflexivity.
Qed.

Lemma legals_checks dbg n b w g l : ginv n b w g -> legals dbg g = Ok l ->
  (forall p, on n p -> pos_of (gm_goban g) p = None -> exists e, check_point dbg g p = Ok e) /\
  forall p, p ∈ l <-> on n p /\ check_point dbg g p = Ok None.
Proof.
  intros G E. pose proof (gi_wf _ _ _ _ G) as W.
  assert (H : forall p, on n p -> pos_of (gm_goban g) p = None -> exists e, check_point dbg g p = Ok e).
  { destruct (pseudo_ok n g W) as (v & Ev & Hv). unfold legals, legals_by in E. rewrite Ev in E. cbn [bind] in E.
    intros p Hp He. assert (Hin : p ∈ v) by (apply Hv; auto). clear Hv Ev He. revert l E. induction Hin as [p v|p q v Hin IH]; intros l E; cbn [filterM] in E.
    - apply bind_ok in E as (x & E & _). apply bind_ok in E as (e & E & _). exists e. exact E.
    - apply bind_ok in E as (x & _ & E). apply bind_ok in E as (ys & E & _). exact (IH Hp ys E). }
  split; [exact H|]. destruct (legals_of_checks dbg n b w g G H) as (l' & E' & Hl). rewrite E in E'. injection E' as <-. exact Hl.
Qed.

Section Playout.
  Variables (dbg : bool) (n : nat) (shuffles : nat -> list coord -> list coord).
  Hypothesis Hsh : forall i l, shuffles i l ≡ₚ l.

  Lemma fast_step b w g i : greach dbg n b w g -> is_over g = false ->
    (let! m := fast_play_random (shuffles i) dbg g in play dbg g m) = Panic /\ no_slot_left g \/
    exists g' b' w', (let! m := fast_play_random (shuffles i) dbg g in play dbg g m) = Ok g' /\ playout_step dbg n g g' /\
      greach dbg n b' w' g' /\ (left b' w' g' < left b w g)%N.
  Proof using Hsh.
    intros HG HO. pose proof (greach_inv _ _ _ _ _ HG) as G. pose proof (gi_wf _ _ _ _ G) as W. destruct (not_over g HO) as [_ HP].
    destruct (pseudo_ok n g W) as (v & Ev & Hv). unfold fast_play_random. rewrite Ev. cbn [bind].
    assert (Hs : forall p, p ∈ shuffles i v <-> on n p /\ pos_of (gm_goban g) p = None) by (intros p; rewrite (Hsh i v); apply Hv).
    destruct (first_playable_spec dbg n b w g (shuffles i v) G) as [[E L]|[[E HA]|(x & y & E & Hin & Hc & Hy)]]; [intros p Hp; apply Hs, Hp|..]; rewrite E; cbn [bind].
    - left. auto.
    - right. destruct (play_pass dbg g HP) as (g' & Eg & _). exists g', b, w. split; [exact Eg|]. 
      destruct (left_pass dbg n b w g g' HG HO Eg) as [HG' HL]. split; [|auto].
      destruct (legals_of_checks dbg n b w g G) as (l & El & Hl).
      { intros p Hp He. destruct (HA p) as (e & Ee & _); [apply Hs; auto|eauto]. }
      apply (step_pass dbg n g g' l HO El); [|apply try_pass; assumption].
      intros p Hp. apply Hl in Hp as [Hp Ec]. destruct (HA p) as (e & Ee & K); [|destruct (claim_eye_exact dbg n b w g p (gm_turn g) HG Hp) as (v' & Ev' & Hv'); apply Hv'; rewrite K in Ev' by congruence; congruence].
      apply Hs. split; [exact Hp|]. destruct (check_point_by_ok dbg n g p (flag_illegal (gm_rule g)) W (gi_hist _ _ _ _ G) Hp) as [[E' _]|(e & E' & HT)]; unfold check_point in Ec; [congruence|].
      rewrite Ec in E'. injection E' as <-. tauto.
    - apply Hs in Hin as [Hp He]. destruct (play_spec dbg n b w g x y G Hp He) as [[F [L _]]|(g' & Eg & _)]; [left; auto|right].
      destruct (left_stone dbg n b w g x y g' HG HO Hp He Eg) as (b' & w' & HG' & HL). exists g', b', w'. split; [exact Eg|]. split; [|auto].
      apply (step_stone dbg n g g' x y HO Hp); [|destruct (claim_eye_exact dbg n b w g (x, y) (gm_turn g) HG Hp) as (v' & Ev' & Hv'); rewrite <- Hv'; congruence]. rewrite (try_play_point dbg n g x y W Hp) by lia. rewrite Hc. cbn [bind]. rewrite Eg. reflexivity.
  Qed.

  Lemma playout_unfold fuel i g : playout (S fuel) i shuffles dbg g =
    if is_over g then Ok g else let! g' := (let! m := fast_play_random (shuffles i) dbg g in play dbg g m) in playout fuel (S i) shuffles dbg g'.
  Proof using. cbn [playout]. destruct (is_over g); [reflexivity|]. destruct (fast_play_random (shuffles i) dbg g); reflexivity. Qed.

  Theorem playout_spec fuel : forall i b w g, greach dbg n b w g -> (left b w g < N.of_nat fuel)%N ->
    (exists g', playout fuel i shuffles dbg g = Ok g' /\ rtc (playout_step dbg n) g g' /\ is_over g' = true) \/
    (playout fuel i shuffles dbg g = Panic /\ exists g1, rtc (playout_step dbg n) g g1 /\ no_slot_left g1).
  Proof using Hsh.
    induction fuel as [|fuel IH]; intros i b w g HG HL; [lia|]. rewrite playout_unfold. destruct (is_over g) eqn:HO.
    { left. exists g. split; [reflexivity|]. split; [apply rtc_refl|exact HO]. }
    destruct (fast_step b w g i HG HO) as [[E L]|(g' & b' & w' & E & HS & HG' & HL')]; rewrite E; cbn [bind].
    - right. split; [reflexivity|]. exists g. split; [apply rtc_refl|exact L].
    - destruct (IH (S i) b' w' g' HG' ltac:(lia)) as [(g2 & E2 & R & O)|(E2 & g1 & R & L)].
      + left. exists g2. split; [exact E2|]. split; [eapply rtc_l; eassumption|exact O].
      + right. split; [exact E2|]. exists g1. split; [eapply rtc_l; eassumption|exact L].
  Qed.
End Playout.

Lemma step_greach dbg n b w g g' : greach dbg n b w g -> playout_step dbg n g g' -> exists b' w', greach dbg n b' w' g'.
Proof.
  intros HG [x y HO Hp E _|l HO El _ E].
  - pose proof (greach_inv _ _ _ _ _ HG) as G.
    destruct (accepted_empty dbg n g x y g' (gi_wf _ _ _ _ G) (gi_hist _ _ _ _ G) Hp E) as (He & _ & _ & Ep). eauto using gr_play.
  - apply try_pass_inv in E. eauto using gr_pass.
Qed.

Lemma step_lreach dbg n g g' : lreach dbg n g -> playout_step dbg n g g' -> lreach dbg n g'.
Proof. intros HL [x y HO Hp E _|l HO El _ E]; eauto using lr_play, lr_pass. Qed.

Lemma steps_lreach dbg n g g' : lreach dbg n g -> rtc (playout_step dbg n) g g' -> lreach dbg n g'.
Proof. intros HL R. induction R; eauto using step_lreach. Qed.

(** the shuffle that brings [p] to the front *)
Fixpoint extract (p : coord) (l : list coord) : list coord :=
  match l with [] => [] | q :: t => if coord_eqb p q then t else q :: extract p t end.
Definition bring (p : coord) (l : list coord) : list coord := if existsb (coord_eqb p) l then p :: extract p l else l.

Lemma extract_perm p l : existsb (coord_eqb p) l = true -> p :: extract p l ≡ₚ l.
Proof.
  induction l as [|q l IH]; cbn [existsb extract]; [discriminate|]. destruct (coord_eqb p q) eqn:E; cbn [orb].
  - apply coord_eqb_eq in E as ->. reflexivity.
  - intros H. rewrite <- (IH H) at 2. apply perm_swap.
Qed.
Lemma bring_perm p l : bring p l ≡ₚ l.
Proof. unfold bring. destruct (existsb (coord_eqb p) l) eqn:E; [apply extract_perm, E|reflexivity]. Qed.
Lemma bring_head p l : p ∈ l -> exists t, bring p l = p :: t.
Proof.
  intros H. unfold bring. replace (existsb (coord_eqb p) l) with true; [eauto|]. symmetry. apply existsb_exists. exists p.
  rewrite <- elem_of_list_In. split; [exact H|]. apply coord_eqb_eq. reflexivity.
Qed.

Lemma fast_bring dbg n b w g x y : ginv n b w g -> on n (x, y) -> pos_of (gm_goban g) (x, y) = None ->
  fast_play_random (bring (x, y)) dbg g =
  let! e := check_point dbg g (x, y) in
  match e with
  | None => let! b := check_eye dbg g ((x, y), gm_turn g) in
            if b then let! v := pseudo_legals g in first_playable dbg g (tl (bring (x, y) v)) else Ok (MPlay x y)
  | Some _ => let! v := pseudo_legals g in first_playable dbg g (tl (bring (x, y) v))
  end.
Proof.
  intros G Hp He. destruct (pseudo_ok n g (gi_wf _ _ _ _ G)) as (v & Ev & Hv). unfold fast_play_random. rewrite Ev. cbn [bind].
  destruct (bring_head (x, y) v) as [t Et]; [apply Hv; auto|]. rewrite Et. cbn [first_playable tl fst snd].
  destruct (check_point dbg g (x, y)) as [[e|]| |]; reflexivity.
Qed.

(** every step can be made by some shuffle *)
Lemma step_possible dbg n b w g g' : greach dbg n b w g -> playout_step dbg n g g' ->
  exists sh, (forall l, sh l ≡ₚ l) /\ (let! m := fast_play_random sh dbg g in play dbg g m) = Ok g'.
Proof.
  intros HG HS. pose proof (greach_inv _ _ _ _ _ HG) as G. destruct HS as [x y HO Hp E Ey|l HO El HA E].
  - destruct (accepted_empty dbg n g x y g' (gi_wf _ _ _ _ G) (gi_hist _ _ _ _ G) Hp E) as (He & _ & Ec & Ep).
    exists (bring (x, y)). split; [apply bring_perm|]. rewrite (fast_bring dbg n b w g x y G Hp He), Ec. cbn [bind].
    destruct (claim_eye_exact dbg n b w g (x, y) (gm_turn g) HG Hp) as ([] & Ev & Hv); [destruct Ey; apply Hv; reflexivity|].
    assert (Ev' : check_eye dbg g ((x, y), gm_turn g) = Ok false) by exact Ev. rewrite Ev'. exact Ep.
  - exists (fun l => l). split; [reflexivity|]. apply try_pass_inv in E. destruct (legals_checks dbg n b w g l G El) as [H1 H2].
    destruct (pseudo_ok n g (gi_wf _ _ _ _ G)) as (v & Ev & Hv). unfold fast_play_random. rewrite Ev. cbn [bind].
    replace (first_playable dbg g v) with (@Ok move MPass); [exact E|]. symmetry.
    assert (K : forall p, p ∈ v -> on n p /\ pos_of (gm_goban g) p = None) by (intros p Hp; apply Hv, Hp). clear Hv Ev.
    induction v as [|p v IH]; [reflexivity|]. cbn [first_playable]. destruct (K p) as [Hp He]; [left|]. destruct (H1 p Hp He) as [e Ee]. rewrite Ee. cbn [bind].
    assert (IH' : first_playable dbg g v = Ok MPass) by (apply IH; intros q Hq; apply K; right; exact Hq).
    destruct e; [exact IH'|]. destruct (claim_eye_exact dbg n b w g p (gm_turn g) HG Hp) as (v' & Ev & Hv').
    rewrite (proj2 Hv' (HA p ltac:(apply H2; auto))) in Ev. rewrite Ev. exact IH'.
Qed.

Theorem playout_complete dbg n g g' : rtc (playout_step dbg n) g g' -> forall b w, greach dbg n b w g -> is_over g' = true ->
  forall i, exists shuffles fuel, (forall j l, shuffles j l ≡ₚ l) /\ playout fuel i shuffles dbg g = Ok g'.
Proof.
  induction 1 as [g|g g1 g' HS R IH]; intros b w HG HO i.
  { exists (fun _ l => l), 0%nat. split; [reflexivity|]. cbn [playout]. rewrite HO. reflexivity. }
  destruct (step_greach dbg n b w g g1 HG HS) as (b1 & w1 & HG1).
  destruct (IH b1 w1 HG1 HO (S i)) as (sh & fuel & Hp & E). destruct (step_possible dbg n b w g g1 HG HS) as (s & Hs & Es).
  exists (fun j => if (j =? i)%nat then s else sh j), (S fuel). split; [intros j l; destruct (j =? i)%nat; auto|].
  rewrite playout_unfold. assert (HN : is_over g = false) by (destruct HS; assumption). rewrite HN, Nat.eqb_refl, Es. cbn [bind].
  rewrite <- E. assert (K : forall fuel k g, (i < k)%nat -> playout fuel k (fun j => if (j =? i)%nat then s else sh j) dbg g = playout fuel k sh dbg g); [|apply K; lia].
  clear. induction fuel as [|fuel IH]; intros k g Hk; [reflexivity|]. rewrite !playout_unfold. destruct (is_over g); [reflexivity|].
  replace (k =? i)%nat with false by (symmetry; apply Nat.eqb_neq; lia). destruct (let! m := fast_play_random (sh k) dbg g in play dbg g m); cbn [bind]; [|reflexivity..].
  apply IH. lia.
Qed.
