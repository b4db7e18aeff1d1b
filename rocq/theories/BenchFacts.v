(** The games that the benchmarks play. *)
From stdpp Require Import relations sorting.
From Verif Require Import BenchSpec PlayoutSpec.
From Verif Require Import Struct Push Inv Bridge MonadFacts GameFacts RulesFacts EyeFacts EyeExact LegalFacts LegalsFacts ClaimFacts PropFacts CaseFacts TableFacts PlayoutFacts DeadFacts.
From Coq Require Import Lia.

Local Notation length := Datatypes.length.

Lemma step_count dbg n b w g g' : greach dbg n b w g -> playout_step dbg n g g' ->
  exists b' w', greach dbg n b' w' g' /\ (b' + w' <= S (b + w))%nat.
Proof.
  intros HG [x y HO Hp E _|l HO El _ E].
  - pose proof (greach_inv _ _ _ _ _ HG) as G.
    destruct (accepted_empty dbg n g x y g' (gi_wf _ _ _ _ G) (gi_hist _ _ _ _ G) Hp E) as (He & _ & _ & Ep).
    eexists _, _. split; [exact (gr_play _ _ _ _ _ _ _ _ HG Hp He Ep)|]. rewrite bump_total. lia.
  - apply try_pass_inv in E. exists b, w. split; [exact (gr_pass _ _ _ _ _ _ HG E)|lia].
Qed.

Lemma first_no_eye_spec dbg n b w g l : greach dbg n b w g -> (forall p, p ∈ l -> on n p) ->
  (first_no_eye dbg g l = Ok MPass /\ forall p, p ∈ l -> eye_shape n (position g) (gm_turn g) p) \/
  exists p, first_no_eye dbg g l = Ok (MPlay (fst p) (snd p)) /\ p ∈ l /\ ~ eye_shape n (position g) (gm_turn g) p.
Proof.
  intros HG. induction l as [|p l IH]; intros H; cbn [first_no_eye].
  - left. split; [reflexivity|]. intros p Hp. inversion Hp.
  - destruct (claim_eye_exact dbg n b w g p (gm_turn g) HG (H p (elem_of_list_here _ _))) as (v & Ev & Hv). rewrite Ev. cbn [bind]. destruct v.
    + destruct IH as [[E K]|(q & E & Hq & K)]; [intros q Hq; apply H; right; exact Hq|left|right].
      * split; [exact E|]. intros q Hq. apply elem_of_cons in Hq as [->|Hq]; [apply Hv; reflexivity|exact (K q Hq)].
      * exists q. split; [exact E|]. split; [right; exact Hq|exact K].
    + right. exists p. split; [reflexivity|]. split; [left|]. intros K. apply Hv in K. discriminate K.
Qed.

Lemma random_step dbg n sh b w g : (forall l, sh l ≡ₚ l) -> greach dbg n b w g -> is_over g = false ->
  (let! m := play_random sh dbg g in play dbg g m) = Panic /\ no_slot_left g \/
  exists g' b' w', (let! m := play_random sh dbg g in play dbg g m) = Ok g' /\ playout_step dbg n g g' /\
    greach dbg n b' w' g' /\ (left b' w' g' < left b w g)%N.
Proof.
  intros Hs HG HO. pose proof (greach_inv _ _ _ _ _ HG) as G. pose proof (gi_wf _ _ _ _ G) as W. destruct (not_over g HO) as [_ HP].
  unfold play_random. destruct (legals_by_panic dbg n b w g (flag_illegal (gm_rule g)) G) as [[l E]|[E L]].
  2: { left. unfold legals. rewrite E. auto. }
  assert (El : legals dbg g = Ok l) by exact E. clear E. rewrite El. cbn [bind]. destruct (legals_checks dbg n b w g l G El) as [_ Hl].
  destruct (first_no_eye_spec dbg n b w g (sh l) HG) as [[E HA]|([x y] & E & Hin & Hy)].
  { intros p Hp. rewrite (Hs l) in Hp. apply Hl, Hp. }
  - right. rewrite E. cbn [bind]. destruct (play_pass dbg g HP) as (g' & Eg & _). exists g', b, w. split; [exact Eg|].
    destruct (left_pass dbg n b w g g' HG HO Eg) as [HG' HL]. split; [|auto].
    apply (step_pass dbg n g g' l HO El); [|apply try_pass; assumption]. intros p Hp. apply HA. rewrite (Hs l). exact Hp.
  - rewrite (Hs l) in Hin. rewrite E. cbn [bind fst snd]. apply Hl in Hin as [Hp Ec].
    assert (He : pos_of (gm_goban g) (x, y) = None).
    { destruct (check_point_by_ok dbg n g (x, y) (flag_illegal (gm_rule g)) W (gi_hist _ _ _ _ G) Hp) as [[E' _]|(e & E' & HT)]; unfold check_point in Ec; [congruence|].
      rewrite Ec in E'. injection E' as <-. tauto. }
    destruct (play_spec dbg n b w g x y G Hp He) as [[F [L _]]|(g' & Eg & _)]; [left; auto|right].
    destruct (left_stone dbg n b w g x y g' HG HO Hp He Eg) as (b' & w' & HG' & HL). exists g', b', w'. split; [exact Eg|]. split; [|auto].
    apply (step_stone dbg n g g' x y HO Hp); [|exact Hy]. rewrite (try_play_point dbg n g x y W Hp) by lia. rewrite Ec. cbn [bind]. rewrite Eg. reflexivity.
Qed.

Lemma random_possible dbg n b w g g' : greach dbg n b w g -> ~ no_slot_left g -> playout_step dbg n g g' ->
  exists sh, (forall l, sh l ≡ₚ l) /\ (let! m := play_random sh dbg g in play dbg g m) = Ok g'.
Proof.
  intros HG HL HS. pose proof (greach_inv _ _ _ _ _ HG) as G.
  assert (L : exists l, legals dbg g = Ok l).
  { destruct (legals_by_panic dbg n b w g (flag_illegal (gm_rule g)) G) as [[l E]|[_ L]]; [exists l; exact E|contradiction]. }
  destruct L as [l El]. destruct (legals_checks dbg n b w g l G El) as [_ Hl]. destruct HS as [x y HO Hp E Ey|l' HO El' HA E].
  - destruct (accepted_empty dbg n g x y g' (gi_wf _ _ _ _ G) (gi_hist _ _ _ _ G) Hp E) as (_ & _ & Ec & Ep).
    exists (bring (x, y)). split; [apply bring_perm|]. unfold play_random. rewrite El. cbn [bind].
    destruct (bring_head (x, y) l) as [t ->]; [apply Hl; auto|]. cbn [first_no_eye].
    destruct (claim_eye_exact dbg n b w g (x, y) (gm_turn g) HG Hp) as ([] & Ev & Hv); [destruct Ey; apply Hv; reflexivity|].
    match goal with |- context [check_eye ?a ?b ?c] => replace (check_eye a b c) with (@Ok bool false) by (symmetry; exact Ev) end. exact Ep.
  - exists (fun l => l). split; [reflexivity|]. apply try_pass_inv in E. unfold play_random. rewrite El'. cbn [bind].
    rewrite El in El'. injection El' as <-.
    destruct (first_no_eye_spec dbg n b w g l HG) as [[E' _]|(p & _ & Hin & Hy)]; [intros p Hp; apply Hl, Hp|rewrite E'; exact E|].
    destruct (Hy (HA p Hin)).
Qed.

(** A loop that chooses its moves with [choose], given a shuffle for every move. *)
Section Until.
  Variables (dbg : bool) (n : nat) (choose : (list coord -> list coord) -> game -> res move).
  Hypothesis Hstep : forall sh b w g, (forall l, sh l ≡ₚ l) -> greach dbg n b w g -> is_over g = false ->
    (let! m := choose sh g in play dbg g m) = Panic /\ no_slot_left g \/
    exists g' b' w', (let! m := choose sh g in play dbg g m) = Ok g' /\ playout_step dbg n g g' /\
      greach dbg n b' w' g' /\ (left b' w' g' < left b w g)%N.

  Lemma until_unfold fuel i shuffles g : play_until_over (S fuel) i (fun i => choose (shuffles i)) dbg g =
    if is_over g then Ok g else let! g' := (let! m := choose (shuffles i) g in play dbg g m) in play_until_over fuel (S i) (fun i => choose (shuffles i)) dbg g'.
  Proof using. cbn [play_until_over]. destruct (is_over g); [reflexivity|]. destruct (choose (shuffles i) g); reflexivity. Qed.

  Lemma until_spec shuffles fuel : (forall i l, shuffles i l ≡ₚ l) -> forall i b w g, greach dbg n b w g -> (left b w g < N.of_nat fuel)%N ->
    (exists g', play_until_over fuel i (fun i => choose (shuffles i)) dbg g = Ok g' /\ rtc (playout_step dbg n) g g' /\ is_over g' = true) \/
    (play_until_over fuel i (fun i => choose (shuffles i)) dbg g = Panic /\ exists g1, rtc (playout_step dbg n) g g1 /\ no_slot_left g1).
  Proof using Hstep.
    intros Hs. induction fuel as [|fuel IH]; intros i b w g HG HL; [lia|]. rewrite until_unfold. destruct (is_over g) eqn:HO.
    { left. exists g. split; [reflexivity|]. split; [apply rtc_refl|exact HO]. }
    destruct (Hstep (shuffles i) b w g (Hs i) HG HO) as [[E L]|(g' & b' & w' & E & HS & HG' & HL')]; rewrite E; cbn [bind].
    - right. split; [reflexivity|]. exists g. split; [apply rtc_refl|exact L].
    - destruct (IH (S i) b' w' g' HG' ltac:(lia)) as [(g2 & E2 & R & O)|(E2 & g1 & R & L)].
      + left. exists g2. split; [exact E2|]. split; [eapply rtc_l; eassumption|exact O].
      + right. split; [exact E2|]. exists g1. split; [eapply rtc_l; eassumption|exact L].
  Qed.

  Lemma until_steps shuffles fuel : (forall i l, shuffles i l ≡ₚ l) -> forall i b w g g', greach dbg n b w g ->
    play_until_over fuel i (fun i => choose (shuffles i)) dbg g = Ok g' ->
    exists k, nsteps (playout_step dbg n) k g g' /\ (k <= fuel)%nat /\ is_over g' = true.
  Proof using Hstep.
    intros Hs. induction fuel as [|fuel IH]; intros i b w g g' HG E.
    - cbn [play_until_over] in E. destruct (is_over g) eqn:HO; [|discriminate E]. injection E as <-. exists 0%nat. split; [constructor|auto].
    - rewrite until_unfold in E. destruct (is_over g) eqn:HO; [injection E as <-; exists 0%nat; split; [constructor|split; [lia|exact HO]]|].
      destruct (Hstep (shuffles i) b w g (Hs i) HG HO) as [[E' _]|(g1 & b' & w' & E' & HS & HG' & _)]; rewrite E' in E; cbn [bind] in E; [discriminate E|].
      destruct (IH (S i) b' w' g1 g' HG' E) as (k & K & Hk & O). exists (S k). split; [econstructor; eassumption|]. split; [lia|exact O].
  Qed.

  (** [room g]: any next move can be chosen in [g] *)
  Variable room : game -> Prop.
  Hypothesis Hposs : forall b w g g', greach dbg n b w g -> room g -> playout_step dbg n g g' ->
    exists sh, (forall l, sh l ≡ₚ l) /\ (let! m := choose sh g in play dbg g m) = Ok g'.
  Hypothesis Hroom : forall b w g, greach dbg n b w g -> (N.of_nat (b + w) < 65535)%N -> room g.

  Lemma until_complete k : forall g g' b w i, nsteps (playout_step dbg n) k g g' -> greach dbg n b w g -> (N.of_nat (b + w + k) <= 65535)%N -> is_over g' = true ->
    exists shuffles, (forall j l, shuffles j l ≡ₚ l) /\ play_until_over k i (fun i => choose (shuffles i)) dbg g = Ok g'.
  Proof using Hposs Hroom.
    induction k as [|k IH]; intros g g' b w i K HG HL HO; inversion K as [|k' g0 g1 g2 HS R E1 E2 E3]; subst.
    { exists (fun _ l => l). split; [reflexivity|]. cbn [play_until_over]. rewrite HO. reflexivity. }
    destruct (step_count dbg n b w g g1 HG HS) as (b1 & w1 & HG1 & HB).
    destruct (IH g1 g' b1 w1 (S i) R HG1 ltac:(lia) HO) as (sh & Hp & E). destruct (Hposs b w g g1 HG (Hroom b w g HG ltac:(lia)) HS) as (s & Hs & Es).
    exists (fun j => if (j =? i)%nat then s else sh j). split; [intros j l; destruct (j =? i)%nat; auto|].
    rewrite (until_unfold k i (fun j => if (j =? i)%nat then s else sh j)). assert (HN : is_over g = false) by (destruct HS; assumption). rewrite HN, Nat.eqb_refl, Es. cbn [bind].
    rewrite <- E. assert (J : forall fuel j g, (i < j)%nat -> play_until_over fuel j (fun j => choose (if (j =? i)%nat then s else sh j)) dbg g = play_until_over fuel j (fun j => choose (sh j)) dbg g); [|apply J; lia].
    clear. induction fuel as [|fuel IH]; intros j g Hk; [reflexivity|]. rewrite (until_unfold fuel j (fun j => if (j =? i)%nat then s else sh j)), until_unfold. destruct (is_over g); [reflexivity|].
    replace (j =? i)%nat with false by (symmetry; apply Nat.eqb_neq; lia). destruct (let! m := choose (sh j) g in play dbg g m); cbn [bind]; [|reflexivity..].
    apply IH. lia.
  Qed.
End Until.

Lemma new_bench dbg r : exists g, game_new Nineteen r = Ok g /\ greach dbg 19 0 0 g /\ lreach dbg 19 g.
Proof.
  destruct (game_new Nineteen r) as [g| |] eqn:E; [|vm_compute in E; discriminate E..]. exists g. split; [reflexivity|].
  split; [exact (gr_new dbg 19 Nineteen r g ltac:(lia) eq_refl E)|exact (lr_new dbg 19 Nineteen r g ltac:(lia) eq_refl E)].
Qed.

Lemma fast_choose dbg n : forall sh b w g, (forall l, sh l ≡ₚ l) -> greach dbg n b w g -> is_over g = false ->
  (let! m := fast_play_random sh dbg g in play dbg g m) = Panic /\ no_slot_left g \/
  exists g' b' w', (let! m := fast_play_random sh dbg g in play dbg g m) = Ok g' /\ playout_step dbg n g g' /\
    greach dbg n b' w' g' /\ (left b' w' g' < left b w g)%N.
Proof. intros sh b w g Hs HG HO. exact (fast_step dbg n (fun _ => sh) (fun _ => Hs) b w g 0%nat HG HO). Qed.

Lemma slow_choose dbg n : forall sh b w g, (forall l, sh l ≡ₚ l) -> greach dbg n b w g -> is_over g = false ->
  (let! m := play_random sh dbg g in play dbg g m) = Panic /\ no_slot_left g \/
  exists g' b' w', (let! m := play_random sh dbg g in play dbg g m) = Ok g' /\ playout_step dbg n g g' /\
    greach dbg n b' w' g' /\ (left b' w' g' < left b w g)%N.
Proof. intros sh b w g Hs HG HO. exact (random_step dbg n sh b w g Hs HG HO). Qed.

Theorem bench_fast_ends dbg r shuffles fuel : (forall i l, shuffles i l ≡ₚ l) -> (47316994 < N.of_nat fuel)%N ->
  exists g, game_new Nineteen r = Ok g /\
   ((exists g', fast_play_game fuel shuffles dbg r = Ok g' /\ rtc (playout_step dbg 19) g g' /\ is_over g' = true /\ lreach dbg 19 g') \/
    (fast_play_game fuel shuffles dbg r = Panic /\ exists g1, rtc (playout_step dbg 19) g g1 /\ no_slot_left g1)).
Proof.
  intros Hs Hf. destruct (new_bench dbg r) as (g & E & HG & HL). exists g. split; [exact E|]. unfold fast_play_game. rewrite E. cbn [bind].
  pose proof (left_max 0 0 g) as LM.
  destruct (until_spec dbg 19 (fun sh => fast_play_random sh dbg) (fast_choose dbg 19) shuffles fuel Hs 0%nat 0%nat 0%nat g HG ltac:(lia)) as [(g' & E' & R & O)|H]; [left|right; exact H].
  exists g'. split; [exact E'|]. split; [exact R|]. split; [exact O|exact (steps_lreach dbg 19 g g' HL R)].
Qed.

Theorem bench_slow_ends dbg shuffles fuel : (forall i l, shuffles i l ≡ₚ l) -> (47316994 < N.of_nat fuel)%N ->
  exists g, game_new Nineteen CHINESE = Ok g /\
   ((exists g', play_game fuel shuffles dbg = Ok g' /\ rtc (playout_step dbg 19) g g' /\ is_over g' = true /\ lreach dbg 19 g') \/
    (play_game fuel shuffles dbg = Panic /\ exists g1, rtc (playout_step dbg 19) g g1 /\ no_slot_left g1)).
Proof.
  intros Hs Hf. destruct (new_bench dbg CHINESE) as (g & E & HG & HL). exists g. split; [exact E|]. unfold play_game. rewrite E. cbn [bind].
  pose proof (left_max 0 0 g) as LM.
  destruct (until_spec dbg 19 (fun sh => play_random sh dbg) (slow_choose dbg 19) shuffles fuel Hs 0%nat 0%nat 0%nat g HG ltac:(lia)) as [(g' & E' & R & O)|H]; [left|right; exact H].
  exists g'. split; [exact E'|]. split; [exact R|]. split; [exact O|exact (steps_lreach dbg 19 g g' HL R)].
Qed.

(** the two benchmarks can play the same games *)
Theorem bench_same dbg fuel g' : (N.of_nat fuel <= 65535)%N ->
  (exists shuffles, (forall i l, shuffles i l ≡ₚ l) /\ fast_play_game fuel shuffles dbg CHINESE = Ok g') <->
  (exists shuffles, (forall i l, shuffles i l ≡ₚ l) /\ play_game fuel shuffles dbg = Ok g').
Proof.
  intros Hf. destruct (new_bench dbg CHINESE) as (g & E & HG & _). unfold fast_play_game, play_game. rewrite E. cbn [bind].
  assert (M : forall pick k i h h', (k <= fuel)%nat -> play_until_over k i pick dbg h = Ok h' -> play_until_over fuel i pick dbg h = Ok h').
  { clear. intros pick k. revert fuel. induction k as [|k IH]; intros fuel i h h' Hk E.
    - cbn [play_until_over] in E. destruct fuel; cbn [play_until_over]; destruct (is_over h); [exact E|discriminate E|exact E|discriminate E].
    - destruct fuel as [|fuel]; [lia|]. cbn [play_until_over] in E |- *. destruct (is_over h); [exact E|]. destruct (pick i h) as [m| |]; cbn [bind] in *; [|discriminate E..].
      destruct (play dbg h m) as [h1| |]; cbn [bind] in *; [|discriminate E..]. apply (IH fuel (S i) h1 h'); [lia|exact E]. }
  split; intros (shuffles & Hs & E').
  - destruct (until_steps dbg 19 (fun sh => fast_play_random sh dbg) (fast_choose dbg 19) shuffles fuel Hs 0%nat 0%nat 0%nat g g' HG E') as (k & K & Hk & O).
    destruct (until_complete dbg 19 (fun sh => play_random sh dbg) (fun g => ~ no_slot_left g) (random_possible dbg 19) (few_stones dbg 19) k g g' 0%nat 0%nat 0%nat K HG ltac:(lia) O) as (sh & Hsh & Esh).
    exists sh. split; [exact Hsh|]. exact (M _ k 0%nat g g' Hk Esh).
  - destruct (until_steps dbg 19 (fun sh => play_random sh dbg) (slow_choose dbg 19) shuffles fuel Hs 0%nat 0%nat 0%nat g g' HG E') as (k & K & Hk & O).
    destruct (until_complete dbg 19 (fun sh => fast_play_random sh dbg) (fun _ => True) (fun b w g g' HG _ HS => step_possible dbg 19 b w g g' HG HS) (fun _ _ _ _ _ => I) k g g' 0%nat 0%nat 0%nat K HG ltac:(lia) O) as (sh & Hsh & Esh).
    exists sh. split; [exact Hsh|]. exact (M _ k 0%nat g g' Hk Esh).
Qed.
