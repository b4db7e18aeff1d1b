(** [dead_stones] and a playout that runs out of group numbers. *)
From stdpp Require Import relations sorting.
From Verif Require Import PlayoutSpec Samples SymSpec.
From Verif Require Import Struct Push Inv Remove Capture Bridge MonadFacts GameFacts RulesFacts BoardFacts EyeFacts LegalFacts LegalsFacts ApiFacts PropFacts SymFacts SymGame SampleFacts LongFacts FloatingFacts PlayoutFacts.
From Coq Require Import Lia.

Local Notation length := Datatypes.length.

(** ** The play of the tree search *)

Lemma legals_by_checks dbg n b w g f l : ginv n b w g -> legals_by dbg g f = Ok l ->
  forall p, p ∈ l -> on n p /\ check_point_by dbg g p f = Ok None.
Proof.
  intros G E. pose proof (gi_wf _ _ _ _ G) as W. destruct (pseudo_ok n g W) as (v & Ev & Hv). unfold legals_by in E. rewrite Ev in E. cbn [bind] in E.
  assert (K : forall p, p ∈ v -> on n p) by (intros p Hp; apply Hv in Hp; tauto). clear Hv Ev. revert l E.
  induction v as [|q v IH]; intros l E p Hp; cbn [filterM] in E.
  - injection E as <-. apply elem_of_nil in Hp. contradiction.
  - apply bind_ok in E as (x & E1 & E). apply bind_ok in E as (ys & E2 & E). injection E as <-. apply bind_ok in E1 as (e & E1 & Ex).
    assert (IH' : p ∈ ys -> on n p /\ check_point_by dbg g p f = Ok None) by (apply (IH (fun q Hq => K q (elem_of_list_further _ _ _ Hq)) _ E2)).
    destruct x; [|exact (IH' Hp)]. apply elem_of_cons in Hp as [->|Hp]; [|exact (IH' Hp)].
    split; [apply K; left|]. destruct e; [discriminate|exact E1].
Qed.

Lemma legals_by_panic dbg n b w g f : ginv n b w g -> (exists l, legals_by dbg g f = Ok l) \/ (legals_by dbg g f = Panic /\ no_slot_left g).
Proof.
  intros G. pose proof (gi_wf _ _ _ _ G) as W. destruct (pseudo_ok n g W) as (v & Ev & Hv). unfold legals_by. rewrite Ev. cbn [bind].
  assert (K : forall p, p ∈ v -> on n p) by (intros p Hp; apply Hv in Hp; tauto). clear Hv Ev.
  induction v as [|q v IH]; cbn [filterM]; [left; eauto|].
  destruct (check_point_by_ok dbg n g q f W (gi_hist _ _ _ _ G) (K q (elem_of_list_here _ _))) as [(E & L & _)|(e & E & _)]; rewrite E; cbn [bind]; [right; auto|].
  destruct IH as [[l E2]|[E2 L]]; [intros p Hp; apply K; right; exact Hp| |]; rewrite E2; cbn [bind]; [left; eauto|right; auto].
Qed.

Lemma sub_flags f : N.land (N.lor f FILLEYE) f = f.
Proof. rewrite N.land_comm. apply N.bits_inj. intros i. rewrite N.land_spec, N.lor_spec. destruct (N.testbit f i); reflexivity. Qed.

Section Search.
  Variables (dbg : bool) (n : nat) (search : nat -> game -> list move -> res move) (g0 : game).
  Hypothesis Hsearch : answers dbg n search g0.

  Lemma search_one b w g i : rtc (search_step dbg n) g0 g -> greach dbg n b w g -> is_over g = false ->
    (let! ms := legals_moves dbg g in let! m := search i g ms in play dbg g m) = Panic /\ gave_up dbg search g \/
    exists g' b' w', (let! ms := legals_moves dbg g in let! m := search i g ms in play dbg g m) = Ok g' /\ search_step dbg n g g' /\
      greach dbg n b' w' g' /\ (left b' w' g' < left b w g)%N.
  Proof using Hsearch.
    intros HR HG HO. pose proof (greach_inv _ _ _ _ _ HG) as G. pose proof (gi_wf _ _ _ _ G) as W. destruct (not_over g HO) as [_ HP].
    unfold legals_moves. destruct (legals_by_panic dbg n b w g (N.lor (flag_illegal (gm_rule g)) FILLEYE) G) as [[l E]|[E L]]; rewrite E; cbn [bind]; [|left; unfold gave_up; auto].
    rewrite HO. set (ms := match List.map _ l with [] => [MPass] | _ :: _ => _ end).
    assert (EL : legals_moves dbg g = Ok ms) by (unfold legals_moves; rewrite E; cbn [bind]; rewrite HO; reflexivity).
    
    destruct (Hsearch i g ms HR HO EL) as [Ep|(m & Em & Hm)]; [left; rewrite Ep; unfold gave_up; eauto 8|]. rewrite Em. cbn [bind]. clear Em.
    assert (K : (l = [] /\ m = MPass) \/ exists p, p ∈ l /\ m = MPlay (fst p) (snd p)).
    { subst ms. clear EL. destruct l as [|p l]; [left; apply elem_of_list_singleton in Hm; auto|right].
      cbn [List.map] in Hm. apply elem_of_list_In in Hm. apply (in_map_iff (fun p : coord => MPlay (fst p) (snd p)) (p :: l)) in Hm as (q & <- & Hq). exists q. split; [apply elem_of_list_In, Hq|reflexivity]. }
    destruct K as [[-> ->]|(p & Hp & ->)].
    - right. destruct (play_pass dbg g HP) as (g' & Eg & _). exists g', b, w. split; [exact Eg|].
      destruct (left_pass dbg n b w g g' HG HO Eg) as [HG' HL]. split; [|auto]. econstructor; [exact HO|exact EL|exact Hm|]. apply try_pass; assumption.
    - destruct (legals_by_checks dbg n b w g _ l G E p Hp) as [Hon Ec]. pose proof (check_point_by_mono dbg g p _ _ (sub_flags _) Ec) as Ec'. destruct p as [x y]. cbn [fst snd] in *.
      destruct (check_point_by_ok dbg n g (x, y) (flag_illegal (gm_rule g)) W (gi_hist _ _ _ _ G) Hon) as [[E' _]|(e & E' & HT)]; [congruence|].
      rewrite Ec' in E'. injection E' as <-. assert (He : pos_of (gm_goban g) (x, y) = None) by tauto.
      destruct (play_spec dbg n b w g x y G Hon He) as [[F [L _]]|(g' & Eg & _)]; [left; unfold gave_up; auto|right].
      destruct (left_stone dbg n b w g x y g' HG HO Hon He Eg) as (b' & w' & HG' & HL). exists g', b', w'. split; [exact Eg|]. split; [|auto].
      econstructor; [exact HO|exact EL|exact Hm|]. rewrite (try_play_point dbg n g x y W Hon) by lia. unfold check_point. rewrite Ec'. cbn [bind]. rewrite Eg. reflexivity.
  Qed.

  Lemma play_out_unfold fuel i g : play_out (S fuel) i search dbg g =
    if is_over g then Ok g else let! g' := (let! ms := legals_moves dbg g in let! m := search i g ms in play dbg g m) in play_out fuel (S i) search dbg g'.
  Proof using. cbn [play_out]. destruct (is_over g); [reflexivity|]. destruct (legals_moves dbg g) as [ms| |]; [|reflexivity..]. cbn [bind]. destruct (search i g ms); reflexivity. Qed.

  Theorem play_out_spec fuel : forall i b w g, rtc (search_step dbg n) g0 g -> greach dbg n b w g -> (left b w g < N.of_nat fuel)%N ->
    (exists g' b' w', play_out fuel i search dbg g = Ok g' /\ rtc (search_step dbg n) g g' /\ is_over g' = true /\ greach dbg n b' w' g') \/
    (play_out fuel i search dbg g = Panic /\ exists g1, rtc (search_step dbg n) g g1 /\ gave_up dbg search g1).
  Proof using Hsearch.
    induction fuel as [|fuel IH]; intros i b w g HR HG HL; [lia|]. rewrite play_out_unfold. destruct (is_over g) eqn:HO.
    { left. exists g, b, w. split; [reflexivity|]. split; [apply rtc_refl|auto]. }
    destruct (search_one b w g i HR HG HO) as [[E L]|(g' & b' & w' & E & HS & HG' & HL')]; rewrite E; cbn [bind].
    - right. split; [reflexivity|]. exists g. split; [apply rtc_refl|exact L].
    - destruct (IH (S i) b' w' g' (rtc_r _ _ _ HR HS) HG' ltac:(lia)) as [(g2 & b2 & w2 & E2 & R & O & HG2)|(E2 & g1 & R & L)].
      + left. exists g2, b2, w2. split; [exact E2|]. split; [eapply rtc_l; eassumption|auto].
      + right. split; [exact E2|]. exists g1. split; [eapply rtc_l; eassumption|exact L].
  Qed.
End Search.

(** ** The comparison with the final position *)

(** the groups of [fl] that lost a stone *)
Lemma compare_ok dbg n b w b' w' g h fl : greach dbg n b w g -> greach dbg n b' w' h ->
  (forall k, k ∈ fl -> exists p, on n p /\ group_no (gm_goban g) p = Some k) -> StronglySorted lt fl ->
  exists l, filterM (fun k =>
             let! l := chain_stones dbg (gm_goban g) k in
             anyM (fun s : stone =>
                     let! c := get_color (gm_goban h) (fst s) in
                     Ok (negb (mcolor_eqb c (Some (snd s))))) l) fl = Ok l /\ StronglySorted lt l /\
    forall k, k ∈ l <-> k ∈ fl /\ exists p, on n p /\ group_no (gm_goban g) p = Some k /\ position h p <> position g p.
Proof.
  intros HG HH. pose proof (gi_wf _ _ _ _ (greach_inv _ _ _ _ _ HG)) as W. pose proof (gi_wf _ _ _ _ (greach_inv _ _ _ _ _ HH)) as W'.
  induction fl as [|k fl IH]; intros Hfl Hs.
  { exists []. split; [reflexivity|]. split; [constructor|]. intros k. split; [intros H; apply elem_of_nil in H; contradiction|intros [H _]; exact H]. }
  apply StronglySorted_inv in Hs as [Hs Hlt]. destruct IH as (l & E & Hl & Hin); [intros j Hj; apply Hfl; right; exact Hj|exact Hs|].
  destruct (Hfl k) as (p & Hp & Ek); [left|].
  destruct (chain_stones_api dbg n (gm_goban g) p k W Hp Ek) as (c & st & E2 & E1 & Nd & Hst).
  assert (Hcol : forall q, q ∈ st -> on n q /\ position g q = Some c /\ group_no (gm_goban g) q = Some k).
  { intros q Hq. apply Hst in Hq as [Hq Hc]. split; [exact Hq|]. assert (Eg : group_no (gm_goban g) p = group_no (gm_goban g) q) by (apply (same_group n (gm_goban g) p q W Hp Hq); [congruence|exact Hc]).
    split; [|congruence]. change (pos_of (gm_goban g) q = Some c). rewrite <- E1. symmetry. revert Hc. clear. induction 1 as [|x y z (_ & _ & _ & E) _ IH]; congruence. }
  assert (Hall : forall q, on n q -> group_no (gm_goban g) q = Some k -> q ∈ st).
  { intros q Hq Eq. apply Hst. split; [exact Hq|]. apply (same_group n (gm_goban g) p q W Hp Hq); congruence. }
  cbn [filterM]. rewrite E2. cbn [bind].
  rewrite (anyM_ok _ (fun s : stone => negb (mcolor_eqb (position h (fst s)) (Some (snd s))))).
  2:{ intros s Hs'. apply elem_of_list_fmap in Hs' as (q & -> & Hq). cbn [fst snd]. rewrite (get_color_pos n _ _ W') by (apply Hcol, Hq). reflexivity. }
  cbn [bind]. rewrite E. cbn [bind]. eexists. split; [reflexivity|].
  set (d := existsb _ _). assert (Hd : d = true <-> exists p, on n p /\ group_no (gm_goban g) p = Some k /\ position h p <> position g p).
  { subst d. rewrite existsb_exists. split.
    - intros (s & Hs' & Hb). apply elem_of_list_In, elem_of_list_fmap in Hs' as (q & -> & Hq). cbn [fst snd] in Hb. destruct (Hcol q Hq) as (Hq' & Ec & Eq).
      exists q. split; [exact Hq'|]. split; [exact Eq|]. rewrite Ec. intros F. rewrite F in Hb. destruct c; discriminate.
    - intros (q & Hq & Eq & Hne). pose proof (Hall q Hq Eq) as Hin'. destruct (Hcol q Hin') as (_ & Ec & _). exists (q, c). split; [apply elem_of_list_In, elem_of_list_fmap; eauto|].
      cbn [fst snd]. destruct (mcolor_eqb_spec (position h q) (Some c)) as [F|_]; [congruence|reflexivity]. }
  assert (Hk : k ∉ l). { intros Hkl. apply Hin in Hkl as [Hkl _]. rewrite Forall_forall in Hlt. pose proof (Hlt k Hkl). lia. }
  destruct d.
  - split.
    + constructor; [exact Hl|]. apply Forall_forall. intros j Hj. apply Hin in Hj as [Hj _]. rewrite Forall_forall in Hlt. exact (Hlt j Hj).
    + intros j. rewrite !elem_of_cons, Hin. split; [intros [->|[Hj K]]; [split; [left; reflexivity|apply Hd; reflexivity]|auto]|]. intros [[->|Hj] K]; auto.
  - split; [exact Hl|]. intros j. rewrite elem_of_cons, Hin. split; [intros [Hj K]; auto|]. intros [[->|Hj] K]; [apply Hd in K; discriminate|auto].
Qed.

Lemma floating_live dbg n b w g fl : greach dbg n b w g -> get_floating_stones dbg g = Ok fl ->
  StronglySorted lt fl /\ forall k, k ∈ fl -> exists p, on n p /\ group_no (gm_goban g) p = Some k.
Proof.
  intros HG E. destruct (floating_exact dbg n b w g HG) as (l & E' & Hs & Hin). rewrite E in E'. injection E' as <-. split; [exact Hs|].
  intros k Hk. apply Hin in Hk as (_ & m & Hm & (pts & Nd & Hpts & Hlen)). destruct pts as [|p pts]; [cbn in Hlen; lia|].
  assert (Hp : p ∈ p :: pts) by left. apply Hpts in Hp as (_ & _ & q & Hq & _ & Eq). eauto.
Qed.

Theorem dead_stones_spec dbg n b w g search fuel : greach dbg n b w g ->
  answers dbg n search g -> (47316994 < N.of_nat fuel)%N ->
  (exists l fl final, dead_stones fuel search dbg g = Ok l /\ get_floating_stones dbg g = Ok fl /\
     rtc (search_step dbg n) g final /\ is_over final = true /\ StronglySorted lt l /\
     forall k, k ∈ l <-> k ∈ fl /\ exists p, on n p /\ group_no (gm_goban g) p = Some k /\ position final p <> position g p) \/
  (dead_stones fuel search dbg g = Panic /\ exists g1, rtc (search_step dbg n) g g1 /\ gave_up dbg search g1).
Proof.
  intros HG Hs Hf. destruct (floating_exact dbg n b w g HG) as (fl & Ef & _). destruct (floating_live dbg n b w g fl HG Ef) as [Hsort Hlive].
  unfold dead_stones. rewrite Ef. cbn [bind]. pose proof (left_max b w g).
  destruct (play_out_spec dbg n search g Hs fuel 0 b w g (rtc_refl _ _) HG ltac:(lia)) as [(h & b' & w' & E & R & HO & HH)|[E K]]; rewrite E; cbn [bind]; [left|right; auto].
  destruct (compare_ok dbg n b w b' w' g h fl HG HH Hlive Hsort) as (l & El & Hl & Hin). exists l, fl, h. auto 10.
Qed.

Theorem dead_stones_over dbg n b w g search fuel : greach dbg n b w g -> is_over g = true -> dead_stones fuel search dbg g = Ok [].
Proof.
  intros HG HO. destruct (floating_exact dbg n b w g HG) as (fl & Ef & _). destruct (floating_live dbg n b w g fl HG Ef) as [Hsort Hlive].
  unfold dead_stones. rewrite Ef. cbn [bind]. replace (play_out fuel 0 search dbg g) with (Ok g) by (destruct fuel; cbn [play_out]; rewrite HO; reflexivity). cbn [bind].
  destruct (compare_ok dbg n b w b w g g fl HG HG Hlive Hsort) as (l & El & _ & Hin). rewrite El. destruct l as [|k l]; [reflexivity|].
  assert (Hk : k ∈ k :: l) by left. apply Hin in Hk as (_ & p & _ & _ & F). contradiction.
Qed.

(** ** A playout that runs out of group numbers *)

(** stone moves that a playout may make *)
Fixpoint quiet (dbg : bool) (n : nat) (g : game) (l : list coord) : option game :=
  match l with
  | [] => Some g
  | p :: t =>
      if (fst p <? n)%nat && (snd p <? n)%nat && negb (is_over g) then
        match check_eye dbg g (p, gm_turn g) with
        | Ok false => match try_play dbg g (MPlay (fst p) (snd p)) with
                      | Ok (g', Accepted) => quiet dbg n g' t
                      | _ => None
                      end
        | _ => None
        end
      else None
  end.

Lemma over_same n g h : same n h g -> is_over g = is_over h.
Proof.
  intros I. unfold is_over. rewrite (im_passes _ _ _ _ _ I), (im_outcome _ _ _ _ _ I). destruct (gm_outcome h); reflexivity.
Qed.

Lemma walk dbg n sh fuel ms : forall b w g h h' i,
  lreach dbg n g -> ginv n b w h -> same n h g -> flag_contains (flag_illegal (gm_rule h)) SUPERKO = false ->
  (forall j p, ms !! j = Some p -> sh (i + j)%nat = bring p) -> quiet dbg n h ms = Some h' ->
  playout (length ms + fuel) i sh dbg g = Panic \/
  exists g', playout (length ms + fuel) i sh dbg g = playout fuel (i + length ms) sh dbg g' /\ lreach dbg n g' /\ same n h' g' /\
    (length (chains (gm_goban g')) + length (chains (gm_goban h)) = length (chains (gm_goban g)) + length (chains (gm_goban h')))%nat.
Proof.
  induction ms as [|[x y] ms IH]; intros b w g h h' i HL G0 I HS Hsh E; cbn [quiet fst snd] in E.
  { injection E as <-. right. exists g. cbn [Datatypes.length Nat.add]. rewrite Nat.add_0_r. split; [reflexivity|]. split; [exact HL|]. split; [exact I|lia]. }
  destruct ((x <? n)%nat && (y <? n)%nat && negb (is_over h)) eqn:Eon; [|discriminate].
  apply andb_true_iff in Eon as [Eon HO]. apply andb_true_iff in Eon as [A B]. apply Nat.ltb_lt in A, B. apply negb_true_iff in HO.
  assert (Hp : on n (x, y)) by (split; assumption).
  destruct (check_eye dbg h ((x, y) : coord, gm_turn h)) as [[]| |] eqn:Ey; try discriminate.
  destruct (try_play dbg h (MPlay x y)) as [[h1 []]| |] eqn:Eh; try discriminate.
  destruct (accepted_step dbg n b w h x y h1 G0 Hp Eh) as (He & _ & Ep & _).
  destruct (lreach_greach _ _ _ HL) as (b1 & w1 & HG). pose proof (greach_inv _ _ _ _ _ HG) as G. pose proof (gi_wf _ _ _ _ G) as W. pose proof (gi_wf _ _ _ _ G0) as W0.
  assert (IP : same_pos n (pos_of (gm_goban h)) (pos_of (gm_goban g))).
  { intros q Hq. pose proof (im_pos _ _ _ _ _ I q Hq) as K. unfold position in K. rewrite K. destruct (pos_of (gm_goban h) q); reflexivity. }
  assert (He' : pos_of (gm_goban g) (x, y) = None) by (rewrite <- (IP _ Hp); exact He).
  assert (HO' : is_over g = false) by (rewrite (over_same n g h I); exact HO). destruct (not_over g HO') as [_ P1].
  assert (Ey' : check_eye dbg g ((x, y), gm_turn g) = Ok false).
  { rewrite <- Ey. rewrite (im_turn _ _ _ _ _ I).
    exact (image_eye n _ _ _ (id_sym n) dbg dbg b w b1 w1 h g G0 G I (x, y) Hp He (gm_turn h) (fun q _ => eq_refl)). }
  cbn [Datatypes.length Nat.add]. rewrite playout_unfold, HO'.
  pose proof (Hsh 0%nat (x, y) eq_refl) as Hs0. rewrite Nat.add_0_r in Hs0. rewrite Hs0, (fast_bring dbg n b1 w1 g x y G Hp He').
  pose proof (follow dbg n b w g h x y h1 HL G0 I HS Hp Eh) as HF. rewrite (try_play_point dbg n g x y W Hp) in HF by lia.
  destruct HF as [F|(g1 & E1 & L1 & I1 & C1)].
  { left. destruct (check_point dbg g (x, y)) as [[e|]| |]; cbn [bind] in *; try discriminate; [|reflexivity]. rewrite Ey'. cbn [bind].
    destruct (play dbg g (MPlay x y)); try discriminate. reflexivity. }
  destruct (check_point dbg g (x, y)) as [[e|]| |]; cbn [bind] in *; try discriminate. rewrite Ey'. cbn [bind].
  destruct (play dbg g (MPlay x y)) as [g2| |] eqn:Ep2; try discriminate. cbn [bind] in *. injection E1 as ->.
  destruct (play_spec dbg n b w h x y G0 Hp He) as [[F _]|(h2 & Eh2 & G1 & _)]; [congruence|]. rewrite Ep in Eh2. injection Eh2 as <-.
  destruct (IH _ _ g1 h1 h' (S i) L1 G1 I1) as [F|(g' & E' & L' & I' & C')].
  - rewrite (try_rule _ _ _ _ _ Eh). exact HS.
  - intros j p Hj. rewrite <- (Hsh (S j) p Hj). f_equal. lia.
  - exact E.
  - left. exact F.
  - right. exists g'. split; [rewrite E'; f_equal; lia|]. split; [exact L'|]. split; [exact I'|lia].
Qed.

Definition cycle_shuffles (i : nat) : list coord -> list coord :=
  bring (nth (i mod 6) cycle_points (0, 0)%nat).

Lemma cycle_shuffle i j p : cycle_points !! j = Some p -> cycle_shuffles (6 * i + j) = bring p.
Proof.
  intros H. unfold cycle_shuffles. assert (Hj : (j < 6)%nat) by (apply lookup_lt_Some in H; exact H).
  rewrite Nat.mul_comm, Nat.add_comm, Nat.mod_add, Nat.mod_small by lia. f_equal. rewrite nth_lookup, H. reflexivity.
Qed.

Theorem playout_may_panic dbg : exists g fuel, lreach dbg 2 g /\ is_over g = false /\
  (forall i l, cycle_shuffles i l ≡ₚ l) /\ playout fuel 0 cycle_shuffles dbg g = Panic.
Proof.
  assert (E : exists h0 h1, tried dbg 2 JAPANESE [MPlay 0 0] = Some h0 /\ quiet dbg 2 h0 cycle_points = Some h1 /\ is_over h0 = false /\
     flag_contains (flag_illegal (gm_rule h0)) SUPERKO = false /\
     seen h0 = seen h1 /\ length (chains (gm_goban h1)) = (3 + length (chains (gm_goban h0)))%nat).
  { destruct dbg; (eexists _, _; split; [vm_compute; reflexivity|]; split; [vm_compute; reflexivity|]; split; [|split; [|split]]; vm_compute; reflexivity). }
  destruct E as (h0 & h1 & E0 & E1 & HO & HS & Es & Ec).
  unfold tried in E0. destruct (game_new (Custom (N.of_nat 2) (N.of_nat 2)) JAPANESE) as [g0| |] eqn:En; try discriminate.
  assert (L0 : lreach dbg 2 g0) by (eapply lr_new; [lia| |exact En]; reflexivity).
  pose proof (tries_lreach dbg 2 [MPlay 0 0] g0 h0 L0 E0) as L1.
  destruct (lreach_greach _ _ _ L1) as (b & w & HG). pose proof (greach_inv _ _ _ _ _ HG) as G0.
  assert (K : forall k i g, lreach dbg 2 g -> same 2 h0 g -> playout (6 * k) (6 * i) cycle_shuffles dbg g = Panic \/
     exists g', lreach dbg 2 g' /\ length (chains (gm_goban g')) = (3 * k + length (chains (gm_goban g)))%nat).
  { induction k as [|k IH]; intros i g L I; [right; exists g; split; [exact L|lia]|].
    replace (6 * S k)%nat with (length cycle_points + 6 * k)%nat by (cbn [Datatypes.length cycle_points]; lia).
    destruct (walk dbg 2 cycle_shuffles (6 * k) cycle_points b w g h0 h1 (6 * i) L G0 I HS (cycle_shuffle i) E1) as [F|(g' & E' & L' & I' & C')]; [left; exact F|].
    rewrite E'. replace (6 * i + length cycle_points)%nat with (6 * S i)%nat by (cbn [Datatypes.length cycle_points]; lia).
    destruct (IH (S i) g' L' (same_seen _ _ _ Es I')) as [F|(g2 & L2 & C2)]; [left; exact F|right]. exists g2. split; [exact L2|lia]. }
  assert (I0 : same 2 h0 h0).
  { constructor; try reflexivity.
    - intros p Hp. destruct (position h0 p); reflexivity.
    - destruct (gm_outcome h0) as [[]|]; reflexivity.
    - destruct (gm_ko_point h0); reflexivity. }
  exists h0, (6 * N.to_nat 30000)%nat. split; [exact L1|]. split; [exact HO|]. split; [intros; apply bring_perm|].
  destruct (K (N.to_nat 30000) 0%nat h0 L1 I0) as [F|(g' & L' & C')]; [exact F|exfalso].
  destruct (lreach_greach _ _ _ L') as (b1 & w1 & HG'). pose proof (greach_inv _ _ _ _ _ HG') as G'.
  pose proof (wf0_len _ (wf_0 _ _ (gi_wf _ _ _ _ G'))) as K'. lia.
Qed.
