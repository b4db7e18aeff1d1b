(** Whoever has enough living stones wins, and needs only to pass. *)
From stdpp Require Import relations.
From Verif Require Import StrategySpec ScoreSpec LifeSpec LifeValueSpec.
From Verif Require Import MonadFacts Spec Observe Game Struct Push Inv Remove Capture Bridge GameFacts RulesFacts LegalFacts CheckFacts ClaimFacts Float32Facts ScoreFacts LifeFacts RectSpec RectReach StrategyFacts StealFacts KomiFacts KomiClaims.
From Coq Require Import Lia.

Local Notation length := Datatypes.length.
Local Open Scope nat_scope.
Local Ltac sm := unfold small in *; lia.

(** area counting: the outcome by stones and territory, whatever was captured *)
Lemma area_outcome order dbg n g k2 : wf n (gm_goban g) -> (forall l, order l ≡ₚ l) ->
  is_f32 (komi g) -> halves (komi g) k2 -> (Z.abs k2 <= 200000)%Z ->
  N.testbit (flag_score (gm_rule g)) 0 = true -> N.testbit (flag_score (gm_rule g)) 2 = false ->
  gm_outcome g = None -> is_over g = true ->
  exists tb tw e, card (owned n (position g) Black) tb /\ card (owned n (position g) White) tw /\ outcome order dbg g = Ok (Some e) /\
    let d := (2 * (Z.of_nat tb + Z.of_nat (count n (position g) Black)) - 2 * (Z.of_nat tw + Z.of_nat (count n (position g) White)) - counted_komi (flag_score (gm_rule g)) k2)%Z in
    (endgame_winner e = Some Black <-> 0 < d)%Z /\ (endgame_winner e = Some White <-> d < 0)%Z.
Proof.
  intros W Ho V H K S Pr Ou Ov.
  pose (g0 := mkGame (gm_goban g) (gm_passes g) (0%N, 0%N) (gm_outcome g) (gm_turn g) (gm_rule g) (gm_handicap g) (gm_history g) (gm_ko_point g)).
  destruct (score_isC order dbg n g0 k2 W Ho (conj V (conj H K)) ltac:(cbn; lia) ltac:(cbn; lia) (flag_score (gm_rule g))) as (b & w & tb & tw & E & CB & CW & IB & IW & LB & LW).
  assert (Eg : calculate_score_by order dbg g (flag_score (gm_rule g)) = Ok (b, w)).
  { rewrite <- E. unfold calculate_score_by. rewrite (flag_bit _ 2 PRISONNERS), Pr by reflexivity. reflexivity. }
  clear E. change (pos_of (gm_goban g0)) with (position g) in *. cbn [gm_prisoners g0 fst snd] in *. unfold white2, black2 in *. rewrite S, Pr in *. fold (counted_komi (flag_score (gm_rule g)) k2) in *.
  set (B := (2 * Z.of_N (N.of_nat tb) + 0 + _)%Z) in *. set (Wh := (_ + counted_komi _ _)%Z) in *.
  assert (ID : isC (f32_sub b w) (B - Wh)) by (apply sub_isC; [assumption..|sm]).
  assert (Eo : outcome order dbg g = Ok (Some (if (B - Wh =? 0)%Z then Draw else if (Wh <? B)%Z then WinnerByScore Black (f32_sub b w) else WinnerByScore White (f32_sub w b)))).
  { unfold outcome. rewrite Ov, Ou. cbn [negb]. unfold calculate_score. rewrite Eg. cbn [bind]. rewrite (abs_lt_eps _ _ ID), (lt_isC w b Wh B IW IB).
    destruct (B - Wh =? 0)%Z; [reflexivity|]. destruct (Wh <? B)%Z; reflexivity. }
  exists tb, tw. eexists. split; [exact CB|]. split; [exact CW|]. split; [exact Eo|]. cbv zeta. subst B Wh.
  destruct (Z.eqb_spec (2 * Z.of_N (N.of_nat tb) + 0 + 2 * Z.of_N (N.of_nat (count n (position g) Black)) - (2 * Z.of_N (N.of_nat tw) + 0 + 2 * Z.of_N (N.of_nat (count n (position g) White)) + counted_komi (flag_score (gm_rule g)) k2)) 0) as [E0|E0].
  { cbn. split; (split; [discriminate|lia]). }
  destruct (Z.ltb_spec (2 * Z.of_N (N.of_nat tw) + 0 + 2 * Z.of_N (N.of_nat (count n (position g) White)) + counted_komi (flag_score (gm_rule g)) k2) (2 * Z.of_N (N.of_nat tb) + 0 + 2 * Z.of_N (N.of_nat (count n (position g) Black)))) as [L|L]; cbn.
  - split; (split; [intros X|intros X]); try discriminate; try reflexivity; lia.
  - split; (split; [intros X|intros X]); try discriminate; try reflexivity; lia.
Qed.

(** ** The points of a living group *)
Lemma has_neighbour n p : 2 <= n -> on n p -> exists q, on n q /\ adj p q.
Proof.
  intros Hn [H1 H2]. destruct p as [x y]. cbn in *. destruct y as [|y].
  - exists (x, 1). split; [split; cbn; lia|]. left. cbn. lia.
  - exists (x, y). split; [split; cbn; lia|]. left. cbn. lia.
Qed.

Lemma adj_irrefl p : ~ adj p p.
Proof. intros [[_ [H|H]]|[_ [H|H]]]; lia. Qed.

Lemma eye_owned n P c X F e : 2 <= n -> alive n P c X F -> [e] ∈ F -> owned n P c e.
Proof.
  intros Hn (HX & HF & _) He. destruct (HF _ He) as (R1 & (p & Hp & Ep) & R3). apply elem_of_list_singleton in Hp. subst p.
  destruct (R1 e ltac:(apply elem_of_list_singleton; reflexivity)) as [On _].
  assert (Nb : forall q, on n q -> adj e q -> P q = Some c).
  { intros q Hq A. destruct (R3 e q ltac:(apply elem_of_list_singleton; reflexivity) Hq A) as [X1|X1]; [|apply HX, X1]. apply elem_of_list_singleton in X1. subst q. destruct (adj_irrefl _ A). }
  assert (Self : forall q, connected n P e q -> q = e).
  { intros q C. inversion C as [|? d ? (_ & Hd & A & E) _]; subst; [reflexivity|]. rewrite (Nb d Hd A), Ep in E. discriminate. }
  split; [exact On|]. split; [exact Ep|]. split.
  - destruct (has_neighbour n e Hn On) as (q & Hq & A). exists e, q. split; [apply rtc_refl|]. split; [exact Hq|]. split; [exact A|apply Nb; assumption].
  - intros (q & r & C & Hr & A & E). rewrite (Self q C) in A. rewrite (Nb r Hr A) in E. injection E as E. destruct c; discriminate.
Qed.

(** [E]: eyes of one point.  Stones and eyes count for [c], and nothing among them for the opponent. *)
Lemma living_area n P c X F E tc to : 2 <= n -> alive n P c X F -> NoDup X -> NoDup E -> (forall e, e ∈ E -> [e] ∈ F) ->
  card (owned n P c) tc -> card (owned n P (opp c)) to ->
  length X + length E <= tc + count n P c /\ to + count n P (opp c) + (length X + length E) <= n * n.
Proof.
  intros Hn A NX NE HE (lc & Nc & Mc & <-) (lo & No & Mo & <-). pose proof A as (HX & _).
  assert (Ow : forall e, e ∈ E -> owned n P c e) by (intros e He; eapply eye_owned; [exact Hn|exact A|apply HE, He]).
  assert (E1 : length E <= length lc) by (apply submseteq_length, NoDup_submseteq; [exact NE|]; intros e He; apply Mc, Ow, He).
  assert (E2 : length X <= count n P c).
  { apply submseteq_length, NoDup_submseteq; [exact NX|]. intros x Hx. apply elem_of_list_filter. destruct (HX x Hx) as [On Ex]. split; [exact Ex|apply elem_of_points, On]. }
  split; [lia|].
  assert (L : length (lo ++ filter (fun p => P p = Some (opp c)) (points n) ++ X ++ E) <= length (points n)).
  { apply submseteq_length, NoDup_submseteq.
    - assert (Dc : opp c <> c) by (destruct c; discriminate).
      apply NoDup_app. split; [exact No|]. split.
      { intros p Hp Q. apply Mo in Hp as (_ & Ep & T & NT). rewrite !elem_of_app, elem_of_list_filter in Q. destruct Q as [[Q _]|[Q|Q]]; [congruence|apply HX in Q as [_ Q]; congruence|].
        apply Ow in Q as (_ & _ & T' & NT'). apply NT'. exact T. }
      apply NoDup_app. split; [apply NoDup_filter, NoDup_points|]. split.
      { intros p Hp Q. apply elem_of_list_filter in Hp as [Ep _]. rewrite elem_of_app in Q. destruct Q as [Q|Q]; [apply HX in Q as [_ Q]; congruence|apply Ow in Q as (_ & Q & _); congruence]. }
      apply NoDup_app. split; [exact NX|]. split; [|exact NE].
      intros p Hp Q. apply HX in Hp as [_ Ep]. apply Ow in Q as (_ & Q & _). congruence.
    - intros p Hp. apply elem_of_points. rewrite !elem_of_app, elem_of_list_filter, elem_of_points in Hp.
      destruct Hp as [Hp|[[_ Hp]|[Hp|Hp]]]; [apply Mo in Hp; apply Hp|exact Hp|apply HX, Hp|apply Ow in Hp; apply Hp]. }
  rewrite !app_length, points_length in L. unfold count. lia.
Qed.

Section Living.
  Context (dbg : bool) (n : nat) (r : rule) (k2 : Z) (c : color) (X E : list coord) (F : list (list coord)).
  Hypothesis Hn : 2 <= n.
  Hypothesis NX : NoDup X.
  Hypothesis NE : NoDup E.
  Hypothesis HE : forall e, e ∈ E -> [e] ∈ F.
  Hypothesis Hs : forbids_suicide r = true.
  Hypothesis Hk : is_f32 (r_komi r).
  Hypothesis Hk2 : halves (r_komi r) k2.
  Hypothesis Hb : (Z.abs k2 <= 200000)%Z.
  Hypothesis St : N.testbit (flag_score r) 0 = true.
  Hypothesis Pr : N.testbit (flag_score r) 2 = false.

  Record living (g : game) : Prop := mkLiving {
    lv_reach : exists b w, greach dbg n b w g;
    lv_rule : gm_rule g = r;
    lv_outcome : gm_outcome g = None;
    lv_alive : alive n (position g) c X F
  }.

  Lemma living_ends order g : living g -> is_over g = true -> (forall l, order l ≡ₚ l) -> exists e, outcome order dbg g = Ok (Some e) /\
    ((0 < lead n c X E (flag_score r) k2)%Z -> endgame_winner e = Some c) /\ ((0 <= lead n c X E (flag_score r) k2)%Z -> endgame_winner e <> Some (opp c)).
  Proof using All.
    intros [(b & w & HG) R O A] Ov Ho. pose proof (gi_wf _ _ _ _ (greach_inv _ _ _ _ _ HG)) as W.
    assert (Hkg : is_f32 (komi g)) by (unfold komi; rewrite R; exact Hk). assert (Hk2g : halves (komi g) k2) by (unfold komi; rewrite R; exact Hk2).
    assert (Stg : N.testbit (flag_score (gm_rule g)) 0 = true) by (rewrite R; exact St). assert (Prg : N.testbit (flag_score (gm_rule g)) 2 = false) by (rewrite R; exact Pr).
    destruct (area_outcome order dbg n g k2 W Ho Hkg Hk2g Hb Stg Prg O Ov) as (tb & tw & e & CB & CW & Eo & WB & WW). cbv zeta in WB, WW. rewrite R in WB, WW.
    exists e. split; [exact Eo|]. unfold lead. set (K := counted_komi (flag_score r) k2) in *. destruct c.
    - destruct (living_area n (position g) White X F E tw tb Hn A NX NE HE CW CB) as [L1 L2]. cbn [opp] in *. split; intros L; rewrite ?WB, ?WW; lia.
    - destruct (living_area n (position g) Black X F E tb tw Hn A NX NE HE CB CW) as [L1 L2]. cbn [opp] in *. split; intros L; rewrite ?WB, ?WW; lia.
  Qed.

  Lemma living_over g : living g -> is_over g = true ->
    ((0 < lead n c X E (flag_score r) k2)%Z -> ~ not_lost dbg (opp c) g) /\ ((0 <= lead n c X E (flag_score r) k2)%Z -> ~ won dbg (opp c) g).
  Proof using All.
    intros L Ov. destruct (living_ends (fun l => l) g L Ov (fun l => Permutation_refl l)) as (e & Eo & L1 & L2).
    split; intros Ld Q; destruct (Q (fun l => l) (fun l => Permutation_refl l)) as (e' & Ee & We); rewrite Eo in Ee; injection Ee as <-.
    - apply We. rewrite (L1 Ld). destruct c; reflexivity.
    - exact (L2 Ld We).
  Qed.

  Lemma living_careful g g' : living g -> careful dbg n c F g g' -> living g'.
  Proof using Hs.
    intros [(b & w & HG) R O A] (m & Hm & Hc). destruct (may_keeps _ _ _ _ _ Hm) as [R' O'].
    assert (S : spares dbg n c F g g').
    { destruct Hm as [Hm E']. destruct m as [|x|x y]; [right; left; eauto|destruct Hm|]. left. exists x, y, Accepted. split; [exact Hm|]. split; [exact E'|]. intros T _. exact (Hc T x y eq_refl). }
    destruct (spares_step dbg n c F b w g g' X HG ltac:(rewrite R; exact Hs) A S) as (HG' & _ & A'). split; [exact HG'|congruence|congruence|exact A'].
  Qed.

  Lemma living_step g m g' : living g -> may_play dbg (n, n) g m g' -> (gm_turn g = c -> m = MPass) -> living g'.
  Proof using Hs.
    intros L Hm Hc. apply (living_careful g g' L). exists m. split; [exact Hm|]. intros T x y ->. discriminate (Hc T).
  Qed.

  (** the opponent forces nothing against passes that does not hold at the end *)
  Lemma living_forces (P : game -> Prop) g : (forall h, living h -> is_over h = true -> ~ P h) -> living g -> ~ forces dbg (n, n) (opp c) P g.
  Proof using Hs.
    intros HP L Fo. induction Fo as [g Ov Pg|g m g' Ov T Hm _ IH|g Ov T _ IH].
    - exact (HP g L Ov Pg).
    - apply IH. apply (living_step g m g' L Hm). intros T'. rewrite T in T'. destruct c; discriminate.
    - destruct (can_pass dbg (n, n) g Ov) as (g' & Hm). apply (IH MPass g' Hm). apply (living_step g MPass g' L Hm). intros _. reflexivity.
  Qed.
End Living.

Theorem living_wins dbg n b w c X E F g k2 : 2 <= n -> greach dbg n b w g -> forbids_suicide (gm_rule g) = true -> gm_outcome g = None ->
  alive n (position g) c X F -> NoDup X -> NoDup E -> (forall e, e ∈ E -> [e] ∈ F) ->
  is_f32 (komi g) -> halves (komi g) k2 -> (Z.abs k2 <= 200000)%Z ->
  N.testbit (flag_score (gm_rule g)) 0 = true -> N.testbit (flag_score (gm_rule g)) 2 = false ->
  ((0 < lead n c X E (flag_score (gm_rule g)) k2)%Z -> forces dbg (n, n) c (won dbg c) g) /\
  ((0 <= lead n c X E (flag_score (gm_rule g)) k2)%Z -> forces dbg (n, n) c (not_lost dbg c) g).
Proof.
  intros Hn HG Hs O A NX NE HE Hk Hk2 Hb St Pr.
  assert (L : living dbg n (gm_rule g) c X F g) by (split; [eauto|reflexivity|exact O|exact A]).
  assert (D : Nat.divide (snd (n, n)) (fst (n, n))) by (exists 1; cbn; lia).
  destruct (game_value dbg (n, n) b w g D (greach_square _ _ _ _ _ HG)) as (V & _).
  split; intros Ld.
  - destruct (V c) as [Q|Q]; [exact Q|exfalso]. revert Q. apply (living_forces dbg n (gm_rule g) c X F Hs); [|exact L].
    intros h Lh Ov. apply (living_over dbg n (gm_rule g) k2 c X E F); assumption.
  - destruct (V (opp c)) as [Q|Q]; [exfalso|replace (opp (opp c)) with c in Q by (destruct c; reflexivity); exact Q]. revert Q. apply (living_forces dbg n (gm_rule g) c X F Hs); [|exact L].
    intros h Lh Ov. apply (living_over dbg n (gm_rule g) k2 c X E F); assumption.
Qed.

(** whoever keeps out of the own regions wins in the end, whatever else both players do *)
Theorem living_line dbg n b w c X E F g g' k2 : 2 <= n -> greach dbg n b w g -> forbids_suicide (gm_rule g) = true -> gm_outcome g = None ->
  alive n (position g) c X F -> NoDup X -> NoDup E -> (forall e, e ∈ E -> [e] ∈ F) ->
  is_f32 (komi g) -> halves (komi g) k2 -> (Z.abs k2 <= 200000)%Z ->
  N.testbit (flag_score (gm_rule g)) 0 = true -> N.testbit (flag_score (gm_rule g)) 2 = false ->
  rtc (careful dbg n c F) g g' -> is_over g' = true ->
  ((0 < lead n c X E (flag_score (gm_rule g)) k2)%Z -> won dbg c g') /\ ((0 <= lead n c X E (flag_score (gm_rule g)) k2)%Z -> not_lost dbg c g').
Proof.
  intros Hn HG Hs O A NX NE HE Hk Hk2 Hb St Pr Rt Ov.
  assert (L : living dbg n (gm_rule g) c X F g) by (split; [eauto|reflexivity|exact O|exact A]).
  assert (L' : living dbg n (gm_rule g) c X F g').
  { clear Ov HG O A Hk Hk2 St Pr. revert Hs L. generalize (gm_rule g) as r. intros r Hs L. induction Rt as [g|g h g' S _ IH]; [exact L|].
    apply IH. exact (living_careful dbg n r c X F Hs g h L S). }
  split; intros Ld order Ho; destruct (living_ends dbg n (gm_rule g) k2 c X E F Hn NX NE HE Hs Hk Hk2 Hb St Pr order g' L' Ov Ho) as (e & Eo & L1 & L2); eauto.
Qed.
