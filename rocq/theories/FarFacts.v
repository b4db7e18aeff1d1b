(** Stones that are far apart may be exchanged, even if they capture. *)
From stdpp Require Import relations.
From Verif Require Import LocalSpec OrderSpec VerdictSpec.
From Verif Require Import MonadFacts Spec Game Builder Struct Push Inv Remove Capture Bridge GameFacts RulesFacts LegalFacts LegalsFacts CheckFacts ClaimFacts LongFacts SymFacts SymGame SymScore ScoreFacts ReprFacts RectCount RectCoord RectBridge RectRules RectKo RectBoard RectCheck RectEye RectVerdict.
From Verif Require Import RectScore RectSpec RectReach RectVerdictSpec RectTableSpec RectInv RectGame RectMoves RectLegal RectTable RectReachFacts RectSymFacts RectSymGame RectSymClaims RectCases PastFacts OrderFacts VerdictFacts LocalFacts.
From Coq Require Import Lia.

Local Notation length := Datatypes.length.
Local Open Scope nat_scope.

Lemma stone_facts dbg n b w g x y g' : Nat.divide (snd n) (fst n) -> rgreach dbg n b w g -> ron n (x, y) -> try_play dbg g (MPlay x y) = Ok (g', Accepted) ->
  position g (x, y) = None /\ rgreach dbg n (fst (bump_count (gm_turn g) (b, w))) (snd (bump_count (gm_turn g) (b, w))) g' /\
  rgo_move (negb (flag_contains (flag_illegal (gm_rule g)) SUICIDE)) n (position g) (x, y) (gm_turn g) (position g') /\
  gm_passes g <> 2 /\ gm_passes g' = 0 /\ gm_outcome g' = gm_outcome g /\ gm_turn g' = opp (gm_turn g) /\ gm_rule g' = gm_rule g.
Proof.
  intros Hd HG Hp E. pose proof (rgreach_inv _ _ _ _ _ Hd HG) as G.
  destruct (raccepted_empty dbg n g x y g' (rgi_wf _ _ _ _ G) (rgi_hist _ _ _ _ G) Hp E) as (He & _).
  destruct (try_play_inv _ _ _ _ _ E) as [(e & F & _)|(_ & Ps & Ep)]; [discriminate|].
  split; [exact He|]. split; [exact (rg_play _ _ _ _ _ _ _ _ HG Hp He Ep)|].
  destruct (rplay_spec dbg n b w g x y G Hp He) as [[F _]|(g1 & E1 & _ & M & _ & A1 & A2 & A3 & A4 & _)]; [congruence|]. rewrite Ep in E1. injection E1 as <-.
  split; [exact M|]. tauto.
Qed.

Lemma pass_facts dbg n b w g : rgreach dbg n b w g -> gm_passes g = 0 -> exists g', try_play dbg g MPass = Ok (g', Accepted) /\ rgreach dbg n b w g' /\
  position g' = position g /\ gm_passes g' = 1 /\ gm_outcome g' = gm_outcome g /\ gm_turn g' = opp (gm_turn g) /\ gm_rule g' = gm_rule g /\ gm_ko_point g' = None.
Proof.
  intros HG Ps. assert (E : exists g', play dbg g MPass = Ok g' /\ try_play dbg g MPass = Ok (g', Accepted)).
  { unfold try_play, play. rewrite Ps. cbn. eexists. split; reflexivity. }
  destruct E as (g' & E & T). exists g'. split; [exact T|]. split; [exact (rg_pass _ _ _ _ _ _ HG E)|].
  unfold play in E. rewrite Ps in E. cbn in E. injection E as <-. repeat split.
Qed.

Lemma far_alike n P p q c s R : ron n p -> P p = None -> rgo_move s n P p c R -> far_apart n P p q -> alike_near n q P R.
Proof. intros Hp He M F r Hr N. symmetry. apply (move_far n P p c s R r Hp He M Hr). intros N'. exact (F r Hr N' N). Qed.

(** the positions *)
Lemma far_positions n P p q c s P1 P2 R1 R2 : ron n p -> ron n q -> P p = None -> P q = None -> far_apart n P p q ->
  rgo_move s n P p c P1 -> rgo_move s n P1 q c R1 -> rgo_move s n P q c P2 -> rgo_move s n P2 p c R2 -> rsame_pos n R1 R2.
Proof.
  intros Hp Hq Ep Eq F M1 N1 M2 N2 r Hr. destruct (mcolor_dec (R1 r) (R2 r)) as [|D]; [assumption|]. exfalso.
  assert (F' : far_apart n P q p) by (intros a Ha X Y; exact (F a Ha Y X)).
  pose proof (far_alike n P p q c s P1 Hp Ep M1 F) as A1. pose proof (far_alike n P q p c s P2 Hq Eq M2 F') as A2.
  pose proof (near_empty n P P1 q A1 Hq Eq) as Eq1. pose proof (near_empty n P P2 p A2 Hp Ep) as Ep2.
  assert (X1 : forall a, ron n a -> ~ near n P q a -> R1 a = P1 a) by (intros a Ha N; apply (move_far n P1 q c s R1 a Hq Eq1 N1 Ha); rewrite <- (near_both n P P1 q A1 a); exact N).
  assert (X2 : forall a, ron n a -> ~ near n P p a -> R2 a = P2 a) by (intros a Ha N; apply (move_far n P2 p c s R2 a Hp Ep2 N2 Ha); rewrite <- (near_both n P P2 p A2 a); exact N).
  assert (Y1 : ~ near n P p r).
  { intros N. apply D. rewrite (X1 r Hr); [|intros N'; exact (F r Hr N N')]. exact (move_near n P P2 p c s P1 R2 r A2 Hp Ep M1 N2 Hr N). }
  assert (Y2 : ~ near n P q r).
  { intros N. apply D. rewrite (X2 r Hr) by exact Y1. symmetry. exact (move_near n P P1 q c s P2 R1 r A1 Hq Eq M2 N1 Hr N). }
  apply D. rewrite (X1 r Hr Y2), (X2 r Hr Y1), (move_far n P p c s P1 r Hp Ep M1 Hr Y1), (move_far n P q c s P2 r Hq Eq M2 Hr Y2). reflexivity.
Qed.

Theorem far_exchange dbg n b w g x y x' y' g1 : Nat.divide (snd n) (fst n) -> rgreach dbg n b w g -> ron n (x, y) -> ron n (x', y') ->
  far_apart n (position g) (x, y) (x', y') -> gm_ko_point g = None -> forbids_fill_eye (gm_rule g) = false -> forbids_superko (gm_rule g) = false ->
  (N.of_nat (b + w + 2) < 65535)%N -> all_accepted dbg g [MPlay x y; MPass; MPlay x' y'] g1 ->
  exists g2, all_accepted dbg g [MPlay x' y'; MPass; MPlay x y] g2 /\ (forall r, ron n r -> position g1 r = position g2 r) /\ gm_prisoners g1 = gm_prisoners g2 /\
    gm_turn g1 = gm_turn g2 /\ gm_passes g1 = gm_passes g2 /\ gm_outcome g1 = gm_outcome g2 /\ gm_rule g1 = gm_rule g2.
Proof.
  intros Hd HG Hp Hq F K Fe Fs L (ga & Ea & gp & Epp & gz & Ez & <-).
  destruct (stone_facts dbg n b w g x y ga Hd HG Hp Ea) as (Ep & HGa & M1 & P0 & Pa & Oa & Ta & Ra).
  destruct (pass_facts dbg n _ _ ga HGa Pa) as (gp' & E' & HGp & Pp & Psp & Op & Tp & Rp & Kp). rewrite E' in Epp. injection Epp as ->.
  destruct (stone_facts dbg n _ _ gp x' y' g1 Hd HGp Hq Ez) as (Eq1 & HGz & N1 & _ & Pz & Oz & Tz & Rz). rewrite Pp in Eq1, N1.
  assert (Tgp : gm_turn gp = gm_turn g) by (rewrite Tp, Ta; destruct (gm_turn g); reflexivity). rewrite Rp, Ra, Tgp in N1. rewrite Tgp in HGz.
  assert (F' : far_apart n (position g) (x', y') (x, y)) by (intros a Ha X Y; exact (F a Ha Y X)).
  pose proof (far_alike _ _ _ _ _ _ _ Hp Ep M1 F) as A1.
  assert (Eq : position g (x', y') = None) by (rewrite (A1 (x', y') Hq); [exact Eq1|left; reflexivity]).
  destruct (proj2 (local_verdict dbg dbg n b w _ _ g gp x' y' Accepted Hd HG HGp Hq (rfew dbg n b w g Hd HG ltac:(lia))
     (rfew dbg n _ _ gp Hd HGp ltac:(destruct (gm_turn g); cbn [bump_count fst snd]; lia)) Eq ltac:(rewrite Pp; exact A1) Tgp ltac:(congruence) ltac:(rewrite Psp; lia) ltac:(rewrite K, Kp; reflexivity) (or_introl Fe) (or_introl Fs))) as (gb & Eb); [eauto|].
  destruct (stone_facts dbg n b w g x' y' gb Hd HG Hq Eb) as (_ & HGb & M2 & _ & Pb & Ob & Tb & Rb).
  destruct (pass_facts dbg n _ _ gb HGb Pb) as (gq & Eqq & HGq & Pq & Psq & Oq & Tq & Rq & Kq).
  assert (Tgq : gm_turn gq = gm_turn g) by (rewrite Tq, Tb; destruct (gm_turn g); reflexivity).
  pose proof (far_alike _ _ _ _ _ _ _ Hq Eq M2 F') as A2.
  destruct (proj1 (local_verdict dbg dbg n b w _ _ g gq x y Accepted Hd HG HGq Hp (rfew dbg n b w g Hd HG ltac:(lia))
     (rfew dbg n _ _ gq Hd HGq ltac:(destruct (gm_turn g); cbn [bump_count fst snd]; lia)) Ep ltac:(rewrite Pq; exact A2) Tgq ltac:(congruence) ltac:(rewrite Psq; lia) ltac:(rewrite K, Kq; reflexivity) (or_introl Fe) (or_introl Fs))) as (g2 & E2); [eauto|].
  destruct (stone_facts dbg n _ _ gq x y g2 Hd HGq Hp E2) as (_ & HG2 & N2 & _ & P2 & O2 & T2 & R2). rewrite Pq, Rq, Rb, Tgq in N2. rewrite Tgq in HG2.
  pose proof (far_positions n _ _ _ _ _ _ _ _ _ Hp Hq Ep Eq F M1 N1 M2 N2) as S.
  exists g2. split; [exists gb; split; [exact Eb|]; exists gq; split; [exact Eqq|]; exists g2; split; [exact E2|reflexivity]|].
  split; [exact S|]. split; [|repeat split; congruence].
  pose proof (rgreach_inv _ _ _ _ _ Hd HGz) as Gz. pose proof (rgreach_inv _ _ _ _ _ Hd HG2) as G2.
  pose proof (rcount_same n _ _ Black S) as CB. pose proof (rcount_same n _ _ White S) as CW. unfold position in CB, CW.
  pose proof (rgi_black _ _ _ _ Gz) as B0. pose proof (rgi_white _ _ _ _ Gz) as W0. pose proof (rgi_black _ _ _ _ G2) as B1. pose proof (rgi_white _ _ _ _ G2) as W1.
  destruct (gm_prisoners g1), (gm_prisoners g2). cbn [fst snd] in *. f_equal; lia.
Qed.

(** a stone and a pass do not change the verdicts far away *)
Theorem far_verdict dbg n b w g x y x' y' g1 v : Nat.divide (snd n) (fst n) -> rgreach dbg n b w g -> ron n (x, y) -> ron n (x', y') ->
  far_apart n (position g) (x, y) (x', y') -> position g (x', y') = None -> gm_ko_point g <> Some (x', y') ->
  forbids_fill_eye (gm_rule g) = false -> forbids_superko (gm_rule g) = false \/ ~ rcaptures n (position g) (x', y') (gm_turn g) ->
  (N.of_nat (b + w + 1) < 65535)%N -> all_accepted dbg g [MPlay x y; MPass] g1 ->
  (exists h, try_play dbg g (MPlay x' y') = Ok (h, v)) <-> (exists h, try_play dbg g1 (MPlay x' y') = Ok (h, v)).
Proof.
  intros Hd HG Hp Hq F Eq K Fe Fs L (ga & Ea & gp & Epp & <-).
  destruct (stone_facts dbg n b w g x y ga Hd HG Hp Ea) as (Ep & HGa & M1 & P0 & Pa & Oa & Ta & Ra).
  destruct (pass_facts dbg n _ _ ga HGa Pa) as (gp' & E' & HGp & Pp & Psp & Op & Tp & Rp & Kp). rewrite E' in Epp. injection Epp as ->.
  assert (Tgp : gm_turn g1 = gm_turn g) by (rewrite Tp, Ta; destruct (gm_turn g); reflexivity).
  apply (local_verdict dbg dbg n b w _ _ g g1 x' y' v Hd HG HGp Hq (rfew dbg n b w g Hd HG ltac:(lia)) (rfew dbg n _ _ g1 Hd HGp ltac:(destruct (gm_turn g); cbn [bump_count fst snd]; lia)) Eq);
    [rewrite Pp; exact (far_alike _ _ _ _ _ _ _ Hp Ep M1 F)|exact Tgp|congruence|rewrite Psp; lia|rewrite Kp; split; [congruence|discriminate]|left; exact Fe|exact Fs].
Qed.
