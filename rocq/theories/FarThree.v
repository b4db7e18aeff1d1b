(** Two stones of one player that are far apart may be exchanged around a stone of the other player. *)
From stdpp Require Import relations.
From Verif Require Import LocalSpec OrderSpec VerdictSpec.
From Verif Require Import MonadFacts Spec Game Builder Struct Push Inv Remove Capture Bridge GameFacts RulesFacts LegalFacts LegalsFacts CheckFacts ClaimFacts LongFacts SymFacts SymGame SymScore ScoreFacts ReprFacts RectCount RectCoord RectBridge RectRules RectKo RectBoard RectCheck RectEye RectVerdict.
From Verif Require Import RectScore RectSpec RectReach RectVerdictSpec RectTableSpec RectInv RectGame RectMoves RectLegal RectTable RectReachFacts RectSymFacts RectSymGame RectSymClaims RectCases PastFacts OrderFacts VerdictFacts LocalFacts FarFacts.
From Coq Require Import Lia.

Local Notation length := Datatypes.length.
Local Open Scope nat_scope.

Lemma alike_trans n p P Q R : alike_near n p P Q -> alike_near n p Q R -> alike_near n p P R.
Proof. intros A B r Hr N. rewrite (A r Hr N). apply B; [exact Hr|]. apply (near_both n P Q p A r), N. Qed.
Lemma alike_sym n p P Q : alike_near n p P Q -> alike_near n p Q P.
Proof. intros A r Hr N. symmetry. apply A; [exact Hr|]. apply (near_both n P Q p A r), N. Qed.
Lemma far_sym n P p q : far_apart n P p q -> far_apart n P q p.
Proof. intros F r Hr X Y. exact (F r Hr Y X). Qed.
Lemma far_keep n P Q p q : alike_near n p P Q -> alike_near n q P Q -> far_apart n P p q -> far_apart n Q p q.
Proof. intros A B F r Hr X Y. apply (F r Hr); [apply (near_both n P Q p A r), X|apply (near_both n P Q q B r), Y]. Qed.

Section Positions.
  Context (n : nat * nat) (P : pos) (p z q : coord) (c d : color) (s : bool).
  Hypothesis Hp : ron n p.
  Hypothesis Hz : ron n z.
  Hypothesis Hq : ron n q.
  Hypothesis Ep : P p = None.
  Hypothesis Ez : P z = None.
  Hypothesis Fpz : far_apart n P p z.
  Hypothesis Fpq : far_apart n P p q.
  Hypothesis Fzq : far_apart n P z q.

  (** after stones on [p] and [z] the position near [q] is the old one *)
  Lemma two_away A B : rgo_move s n P p c A -> rgo_move s n A z d B -> alike_near n z P A /\ alike_near n q P A /\ alike_near n q P B /\ A z = None.
  Proof using Hp Hz Ep Ez Fpz Fpq Fzq.
    intros M N. pose proof (far_alike n P p z c s A Hp Ep M Fpz) as A1. pose proof (far_alike n P p q c s A Hp Ep M Fpq) as A2.
    assert (E : A z = None) by (exact (near_empty n P A z A1 Hz Ez)). split; [exact A1|]. split; [exact A2|]. split; [|exact E].
    eapply alike_trans; [exact A2|]. apply (far_alike n A z q d s B Hz E N). exact (far_keep n P A z q A1 A2 Fzq).
  Qed.
End Positions.

Lemma three_positions n P p z q c d s A B C A' B' C' : ron n p -> ron n z -> ron n q -> P p = None -> P z = None -> P q = None ->
  far_apart n P p z -> far_apart n P p q -> far_apart n P z q ->
  rgo_move s n P p c A -> rgo_move s n A z d B -> rgo_move s n B q c C ->
  rgo_move s n P q c A' -> rgo_move s n A' z d B' -> rgo_move s n B' p c C' -> rsame_pos n C C'.
Proof.
  intros Hp Hz Hq Ep Ez Eq Fpz Fpq Fzq M1 M2 M3 N1 N2 N3 r Hr. destruct (mcolor_dec (C r) (C' r)) as [|D]; [assumption|]. exfalso.
  destruct (two_away n P p z q c d s Hp Hz Ep Ez Fpz Fpq Fzq A B M1 M2) as (Az & Aq & Bq & Eaz).
  destruct (two_away n P q z p c d s Hq Hz Eq Ez (far_sym _ _ _ _ Fzq) (far_sym _ _ _ _ Fpq) (far_sym _ _ _ _ Fpz) A' B' N1 N2) as (Az' & Ap' & Bp' & Eaz').
  pose proof (near_empty n P B q Bq Hq Eq) as Ebq. pose proof (near_empty n P B' p Bp' Hp Ep) as Ebp.
  assert (X1 : ~ near n P p r -> A r = P r) by (exact (move_far n P p c s A r Hp Ep M1 Hr)).
  assert (X2 : ~ near n P z r -> B r = A r) by (intros N; apply (move_far n A z d s B r Hz Eaz M2 Hr); rewrite <- (near_both n P A z Az r); exact N).
  assert (X3 : ~ near n P q r -> C r = B r) by (intros N; apply (move_far n B q c s C r Hq Ebq M3 Hr); rewrite <- (near_both n P B q Bq r); exact N).
  assert (Y1 : ~ near n P q r -> A' r = P r) by (exact (move_far n P q c s A' r Hq Eq N1 Hr)).
  assert (Y2 : ~ near n P z r -> B' r = A' r) by (intros N; apply (move_far n A' z d s B' r Hz Eaz' N2 Hr); rewrite <- (near_both n P A' z Az' r); exact N).
  assert (Y3 : ~ near n P p r -> C' r = B' r) by (intros N; apply (move_far n B' p c s C' r Hp Ebp N3 Hr); rewrite <- (near_both n P B' p Bp' r); exact N).
  assert (K1 : ~ near n P p r).
  { intros N. assert (~ near n P z r) by (intros N'; exact (Fpz r Hr N N')). assert (~ near n P q r) by (intros N'; exact (Fpq r Hr N N')).
    apply D. rewrite X3, X2 by assumption. exact (move_near n P B' p c s A C' r Bp' Hp Ep M1 N3 Hr N). }
  assert (K2 : ~ near n P q r).
  { intros N. assert (~ near n P z r) by (intros N'; exact (Fzq r Hr N' N)).
    apply D. rewrite Y3, Y2 by assumption. symmetry. exact (move_near n P B q c s A' C r Bq Hq Eq N1 M3 Hr N). }
  assert (K3 : ~ near n P z r).
  { intros N. apply D. rewrite X3, Y3 by assumption. apply (move_near n A A' z d s B B' r); try assumption; [eapply alike_trans; [apply alike_sym, Az|exact Az']|]. apply (near_both n P A z Az r), N. }
  apply D. rewrite X3, X2, X1, Y3, Y2, Y1 by assumption. reflexivity.
Qed.

(** the ko point is near the stone *)
Lemma ko_near dbg n b w g x y g' k : Nat.divide (snd n) (fst n) -> rgreach dbg n b w g -> ron n (x, y) -> try_play dbg g (MPlay x y) = Ok (g', Accepted) ->
  gm_ko_point g' = Some k -> ron n k /\ near n (position g) (x, y) k.
Proof.
  intros Hd HG Hp E K. pose proof (rgreach_inv _ _ _ _ _ Hd HG) as G. destruct (stone_facts dbg n b w g x y g' Hd HG Hp E) as (He & _).
  destruct (try_play_inv _ _ _ _ _ E) as [(e & F & _)|(_ & _ & Ep)]; [discriminate|].
  destruct (rplay_spec dbg n b w g x y G Hp He) as [[F _]|(g1 & E1 & _ & _ & _ & _ & _ & _ & _ & _ & _ & KO)]; [congruence|]. rewrite Ep in E1. injection E1 as <-.
  apply KO in K as (Hk & T & _). split; [exact Hk|]. exact (taken_near n _ _ _ He k T).
Qed.

Theorem three_exchange dbg n b w g xp yp xz yz xq yq g1 : Nat.divide (snd n) (fst n) -> rgreach dbg n b w g -> ron n (xp, yp) -> ron n (xz, yz) -> ron n (xq, yq) ->
  far_apart n (position g) (xp, yp) (xz, yz) -> far_apart n (position g) (xp, yp) (xq, yq) -> far_apart n (position g) (xz, yz) (xq, yq) ->
  gm_ko_point g = None -> forbids_fill_eye (gm_rule g) = false -> forbids_superko (gm_rule g) = false ->
  (N.of_nat (b + w + 3) < 65535)%N -> all_accepted dbg g [MPlay xp yp; MPlay xz yz; MPlay xq yq] g1 ->
  exists g2, all_accepted dbg g [MPlay xq yq; MPlay xz yz; MPlay xp yp] g2 /\ (forall r, ron n r -> position g1 r = position g2 r) /\ gm_prisoners g1 = gm_prisoners g2 /\
    gm_turn g1 = gm_turn g2 /\ gm_passes g1 = gm_passes g2 /\ gm_outcome g1 = gm_outcome g2 /\ gm_rule g1 = gm_rule g2.
Proof.
  intros Hd HG Hp Hz Hq Fpz Fpq Fzq K Fe Fs L (ga & Ea & gb & Eb & gc & Ec & <-).
  destruct (stone_facts dbg n b w g xp yp ga Hd HG Hp Ea) as (Ep & HGa & M1 & P0 & Pa & Oa & Ta & Ra).
  destruct (stone_facts dbg n _ _ ga xz yz gb Hd HGa Hz Eb) as (Ez1 & HGb & M2 & _ & Pb & Ob & Tb & Rb).
  destruct (stone_facts dbg n _ _ gb xq yq g1 Hd HGb Hq Ec) as (Eq1 & HGc & M3 & _ & Pc & Oc & Tc & Rc).
  assert (Tgb : gm_turn gb = gm_turn g) by (rewrite Tb, Ta; destruct (gm_turn g); reflexivity).
  rewrite Ra, Ta in M2. rewrite Rb, Ra, Tgb in M3. rewrite Tgb in HGc. rewrite Ta in HGb, HGc.
  pose proof (far_alike _ _ _ _ _ _ _ Hp Ep M1 Fpz) as Az0.
  assert (Ez : position g (xz, yz) = None) by (rewrite (Az0 (xz, yz) Hz); [exact Ez1|left; reflexivity]).
  destruct (two_away n _ _ _ _ _ _ _ Hp Hz Ep Ez Fpz Fpq Fzq _ _ M1 M2) as (Az & Aq & Bq & Eaz).
  assert (Eq : position g (xq, yq) = None) by (rewrite (Bq (xq, yq) Hq); [exact Eq1|left; reflexivity]).
  assert (Kb : gm_ko_point gb <> Some (xq, yq)).
  { intros X. destruct (ko_near dbg n _ _ ga xz yz gb _ Hd HGa Hz Eb X) as [_ N]. apply (Fzq (xq, yq) Hq); [apply (near_both n _ _ _ Az), N|left; reflexivity]. }
  assert (Ka : gm_ko_point ga <> Some (xz, yz)).
  { intros X. destruct (ko_near dbg n _ _ g xp yp ga _ Hd HG Hp Ea X) as [_ N]. apply (Fpz (xz, yz) Hz N). left. reflexivity. }
  pose proof (rfew dbg n b w g Hd HG ltac:(lia)) as L0.
  pose proof (rfew dbg n _ _ ga Hd HGa ltac:(destruct (gm_turn g); cbn [bump_count fst snd opp]; lia)) as La.
  pose proof (rfew dbg n _ _ gb Hd HGb ltac:(destruct (gm_turn g); cbn [bump_count fst snd opp]; lia)) as Lb.
  (* the stone on q first *)
  destruct (proj2 (local_verdict dbg dbg n b w _ _ g gb xq yq Accepted Hd HG HGb Hq L0 Lb Eq Bq Tgb ltac:(congruence) ltac:(rewrite Pb; lia) ltac:(rewrite K; split; [discriminate|congruence]) (or_introl Fe) (or_introl Fs))) as (ha & Fa); [eauto|].
  destruct (stone_facts dbg n b w g xq yq ha Hd HG Hq Fa) as (_ & HHa & N1 & _ & Qa & Ua & Va & Wa).
  pose proof (far_alike _ _ _ _ _ _ _ Hq Eq N1 (far_sym _ _ _ _ Fzq)) as Az1.
  pose proof (rfew dbg n _ _ ha Hd HHa ltac:(destruct (gm_turn g); cbn [bump_count fst snd opp]; lia)) as Lha.
  assert (Ka' : gm_ko_point ha <> Some (xz, yz)).
  { intros X. destruct (ko_near dbg n _ _ g xq yq ha _ Hd HG Hq Fa X) as [_ N]. apply (Fzq (xz, yz) Hz); [left; reflexivity|exact N]. }
  (* then the stone on z *)
  destruct (proj1 (local_verdict dbg dbg n _ _ _ _ ga ha xz yz Accepted Hd HGa HHa Hz La Lha Ez1 (alike_trans _ _ _ _ _ (alike_sym _ _ _ _ Az) Az1) ltac:(congruence) ltac:(congruence) ltac:(rewrite Pa, Qa; lia)
     ltac:(split; congruence) (or_introl (eq_trans (f_equal _ Ra) Fe)) (or_introl (eq_trans (f_equal _ Ra) Fs)))) as (hb & Fb); [eauto|].
  destruct (stone_facts dbg n _ _ ha xz yz hb Hd HHa Hz Fb) as (_ & HHb & N2 & _ & Qb & Ub & Vb & Wb).
  assert (Thb : gm_turn hb = gm_turn g) by (rewrite Vb, Va; destruct (gm_turn g); reflexivity). rewrite Wa, Va in N2. rewrite Va in HHb.
  destruct (two_away n _ _ _ _ _ _ _ Hq Hz Eq Ez (far_sym _ _ _ _ Fzq) (far_sym _ _ _ _ Fpq) (far_sym _ _ _ _ Fpz) _ _ N1 N2) as (_ & _ & Bp & _).
  pose proof (rfew dbg n _ _ hb Hd HHb ltac:(destruct (gm_turn g); cbn [bump_count fst snd opp]; lia)) as Lhb.
  assert (Kb' : gm_ko_point hb <> Some (xp, yp)).
  { intros X. destruct (ko_near dbg n _ _ ha xz yz hb _ Hd HHa Hz Fb X) as [_ N]. apply (Fpz (xp, yp) Hp); [left; reflexivity|apply (near_both n _ _ _ Az1), N]. }
  (* then the stone on p *)
  destruct (proj1 (local_verdict dbg dbg n b w _ _ g hb xp yp Accepted Hd HG HHb Hp L0 Lhb Ep Bp Thb ltac:(congruence) ltac:(rewrite Qb; lia) ltac:(rewrite K; split; [discriminate|congruence]) (or_introl Fe) (or_introl Fs))) as (g2 & Fc); [eauto|].
  destruct (stone_facts dbg n _ _ hb xp yp g2 Hd HHb Hp Fc) as (_ & HHc & N3 & _ & Qc & Uc & Vc & Wc). rewrite Wb, Wa, Thb in N3. rewrite Thb in HHc.
  pose proof (three_positions n _ _ _ _ _ _ _ _ _ _ _ _ _ Hp Hz Hq Ep Ez Eq Fpz Fpq Fzq M1 M2 M3 N1 N2 N3) as S.
  exists g2. split; [exists ha; split; [exact Fa|]; exists hb; split; [exact Fb|]; exists g2; split; [exact Fc|reflexivity]|].
  split; [exact S|]. split; [|repeat split; congruence].
  pose proof (rgreach_inv _ _ _ _ _ Hd HGc) as Gz. pose proof (rgreach_inv _ _ _ _ _ Hd HHc) as G2.
  pose proof (rcount_same n _ _ Black S) as CB. pose proof (rcount_same n _ _ White S) as CW. unfold position in CB, CW.
  pose proof (rgi_black _ _ _ _ Gz) as B0. pose proof (rgi_white _ _ _ _ Gz) as W0. pose proof (rgi_black _ _ _ _ G2) as B1. pose proof (rgi_white _ _ _ _ G2) as W1.
  destruct (gm_prisoners g1), (gm_prisoners g2). cbn [fst snd] in *. f_equal; lia.
Qed.
