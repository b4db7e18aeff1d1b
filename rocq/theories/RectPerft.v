(** Counting lines of play on boards whose width divides their height: each line of the
    upper square is counted [k ^ d] times. *)
From stdpp Require Import relations sorting.
From Verif Require Import Spec AreaSpec SymSpec ScoreSpec Observe Reach RectPerftSpec RectReach RectGo Bench.
From Verif Require Import RectCoord RectBridge RectMoves CoordFacts Inv GameFacts MonadFacts PlayoutFacts RectInv RectGame RectReachFacts RectVerdict RectPlayout RectCases RectTable RectLegal LegalFacts TableFacts CaseFacts PerftFacts.
From Coq Require Import Lia.

Local Notation length := Datatypes.length.

Definition rgoes (dbg : bool) (n : size_t) (g : game) (d : nat) (ms : list coord) : Prop :=
  length ms = d /\ (forall p, p ∈ ms -> in_square n p) /\ exists g', all_accepted dbg g (stones_on ms) g'.

Definition total (f : coord -> N) (l : list coord) : N := foldr (fun p a => f p + a)%N 0%N l.

Lemma total_ext f f' l : (forall p, p ∈ l -> f p = f' p) -> total f l = total f' l.
Proof.
  intros H. induction l as [|p l IH]; [reflexivity|]. cbn. rewrite (H p) by left. f_equal. apply IH. intros q Hq. apply H. right. exact Hq.
Qed.

Lemma total_add f f' l : total (fun p => f p + f' p)%N l = (total f l + total f' l)%N.
Proof. induction l as [|p l IH]; [reflexivity|]. cbn. unfold total in IH. rewrite IH. lia. Qed.

Lemma total_mul c f l : total (fun p => c * f p)%N l = (c * total f l)%N.
Proof. induction l as [|p l IH]; [cbn; lia|]. cbn. unfold total in IH. rewrite IH. lia. Qed.

Lemma total_one f l a : NoDup l -> a ∈ l -> total (fun p => if decide (p = a) then f p else 0%N) l = f a.
Proof.
  intros ND. induction l as [|p l IH]; intros Ha; [inversion Ha|]. apply NoDup_cons in ND as [Hn ND]. cbn [total foldr].
  fold (total (fun p => if decide (p = a) then f p else 0%N) l). apply elem_of_cons in Ha as [->|Ha].
  - rewrite decide_True by reflexivity. rewrite (total_ext _ (fun _ => 0%N)).
    + assert (Z : total (fun _ => 0%N) l = 0%N) by (clear; induction l as [|q l IH]; [reflexivity|exact IH]). lia.
    + intros q Hq. rewrite decide_False; [reflexivity|]. intros ->. contradiction.
  - rewrite decide_False by (intros ->; contradiction). rewrite IH by assumption. lia.
Qed.

Lemma total_times f l l' : NoDup l' -> (forall p, p ∈ l -> p ∈ l') -> total f l = total (fun p => N.of_nat (times p l) * f p)%N l'.
Proof.
  intros ND. induction l as [|a l IH]; intros H.
  - cbn. symmetry. clear. induction l' as [|p l' IH]; [reflexivity|exact IH].
  - cbn [total foldr]. fold (total f l). rewrite IH by (intros p Hp; apply H; right; exact Hp).
    rewrite <- (total_one f l' a ND) by (apply H; left). rewrite <- total_add. apply total_ext. intros p _.
    unfold times. rewrite filter_cons. destruct (decide (p = a)) as [->|Hne].
    + rewrite decide_True by reflexivity. cbn [length]. lia.
    + rewrite decide_False by congruence. lia.
Qed.

Theorem rperft_goes dbg n k d : fst n = (k * snd n)%nat -> forall b w g, rgreach dbg n b w g -> gm_passes g <> 2%nat -> (N.of_nat (b + w + d) <= 65535)%N ->
  exists m, number_of (rgoes dbg n g d) m /\ perft dbg g d = as_u64 dbg (N.of_nat k ^ N.of_nat d * m).
Proof.
  intros Hk. assert (Hd : Nat.divide (snd n) (fst n)) by (exists k; exact Hk).
  induction d as [|d IH]; intros b w g HG HP HB.
  - exists 1%N. split; [|reflexivity]. exists [[]]. split; [apply NoDup_singleton|]. split; [|reflexivity].
    intros ms. rewrite elem_of_list_singleton. split.
    + intros ->. split; [reflexivity|]. split; [intros p Hp; inversion Hp|]. exists g. reflexivity.
    + intros (E & _). destruct ms; [reflexivity|discriminate E].
  - assert (HS : ~ no_slot_left g) by (apply (rfew dbg n b w g Hd HG); lia).
    pose proof (rgreach_inv _ _ _ _ _ Hd HG) as G. pose proof (rgi_wf _ _ _ _ G) as W.
    assert (Hfit : fits n) by (apply (rwf_n _ _ W)).
    destruct (rlegals_times dbg n b w g (flag_illegal (gm_rule g)) k Hk G HS) as (l & El & Ml & Tl).
    set (l' := remove_dups l).
    assert (NDl : NoDup l') by apply NoDup_remove_dups.
    assert (Hin : forall p, p ∈ l' <-> p ∈ l) by (intros p; apply elem_of_remove_dups).
    clearbody l'.
    assert (Ml' : forall x y, (x, y) ∈ l' <-> in_square n (x, y) /\ exists g', try_play dbg g (MPlay x y) = Ok (g', Accepted)).
    { intros x y. rewrite Hin, Ml. split; intros [Hs H]; (split; [exact Hs|]).
      - apply (raccepted_iff dbg n b w g x y G HS HP (square_on n _ Hfit Hs)). exact H.
      - apply (raccepted_iff dbg n b w g x y G HS HP (square_on n _ Hfit Hs)) in H. exact H. }
    assert (Hch : forall p, p ∈ l' -> in_square n p /\ exists g' b' w', play dbg g (MPlay (fst p) (snd p)) = Ok g' /\ try_play dbg g (MPlay (fst p) (snd p)) = Ok (g', Accepted) /\
      rgreach dbg n b' w' g' /\ gm_passes g' <> 2%nat /\ (b' + w' = S (b + w))%nat).
    { intros [x y] Hp. apply Ml' in Hp as [Hs (g' & Et)]. split; [exact Hs|]. cbn [fst snd].
      pose proof (square_on n _ Hfit Hs) as Hon.
      destruct (raccepted_empty dbg n g x y g' W (rgi_hist _ _ _ _ G) Hon Et) as (He & _ & _ & Ep).
      destruct (rstone_sim dbg n b w g x y Hd HG Hon He ltac:(lia)) as (g2 & Ep2 & _ & St & HG2). rewrite Ep in Ep2. injection Ep2 as <-.
      eexists g', _, _. split; [exact Ep|]. split; [exact Et|]. split; [exact HG2|]. split; [|apply bump_total].
      pose proof (rss_passes _ _ _ _ _ St) as E. cbn in E. rewrite E. discriminate. }
    set (D := fun p ms => exists g', try_play dbg g (MPlay (fst p) (snd p)) = Ok (g', Accepted) /\ rgoes dbg n g' d ms).
    assert (HD : forall ms, rgoes dbg n g (S d) ms <-> exists p t, ms = p :: t /\ p ∈ l' /\ D p t).
    { intros ms. split.
      - intros (E & Hon & g' & Ha). destruct ms as [|p t]; [discriminate E|]. cbn in E. injection E as E.
        destruct Ha as (g1 & Et & Ha). exists p, t. split; [reflexivity|]. split.
        + destruct p as [x y]. apply Ml'. split; [apply Hon; left|]. exists g1. exact Et.
        + exists g1. split; [exact Et|]. split; [exact E|]. split; [intros q Hq; apply Hon; right; exact Hq|]. exists g'. exact Ha.
      - intros (p & t & -> & Hp & g1 & Et & E & Hon & g' & Ha). split; [cbn; f_equal; exact E|]. split.
        + intros q Hq. apply elem_of_cons in Hq as [->|Hq]; [apply Hch, Hp|apply Hon, Hq].
        + exists g'. exists g1. split; [exact Et|exact Ha]. }
    destruct (gather l' D NDl) as (ls & c & N1 & K & M & L).
    { intros p Hp. destruct (Hch p Hp) as [Hon (g' & b' & w' & Ep & Et & HG' & HP' & HB')].
      destruct (IH b' w' g' HG' HP' ltac:(lia)) as (kp & (lp & Np & Mp & _) & _). exists lp. split; [exact Np|].
      intros ms. rewrite Mp. unfold D. split; [intros H; exists g'; split; [exact Et|exact H]|].
      intros (g2 & Et2 & H). rewrite Et in Et2. injection Et2 as <-. exact H. }
    exists (N.of_nat (length ls)). split.
    { exists ls. split; [exact N1|]. split; [|reflexivity]. intros ms. rewrite M. symmetry. apply HD. }
    fold (total c l') in L.
    assert (HT : forall f, total f l = (N.of_nat k * total f l')%N).
    { intros f. rewrite (total_times f l l' NDl) by (intros p Hp; apply Hin; exact Hp).
      rewrite <- total_mul. apply total_ext. intros p Hp. apply Hin in Hp. rewrite (Tl p Hp). reflexivity. }
    assert (HE : (N.of_nat k ^ N.of_nat (S d) * N.of_nat (length ls))%N = total (fun p => N.of_nat k ^ N.of_nat d * c p)%N l).
    { rewrite HT, total_mul, L, Nat2N.inj_succ, N.pow_succ_r'. lia. }
    rewrite HE. cbn [perft]. unfold legals. rewrite El. cbn [bind]. destruct d as [|d].
    + assert (Hc : forall p, p ∈ l -> (N.of_nat k ^ N.of_nat 0 * c p)%N = 1%N).
      { intros p Hp. assert (Hp' : p ∈ l') by (apply Hin; exact Hp).
        assert (c p = 1%N) as ->; [|reflexivity]. apply (number_unique (D p)); [apply K, Hp'|]. exists [[]]. split; [apply NoDup_singleton|]. split; [|reflexivity].
        intros ms. rewrite elem_of_list_singleton. destruct (Hch p Hp') as [Hon (g' & b' & w' & Ep & Et & _)]. split.
        - intros ->. exists g'. split; [exact Et|]. split; [reflexivity|]. split; [intros q Hq; inversion Hq|]. exists g'. reflexivity.
        - intros (g2 & _ & E & _). destruct ms; [reflexivity|discriminate E]. }
      assert (HN : forall l0, total (fun _ => 1%N) l0 = N.of_nat (length l0)).
      { intros l0. induction l0 as [|q l0 IHl]; [reflexivity|]. cbn [total foldr length]. fold (total (fun _ => 1%N) l0). rewrite IHl. lia. }
      rewrite (total_ext _ (fun _ => 1%N) l Hc), HN.
      unfold as_u64. destruct (N.ltb_spec (N.of_nat (length l)) (2 ^ 64)) as [H|H]; [reflexivity|exfalso].
      assert (HL : N.of_nat (length l) = (N.of_nat k * N.of_nat (length l'))%N) by (rewrite <- !HN; apply HT).
      assert (HL' : (length l' <= fst n * snd n)%nat).
      { rewrite <- rpoints_length. apply NoDup_incl_length; [apply NoDup_ListNoDup; exact NDl|].
        intros p Hp. apply elem_of_list_In in Hp. apply elem_of_list_In, elem_of_rpoints. apply (square_on n _ Hfit). apply Hch, Hp. }
      pose proof (fits_points n Hfit). assert (k <= 361)%nat.
      { destruct Hfit as (? & ? & _). nia. }
      assert (N.of_nat (length l') <= 361)%N by lia. assert (N.of_nat k <= 361)%N by lia.
      assert (N.of_nat (length l) <= 361 * 361)%N by nia. lia.
    + set (f := fun p => let! child := play dbg g (MPlay (fst p) (snd p)) in perft dbg child (S d)).
      rewrite (foldM_ext _ (fun s p => let! x := f p in u64_add dbg s x)) by (intros s p _; unfold f; destruct (play dbg g _); reflexivity).
      rewrite (sum_children dbg f (fun p => N.of_nat k ^ N.of_nat (S d) * c p)%N l) with (s := 0%N); [rewrite N.add_0_l; reflexivity| |reflexivity].
      intros p Hp. assert (Hp' : p ∈ l') by (apply Hin; exact Hp).
      unfold f. destruct (Hch p Hp') as [Hon (g' & b' & w' & Ep & Et & HG' & HP' & HB')]. rewrite Ep. cbn [bind].
      destruct (IH b' w' g' HG' HP' ltac:(lia)) as (kp & Kp & ->). f_equal. f_equal. apply (number_unique (D p)); [|apply K, Hp'].
      apply (number_ext (rgoes dbg n g' (S d))); [|exact Kp]. intros ms. unfold D. split; [intros H; exists g'; split; [exact Et|exact H]|].
      intros (g2 & Et2 & H). rewrite Et in Et2. injection Et2 as <-. exact H.
Qed.

Lemma rgoes_line dbg n b w g d ms : Nat.divide (snd n) (fst n) -> rgreach dbg n b w g -> (N.of_nat (b + w + d) <= 65535)%N ->
  rgoes dbg n g d ms <-> length ms = d /\ (forall p, p ∈ ms -> in_square n p) /\ rplayable_line n (flag_illegal (gm_rule g)) (table_of g) ms.
Proof.
  intros Hd HG HB. pose proof (rgreach_inv _ _ _ _ _ Hd HG) as G. pose proof (rwf_n _ _ (rgi_wf _ _ _ _ G)) as Hfit. split.
  - intros (E & Hon & g' & Ha). split; [exact E|]. split; [exact Hon|]. apply line_calls in Ha.
    destruct (rcalls_sim dbg n (line_ops ms) b w g Hd HG) as (g2 & l & Ec & R).
    { intros o Ho. unfold line_ops in Ho. apply elem_of_list_In, in_map_iff in Ho as (p & <- & Hp). cbn. rewrite <- surjective_pairing. apply (square_on n _ Hfit), Hon, elem_of_list_In, Hp. }
    { rewrite line_stones. lia. }
    rewrite Ha in Ec. injection Ec as <- <-. exists (table_of g'). exact R.
  - intros (E & Hon & t' & R). split; [exact E|]. split; [exact Hon|].
    destruct (rcalls_follow dbg n (flag_illegal (gm_rule g)) (line_ops ms) b w g (table_of g) _ t' Hd HG eq_refl (rsame_table_refl _ _) R) as (g' & Ec & _).
    { rewrite line_stones. lia. }
    exists g'. apply line_calls. exact Ec.
Qed.

Theorem rperft_exact dbg n k b w g d : fst n = (k * snd n)%nat -> rgreach dbg n b w g -> gm_passes g <> 2%nat -> (N.of_nat (b + w + d) <= 65535)%N ->
  exists m, number_of (fun ms => length ms = d /\ (forall p, p ∈ ms -> in_square n p) /\ rplayable_line n (flag_illegal (gm_rule g)) (table_of g) ms) m /\
    perft dbg g d = as_u64 dbg (N.of_nat k ^ N.of_nat d * m).
Proof.
  intros Hk HG HP HB. destruct (rperft_goes dbg n k d Hk b w g HG HP HB) as (m & K & E). exists m. split; [|exact E].
  revert K. apply number_ext. intros ms. assert (Hd : Nat.divide (snd n) (fst n)) by (exists k; exact Hk). exact (rgoes_line dbg n b w g d ms Hd HG HB).
Qed.
