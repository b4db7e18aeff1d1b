(** The invariant holds of every game on a board whose width divides its height. *)
From stdpp Require Import relations.
From Verif Require Import MonadFacts Spec Game Builder BitsetFacts CoordFacts Struct Push Inv Remove Capture Bridge GameFacts.
From Verif Require Import RectSpec RectReach RectCoord RectInv RectRemove RectCapture RectBridge RectGame.
From Coq Require Import Lia.

Lemma fits_new n : Nat.divide (snd n) (fst n) -> (1 <= fst n)%nat -> (1 <= snd n)%nat -> (exists g, goban_new n = Ok g) -> fits n.
Proof. intros Hd H1 H2 [g H]. apply new_size in H as [_ H]. cbn in H. split; [lia|]. split; [lia|exact Hd]. Qed.

(** pushing a list of stones on distinct empty points *)
Lemma rpush_list_wf dbg n (l : list stone) :
  forall g, rwf n g -> NoDup l.*1 ->
  (forall s, s ∈ l -> ron n (fst s) /\ pos_of g (fst s) = None) ->
  (foldM (fun g s => push dbg g (fst s) (snd s)) l g = Panic /\ (65535 < N.of_nat (length (chains g)) + N.of_nat (length l))%N) \/
  exists g', foldM (fun g s => push dbg g (fst s) (snd s)) l g = Ok g' /\ rwf n g' /\
    (forall p, ron n p -> pos_of g' p = match List.find (fun s => coord_eqb (fst s) p) l with
                                       | Some s => Some (snd s) | None => pos_of g p end) /\
    (length (chains g) <= length (chains g') <= length (chains g) + length l)%nat /\
    (forall x, rcount n (pos_of g') x = rcount n (pos_of g) x + of_color x l)%nat /\
    (dslots g <= dslots g')%nat.
Proof.
  assert (Hceq : forall a b : coord, coord_eqb a b = true <-> a = b).
  { intros [a1 a2] [b1 b2]. unfold coord_eqb. cbn. rewrite andb_true_iff, !Nat.eqb_eq. split; [intros [-> ->]; reflexivity|intros [= -> ->]; tauto]. }
  induction l as [|[p c] l IH]; intros g W Hnd Hl.
  - right. exists g. split; [reflexivity|]. split; [exact W|]. split; [reflexivity|]. cbn. split; [lia|]. split; [intros x; lia|lia].
  - cbn [foldM fst snd length]. rewrite fmap_cons in Hnd. cbn [fst] in Hnd. apply NoDup_cons in Hnd as [Hpn Hnd].
    destruct (Hl (p, c)) as [Hp He]; [left|]. cbn [fst] in Hp, He.
    destruct (rpush_wf dbg n g p c W Hp He) as [[E F]|(g1 & E1 & W1 & HP & L & D1)].
    + left. rewrite E. cbn [bind]. split; [reflexivity|]. lia.
    + rewrite E1. cbn [bind]. destruct (IH g1 W1 Hnd) as [[E F]|(g2 & E2 & W2 & HP2 & L2 & C2 & D2)].
      * intros s Hs. destruct (Hl s) as [H1 H2]; [right; exact Hs|]. split; [exact H1|].
        rewrite (HP _ H1). unfold put. destruct (decide (fst s = p)) as [D|D]; [|exact H2].
        exfalso. apply Hpn. rewrite <- D. apply elem_of_list_fmap. eauto.
      * left. rewrite E. split; [reflexivity|]. lia.
      * right. exists g2. split; [exact E2|]. split; [exact W2|]. split; [|split; [lia|split; [|lia]]].
        -- intros q Hq. rewrite (HP2 q Hq). cbn [List.find fst snd].
           destruct (coord_eqb p q) eqn:Eq.
           ++ apply Hceq in Eq. subst q. destruct (List.find (fun s => coord_eqb (fst s) p) l) as [s|] eqn:Ef.
              ** apply find_some in Ef as [H1 H2]. apply Hceq in H2. exfalso. apply Hpn. rewrite <- H2.
                 apply elem_of_list_fmap. exists s. split; [reflexivity|apply elem_of_list_In, H1].
              ** rewrite (HP p Hp). unfold put. destruct (decide (p = p)); [reflexivity|contradiction].
           ++ destruct (List.find (fun s => coord_eqb (fst s) q) l) as [s|]; [reflexivity|].
              rewrite (HP q Hq). unfold put. destruct (decide (q = p)) as [->|]; [|reflexivity].
              assert (coord_eqb p p = true) by (apply Hceq; reflexivity). congruence.
        -- intros x. rewrite C2, (rcount_ext n _ _ x HP), (rcount_put n _ _ _ _ Hp He), of_color_cons. lia.
Qed.

Lemma rpos_new n g p : rwf n g -> (forall i, cell g i = None) -> ron n p -> pos_of g p = None.
Proof. intros W H Hp. rewrite (rpos_of_col n g p W Hp). apply col_ext_none, H. Qed.

Lemma rcount_none n P c : (forall p, ron n p -> P p = None) -> rcount n P c = 0%nat.
Proof.
  intros H. unfold rcount. assert (filter (fun p => P p = Some c) (rpoints n) = []) as ->; [|reflexivity].
  destruct (filter _ _) as [|p l] eqn:E; [reflexivity|]. exfalso.
  assert (Hp : p ∈ filter (fun p => P p = Some c) (rpoints n)) by (rewrite E; left).
  apply elem_of_list_filter in Hp as [H1 H2]. apply elem_of_rpoints in H2. rewrite (H p H2) in H1. discriminate.
Qed.

Lemma rginv_new n s r g : fits n -> size_of s = n -> game_new s r = Ok g -> rginv n 0 0 g.
Proof.
  intros Hn Hs H. unfold game_new in H. rewrite Hs in H. apply bind_ok in H as (gb & E & H). injection H as <-.
  destruct (rnew_wf n Hn) as (gb' & E' & W & Hc & Hcell).
  rewrite E in E'. injection E' as <-.
  assert (C : forall x, rcount n (pos_of gb) x = 0%nat).
  { intros x. apply rcount_none. intros p Hp. apply (rpos_new n); assumption. }
  constructor; cbn [gm_goban gm_history gm_passes gm_prisoners gm_ko_point fst snd].
  - exact W.
  - constructor.
  - constructor.
  - lia.
  - rewrite C. reflexivity.
  - rewrite C. reflexivity.
  - rewrite Hc. cbn. lia.
  - unfold rem_total. cbn. lia.
  - discriminate.
Qed.

Lemma rginv_build dbg n bl g :
  fits n -> b_size bl = n -> b_moves bl = [] ->
  NoDup (setup_stones bl).*1 -> (forall s, s ∈ setup_stones bl -> ron n (fst s)) ->
  build_inner dbg bl = Ok g ->
  rginv n (of_color Black (setup_stones bl))
         (of_color White (setup_stones bl)) g.
Proof.
  intros Hn Hs Hm Nd Hon E. rewrite build_inner_eq, Hs, Hm in E.
  apply bind_ok in E as (gb0 & E0 & E). destruct (rnew_wf n Hn) as (gb' & E' & W & Hc & Hcell). rewrite E0 in E'. injection E' as <-.
  destruct (rpush_list_wf dbg n (setup_stones bl) gb0 W Nd) as [[Ep _]|(g1 & E1 & W1 & HP & L & C & D)].
  { intros s Hs'. split; [apply Hon, Hs'|]. apply (rpos_new n); [exact W|exact Hcell|apply Hon, Hs']. }
  { rewrite Ep in E. discriminate. }
  rewrite E1 in E. cbn [bind foldM] in E. injection E as <-.
  assert (C0 : forall x, rcount n (pos_of gb0) x = 0%nat).
  { intros x. apply rcount_none. intros p Hp. apply (rpos_new n); assumption. }
  pose proof (of_color_total (setup_stones bl)) as Hlen.
  unfold built.
  constructor; cbn [gm_goban gm_history gm_passes gm_prisoners gm_ko_point fst snd].
  - exact W1.
  - constructor.
  - constructor.
  - lia.
  - rewrite C, C0. lia.
  - rewrite C, C0. lia.
  - rewrite Hc in L. cbn in L. lia.
  - unfold rem_total. cbn. lia.
  - discriminate.
Qed.

Lemma rginv_handicap dbg n b w g pts g' :
  rginv n b w g -> NoDup pts -> (forall p, p ∈ pts -> ron n p /\ pos_of (gm_goban g) p = None) ->
  put_handicap dbg g pts = Ok g' -> rginv n (b + length pts) w g' /\
  (forall p, ron n p -> pos_of (gm_goban g') p = if decide (p ∈ pts) then Some Black else pos_of (gm_goban g) p).
Proof.
  intros G Nd Hp H. unfold put_handicap in H. rewrite fold_handicap in H.
  assert (F : (List.map (fun p : coord => (p, Black)) pts).*1 = pts).
  { clear. induction pts as [|p pts IH]; [reflexivity|]. cbn. rewrite IH. reflexivity. }
  apply bind_ok in H as (gb & E & H). injection H as <-.
  destruct (rpush_list_wf dbg n (List.map (fun p => (p, Black)) pts) (gm_goban g) (rgi_wf _ _ _ _ G))
    as [[Ep _]|(g1 & E1 & W1 & HP & L & C & D)].
  { rewrite F. exact Nd. }
  { intros s Hs. apply elem_of_lmap in Hs as (p & -> & Hpp). apply Hp, Hpp. }
  { rewrite Ep in E. discriminate. }
  rewrite E1 in E. injection E as ->.
  assert (FB : of_color Black (List.map (fun p => (p, Black)) pts) = length pts).
  { clear. induction pts as [|p pts IH]; [reflexivity|]. cbn [List.map]. rewrite of_color_cons, IH. reflexivity. }
  assert (FW : of_color White (List.map (fun p => (p, Black)) pts) = 0%nat).
  { clear. induction pts as [|p pts IH]; [reflexivity|]. cbn [List.map]. rewrite of_color_cons, IH. reflexivity. }
  rewrite map_length in L. destruct G as [G1 G2 G2' G3 G4 G5 G6 G7 G8]. split.
  - constructor; cbn [gm_goban gm_history gm_passes gm_prisoners gm_ko_point fst snd]; try assumption.
    + eapply Forall_impl; [exact G2'|]. intros z Hz. cbn in Hz. lia.
    + rewrite C, FB. lia.
    + rewrite C, FW. lia.
    + lia.
    + lia.
  - intros p Hpo. cbn [gm_goban]. rewrite (HP p Hpo).
    assert (Hceq : forall a b : coord, coord_eqb a b = true <-> a = b).
    { intros [a1 a2] [b1 b2]. unfold coord_eqb. cbn. rewrite andb_true_iff, !Nat.eqb_eq. split; [intros [-> ->]; reflexivity|intros [= -> ->]; tauto]. }
    destruct (List.find _ _) as [s|] eqn:Ef.
    + apply find_some in Ef as [H1 H2]. apply elem_of_list_In, elem_of_lmap in H1 as (q & -> & Hq). cbn in H2. apply Hceq in H2. subst q.
      rewrite decide_True by exact Hq. reflexivity.
    + destruct (decide (p ∈ pts)) as [D'|]; [|reflexivity]. exfalso.
      pose proof (find_none _ _ Ef (p, Black)) as Hn. cbn in Hn.
      assert (coord_eqb p p = true) by (apply Hceq; reflexivity).
      rewrite Hn in *; [discriminate|]. apply elem_of_list_In, elem_of_lmap. eauto.
Qed.

Theorem rgreach_inv dbg n b w g : Nat.divide (snd n) (fst n) -> rgreach dbg n b w g -> rginv n b w g.
Proof.
  intros Hd. induction 1 as [s r g Hn Hn2 Hs E|bl g Hn Hn2 Hs Hm Nd Hon E|b w g x y g' _ G Hp He E|b w g g' _ G E|b w g c g' _ G E|b w g _ G|b w g k _ G
                 |b w g pts g' _ G Nd Hp E].
  - eapply rginv_new; [eapply fits_new; [exact Hd|exact Hn|exact Hn2|]|eassumption..].
    unfold game_new in E. rewrite Hs in E. apply bind_ok in E as (gb & E & _). eauto.
  - eapply rginv_build; [eapply fits_new; [exact Hd|exact Hn|exact Hn2|]|eassumption..].
    rewrite build_inner_eq, Hs in E. apply bind_ok in E as (gb & E & _). eauto.
  - destruct (rplay_spec dbg n b w g x y G Hp He) as [[E' _]|(g2 & E' & G' & _)]; [congruence|].
    rewrite E in E'. injection E' as <-. exact G'.
  - cbn [play] in E. unfold assert_ in E. destruct (gm_passes g <? 2)%nat eqn:Ep; [|discriminate]. cbn [bind] in E. injection E as <-.
    apply Nat.ltb_lt in Ep. eapply rginv_same_board; try exact G; try reflexivity; cbn; [lia|discriminate].
  - cbn [play] in E. injection E as <-. eapply rginv_same_board; try exact G; try reflexivity; cbn.
    + apply (rgi_passes _ _ _ _ G).
    + apply (rgi_ko _ _ _ _ G).
  - eapply rginv_same_board; try exact G; try reflexivity; cbn; [lia|apply (rgi_ko _ _ _ _ G)].
  - eapply rginv_same_board; try exact G; try reflexivity; cbn; [apply (rgi_passes _ _ _ _ G)|apply (rgi_ko _ _ _ _ G)].
  - eapply rginv_handicap; eassumption.
Qed.
