(** What a caught panic leaves behind on boards whose width divides their height:
    the lemmas behind the rest of C124. *)
From Verif Require Import Spec Observe Reach BitsetFacts CoordFacts Struct Push Inv GameFacts BoundsFacts
     ClaimFacts CheckFacts LegalFacts SetupFacts BoardFacts LongFacts Samples MonadFacts PlayClaims UnwindSpec.
From Verif Require Import RectSpec RectCoord RectInv RectBridge RectGame RectReach RectReachFacts RectBoard
     RectCheck RectLegal RectVerdict RectSymClaims.
From Verif Require Import Unwind UnwindFacts UnwindClaims UnwindTallSpec.
Local Open Scope nat_scope.

(** the only boards and points for which a group is adjacent and its liberty
    array still has a bit for the point: the height is 19 *)
Lemma rfar_neighbours dbg n i : fits n -> 361 <= i < 368 ->
  neighbors_idx dbg n i = Ok (if fst n =? 19 then [18 * 19 + i mod snd n] else []).
Proof.
  destruct n as [h w]. intros (Hh & Hw & k & Ek) Hi. cbn [fst snd] in *.
  assert (Hw19 : w <= 19) by (destruct k; nia).
  assert (T : forallb (fun d => forallb (fun h => forallb (fun w => forallb (fun i =>
     negb (h mod w =? 0) ||
     match neighbors_idx d (h, w) i with Ok l => bool_decide (l = if h =? 19 then [18 * 19 + i mod w] else []) | _ => false end)
     (seq 361 7)) (seq 1 19)) (seq 1 19)) [true; false] = true) by (vm_compute; reflexivity).
  rewrite forallb_forall in T. specialize (T dbg ltac:(destruct dbg; cbn; tauto)).
  rewrite forallb_forall in T. specialize (T h ltac:(apply in_seq; lia)).
  rewrite forallb_forall in T. specialize (T w ltac:(apply in_seq; lia)).
  rewrite forallb_forall in T. specialize (T i ltac:(apply in_seq; lia)).
  assert (Em : h mod w = 0) by (rewrite Ek; apply Nat.mod_mul; lia).
  rewrite Em in T. cbn [Nat.eqb negb orb] in T.
  destruct (neighbors_idx dbg (h, w) i) as [l| |]; [|discriminate|discriminate].
  apply bool_decide_eq_true in T. rewrite T. reflexivity.
Qed.

Lemma rfar_bits n g i : rwf n g -> 361 <= i -> forall k grp, live g k = Some grp -> lbit (g_liberties grp) i = false.
Proof.
  intros W Hi k grp Hg. apply not_true_iff_false. intros H. apply (rwf_lib n g W k grp _ Hg) in H as (_ & z & Hz & Hj).
  pose proof (rwf_n n g W) as Hn. apply (rnb_vi n z i Hn (rwf_on n g W _ _ Hz)) in Hj. apply (vi_361 n i Hn) in Hj. lia.
Qed.

Lemma edge_lt n i : fits n -> fst n = 19 -> 18 * 19 + i mod snd n < 361.
Proof.
  intros Hn E. pose proof (fits_wide n Hn). destruct Hn as (_ & Hw & _). pose proof (Nat.mod_upper_bound i (snd n)). lia.
Qed.

(** the panic writes nothing, but for the one case *)
Lemma rfar_push dbg n g x y c : rwf n g -> 361 <= x * fst n + y ->
  (dbg = false -> fst n = 19 -> x * fst n + y < 368 -> col g (18 * 19 + (x * fst n + y) mod snd n) <> Some c) ->
  u_push_wth_feedback dbg (x, y) c g = (g, Panic).
Proof.
  intros W Hi Hx. pose proof (rwf_0 n g W) as W0. pose proof (rwf_n n g W) as Hn.
  set (i := x * fst n + y) in *.
  pose proof (rfar_bits n g i W Hi) as Hb.
  assert (HP : snd (u_push_wth_feedback dbg (x, y) c g) = Panic).
  { pose proof (follows_push_feedback dbg (x, y) c g) as F. cbn beta in F.
    rewrite push_far in F; [exact F|]. rewrite (rwf_size n g W), (wf0_next _ W0). exact Hi. }
  assert (K : fst (u_push_wth_feedback dbg (x, y) c g) = g -> u_push_wth_feedback dbg (x, y) c g = (g, Panic)).
  { intros E. rewrite (surjective_pairing (u_push_wth_feedback dbg (x, y) c g)), E, HP. reflexivity. }
  unfold u_push_wth_feedback in K |- *. rewrite mbind_reads, (rwf_size n g W) in K |- *.
  change (two_to_1dim n (x, y)) with i in *. rewrite mbind_reads in K |- *.
  rewrite (rwf_size n g W) in K |- *.
  destruct (neighbors_idx dbg n i) as [nbs| |] eqn:En; [|reflexivity|apply K; reflexivity].
  rewrite mbind_reads in K |- *.
  destruct (classify g c nbs) as [[[same oppo] libs]| |] eqn:Ec; [|reflexivity|apply K; reflexivity].
  unfold u_remove_liberties in K |- *.
  destruct (off_liberties dbg g i W0 Hb oppo []) as [r Er].
  rewrite (mbind_run _ _ _ _ _ Er) in K |- *.
  destruct r as [dead| |]; [|reflexivity|apply K; reflexivity].
  destruct same as [|only [|k2 same]].
  - cbn [u_place_stone]. rewrite (mbind_run _ _ _ _ _ (off_create dbg g i c libs ltac:(rewrite (wf0_next _ W0); exact Hi))). reflexivity.
  - cbn [u_place_stone] in K |- *. rewrite mbind_mbind in K |- *.
    destruct (put_off dbg g only i W0 Hb) as [(E & Ed & Hi')|E]; rewrite (mbind_run _ _ _ _ _ E) in K |- *; [|reflexivity].
    exfalso. subst dbg. rewrite rfar_neighbours in En by (assumption || lia).
    assert (En' : nbs = if fst n =? 19 then [18 * 19 + i mod snd n] else []) by congruence. clear En. subst nbs.
    destruct (fst n =? 19) eqn:E19; [apply Nat.eqb_eq in E19|discriminate Ec].
    pose proof (edge_lt n i Hn E19) as He.
    destruct (classify_spec g c [18 * 19 + i mod snd n] W0) as (same' & oppo' & libs' & Ec' & _ & _ & _ & _ & Hs & _ & _).
    { intros j Hj. apply elem_of_list_singleton in Hj. subst j. exact He. } { cbn [length]. lia. }
    rewrite Ec' in Ec. injection Ec as -> -> ->.
    destruct (proj1 (Hs only) ltac:(left)) as (j & grp & Hj & Hcell & Hlive & Hcol).
    apply elem_of_list_singleton in Hj. subst j.
    apply (Hx eq_refl E19 Hi'). unfold col. rewrite Hcell, Hlive, Hcol. reflexivity.
  - cbn [u_place_stone]. rewrite mbind_mbind, (mbind_run _ _ _ _ _ (off_create dbg g i c libs ltac:(rewrite (wf0_next _ W0); exact Hi))). reflexivity.
Qed.

(** the one case: the last stone of a group is made to point outside the array *)
Lemma rfar_push_broken n g x y c : rwf n g -> fst n = 19 -> 361 <= x * 19 + y < 368 ->
  col g (18 * 19 + (x * 19 + y) mod snd n) = Some c ->
  exists k grp, cell g (18 * 19 + (x * 19 + y) mod snd n) = Some k /\ live g k = Some grp /\ g_color grp = c /\
    u_push_wth_feedback false (x, y) c g = (with_next g (<[g_last grp := x * 19 + y]> (next_stone g)), Panic).
Proof.
  intros W E19 Hi Hc. pose proof (rwf_0 _ g W) as W0. pose proof (rwf_n _ g W) as Hn. 
  pose proof (edge_lt n (x * 19 + y) Hn E19) as He. set (i := x * 19 + y) in *. set (e := 18 * 19 + i mod snd n) in *.
  unfold col in Hc. destruct (cell g e) as [k|] eqn:Hk; [|discriminate].
  destruct (live g k) as [grp|] eqn:Hl; [|discriminate]. injection Hc as <-.
  exists k, grp. split; [reflexivity|]. split; [exact Hl|]. split; [reflexivity|].
  pose proof (rfar_bits n g i W ltac:(lia)) as Hb.
  destruct (wf0_chain _ W0 _ _ Hl) as (_ & l & R & Hm).
  assert (Hlast : g_last grp < 361).
  { eapply wf0_cell_lt; [exact W0|]. apply Hm. apply last_Some_elem_of, (ring_last _ _ _ R). }
  assert (Horig : g_origin grp < 361).
  { eapply wf0_cell_lt; [exact W0|]. apply Hm. apply head_Some_elem_of, (ring_head _ _ _ R). }
  unfold u_push_wth_feedback. rewrite mbind_reads, (rwf_size _ g W).
  replace (two_to_1dim n (x, y)) with i by (unfold two_to_1dim, i; cbn [fst snd]; rewrite E19; reflexivity).
  rewrite mbind_reads, (rwf_size _ g W), rfar_neighbours by (assumption || lia). rewrite E19. change (19 =? 19) with true. cbv iota.
  change (18 * 19 + i mod snd n) with e. rewrite mbind_reads.
  assert (Ec : classify g (g_color grp) [e] = Ok ([k], [], [])).
  { unfold classify. cbn [foldM]. rewrite vget_board by (rewrite (wf0_board g W0); lia). rewrite Hk. cbn [bind].
    rewrite chain_at_is, Hl. cbn [bind]. destruct (color_eqb_spec (g_color grp) (g_color grp)); [|congruence]. reflexivity. }
  rewrite Ec. unfold u_remove_liberties. cbn [mfold]. rewrite mbind_ret. cbn [u_place_stone]. rewrite mbind_mbind.
  destruct (put_off false g k i W0 Hb) as [(E & _)|E].
  2:{ exfalso. unfold put_chain, writes in E. rewrite chain_at_is, Hl in E. cbn [bind] in E.
      destruct (wf0_chain _ W0 _ _ Hl) as [Bo _].
      destruct (remove_liberty_ok false grp i Bo ltac:(lia) ltac:(discriminate)) as (grp' & E' & _).
      rewrite E' in E. cbn [bind] in E. unfold chain_put in E. rewrite chain_at_is, Hl in E. cbn [bind] in E.
      unfold vset in E. unfold live in Hl. destruct (chains g !! k) as [o|] eqn:Ek; [|discriminate].
      pose proof (lookup_lt_Some _ _ _ Ek). destruct (Nat.ltb_spec k (length (chains g))); [|lia]. discriminate. }
  rewrite (mbind_run _ _ _ _ _ E). cbn [meach]. rewrite mbind_mbind, mbind_ret, mbind_mbind. unfold u_add_stone_to_chain.
  rewrite mbind_mbind, mbind_reads, chain_at_is, Hl.
  destruct (Nat.ltb_spec i (g_origin grp)); [lia|].
  rewrite !mbind_mbind. unfold put_next. rewrite mbind_writes. unfold vset at 1.
  rewrite (wf0_next _ W0). destruct (Nat.ltb_spec (g_last grp) 361); [|lia]. cbn [bind].
  rewrite mbind_mbind, mbind_writes. unfold vset. cbn [next_stone with_next]. rewrite insert_length, (wf0_next _ W0).
  destruct (Nat.ltb_spec i 361); [lia|]. reflexivity.
Qed.

Lemma rnoted_by n b w g h gb : rginv n b w g -> history_insert (gm_history g) (gm_goban g) = Ok h ->
  rnoted n g (with_goban (with_history g h) gb).
Proof.
  intros G E. destruct (rhistory_insert_spec n (gm_history g) (gm_goban g) (rgi_hist _ _ _ _ G) (rgi_wf _ _ _ _ G)) as (h' & E' & _ & H).
  rewrite E in E'. injection E' as <-. exact H.
Qed.

Lemma rplay_leaves dbg n b w g x y gb : rginv n b w g -> u_push_wth_feedback dbg (x, y) (gm_turn g) (gm_goban g) = (gb, Panic) ->
  exists h, history_insert (gm_history g) (gm_goban g) = Ok h /\
    u_play dbg (MPlay x y) g = (with_goban (with_history g h) gb, Panic).
Proof.
  intros G E. destruct (rhistory_insert_spec n (gm_history g) (gm_goban g) (rgi_hist _ _ _ _ G) (rgi_wf _ _ _ _ G)) as (h & Eh & _).
  exists h. split; [exact Eh|]. unfold u_play. rewrite mbind_writes, Eh. cbn [bind]. rewrite mbind_reads.
  unfold mbind at 1, on_goban. cbn [gm_goban gm_turn with_history]. rewrite E. reflexivity.
Qed.

Lemma rfar_try dbg n b w g x y : Nat.divide (snd n) (fst n) -> rgreach dbg n b w g -> 361 <= x * fst n + y -> gm_passes g <> 2 ->
  u_try_play dbg (MPlay x y) g = (g, Panic).
Proof.
  intros D HG Hi Hp. pose proof (rgreach_inv _ _ _ _ _ D HG) as G. pose proof (rgi_wf _ _ _ _ G) as W.
  unfold u_try_play. rewrite mbind_reads. destruct (Nat.eqb_spec (gm_passes g) 2); [congruence|].
  rewrite mbind_reads. unfold get_color, get_color_idx, vget. rewrite (rwf_size n _ W).
  rewrite lookup_ge_None_2; [reflexivity|]. rewrite (wf0_board _ (rwf_0 n _ W)). exact Hi.
Qed.

Lemma rown_on n i : fits n -> fst n = 19 -> ron n (18, i mod snd n).
Proof.
  intros Hn E. split; cbn [fst snd]; [lia|]. destruct Hn as (_ & Hw & _). apply Nat.mod_upper_bound. lia.
Qed.

Lemma rown_edge n b w g i : rginv n b w g -> fst n = 19 ->
  position g (18, i mod snd n) = col (gm_goban g) (18 * 19 + i mod snd n).
Proof.
  intros G E. pose proof (rgi_wf _ _ _ _ G) as W. unfold position. 
  rewrite (rpos_of_col n _ _ W) by (apply rown_on; [apply (rwf_n _ _ W)|exact E]).
  unfold ridx. cbn [fst snd]. rewrite E. reflexivity.
Qed.

Lemma rfar_play dbg n b w g x y : Nat.divide (snd n) (fst n) -> rgreach dbg n b w g -> 361 <= x * fst n + y ->
  (dbg = false -> fst n = 19 -> x * fst n + y < 368 -> position g (18, (x * fst n + y) mod snd n) <> Some (gm_turn g)) ->
  exists gl, u_play dbg (MPlay x y) g = (gl, Panic) /\ gm_goban gl = gm_goban g /\ rest_kept g gl /\ rnoted n g gl.
Proof.
  intros D HG Hi Hx. pose proof (rgreach_inv _ _ _ _ _ D HG) as G. pose proof (rgi_wf _ _ _ _ G) as W.
  assert (E : u_push_wth_feedback dbg (x, y) (gm_turn g) (gm_goban g) = (gm_goban g, Panic)).
  { apply (rfar_push dbg n _ x y _ W Hi). intros Ed En Hs. rewrite <- (rown_edge n b w g _ G En). exact (Hx Ed En Hs). }
  destruct (rplay_leaves dbg n b w g x y _ G E) as (h & Eh & Ep). eexists. split; [exact Ep|].
  split; [reflexivity|]. split; [apply rest_by|]. eapply rnoted_by; eassumption.
Qed.

Lemma rfar_broken n b w g x y : Nat.divide (snd n) (fst n) -> rgreach false n b w g -> fst n = 19 -> 361 <= x * 19 + y < 368 ->
  position g (18, (x * 19 + y) mod snd n) = Some (gm_turn g) ->
  exists gl k l, u_play false (MPlay x y) g = (gl, Panic) /\ rest_kept g gl /\ rnoted n g gl /\
    (forall p, position gl p = position g p) /\
    chain_stones false (gm_goban g) k = Ok l /\ ((18, (x * 19 + y) mod snd n), gm_turn g) ∈ l /\
    chain_stones false (gm_goban gl) k = Panic.
Proof.
  intros D HG E19 Hi Hown. pose proof (rgreach_inv _ _ _ _ _ D HG) as G. pose proof (rgi_wf _ _ _ _ G) as W. pose proof (rwf_0 _ _ W) as W0.
  pose proof (rwf_n _ _ W) as Hn. set (i := x * 19 + y) in *.
  rewrite (rown_edge n b w g i G E19) in Hown.
  destruct (rfar_push_broken n (gm_goban g) x y (gm_turn g) W E19 Hi Hown) as (k & grp & Hk & Hl & Hcol & E).
  fold i in Hk, E. destruct (rplay_leaves false n b w g x y _ G E) as (h & Eh & Ep).
  pose proof (rown_on n i Hn E19) as On.
  assert (Ei : ridx n (18, i mod snd n) = 18 * 19 + i mod snd n) by (unfold ridx; cbn [fst snd]; rewrite E19; reflexivity).
  destruct (rchain_stones_ok false n (gm_goban g) (18, i mod snd n) k grp W On ltac:(rewrite Ei; exact Hk) Hl) as (l & _ & El & _ & _ & _ & _ & Hin).
  eexists _, k, _. split; [exact Ep|]. split; [apply rest_by|]. split; [eapply rnoted_by; eassumption|].
  split; [intros p; reflexivity|]. split; [exact El|]. split.
  - apply elem_of_list_In, in_map_iff. exists (ridx n (18, i mod snd n)). rewrite (rpt_idx _ _ Hn On), Hcol. split; [reflexivity|].
    apply elem_of_list_In, Hin. exists (18, i mod snd n). split; [reflexivity|]. split; [exact On|]. constructor.
  - cbn [gm_goban with_goban]. unfold chain_stones. cbn [chains with_next]. rewrite chain_at_is, Hl. cbn [bind next_stone with_next].
    destruct (wf0_chain _ W0 _ _ Hl) as (_ & ll & R & Hm).
    assert (Hlast : g_last grp < 361).
    { eapply wf0_cell_lt; [exact W0|]. apply Hm. apply last_Some_elem_of, (ring_last _ _ _ R). }
    assert (Horig : g_origin grp < 361).
    { eapply wf0_cell_lt; [exact W0|]. apply Hm. apply head_Some_elem_of, (ring_head _ _ _ R). }
    assert (L : length ll <= 361).
    { apply NoDup_bounded; [exact (ring_nodup _ _ _ R)|]. intros j Hj. apply Hm in Hj. eapply wf0_cell_lt; eassumption. }
    destruct ll as [|z t]; [discriminate (ring_head _ _ _ R)|].
    pose proof (ring_head _ _ _ R) as Hz. cbn in Hz. injection Hz as ->.
    unfold group_iter. rewrite (iter_broken _ _ i) with (t := t); [reflexivity|..].
    + rewrite insert_length, (wf0_next _ W0). lia.
    + rewrite insert_length, (wf0_next _ W0). lia.
    + pose proof (ring_last _ _ _ R) as HL. apply last_Some in HL as [l0 HL]. rewrite HL. rewrite HL in R.
      eapply links_relast; [exact (ring_nodup _ _ _ R)|rewrite (wf0_next _ W0); exact Hlast|exact (ring_links _ _ _ R)].
    + apply (NoDup_cons_1_1 _ _ (ring_nodup _ _ _ R)).
    + rewrite insert_length, (wf0_next _ W0). lia.
Qed.

(** ** No group number left *)

Lemma rfull_push dbg n g r cc c : rwf n g -> ron n (r, cc) -> pos_of g (r, cc) = None ->
  push_wth_feedback dbg g (r, cc) c = Panic -> N.of_nat (length (chains g)) = 65535%N ->
  exists gb, u_push_wth_feedback dbg (r, cc) c g = (gb, Panic) /\ gsize gb = gsize g /\ zobrist_hash gb = zobrist_hash g /\
    board gb = board g /\ (forall j, col gb j = col g j) /\
    number_of_stones gb = one_more c (number_of_stones g) /\
    forall j k, j ∈ rnb n (r * fst n + cc) -> cell g j = Some k -> col g j = Some (opp c) -> exists grp grp',
      live g k = Some grp /\ live gb k = Some grp' /\ bits_ok (g_liberties grp) /\ bits_ok (g_liberties grp') /\
      lbit (g_liberties grp) (r * fst n + cc) = true /\
      forall z, lbit (g_liberties grp') z = if (z =? r * fst n + cc) then false else lbit (g_liberties grp) z.
Proof.
  intros W Hp He HP HK. pose proof (rwf_n n g W) as Hn. pose proof (rwf_0 n g W) as W0.
  rewrite (rpos_of_col n g (r, cc) W Hp) in He. apply (rcol_None n g _ W) in He. change (ridx n (r, cc)) with (r * fst n + cc) in He.
  destruct Hp as [Hr Hcc]. cbn [fst snd] in Hr, Hcc.
  set (i := r * fst n + cc) in *.
  assert (Hin : vi n i) by (apply vi_idx; assumption).
  pose proof (vi_361 n i Hn Hin) as Hi361.
  unfold u_push_wth_feedback, push_wth_feedback in *. rewrite mbind_reads, (rwf_size n g W) in *.
  change (two_to_1dim n (r, cc)) with i in *. cbv zeta in HP. rewrite mbind_reads, (rwf_size n g W).
  rewrite neighbors_idx_rect in * by assumption. cbn [bind] in HP. rewrite mbind_reads.
  assert (Hnb : forall j, j ∈ rnb n i -> (j < 361)%nat) by (intros j Hj; apply (vi_361 n j Hn), (rnb_vi n i j Hn Hin Hj)).
  destruct (classify_spec g c (rnb n i) W0 Hnb (rnb_length n i))
    as (same & oppo & libs & Ec & Nd1 & Nd2 & L1 & L2 & Hsame & Hoppo & Hlibs).
  rewrite Ec in *. cbn [bind] in HP.
  assert (Hlib_i : forall j k grp, j ∈ rnb n i -> cell g j = Some k -> live g k = Some grp ->
                     lbit (g_liberties grp) i = true).
  { intros j k grp Hj Hc Hk. apply (rwf_lib n g W k grp i Hk). split; [exact He|].
    exists j. split; [exact Hc|]. apply rnb_sym; assumption. }
  destruct (remove_liberties_gen dbg g oppo i [] W0 Hi361 Nd2) as (cs1 & dead & Erl & Lcs & W1 & V1 & V2 & _).
  { cbn. exact L2. }
  { intros k Hk. apply Hoppo in Hk as (j & grp & Hj & Hc & Hg & _). exists grp. split; [exact Hg|]. eapply Hlib_i; eassumption. }
  fold (remove_liberties dbg (chains g) oppo i) in Erl. rewrite Erl in HP. cbn [bind] in HP.
  pose proof (follows_remove_liberties dbg oppo i g) as F. cbn beta in F. rewrite Erl in F. cbn [bind] in F.
  rewrite (mbind_run _ _ _ _ _ F). set (g1 := with_chains g cs1) in *.
  assert (Hdisj : forall k, k ∈ same -> k ∉ oppo).
  { intros k H1 H2. apply Hsame in H1 as (j1 & gr1 & _ & _ & Hl1 & Hc1).
    apply Hoppo in H2 as (j2 & gr2 & _ & _ & Hl2 & Hc2).
    assert (gr1 = gr2) by congruence. subst. destruct (opp_ne (g_color gr2)). congruence. }
  assert (Llibs : Forall (fun j => (j < 368)%nat) libs).
  { apply Forall_forall. intros j Hj. apply Hlibs in Hj as [Hj _]. specialize (Hnb j Hj). lia. }
  assert (Hone : length same <> 1).
  { destruct (place_spec dbg g1 i c same libs W1 Hi361) as [[_ F1]|(g' & u & gu & E & W' & _)]; [exact He|exact Nd1|..].
    { intros k Hk. pose proof (Hdisj k Hk) as Ho. apply Hsame in Hk as (j & gk & Hj & Hc & Hg & Hcol).
      exists gk. split; [rewrite V1; assumption|]. split; [exact Hcol|]. intros _. eapply Hlib_i; eassumption. }
    { intros j Hj. apply Hlibs in Hj as [Hj _]. apply Hnb, Hj. }
    { intros H. apply Hlibs in H as [H _]. revert H. apply rnb_irrefl; assumption. }
    { apply F1. }
    exfalso. rewrite E in HP. cbn [bind] in HP. rewrite index_zobrist_ok in HP by exact Hi361. cbn [bind] in HP.
    assert (W2 : wf0 (with_hash g' (N.lxor (zobrist_hash g') (zval i c)))) by (destruct W'; constructor; assumption).
    destruct dbg; [rewrite (integrity_ok true _ W2) in HP|]; discriminate HP. }
  destruct (create_full dbg g1 i c libs W1 Hi361 Llibs) as (bits & Ecr); [cbn [chains g1 with_chains]; rewrite Lcs; exact HK|].
  set (gb := with_chains (with_next g1 _) _) in Ecr.
  assert (EP : forall A (k0 : nat -> mut goban A), mbind (u_place_stone dbg i c same libs) k0 g1 = (gb, Panic)).
  { intros A k0. destruct same as [|k1 [|k2 same]]; [|destruct (Hone eq_refl)|]; cbn [u_place_stone].
    - rewrite (mbind_run _ _ _ _ _ Ecr). reflexivity.
    - rewrite mbind_mbind, (mbind_run _ _ _ _ _ Ecr). reflexivity. }
  exists gb. split; [apply EP|]. split; [exact (rwf_size n g W)|]. do 2 (split; [reflexivity|]).
  assert (Hsh : forall k, match live g k with
             | Some grp => exists grp', mjoin (cs1 !! k) = Some grp' /\ same_shape grp grp'
             | None => mjoin (cs1 !! k) = None end).
  { intros k. change (mjoin (cs1 !! k)) with (live g1 k). destruct (decide (k ∈ oppo)) as [Hk|Hk].
    - apply Hoppo in Hk as Hk'. destruct Hk' as (j & grp & _ & _ & Hg & _). rewrite Hg.
      destruct (V2 k grp Hk Hg) as (grp' & ? & ? & _). eauto.
    - rewrite (V1 k Hk). destruct (live g k) as [grp|]; [|reflexivity]. exists grp. repeat split. }
  assert (Hlt : forall k, (k < length cs1)%nat -> live gb k = live g1 k).
  { intros k Hk. unfold live. cbn [gb chains with_chains with_next g1]. rewrite lookup_app_l by exact Hk. reflexivity. }
  assert (Hcl : forall j k, cell g j = Some k -> (k < length cs1)%nat).
  { intros j k Hk. destruct (wf0_cell g W0 j k Hk) as [grp Hg]. rewrite Lcs. unfold live in Hg.
    destruct (chains g !! k) as [o|] eqn:Eo; [|discriminate]. exact (lookup_lt_Some _ _ _ Eo). }
  split; [|split].
  - intros j. unfold col. change (cell gb j) with (cell g j). destruct (cell g j) as [k|] eqn:Hk; [|reflexivity].
    rewrite (Hlt k (Hcl j k Hk)). specialize (Hsh k). destruct (wf0_cell g W0 j k Hk) as [grp Hg]. rewrite Hg in *.
    destruct Hsh as (grp' & E & Hc & _). change (mjoin (cs1 !! k)) with (live g1 k) in E. rewrite E, Hc. reflexivity.
  - transitivity (number_of_stones (with_chains g (cs1 ++ [Some (new_with_liberties c i bits)]))); [reflexivity|].
    rewrite number_app, (number_shape g cs1 Lcs Hsh). unfold one_more. cbn [g_color g_num_stones new_with_liberties].
    destruct c; f_equal; lia.
  - intros j k Hj Hk Hc. destruct (wf0_cell g W0 j k Hk) as [grp Hg].
    assert (Hko : k ∈ oppo). { apply Hoppo. exists j, grp. unfold col in Hc. rewrite Hk, Hg in Hc. split; [exact Hj|]. split; [exact Hk|]. split; [exact Hg|congruence]. }
    destruct (V2 k grp Hko Hg) as (grp' & Hg' & _ & Hb). exists grp, grp'. split; [exact Hg|].
    split; [rewrite (Hlt k (Hcl j k Hk)); exact Hg'|].
    split; [apply (proj1 (wf0_chain g W0 k grp Hg))|]. split; [apply (proj1 (wf0_chain g1 W1 k grp' Hg'))|].
    split; [eapply Hlib_i; eassumption|exact Hb].
Qed.

Lemma rfull_play dbg n b w g x y : Nat.divide (snd n) (fst n) -> rgreach dbg n b w g -> ron n (x, y) -> position g (x, y) = None ->
  play dbg g (MPlay x y) = Panic ->
  exists gl, u_play dbg (MPlay x y) g = (gl, Panic) /\ rest_kept g gl /\ rnoted n g gl /\
    (forall p, ron n p -> position gl p = position g p) /\
    zobrist_hash (gm_goban gl) = zobrist_hash (gm_goban g) /\
    number_of_stones (gm_goban gl) = one_more (gm_turn g) (number_of_stones (gm_goban g)) /\
    forall p, ron n p -> adj (x, y) p -> position g p = Some (opp (gm_turn g)) -> exists before after,
      group_of (gm_goban g) p = Some before /\ group_of (gm_goban gl) p = Some after /\
      number_of_liberties before = S (number_of_liberties after) /\
      lib_get (x * fst n + y) (g_liberties before) = Ok true /\ lib_get (x * fst n + y) (g_liberties after) = Ok false.
Proof.
  intros D HG Hp He HP. pose proof (rgreach_inv _ _ _ _ _ D HG) as G. pose proof (rgi_wf _ _ _ _ G) as W. pose proof (rwf_n _ _ W) as Hn.
  destruct (rplay_spec dbg n b w g x y G Hp He) as [(_ & HK & HF)|(g' & E & _)]; [|rewrite E in HP; discriminate].
  assert (HPu : push_wth_feedback dbg (gm_goban g) (x, y) (gm_turn g) = Panic).
  { destruct (rmove_spec dbg n (gm_goban g) (x, y) (gm_turn g) false W Hp He)
      as [[E _]|(g1 & dead & u & g2 & rm & ko & _ & _ & _ & W2 & _ & [[H _]|[_ H]] & _)]; [exact E|contradiction|].
    pose proof (wf0_len _ (rwf_0 n _ W2)). lia. }
  destruct (rfull_push dbg n (gm_goban g) x y (gm_turn g) W Hp He HPu HK) as (gb & E & Hs & Hz & Hb & Hc & Hnum & Hlib).
  destruct (rplay_leaves dbg n b w g x y _ G E) as (h & Eh & Ep). eexists. split; [exact Ep|].
  split; [apply rest_by|]. split; [eapply rnoted_by; eassumption|]. cbn [gm_goban with_goban].
  split.
  { intros p Hq. unfold position. rewrite (rpos_of_col n _ p W Hq), <- Hc. unfold pos_of, get_color, get_color_idx.
    cbn [gm_goban with_goban]. rewrite Hs, (rwf_size n _ W), Hb. change (two_to_1dim n p) with (ridx n p).
    rewrite vget_board by (rewrite (wf0_board _ (rwf_0 n _ W)); exact (vi_361 n _ Hn (ridx_on n p Hn Hq))).
    cbn [bind]. unfold col. change (cell gb (ridx n p)) with (mjoin (board gb !! ridx n p)). rewrite Hb.
    change (mjoin (board (gm_goban g) !! ridx n p)) with (cell (gm_goban g) (ridx n p)).
    destruct (cell (gm_goban g) (ridx n p)) as [k|]; [|reflexivity]. rewrite chain_at_is.
    destruct (live gb k); reflexivity. }
  split; [exact Hz|]. split; [exact Hnum|].
  intros p Hq Ha Hcol. unfold position in Hcol. rewrite (rpos_of_col n _ p W Hq) in Hcol.
  assert (Hk : exists k, cell (gm_goban g) (ridx n p) = Some k).
  { unfold col in Hcol. destruct (cell _ _) as [k|]; [eauto|discriminate]. }
  destruct Hk as [k Hk].
  destruct (Hlib (ridx n p) k) as (grp & grp' & Hg & Hg' & B & B' & Hi & Hz'); [|exact Hk|exact Hcol|].
  { apply (radj_nb n (x, y) p Hn Hp Hq), Ha. }
  exists grp, grp'.
  assert (Eg : forall gb', gsize gb' = gsize (gm_goban g) -> board gb' = board (gm_goban g) -> group_of gb' p = live gb' k).
  { intros gb' E1 E2. unfold group_of, group_no. rewrite E1, E2, (rwf_size n _ W). change (two_to_1dim n p) with (ridx n p).
    apply cell_lookup in Hk. rewrite Hk. unfold live. destruct (chains gb' !! k) as [[]|]; reflexivity. }
  split; [rewrite Eg by reflexivity; exact Hg|]. split; [rewrite Eg by assumption; exact Hg'|].
  assert (Hlt : x * fst n + y < 368) by (apply (lbit_bound _ _ B Hi)).
  split; [|split; [rewrite lib_get_spec by assumption; rewrite Hi; reflexivity|
                   rewrite lib_get_spec by assumption; rewrite Hz', Nat.eqb_refl; reflexivity]].
  unfold number_of_liberties. rewrite !lib_count_ones_spec by assumption.
  change (S (length (lib_list (g_liberties grp')))) with (length ((x * fst n + y) :: lib_list (g_liberties grp'))).
  apply Permutation_length. apply NoDup_Permutation.
  - apply lib_list_NoDup.
  - apply NoDup_cons. split; [|apply lib_list_NoDup]. rewrite elem_of_lib_list by exact B'. rewrite Hz', Nat.eqb_refl. discriminate.
  - intros z. rewrite elem_of_cons, !elem_of_lib_list by assumption. rewrite Hz'.
    destruct (Nat.eqb_spec z (x * fst n + y)) as [->|Hne]; [tauto|]. split; [right; assumption|]. intros [|]; [congruence|assumption].
Qed.

(** ** Without superko the noted board is never looked at *)

Lemma rplay_history dbg n b w g h m : rginv n b w g -> Forall (rwf n) h ->
  match play dbg g m with
  | Ok g' => exists h', play dbg (with_history g h) m = Ok (with_history g' h') /\ Forall (rwf n) h'
  | Panic => play dbg (with_history g h) m = Panic
  | Diverge => play dbg (with_history g h) m = Diverge
  end.
Proof.
  intros G Wh. destruct m as [|c|x y]; unfold play; cbn [gm_passes gm_goban gm_history gm_turn gm_rule gm_prisoners with_history].
  - destruct (assert_ _); cbn [bind]; [|reflexivity|reflexivity]. exists h. split; [reflexivity|exact Wh].
  - exists h. split; [reflexivity|exact Wh].
  - destruct (rhistory_insert_spec n h (gm_goban g) Wh (rgi_wf _ _ _ _ G)) as (h' & -> & Wh' & _).
    destruct (rhistory_insert_spec n (gm_history g) (gm_goban g) (rgi_hist _ _ _ _ G) (rgi_wf _ _ _ _ G)) as (h0 & -> & _).
    cbn [bind]. destruct (push_wth_feedback dbg (gm_goban g) (x, y) (gm_turn g)) as [[[gb d] a]| |]; cbn [bind]; [|reflexivity|reflexivity].
    destruct (game_remove_captured_stones _ _ _ _ _ _) as [[[gb' pr] ko]| |]; cbn [bind]; [|reflexivity|reflexivity].
    exists h'. split; [reflexivity|exact Wh'].
Qed.

Lemma rtry_history dbg n b w g h m : rginv n b w g -> Forall (rwf n) h ->
  flag_contains (flag_illegal (gm_rule g)) SUPERKO = false ->
  match try_play dbg g m with
  | Ok (g', v) => exists h', try_play dbg (with_history g h) m = Ok (with_history g' h', v) /\ Forall (rwf n) h'
  | Panic => try_play dbg (with_history g h) m = Panic
  | Diverge => try_play dbg (with_history g h) m = Diverge
  end.
Proof.
  intros G Wh HS. unfold try_play. cbn [gm_passes gm_goban with_history].
  destruct (gm_passes g =? 2); [exists h; split; [reflexivity|exact Wh]|].
  assert (P : match (let! g' := play dbg g m in Ok (g', Accepted)) with
     | Ok (g', v) => exists h', (let! g' := play dbg (with_history g h) m in Ok (g', Accepted)) = Ok (with_history g' h', v) /\ Forall (rwf n) h'
     | Panic => (let! g' := play dbg (with_history g h) m in Ok (g', Accepted)) = Panic
     | Diverge => (let! g' := play dbg (with_history g h) m in Ok (g', Accepted)) = Diverge
     end).
  { pose proof (rplay_history dbg n b w g h m G Wh) as F. destruct (play dbg g m); cbn [bind].
    - destruct F as (h' & -> & Wh'). exists h'. split; [reflexivity|exact Wh'].
    - rewrite F. reflexivity.
    - rewrite F. reflexivity. }
  destruct m as [|c|x y]; [exact P|exact P|].
  destruct (get_color (gm_goban g) (x, y)) as [c| |]; cbn [bind]; [|reflexivity|reflexivity].
  destruct (negb _); [exists h; split; [reflexivity|exact Wh]|].
  rewrite (check_history dbg g h (x, y) HS).
  destruct (check_point dbg g (x, y)) as [[e|]| |]; cbn [bind]; [exists h; split; [reflexivity|exact Wh]|exact P|reflexivity|reflexivity].
Qed.

Lemma rattempts_history dbg n ms : Nat.divide (snd n) (fst n) -> (forall x y, MPlay x y ∈ ms -> ron n (x, y)) ->
  forall b w g h, rgreach dbg n b w g -> Forall (rwf n) h ->
  flag_contains (flag_illegal (gm_rule g)) SUPERKO = false ->
  match attempts dbg g ms with
  | Ok (vs, g') => exists h', attempts dbg (with_history g h) ms = Ok (vs, with_history g' h')
  | Panic => attempts dbg (with_history g h) ms = Panic
  | Diverge => attempts dbg (with_history g h) ms = Diverge
  end.
Proof.
  intros D. induction ms as [|m ms IH]; intros Hon b w g h HG Wh HS; cbn [attempts].
  - exists h. reflexivity.
  - pose proof (rtry_history dbg n b w g h m (rgreach_inv _ _ _ _ _ D HG) Wh HS) as F.
    destruct (try_play dbg g m) as [[g' v]| |] eqn:E; cbn [bind]; [|rewrite F; reflexivity|rewrite F; reflexivity].
    destruct F as (h' & -> & Wh'). cbn [bind].
    destruct (rgreach_try dbg n b w g m g' v D HG) with (2 := E) as (b' & w' & HG' & _).
    { intros x y ->. apply Hon. left. }
    assert (HS' : flag_contains (flag_illegal (gm_rule g')) SUPERKO = false).
    { rewrite <- HS. f_equal. f_equal. unfold try_play in E. destruct (gm_passes g =? 2); [congruence|].
      assert (K : forall m g2, play dbg g m = Ok g2 -> gm_rule g2 = gm_rule g).
      { clear. intros [|c|x y] g2; unfold play; intros E.
        - apply bind_ok in E as (? & _ & E). injection E as <-. reflexivity.
        - injection E as <-. reflexivity.
        - apply bind_ok in E as (? & _ & E). apply bind_ok in E as ([[? ?] ?] & _ & E). apply bind_ok in E as ([[? ?] ?] & _ & E).
          injection E as <-. reflexivity. }
      destruct m as [|c|x y].
      - apply bind_ok in E as (g2 & E & E2). injection E2 as <- _. eapply K, E.
      - apply bind_ok in E as (g2 & E & E2). injection E2 as <- _. eapply K, E.
      - apply bind_ok in E as (c & _ & E). destruct (negb _); [congruence|]. apply bind_ok in E as ([e|] & _ & E); [congruence|].
        apply bind_ok in E as (g2 & E & E2). injection E2 as <- _. eapply K, E. }
    specialize (IH ltac:(intros x y Hx; apply Hon; right; exact Hx) b' w' g' h' HG' Wh' HS').
    destruct (attempts dbg g' ms) as [[vs g'']| |]; cbn [bind].
    + destruct IH as (h'' & ->). exists h''. reflexivity.
    + rewrite IH. reflexivity.
    + rewrite IH. reflexivity.
Qed.

Lemma rfar_harmless dbg n b w g gl x y ms : Nat.divide (snd n) (fst n) -> rgreach dbg n b w g -> 361 <= x * fst n + y ->
  (dbg = false -> fst n = 19 -> x * fst n + y < 368 -> position g (18, (x * fst n + y) mod snd n) <> Some (gm_turn g)) ->
  flag_contains (flag_illegal (gm_rule g)) SUPERKO = false -> u_play dbg (MPlay x y) g = (gl, Panic) ->
  (forall a c, MPlay a c ∈ ms -> ron n (a, c)) ->
  match attempts dbg g ms with
  | Ok (vs, g') => exists gl', attempts dbg gl ms = Ok (vs, gl') /\ gm_goban gl' = gm_goban g' /\ rest_kept g' gl'
  | Panic => attempts dbg gl ms = Panic
  | Diverge => attempts dbg gl ms = Diverge
  end.
Proof.
  intros D HG Hi Hx HS E Hon. pose proof (rgreach_inv _ _ _ _ _ D HG) as G. pose proof (rgi_wf _ _ _ _ G) as W.
  assert (EP : u_push_wth_feedback dbg (x, y) (gm_turn g) (gm_goban g) = (gm_goban g, Panic)).
  { apply (rfar_push dbg n _ x y _ W Hi). intros Ed En Hs. rewrite <- (rown_edge n b w g _ G En). exact (Hx Ed En Hs). }
  destruct (rplay_leaves dbg n b w g x y _ G EP) as (h & Eh & Ep). rewrite Ep in E. injection E as <-.
  assert (Wh : Forall (rwf n) h).
  { destruct (rhistory_insert_spec n (gm_history g) (gm_goban g) (rgi_hist _ _ _ _ G) W) as (h0 & E0 & W0 & _). rewrite Eh in E0. injection E0 as <-. exact W0. }
  change (with_goban (with_history g h) (gm_goban g)) with (with_history g h).
  pose proof (rattempts_history dbg n ms D Hon b w g h HG Wh HS) as F.
  destruct (attempts dbg g ms) as [[vs g']| |]; [|exact F|exact F]. destruct F as (h' & F). eexists. split; [exact F|]. repeat split.
Qed.
