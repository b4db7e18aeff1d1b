(** What a caught panic leaves behind: the lemmas behind C124. *)
From Verif Require Import Spec Observe Reach BitsetFacts CoordFacts Struct Push Inv Bridge GameFacts BoundsFacts
     ClaimFacts CheckFacts LegalFacts SetupFacts BoardFacts EyeFacts LongFacts Samples MonadFacts RefuteFacts PlayClaims UnwindSpec.
From Verif Require Import Unwind UnwindFacts.
Local Open Scope nat_scope.

(** ** The same answers *)

Lemma answers_play dbg g m : snd (u_play dbg m g) = (let! _ := play dbg g m in Ok tt) /\
  forall g', play dbg g m = Ok g' -> fst (u_play dbg m g) = g'.
Proof.
  pose proof (follows_play dbg m g) as F. cbn beta in F.
  destruct (play dbg g m) as [g'| |]; cbn [bind] in *.
  - rewrite F. split; [reflexivity|]. intros ? [= <-]. reflexivity.
  - split; [exact F|discriminate].
  - split; [exact F|discriminate].
Qed.

Lemma answers_try dbg g m : snd (u_try_play dbg m g) = (let! '(_, v) := try_play dbg g m in Ok v) /\
  forall g' v, try_play dbg g m = Ok (g', v) -> fst (u_try_play dbg m g) = g'.
Proof.
  pose proof (follows_try_play dbg m g) as F. cbn beta in F.
  destruct (try_play dbg g m) as [[g' v]| |]; cbn [bind] in *.
  - rewrite F. split; [reflexivity|]. intros ? ? [= <- _]. reflexivity.
  - split; [exact F|discriminate].
  - split; [exact F|discriminate].
Qed.

Lemma answers_handicap dbg g pts : snd (u_put_handicap dbg pts g) = (let! _ := put_handicap dbg g pts in Ok tt) /\
  forall g', put_handicap dbg g pts = Ok g' -> fst (u_put_handicap dbg pts g) = g'.
Proof.
  pose proof (follows_handicap dbg pts g) as F. cbn beta in F.
  destruct (put_handicap dbg g pts) as [g'| |]; cbn [bind] in *.
  - rewrite F. split; [reflexivity|]. intros ? [= <-]. reflexivity.
  - split; [exact F|discriminate].
  - split; [exact F|discriminate].
Qed.

Lemma answers_push dbg g pts c : snd (u_push_many dbg pts c g) = (let! _ := push_many dbg g pts c in Ok tt) /\
  forall g', push_many dbg g pts c = Ok g' -> fst (u_push_many dbg pts c g) = g'.
Proof.
  pose proof (follows_push_many dbg pts c g) as F. cbn beta in F.
  destruct (push_many dbg g pts c) as [g'| |]; cbn [bind] in *.
  - rewrite F. split; [reflexivity|]. intros ? [= <-]. reflexivity.
  - split; [exact F|discriminate].
  - split; [exact F|discriminate].
Qed.

Lemma answers_remove dbg g k : snd (u_remove_chain dbg k g) = (let! _ := remove_chain dbg g k in Ok tt) /\
  forall g', remove_chain dbg g k = Ok g' -> fst (u_remove_chain dbg k g) = g'.
Proof.
  pose proof (follows_remove_chain dbg k g) as F. cbn beta in F.
  destruct (remove_chain dbg g k) as [g'| |]; cbn [bind] in *.
  - rewrite F. split; [reflexivity|]. intros ? [= <-]. reflexivity.
  - split; [exact F|discriminate].
  - split; [exact F|discriminate].
Qed.

(** ** A pass too many *)

Lemma pass_leaves dbg g : (2 <= gm_passes g)%nat -> u_play dbg MPass g = (g, Panic).
Proof.
  intros H. unfold u_play. rewrite mbind_reads. destruct (Nat.ltb_spec (gm_passes g) 2); [lia|]. reflexivity.
Qed.

(** ** Points far outside the board *)

Lemma chain_at_is g k : chain_at (chains g) k = match live g k with Some grp => Ok grp | None => Panic end.
Proof. unfold chain_at, vget, live. destruct (chains g !! k) as [[grp|]|]; reflexivity. Qed.

Lemma byte_clear x b : (x < 256)%N -> (b < 8)%N -> N.testbit x b = false ->
  N.land x (N.lnot (N.shiftl 1 b) 8) = x.
Proof.
  intros Hx Hb Hf. apply N.bits_inj. intros i. rewrite N.land_spec.
  destruct (N.ltb_spec i 8) as [Hi|Hi].
  - rewrite N.lnot_spec_low by exact Hi. rewrite N.shiftl_1_l, N.pow2_bits_eqb.
    destruct (N.eqb_spec b i) as [->|_]; cbn [negb]; [rewrite Hf; reflexivity|apply andb_true_r].
  - rewrite (byte_high x i Hx Hi). reflexivity.
Qed.

Lemma lib_clear_id l i l' : bits_ok l -> lbit l i = false -> lib_set false i l = Ok l' -> l' = l.
Proof.
  intros [HL HF] Hb. unfold lib_set, lbit in *. fold BITS in Hb. cbv zeta. unfold vget, BITS in *.
  destruct (l !! (i / 8)) as [x|] eqn:Ex; cbn [unwrap bind]; [|discriminate].
  rewrite byte_clear; [|exact (Forall_lookup_1 _ _ _ _ HF Ex)| |exact Hb].
  - unfold vset. destruct (_ <? _); [|discriminate]. intros [= <-]. apply list_insert_id, Ex.
  - pose proof (Nat.mod_upper_bound i 8). lia.
Qed.

(** taking away a liberty that is not there writes nothing *)
Lemma put_off dbg g k p : wf0 g -> (forall k grp, live g k = Some grp -> lbit (g_liberties grp) p = false) ->
  (put_chain k (fun x => remove_liberty dbg x p) g = (g, Ok tt) /\ dbg = false /\ (p < 368)%nat) \/
  put_chain k (fun x => remove_liberty dbg x p) g = (g, Panic).
Proof.
  intros W Hb. unfold put_chain, writes. rewrite chain_at_is.
  destruct (live g k) as [grp|] eqn:El; cbn [bind]; [|right; reflexivity].
  destruct (wf0_chain _ W _ _ El) as [Bo _]. specialize (Hb k grp El).
  unfold remove_liberty. 
  assert (Hp : p < 368 \/ 368 <= p) by lia. destruct Hp as [Hp|Hp].
  - unfold debug_assert. destruct dbg.
    + right. rewrite lib_get_spec by assumption. cbn [bind]. rewrite Hb. reflexivity.
    + left. cbn [bind]. destruct (lib_set_spec false _ p Bo Hp) as (l' & E & _). rewrite E. cbn [bind].
      rewrite (lib_clear_id _ _ _ Bo Hb E).
      assert (Eg : with_liberties grp (g_liberties grp) = grp) by (destruct grp; reflexivity). rewrite Eg.
      unfold chain_put. rewrite chain_at_is, El. cbn [bind]. unfold vset.
      unfold live in El. destruct (chains g !! k) as [o|] eqn:Ek; [|discriminate]. cbn in El. subst o.
      pose proof (lookup_lt_Some _ _ _ Ek) as Hk. destruct (Nat.ltb_spec k (length (chains g))); [|lia]. cbn [bind].
      rewrite list_insert_id by exact Ek. split; [|split; [reflexivity|exact Hp]]. destruct g; reflexivity.
  - right. assert (C : (length (g_liberties grp) <= p / 8)%nat).
    { destruct Bo as [-> _]. apply Nat.div_le_lower_bound; lia. }
    unfold debug_assert. destruct dbg.
    + unfold lib_get, vget, BITS. rewrite lookup_ge_None_2 by exact C. reflexivity.
    + cbn [bind]. unfold lib_set, vget, BITS. rewrite lookup_ge_None_2 by exact C. reflexivity.
Qed.

Lemma off_liberties dbg g p : wf0 g -> (forall k grp, live g k = Some grp -> lbit (g_liberties grp) p = false) ->
  forall oppo dead, exists r,
    mfold (fun dead k =>
           do! _ := put_chain k (fun x => remove_liberty dbg x p) in
           do! x := reads (fun g => chain_at (chains g) k) in
           if is_dead x then reads (fun _ => av_push 4 dead k) else mret dead) oppo dead g = (g, r).
Proof.
  intros W Hb. induction oppo as [|k oppo IH]; intros dead; cbn [mfold].
  - exists (Ok dead). reflexivity.
  - rewrite mbind_mbind. destruct (put_off dbg g k p W Hb) as [[E _]|E].
    + unfold mbind at 1. rewrite E. rewrite mbind_mbind, mbind_reads.
      destruct (chain_at (chains g) k) as [x| |]; [|eexists; reflexivity|eexists; reflexivity].
      destruct (is_dead x).
      * rewrite mbind_reads. destruct (av_push 4 dead k); [|eexists; reflexivity|eexists; reflexivity]. apply IH.
      * rewrite mbind_ret. apply IH.
    + unfold mbind at 1. rewrite E. eexists. reflexivity.
Qed.

Lemma off_create dbg g p c libs : length (next_stone g) <= p -> u_create_chain dbg p c libs g = (g, Panic).
Proof.
  intros H. unfold u_create_chain. rewrite mbind_reads.
  assert (D : nd (foldM (fun l i => lib_set true i l) libs EMPTY_LIBERTIES)) by (apply nd_foldM; intros; apply nd_lib_set).
  destruct (foldM _ libs _); [|reflexivity|destruct (D eq_refl)].
  unfold put_next. rewrite mbind_writes, vset_panic by exact H. reflexivity.
Qed.

(** the only board and the only points for which a group is adjacent and its
    liberty array still has a bit for the point *)
Lemma far_neighbours dbg n i : 1 <= n <= 19 -> 361 <= i < 368 ->
  neighbors_idx dbg (n, n) i = Ok (if n =? 19 then [i - 19] else []).
Proof.
  intros Hn Hi.
  assert (Ci : i = 361 \/ i = 362 \/ i = 363 \/ i = 364 \/ i = 365 \/ i = 366 \/ i = 367) by lia.
  assert (Cn : List.In n (seq 1 19)) by (apply in_seq; lia).
  assert (T : forallb (fun d => forallb (fun n => forallb (fun i =>
     match neighbors_idx d (n, n) i with Ok l => bool_decide (l = if n =? 19 then [i - 19] else []) | _ => false end)
     (seq 361 7)) (seq 1 19)) [true; false] = true) by (vm_compute; reflexivity).
  rewrite forallb_forall in T. specialize (T dbg ltac:(destruct dbg; cbn; tauto)).
  rewrite forallb_forall in T. specialize (T n Cn).
  rewrite forallb_forall in T. specialize (T i ltac:(apply in_seq; lia)).
  destruct (neighbors_idx dbg (n, n) i) as [l| |]; [|discriminate|discriminate].
  apply bool_decide_eq_true in T. rewrite T. reflexivity.
Qed.

(** the panic writes nothing, but for the one case *)
Lemma far_push dbg n g x y c : wf n g -> 361 <= x * n + y ->
  (dbg = false -> n = 19 -> x * n + y < 368 -> col g (x * n + y - 19) <> Some c) ->
  u_push_wth_feedback dbg (x, y) c g = (g, Panic).
Proof.
  intros W Hi Hx. pose proof (wf_0 n g W) as W0. pose proof (wf_n n g W) as Hn.
  set (i := x * n + y) in *.
  assert (Hb : forall k grp, live g k = Some grp -> lbit (g_liberties grp) i = false).
  { intros k grp Hg. apply not_true_iff_false. intros H. apply (wf_lib n g W k grp _ Hg) in H as (_ & z & Hz & Hj).
    pose proof (sq_le n Hn). apply nb_bound in Hj; [lia|lia|apply (wf_on n g W _ _ Hz)]. }
  assert (HP : snd (u_push_wth_feedback dbg (x, y) c g) = Panic).
  { pose proof (follows_push_feedback dbg (x, y) c g) as F. cbn beta in F.
    rewrite push_far in F; [exact F|]. rewrite (wf_size n g W), (wf0_next _ W0). exact Hi. }
  assert (K : fst (u_push_wth_feedback dbg (x, y) c g) = g -> u_push_wth_feedback dbg (x, y) c g = (g, Panic)).
  { intros E. rewrite (surjective_pairing (u_push_wth_feedback dbg (x, y) c g)), E, HP. reflexivity. }
  unfold u_push_wth_feedback in K |- *. rewrite mbind_reads, (wf_size n g W) in K |- *.
  change (two_to_1dim (n, n) (x, y)) with i in *. rewrite mbind_reads in K |- *.
  rewrite (wf_size n g W) in K |- *.
  destruct (neighbors_idx dbg (n, n) i) as [nbs| |] eqn:En; [|reflexivity|apply K; reflexivity].
  rewrite mbind_reads in K |- *.
  destruct (classify g c nbs) as [[[same oppo] libs]| |] eqn:Ec; [|reflexivity|apply K; reflexivity].
  unfold u_remove_liberties in K |- *.
  destruct (off_liberties dbg g i W0 Hb oppo []) as [r Er].
  rewrite (mbind_run _ _ _ _ _ Er) in K |- *.
  destruct r as [dead| |]; [|reflexivity|apply K; reflexivity]. 
  destruct same as [|only [|k2 same]].
  - cbn [u_place_stone]. rewrite (mbind_run _ _ _ _ _ (off_create dbg g i c libs ltac:(rewrite (wf0_next _ W0); exact Hi))). reflexivity.
  - cbn [u_place_stone] in K |- *. rewrite mbind_mbind in K |- *.
    destruct (put_off dbg g only i W0 Hb) as [(E & Ed & Hi')|E]; rewrite (mbind_run _ _ _ _ _ E) in K |- *; [|reflexivity].
    exfalso. subst dbg. rewrite far_neighbours in En by lia. injection En as <-.
    destruct (n =? 19) eqn:E19; [apply Nat.eqb_eq in E19|discriminate Ec].
    destruct (classify_spec g c [i - 19] W0) as (same' & oppo' & libs' & Ec' & _ & _ & _ & _ & Hs & _ & _).
    { intros j Hj. apply elem_of_list_singleton in Hj. lia. } { cbn; lia. }
    rewrite Ec' in Ec. injection Ec as -> -> ->.
    destruct (proj1 (Hs only) ltac:(left)) as (j & grp & Hj & Hcell & Hlive & Hcol).
    apply elem_of_list_singleton in Hj. subst j.
    apply (Hx eq_refl E19 Hi'). unfold col. rewrite Hcell, Hlive, Hcol. reflexivity.
  - cbn [u_place_stone]. rewrite mbind_mbind, (mbind_run _ _ _ _ _ (off_create dbg g i c libs ltac:(rewrite (wf0_next _ W0); exact Hi))). reflexivity.
Qed.

(** the one case: the last stone of a group is made to point outside the array *)
Lemma far_push_broken g x y c : wf 19 g -> 361 <= x * 19 + y < 368 -> col g (x * 19 + y - 19) = Some c ->
  exists k grp, cell g (x * 19 + y - 19) = Some k /\ live g k = Some grp /\ g_color grp = c /\
    u_push_wth_feedback false (x, y) c g = (with_next g (<[g_last grp := x * 19 + y]> (next_stone g)), Panic).
Proof.
  intros W Hi Hc. pose proof (wf_0 _ g W) as W0. set (i := x * 19 + y) in *.
  unfold col in Hc. destruct (cell g (i - 19)) as [k|] eqn:Hk; [|discriminate].
  destruct (live g k) as [grp|] eqn:Hl; [|discriminate]. injection Hc as <-.
  exists k, grp. split; [reflexivity|]. split; [exact Hl|]. split; [reflexivity|].
  assert (Hb : forall k grp, live g k = Some grp -> lbit (g_liberties grp) i = false).
  { intros k0 grp0 Hg. apply not_true_iff_false. intros H. apply (wf_lib _ g W k0 grp0 _ Hg) in H as (_ & z & Hz & Hj).
    apply nb_bound in Hj; [lia|lia|apply (wf_on _ g W _ _ Hz)]. }
  destruct (wf0_chain _ W0 _ _ Hl) as (_ & l & R & Hm).
  assert (Hlast : g_last grp < 361).
  { eapply wf0_cell_lt; [exact W0|]. apply Hm. apply last_Some_elem_of, (ring_last _ _ _ R). }
  assert (Horig : g_origin grp < 361).
  { eapply wf0_cell_lt; [exact W0|]. apply Hm. apply head_Some_elem_of, (ring_head _ _ _ R). }
  unfold u_push_wth_feedback. rewrite mbind_reads, (wf_size _ g W). change (two_to_1dim (19, 19) (x, y)) with i.
  rewrite mbind_reads, (wf_size _ g W), far_neighbours by lia. change (19 =? 19) with true. cbv iota.
  rewrite mbind_reads.
  assert (Ec : classify g (g_color grp) [i - 19] = Ok ([k], [], [])).
  { unfold classify. cbn [foldM]. rewrite vget_board by (rewrite (wf0_board g W0); lia). rewrite Hk. cbn [bind].
    rewrite chain_at_is, Hl. cbn [bind]. destruct (color_eqb_spec (g_color grp) (g_color grp)); [|congruence]. reflexivity. }
  rewrite Ec. unfold u_remove_liberties. cbn [mfold]. rewrite mbind_ret. cbn [u_place_stone]. rewrite mbind_mbind.
  destruct (put_off false g k i W0 Hb) as [(E & _)|E].
  2:{ exfalso. unfold put_chain, writes in E. rewrite chain_at_is, Hl in E. cbn [bind] in E.
      destruct (wf0_chain _ W0 _ _ Hl) as [Bo _].
      destruct (remove_liberty_ok false grp i Bo ltac:(lia) ltac:(discriminate)) as (grp' & E' & _).
      rewrite E' in E. cbn [bind] in E. unfold chain_put in E. rewrite chain_at_is, Hl in E. cbn [bind] in E.
      unfold vset in E. unfold live in Hl. destruct (chains g !! k) as [o|] eqn:Ek; [|discriminate].
      pose proof (lookup_lt_Some _ _ _ Ek). destruct (Nat.ltb_spec k (length (chains g))); [|lia]. discriminate. }
  rewrite (mbind_run _ _ _ _ _ E). cbn [meach]. rewrite mbind_mbind, mbind_ret, mbind_mbind. unfold u_add_stone_to_chain.
  rewrite mbind_mbind, mbind_reads, chain_at_is, Hl.
  destruct (Nat.ltb_spec i (g_origin grp)); [lia|].
  rewrite !mbind_mbind. unfold put_next. rewrite mbind_writes. unfold vset at 1.
  rewrite (wf0_next _ W0). destruct (Nat.ltb_spec (g_last grp) 361); [|lia]. cbn [bind].
  rewrite mbind_mbind, mbind_writes. unfold vset. cbn [next_stone with_next]. rewrite insert_length, (wf0_next _ W0).
  destruct (Nat.ltb_spec i 361); [lia|]. reflexivity.
Qed.

(** a walk whose last stone points outside the array *)
Lemma iter_broken nx o z : length nx <= z -> o < length nx -> forall t x fuel,
  links nx (x :: t) z -> o ∉ t -> S (length (x :: t)) <= fuel -> iter_from fuel false nx o x = Panic.
Proof.
  intros Hz Ho. induction t as [|y t IH]; intros x fuel Hl Hn Hf; cbn [length] in Hf.
  - destruct fuel as [|[|fuel]]; [lia..|]. destruct Hl as [Hl _]. cbn [default head] in Hl.
    cbn [iter_from]. unfold vget at 1. rewrite Hl. cbn [unwrap bind]. destruct (Nat.eqb_spec z o); [lia|]. cbn [andb].
    unfold vget. rewrite lookup_ge_None_2 by exact Hz. reflexivity.
  - destruct fuel as [|fuel]; [lia|]. destruct Hl as [Hx Hl]. cbn in Hx. change (id y) with y in Hx.
    apply not_elem_of_cons in Hn as [Hy Hn].
    cbn [iter_from]. unfold vget at 1. rewrite Hx. cbn [unwrap bind]. destruct (Nat.eqb_spec y o); [congruence|]. cbn [andb].
    rewrite IH; [reflexivity|exact Hl|exact Hn|cbn [length]; lia].
Qed.

Lemma noted_by n b w g h gb : ginv n b w g -> history_insert (gm_history g) (gm_goban g) = Ok h ->
  noted n g (with_goban (with_history g h) gb).
Proof.
  intros G E. destruct (history_insert_spec n (gm_history g) (gm_goban g) (gi_hist _ _ _ _ G) (gi_wf _ _ _ _ G)) as (h' & E' & _ & H).
  rewrite E in E'. injection E' as <-. exact H.
Qed.

Lemma rest_by g h gb : rest_kept g (with_goban (with_history g h) gb).
Proof. repeat split. Qed.

(** a stone panics: the history first, then whatever the board was left as *)
Lemma play_leaves dbg n b w g x y gb : ginv n b w g -> u_push_wth_feedback dbg (x, y) (gm_turn g) (gm_goban g) = (gb, Panic) ->
  exists h, history_insert (gm_history g) (gm_goban g) = Ok h /\
    u_play dbg (MPlay x y) g = (with_goban (with_history g h) gb, Panic).
Proof.
  intros G E. destruct (history_insert_spec n (gm_history g) (gm_goban g) (gi_hist _ _ _ _ G) (gi_wf _ _ _ _ G)) as (h & Eh & _).
  exists h. split; [exact Eh|]. unfold u_play. rewrite mbind_writes, Eh. cbn [bind]. rewrite mbind_reads.
  unfold mbind at 1, on_goban. cbn [gm_goban gm_turn with_history]. rewrite E. reflexivity.
Qed.

Lemma far_try dbg n b w g x y : greach dbg n b w g -> 361 <= x * n + y -> gm_passes g <> 2 ->
  u_try_play dbg (MPlay x y) g = (g, Panic).
Proof.
  intros HG Hi Hp. pose proof (greach_inv _ _ _ _ _ HG) as G. pose proof (gi_wf _ _ _ _ G) as W.
  unfold u_try_play. rewrite mbind_reads. destruct (Nat.eqb_spec (gm_passes g) 2); [congruence|].
  rewrite mbind_reads. unfold get_color, get_color_idx, vget. rewrite (wf_size n _ W).
  rewrite lookup_ge_None_2; [reflexivity|]. rewrite (wf0_board _ (wf_0 n _ W)). exact Hi.
Qed.

Lemma own_edge n b w g c i : ginv n b w g -> n = 19 -> 361 <= i < 368 -> 
  position g (18, i - 361) = Some c <-> col (gm_goban g) (i - 19) = Some c.
Proof.
  intros G -> Hi. unfold position. rewrite (pos_of_col 19 _ _ (gi_wf _ _ _ _ G)) by (split; cbn [fst snd]; lia).
  replace (idx 19 (18, i - 361)) with (i - 19); [reflexivity|]. unfold idx. cbn [fst snd]. lia.
Qed.

Lemma far_play dbg n b w g x y : greach dbg n b w g -> 361 <= x * n + y ->
  (dbg = false -> n = 19 -> x * n + y < 368 -> position g (18, x * n + y - 361) <> Some (gm_turn g)) ->
  exists gl, u_play dbg (MPlay x y) g = (gl, Panic) /\ gm_goban gl = gm_goban g /\ rest_kept g gl /\ noted n g gl.
Proof.
  intros HG Hi Hx. pose proof (greach_inv _ _ _ _ _ HG) as G. pose proof (gi_wf _ _ _ _ G) as W.
  assert (E : u_push_wth_feedback dbg (x, y) (gm_turn g) (gm_goban g) = (gm_goban g, Panic)).
  { apply (far_push dbg n _ x y _ W Hi). intros Ed En Hs Hc. apply (Hx Ed En Hs). apply (own_edge n b w g _ _ G En); [lia|exact Hc]. }
  destruct (play_leaves dbg n b w g x y _ G E) as (h & Eh & Ep). eexists. split; [exact Ep|].
  split; [reflexivity|]. split; [apply rest_by|]. eapply noted_by; eassumption.
Qed.

Lemma far_broken b w g x y : greach false 19 b w g -> 361 <= x * 19 + y < 368 ->
  position g (18, x * 19 + y - 361) = Some (gm_turn g) ->
  exists gl k l, u_play false (MPlay x y) g = (gl, Panic) /\ rest_kept g gl /\ noted 19 g gl /\
    (forall p, position gl p = position g p) /\
    chain_stones false (gm_goban g) k = Ok l /\ ((18, x * 19 + y - 361), gm_turn g) ∈ l /\
    chain_stones false (gm_goban gl) k = Panic.
Proof.
  intros HG Hi Hown. pose proof (greach_inv _ _ _ _ _ HG) as G. pose proof (gi_wf _ _ _ _ G) as W. pose proof (wf_0 _ _ W) as W0.
  set (i := x * 19 + y) in *.
  destruct (far_push_broken (gm_goban g) x y (gm_turn g) W Hi) as (k & grp & Hk & Hl & Hcol & E).
  { apply (own_edge 19 b w g _ _ G eq_refl Hi), Hown. }
  fold i in Hk, E. destruct (play_leaves false 19 b w g x y _ G E) as (h & Eh & Ep).
  assert (On : on 19 (18, i - 361)) by (split; cbn [fst snd]; lia).
  assert (Ei : idx 19 (18, i - 361) = i - 19) by (unfold idx; cbn [fst snd]; lia).
  destruct (chain_stones_ok false 19 (gm_goban g) (18, i - 361) k grp W On ltac:(rewrite Ei; exact Hk) Hl) as (l & _ & El & _ & _ & _ & _ & Hin).
  eexists _, k, _. split; [exact Ep|]. split; [apply rest_by|]. split; [eapply noted_by; eassumption|].
  split; [intros p; reflexivity|]. split; [exact El|]. split.
  - apply elem_of_list_In, in_map_iff. exists (i - 19). rewrite <- Ei, (pt_idx _ _ On), Hcol. split; [reflexivity|].
    apply elem_of_list_In, Hin. exists (18, i - 361). split; [reflexivity|]. split; [exact On|]. constructor.
  - cbn [gm_goban with_goban]. unfold chain_stones. cbn [chains with_next]. rewrite chain_at_is, Hl. cbn [bind next_stone with_next].
    destruct (wf0_chain _ W0 _ _ Hl) as (_ & ll & R & Hm).
    assert (Hlast : g_last grp < 361).
    { eapply wf0_cell_lt; [exact W0|]. apply Hm. apply last_Some_elem_of, (ring_last _ _ _ R). }
    assert (Horig : g_origin grp < 361).
    { eapply wf0_cell_lt; [exact W0|]. apply Hm. apply head_Some_elem_of, (ring_head _ _ _ R). }
    assert (L : length ll <= 361).
    { apply NoDup_bounded; [exact (ring_nodup _ _ _ R)|]. intros j Hj. apply Hm in Hj. eapply wf0_cell_lt; eassumption. }
    destruct ll as [|z t]; [discriminate (ring_head _ _ _ R)|].
    pose proof (ring_head _ _ _ R) as Hz. cbn in Hz. injection Hz as ->.
    unfold group_iter. rewrite (iter_broken _ _ i) with (t := t); [reflexivity|..].
    + rewrite insert_length, (wf0_next _ W0). lia.
    + rewrite insert_length, (wf0_next _ W0). lia.
    + pose proof (ring_last _ _ _ R) as HL. apply last_Some in HL as [l0 HL]. rewrite HL. rewrite HL in R.
      eapply links_relast; [exact (ring_nodup _ _ _ R)|rewrite (wf0_next _ W0); exact Hlast|exact (ring_links _ _ _ R)].
    + apply (NoDup_cons_1_1 _ _ (ring_nodup _ _ _ R)).
    + rewrite insert_length, (wf0_next _ W0). lia.
Qed.

(** ** No group number left *)

Lemma create_full dbg g i c libs : wf0 g -> i < 361 -> Forall (fun j => (j < 368)%nat) libs ->
  N.of_nat (length (chains g)) = 65535%N ->
  exists bits, u_create_chain dbg i c libs g =
    (with_chains (with_next g (<[i := i]> (next_stone g))) (chains g ++ [Some (new_with_liberties c i bits)]), Panic).
Proof.
  intros W Hi Hlibs HK.
  destruct (lib_set_all EMPTY_LIBERTIES libs bits_ok_empty Hlibs) as (bits & Eb & _).
  exists bits. unfold u_create_chain. rewrite mbind_reads, Eb. unfold put_next. rewrite mbind_writes.
  rewrite vset_ok by (rewrite (wf0_next g W); exact Hi). cbn [bind]. rewrite mbind_reads, mbind_writes.
  cbn [chains with_next put_free_spot fst].
  set (grp := new_with_liberties c i bits). set (g1 := with_chains _ _).
  assert (El : live g1 (length (chains g)) = Some grp).
  { unfold live, g1. cbn [chains with_chains]. rewrite lookup_app_r, Nat.sub_diag by lia. reflexivity. }
  assert (Ei : next_stone g1 !! i = Some i).
  { unfold g1. cbn [next_stone with_chains with_next]. apply list_lookup_insert. rewrite (wf0_next g W). exact Hi. }
  unfold u_update_chain_indexes. rewrite mbind_mbind. unfold last_is_last. rewrite mbind_reads, chain_at_is, El. cbn [bind].
  assert (It : group_iter dbg grp (next_stone g1) = Ok [i]).
  { unfold group_iter. cbn [iter_from]. unfold vget. cbn [g_origin grp new_with_liberties]. rewrite Ei. cbn [unwrap bind].
    rewrite Nat.eqb_refl. reflexivity. }
  rewrite It. cbn [bind last unwrap]. change (g_last grp) with i. rewrite Nat.eqb_refl.
  replace (debug_assert dbg (Ok true)) with (Ok tt : res unit) by (destruct dbg; reflexivity).
  rewrite mbind_mbind, mbind_reads, chain_at_is, El, mbind_mbind, mbind_reads.
  assert (F : forall f : nat -> mut goban unit, mgroup_for dbg grp (next_stone g1) f g1 = f i g1).
  { intros f. unfold mgroup_for. cbn [Nat.mul Nat.add mfor_from]. rewrite mbind_reads. unfold vget.
    change (g_origin grp) with i. rewrite Ei. cbn [unwrap]. rewrite Nat.eqb_refl. reflexivity. }
  match goal with |- mbind (mgroup_for _ _ _ ?f) _ _ = _ => rewrite (mbind_run _ _ _ g1 Panic) end; [reflexivity|].
  rewrite F. unfold put_cell, writes, nonmax_u16. rewrite HK. reflexivity.
Qed.

Lemma sums_step (l : list group) : forall b w, fold_left (fun '(b, w) grp =>
               match g_color grp with
               | White => (b, w + g_num_stones grp)
               | Black => (b + g_num_stones grp, w)
               end) l (b, w) =
  (b + fst (fold_left (fun '(b, w) grp =>
               match g_color grp with
               | White => (b, w + g_num_stones grp)
               | Black => (b + g_num_stones grp, w)
               end) l (0, 0)), 
   w + snd (fold_left (fun '(b, w) grp =>
               match g_color grp with
               | White => (b, w + g_num_stones grp)
               | Black => (b + g_num_stones grp, w)
               end) l (0, 0))).
Proof.
  induction l as [|x l IH]; intros b w; cbn [fold_left]; [cbn; f_equal; lia|].
  destruct (g_color x); rewrite IH, (IH (0 + _) _) || rewrite IH, (IH _ (0 + _)); cbn [fst snd]; f_equal; lia.
Qed.

Lemma number_app g cs x : number_of_stones (with_chains g (cs ++ [Some x])) =
  match g_color x with
  | White => (fst (number_of_stones (with_chains g cs)), snd (number_of_stones (with_chains g cs)) + g_num_stones x)
  | Black => (fst (number_of_stones (with_chains g cs)) + g_num_stones x, snd (number_of_stones (with_chains g cs)))
  end.
Proof.
  unfold number_of_stones, all_chains, chains_iter. cbn [chains with_chains]. rewrite omap_app. cbn [omap list_omap id].
  rewrite fold_left_app. destruct (fold_left _ (omap id cs) (0, 0)) as [b w]. cbn [fold_left fst snd]. reflexivity.
Qed.

Lemma number_shape g cs : length cs = length (chains g) ->
  (forall k, match live g k with
             | Some grp => exists grp', mjoin (cs !! k) = Some grp' /\ same_shape grp grp'
             | None => mjoin (cs !! k) = None
             end) -> number_of_stones (with_chains g cs) = number_of_stones g.
Proof.
  unfold number_of_stones, all_chains, chains_iter, live. cbn [chains with_chains]. generalize (chains g). clear g.
  generalize 0 at 1 3. generalize 0. revert cs.
  induction cs as [|o cs IH]; intros a b [|o' cs'] L H; try discriminate; [reflexivity|].
  injection L as L. pose proof (H 0) as H0. cbn in H0.
  assert (H' : forall k, match mjoin (cs' !! k) with
             | Some grp => exists grp', mjoin (cs !! k) = Some grp' /\ same_shape grp grp'
             | None => mjoin (cs !! k) = None end) by (intros k; exact (H (S k))).
  destruct o' as [x'|]; cbn in H0.
  - destruct H0 as (x & Hx & Hc & _ & _ & Hn). destruct o as [x0|]; [|discriminate]. cbn in Hx. injection Hx as ->.
    cbn [omap list_omap id fold_left]. rewrite <- Hc, <- Hn. destruct (g_color x'); apply IH; assumption.
  - destruct o as [x0|]; [discriminate|]. cbn [omap list_omap id]. apply IH; assumption.
Qed.

Lemma full_push dbg n g r cc c : wf n g -> on n (r, cc) -> pos_of g (r, cc) = None ->
  push_wth_feedback dbg g (r, cc) c = Panic -> N.of_nat (length (chains g)) = 65535%N ->
  exists gb, u_push_wth_feedback dbg (r, cc) c g = (gb, Panic) /\ gsize gb = gsize g /\ zobrist_hash gb = zobrist_hash g /\
    board gb = board g /\ (forall j, col gb j = col g j) /\
    number_of_stones gb = one_more c (number_of_stones g) /\
    forall j k, j ∈ nb n (r * n + cc) -> cell g j = Some k -> col g j = Some (opp c) -> exists grp grp',
      live g k = Some grp /\ live gb k = Some grp' /\ bits_ok (g_liberties grp) /\ bits_ok (g_liberties grp') /\
      lbit (g_liberties grp) (r * n + cc) = true /\
      forall z, lbit (g_liberties grp') z = if (z =? r * n + cc) then false else lbit (g_liberties grp) z.
Proof.
  intros W Hp He HP HK. pose proof (wf_n n g W) as Hn. pose proof (wf_0 n g W) as W0.
  rewrite (pos_of_col n g (r, cc) W Hp) in He. apply (col_None n g _ W) in He. change (idx n (r, cc)) with (r * n + cc) in He.
  destruct Hp as [Hr Hcc]. cbn [fst snd] in Hr, Hcc. 
  set (i := r * n + cc) in *.
  assert (Hin : (i < n * n)%nat) by (apply idx_bound; assumption).
  pose proof (sq_le n Hn) as Hsq. assert (Hi361 : (i < 361)%nat) by lia.
  unfold u_push_wth_feedback, push_wth_feedback in *. rewrite mbind_reads, (wf_size n g W) in *.
  change (two_to_1dim (n, n) (r, cc)) with i in *. cbv zeta in HP. rewrite mbind_reads, (wf_size n g W).
  rewrite neighbors_idx_sq in * by assumption. cbn [bind] in HP. rewrite mbind_reads.
  assert (Hnb : forall j, j ∈ nb n i -> (j < 361)%nat) by (intros j Hj; apply nb_bound in Hj; lia).
  destruct (classify_spec g c (nb n i) W0 Hnb (nb_length n i))
    as (same & oppo & libs & Ec & Nd1 & Nd2 & L1 & L2 & Hsame & Hoppo & Hlibs).
  rewrite Ec in *. cbn [bind] in HP.
  assert (Hlib_i : forall j k grp, j ∈ nb n i -> cell g j = Some k -> live g k = Some grp ->
                     lbit (g_liberties grp) i = true).
  { intros j k grp Hj Hc Hk. apply (wf_lib n g W k grp i Hk). split; [exact He|].
    exists j. split; [exact Hc|]. apply nb_sym; [lia|lia|exact Hj]. }
  destruct (remove_liberties_gen dbg g oppo i [] W0 Hi361 Nd2) as (cs1 & dead & Erl & Lcs & W1 & V1 & V2 & _).
  { cbn. exact L2. }
  { intros k Hk. apply Hoppo in Hk as (j & grp & Hj & Hc & Hg & _). exists grp. split; [exact Hg|]. eapply Hlib_i; eassumption. }
  fold (remove_liberties dbg (chains g) oppo i) in Erl. rewrite Erl in HP. cbn [bind] in HP.
  pose proof (follows_remove_liberties dbg oppo i g) as F. cbn beta in F. rewrite Erl in F. cbn [bind] in F.
  rewrite (mbind_run _ _ _ _ _ F). set (g1 := with_chains g cs1) in *.
  assert (Hdisj : forall k, k ∈ same -> k ∉ oppo).
  { intros k H1 H2. apply Hsame in H1 as (j1 & gr1 & _ & _ & Hl1 & Hc1).
    apply Hoppo in H2 as (j2 & gr2 & _ & _ & Hl2 & Hc2).
    assert (gr1 = gr2) by congruence. subst. destruct (opp_ne (g_color gr2)). congruence. }
  assert (Llibs : Forall (fun j => (j < 368)%nat) libs).
  { apply Forall_forall. intros j Hj. apply Hlibs in Hj as [Hj _]. specialize (Hnb j Hj). lia. }
  assert (Hone : length same <> 1).
  { destruct (place_spec dbg g1 i c same libs W1 Hi361) as [[_ F1]|(g' & u & gu & E & W' & _)]; [exact He|exact Nd1|..].
    { intros k Hk. pose proof (Hdisj k Hk) as Ho. apply Hsame in Hk as (j & gk & Hj & Hc & Hg & Hcol).
      exists gk. split; [rewrite V1; assumption|]. split; [exact Hcol|]. intros _. eapply Hlib_i; eassumption. }
    { intros j Hj. apply Hlibs in Hj as [Hj _]. apply Hnb, Hj. }
    { intros H. apply Hlibs in H as [H _]. revert H. apply nb_irrefl; lia. }
    { apply F1. }
    exfalso. rewrite E in HP. cbn [bind] in HP. rewrite index_zobrist_ok in HP by exact Hi361. cbn [bind] in HP.
    assert (W2 : wf0 (with_hash g' (N.lxor (zobrist_hash g') (zval i c)))) by (destruct W'; constructor; assumption).
    destruct dbg; [rewrite (integrity_ok true _ W2) in HP|]; discriminate HP. }
  destruct (create_full dbg g1 i c libs W1 Hi361 Llibs) as (bits & Ecr); [cbn [chains g1 with_chains]; rewrite Lcs; exact HK|].
  set (gb := with_chains (with_next g1 _) _) in Ecr.
  assert (EP : forall A (k0 : nat -> mut goban A), mbind (u_place_stone dbg i c same libs) k0 g1 = (gb, Panic)).
  { intros A k0. destruct same as [|k1 [|k2 same]]; [|destruct (Hone eq_refl)|]; cbn [u_place_stone].
    - rewrite (mbind_run _ _ _ _ _ Ecr). reflexivity.
    - rewrite mbind_mbind, (mbind_run _ _ _ _ _ Ecr). reflexivity. }
  exists gb. split; [apply EP|]. split; [exact (wf_size n g W)|]. do 2 (split; [reflexivity|]).
  assert (Hsh : forall k, match live g k with
             | Some grp => exists grp', mjoin (cs1 !! k) = Some grp' /\ same_shape grp grp'
             | None => mjoin (cs1 !! k) = None end).
  { intros k. change (mjoin (cs1 !! k)) with (live g1 k). destruct (decide (k ∈ oppo)) as [Hk|Hk].
    - apply Hoppo in Hk as Hk'. destruct Hk' as (j & grp & _ & _ & Hg & _). rewrite Hg.
      destruct (V2 k grp Hk Hg) as (grp' & ? & ? & _). eauto.
    - rewrite (V1 k Hk). destruct (live g k) as [grp|]; [|reflexivity]. exists grp. repeat split. }
  assert (Hlt : forall k, (k < length cs1)%nat -> live gb k = live g1 k).
  { intros k Hk. unfold live. cbn [gb chains with_chains with_next g1]. rewrite lookup_app_l by exact Hk. reflexivity. }
  assert (Hcl : forall j k, cell g j = Some k -> (k < length cs1)%nat).
  { intros j k Hk. destruct (wf0_cell g W0 j k Hk) as [grp Hg]. rewrite Lcs. unfold live in Hg.
    destruct (chains g !! k) as [o|] eqn:Eo; [|discriminate]. exact (lookup_lt_Some _ _ _ Eo). }
  split; [|split].
  - intros j. unfold col. change (cell gb j) with (cell g j). destruct (cell g j) as [k|] eqn:Hk; [|reflexivity].
    rewrite (Hlt k (Hcl j k Hk)). specialize (Hsh k). destruct (wf0_cell g W0 j k Hk) as [grp Hg]. rewrite Hg in *.
    destruct Hsh as (grp' & E & Hc & _). change (mjoin (cs1 !! k)) with (live g1 k) in E. rewrite E, Hc. reflexivity.
  - transitivity (number_of_stones (with_chains g (cs1 ++ [Some (new_with_liberties c i bits)]))); [reflexivity|].
    rewrite number_app, (number_shape g cs1 Lcs Hsh). unfold one_more. cbn [g_color g_num_stones new_with_liberties].
    destruct c; f_equal; lia.
  - intros j k Hj Hk Hc. destruct (wf0_cell g W0 j k Hk) as [grp Hg].
    assert (Hko : k ∈ oppo). { apply Hoppo. exists j, grp. unfold col in Hc. rewrite Hk, Hg in Hc. split; [exact Hj|]. split; [exact Hk|]. split; [exact Hg|congruence]. }
    destruct (V2 k grp Hko Hg) as (grp' & Hg' & _ & Hb). exists grp, grp'. split; [exact Hg|].
    split; [rewrite (Hlt k (Hcl j k Hk)); exact Hg'|].
    split; [apply (proj1 (wf0_chain g W0 k grp Hg))|]. split; [apply (proj1 (wf0_chain g1 W1 k grp' Hg'))|].
    split; [eapply Hlib_i; eassumption|exact Hb].
Qed.

(** the panic of a play on an empty point of the board: the number of stones, and
    the liberties of the groups next to the point, are wrong afterwards *)
Lemma full_play dbg n b w g x y : greach dbg n b w g -> on n (x, y) -> position g (x, y) = None ->
  play dbg g (MPlay x y) = Panic ->
  exists gl, u_play dbg (MPlay x y) g = (gl, Panic) /\ rest_kept g gl /\ noted n g gl /\
    (forall p, on n p -> position gl p = position g p) /\
    zobrist_hash (gm_goban gl) = zobrist_hash (gm_goban g) /\
    number_of_stones (gm_goban gl) = one_more (gm_turn g) (number_of_stones (gm_goban g)) /\
    forall p, on n p -> adj (x, y) p -> position g p = Some (opp (gm_turn g)) -> exists before after,
      group_of (gm_goban g) p = Some before /\ group_of (gm_goban gl) p = Some after /\
      number_of_liberties before = S (number_of_liberties after) /\
      lib_get (x * n + y) (g_liberties before) = Ok true /\ lib_get (x * n + y) (g_liberties after) = Ok false.
Proof.
  intros HG Hp He HP. pose proof (greach_inv _ _ _ _ _ HG) as G. pose proof (gi_wf _ _ _ _ G) as W.
  assert (HK : N.of_nat (length (chains (gm_goban g))) = 65535%N).
  { apply (claim_panics_exactly dbg n b w g x y HG Hp He) in HP as [HK _]. exact HK. }
  assert (HPu : push_wth_feedback dbg (gm_goban g) (x, y) (gm_turn g) = Panic).
  { apply (claim_panics_exactly dbg n b w g x y HG Hp He) in HP as [_ HF].
    destruct (move_spec dbg n (gm_goban g) (x, y) (gm_turn g) false W Hp He)
      as [[E _]|(g1 & dead & u & g2 & rm & ko & _ & _ & _ & W2 & _ & [[H _]|[_ H]] & _)]; [exact E|contradiction|].
    pose proof (wf0_len _ (wf_0 n _ W2)). lia. }
  destruct (full_push dbg n (gm_goban g) x y (gm_turn g) W Hp He HPu HK) as (gb & E & Hs & Hz & Hb & Hc & Hnum & Hlib).
  destruct (play_leaves dbg n b w g x y _ G E) as (h & Eh & Ep). eexists. split; [exact Ep|].
  split; [apply rest_by|]. split; [eapply noted_by; eassumption|]. cbn [gm_goban with_goban].
  split.
  { intros p Hq. unfold position. rewrite (pos_of_col n _ p W Hq), <- Hc. unfold pos_of, get_color, get_color_idx.
    cbn [gm_goban with_goban]. rewrite Hs, (wf_size n _ W), two_idx', Hb.
    rewrite vget_board by (rewrite (wf0_board _ (wf_0 n _ W)); pose proof (idx_on n p Hq); pose proof (sq_le n (wf_n n _ W)); lia).
    cbn [bind]. unfold col. change (cell gb (idx n p)) with (mjoin (board gb !! idx n p)). rewrite Hb.
    change (mjoin (board (gm_goban g) !! idx n p)) with (cell (gm_goban g) (idx n p)).
    destruct (cell (gm_goban g) (idx n p)) as [k|]; [|reflexivity]. rewrite chain_at_is.
    destruct (live gb k); reflexivity. }
  split; [exact Hz|]. split; [exact Hnum|].
  intros p Hq Ha Hcol. unfold position in Hcol. rewrite (pos_of_col n _ p W Hq) in Hcol.
  assert (Hk : exists k, cell (gm_goban g) (idx n p) = Some k).
  { unfold col in Hcol. destruct (cell _ _) as [k|]; [eauto|discriminate]. }
  destruct Hk as [k Hk].
  destruct (Hlib (idx n p) k) as (grp & grp' & Hg & Hg' & B & B' & Hi & Hz'); [|exact Hk|exact Hcol|].
  { apply (adj_nb n (x, y) p Hp Hq), Ha. }
  exists grp, grp'.
  assert (Eg : forall gb', gsize gb' = gsize (gm_goban g) -> board gb' = board (gm_goban g) -> group_of gb' p = live gb' k).
  { intros gb' E1 E2. unfold group_of, group_no. rewrite E1, E2, (wf_size n _ W), two_idx'.
    apply cell_lookup in Hk. rewrite Hk. unfold live. destruct (chains gb' !! k) as [[]|]; reflexivity. }
  split; [rewrite Eg by reflexivity; exact Hg|]. split; [rewrite Eg by assumption; exact Hg'|].
  assert (Hlt : x * n + y < 368) by (apply (lbit_bound _ _ B Hi)).
  split; [|split; [rewrite lib_get_spec by assumption; rewrite Hi; reflexivity|
                   rewrite lib_get_spec by assumption; rewrite Hz', Nat.eqb_refl; reflexivity]].
  unfold number_of_liberties. rewrite !lib_count_ones_spec by assumption.
  change (S (length (lib_list (g_liberties grp')))) with (length ((x * n + y) :: lib_list (g_liberties grp'))).
  apply Permutation_length. apply NoDup_Permutation.
  - apply lib_list_NoDup.
  - apply NoDup_cons. split; [|apply lib_list_NoDup]. rewrite elem_of_lib_list by exact B'. rewrite Hz', Nat.eqb_refl. discriminate.
  - intros z. rewrite elem_of_cons, !elem_of_lib_list by assumption. rewrite Hz'.
    destruct (Nat.eqb_spec z (x * n + y)) as [->|Hne]; [tauto|]. split; [right; assumption|]. intros [|]; [congruence|assumption].
Qed.

(** in such a game [try_play] panics where [play] does *)
Lemma try_panics_play dbg n b w g x y : greach dbg n b w g -> on n (x, y) -> try_play dbg g (MPlay x y) = Panic ->
  position g (x, y) = None /\ play dbg g (MPlay x y) = Panic.
Proof.
  intros HG Hp HP. pose proof (greach_inv _ _ _ _ _ HG) as G. pose proof (gi_wf _ _ _ _ G) as W.
  unfold try_play in HP. destruct (gm_passes g =? 2); [discriminate|].
  assert (Ec : get_color (gm_goban g) (x, y) = Ok (position g (x, y))).
  { unfold position, pos_of. rewrite (get_color_ok n _ _ W Hp). reflexivity. }
  rewrite Ec in HP. cbn [bind] in HP. destruct (mcolor_eqb_spec (position g (x, y)) None) as [He|]; [|discriminate].
  split; [exact He|]. cbn [negb] in HP. apply (claim_panics_exactly dbg n b w g x y HG Hp He).
  unfold check_point in HP.
  destruct (check_point_by_ok dbg n g (x, y) (flag_illegal (gm_rule g)) W (gi_hist _ _ _ _ G) Hp) as [(E & HK & _ & ES)|(e & E & _)].
  - split; [exact HK|]. unfold check_super_ko in ES. destruct (length (gm_history g) <=? 2); [discriminate|]. cbn [fst] in ES.
    destruct (will_capture_ok dbg n g (x, y) W Hp He) as (wc & Ew & _). rewrite Ew in ES. cbn [bind] in ES.
    destruct (negb wc); [discriminate|].
    destruct (verification_ok dbg n g (x, y) W Hp He) as [[_ [_ F]]|(z & Ez & Wz & _)]; [exact F|exfalso].
    rewrite Ez in ES. cbn [bind] in ES.
    destruct (check_ko_ok dbg n g (x, y) (gm_turn g) W Hp He) as (k & Ek & _). rewrite Ek in ES. cbn [bind] in ES.
    destruct k; [discriminate|].
    destruct (history_contains_spec n (gm_history g) z (gi_hist _ _ _ _ G) Wz) as (v & Ev & _). rewrite Ev in ES. discriminate.
  - rewrite E in HP. cbn [bind] in HP. destruct e as [e|]; [discriminate|].
    apply (claim_panics_exactly dbg n b w g x y HG Hp He). destruct (play dbg g (MPlay x y)); [discriminate|reflexivity|discriminate].
Qed.

Lemma case_full dbg : exists g b w x y, greach dbg 2 b w g /\ on 2 (x, y) /\ position g (x, y) = None /\ play dbg g (MPlay x y) = Panic.
Proof.
  destruct (case_no_slot dbg) as (g & b & w & x & y & HG & Hp & E). destruct (try_panics_play dbg 2 b w g x y HG Hp E).
  exists g, b, w, x, y. auto.
Qed.

(** ** Set-up stones, the points of which are checked one after the other *)

Lemma push_outside g p c : outside g p -> u_push true p c g = (g, Panic).
Proof.
  intros H. unfold u_push. rewrite mbind_reads. unfold debug_assert. cbn [bind].
  destruct (Nat.ltb_spec (fst p) (fst (gsize g))); cbn [assert_]; [|reflexivity]. rewrite mbind_reads. cbn [bind].
  destruct (Nat.ltb_spec (snd p) (snd (gsize g))); cbn [assert_]; [|reflexivity]. exfalso. apply H. split; assumption.
Qed.

Lemma each_app {S A} (f : A -> mut S unit) l1 l2 s : meach f (l1 ++ l2) s = mbind (meach f l1) (fun _ => meach f l2) s.
Proof.
  revert s. induction l1 as [|a l1 IH]; intros s; cbn [app meach]; [reflexivity|].
  rewrite mbind_mbind. unfold mbind at 1 2. destruct (f a s) as [s' [[]| |]]; [apply IH|reflexivity|reflexivity].
Qed.

Lemma many_leaves pre bad post c g g1 : push_many true g pre c = Ok g1 -> outside g1 bad ->
  u_push_many true (pre ++ bad :: post) c g = (g1, Panic).
Proof.
  intros E H. unfold u_push_many. rewrite each_app.
  destruct (answers_push true g pre c) as [E1 E2]. rewrite E in E1. cbn [bind] in E1. specialize (E2 g1 E).
  assert (Er : meach (fun p => u_push true p c) pre g = (g1, Ok tt)).
  { change (meach (fun p => u_push true p c) pre g) with (u_push_many true pre c g).
    rewrite (surjective_pairing (u_push_many true pre c g)), E1, E2. reflexivity. }
  rewrite (mbind_run _ _ _ _ _ Er). cbn [meach]. rewrite (mbind_run _ _ _ _ _ (push_outside g1 bad c H)). reflexivity.
Qed.

Lemma each_goban dbg pts : forall g, meach (fun p => on_goban (u_push dbg p Black)) pts g =
  on_goban (u_push_many dbg pts Black) g.
Proof.
  induction pts as [|p pts IH]; intros g; [destruct g; reflexivity|].
  unfold u_push_many in *. cbn [meach]. unfold on_goban, mbind in *. cbv beta.
  destruct (u_push dbg p Black (gm_goban g)) as [gb [[]| |]]; [|reflexivity|reflexivity].
  rewrite IH. cbn [gm_goban with_goban]. destruct (meach _ pts gb) as [gb' r]. reflexivity.
Qed.

Lemma handicap_leaves pre bad post g g1 : put_handicap true g pre = Ok g1 -> outside (gm_goban g1) bad ->
  exists gl, u_put_handicap true (pre ++ bad :: post) g = (gl, Panic) /\
    gm_goban gl = gm_goban g1 /\ gm_handicap gl = len_as_u32 (pre ++ bad :: post) /\
    gm_turn gl = gm_turn g /\ gm_passes gl = gm_passes g /\ gm_prisoners gl = gm_prisoners g /\
    gm_outcome gl = gm_outcome g /\ gm_rule gl = gm_rule g /\ gm_history gl = gm_history g /\
    gm_ko_point gl = gm_ko_point g.
Proof.
  intros E H. unfold put_handicap in E. apply bind_ok in E as (gb & E & E1). injection E1 as <-. cbn [gm_goban] in *.
  set (gl := with_goban (with_handicap g (len_as_u32 (pre ++ bad :: post))) gb). exists gl. split.
  - unfold u_put_handicap. rewrite mbind_writes, (mbind_run _ _ _ gl Panic); [reflexivity|].
    rewrite each_goban. unfold on_goban. cbn [gm_goban with_handicap].
    rewrite (many_leaves pre bad post Black (gm_goban g) gb E H). reflexivity.
  - repeat split.
Qed.

(** ** The history that was noted matters *)

(** superko alone, so that a ko is not refused for its own sake *)
Definition superko_only : rule := mkRule (r_komi CHINESE) SUPERKO (flag_score CHINESE).
Definition ko_stones : list stone :=
  [((0, 1), Black); ((1, 0), Black); ((2, 1), Black); ((0, 2), White); ((1, 3), White); ((2, 2), White)].
Definition ko_set_up : builder := mkBuilder (4, 4) superko_only None None [] (Some White) [] None ko_stones.

Definition ko_game (dbg : bool) : res game :=
  let! g0 := build_inner dbg ko_set_up in
  let! g1 := play dbg g0 (MPlay 1 1) in
  play dbg g1 (MPlay 1 2).

Lemma history_matters dbg : exists g gl g' b w, greach dbg 4 b w g /\ u_play dbg (MPlay 100 100) g = (gl, Panic) /\
  try_play dbg g (MPlay 1 1) = Ok (g', Accepted) /\ try_play dbg gl (MPlay 1 1) = Ok (gl, Refused EKo).
Proof.
  destruct (build_inner dbg ko_set_up) as [g0| |] eqn:E0; [|destruct dbg; vm_compute in E0; discriminate..].
  assert (B : sat (match ko_game dbg with Ok g => Some g | _ => None end)
    (fun g => match u_play dbg (MPlay 100 100) g, try_play dbg g (MPlay 1 1) with
              | (gl, Panic), Ok (_, Accepted) => verdict_is (try_play dbg gl (MPlay 1 1)) (Some EKo)
              | _, _ => false end) = true) by (destruct dbg; vm_compute; reflexivity).
  assert (P0 : pos_of (gm_goban g0) (1, 1) = None) by (destruct dbg; vm_compute in E0; injection E0 as <-; reflexivity).
  unfold ko_game in B. rewrite E0 in B. cbn [bind] in B.
  destruct (play dbg g0 (MPlay 1 1)) as [g1| |] eqn:E1; [|discriminate..]. cbn [bind] in B.
  assert (P1 : pos_of (gm_goban g1) (1, 2) = None) by (destruct dbg; vm_compute in E0; injection E0 as <-; vm_compute in E1; injection E1 as <-; reflexivity).
  destruct (play dbg g1 (MPlay 1 2)) as [g| |] eqn:E2; [|discriminate..]. cbn [sat] in B.
  destruct (u_play dbg (MPlay 100 100) g) as [gl [| |]] eqn:EL; try discriminate.
  destruct (try_play dbg g (MPlay 1 1)) as [[g' []]| |] eqn:ET; try discriminate.
  apply refused_is in B.
  assert (R0 : greach dbg 4 (of_color Black ko_stones) (of_color White ko_stones) g0).
  { apply (gr_build dbg 4 ko_set_up g0); [lia|reflexivity|reflexivity|..|exact E0].
    - vm_compute; repeat constructor; rewrite ?elem_of_cons, ?elem_of_nil; intuition congruence.
    - intros s Hs. change (setup_stones ko_set_up) with ko_stones in Hs. unfold ko_stones in Hs.
      rewrite !elem_of_cons, elem_of_nil in Hs. destruct Hs as [->|[->|[->|[->|[->|[->|[]]]]]]]; on_. }
  pose proof (gr_play dbg 4 _ _ g0 1 1 g1 R0 ltac:(on_) P0 E1) as R1.
  pose proof (gr_play dbg 4 _ _ g1 1 2 g R1 ltac:(on_) P1 E2) as R2.
  exists g, gl, g'. eexists _, _. split; [exact R2|]. split; [exact EL|]. split; [exact ET|exact B].
Qed.

(** ** A group that cannot be walked any more *)

Definition around : list move := [MPass; MPlay 17 0; MPass; MPlay 18 1].

Lemma broken_matters : exists g gl g' b w, greach false 19 b w g /\ u_play false (MPlay 19 0) g = (gl, Panic) /\
  (forall p, position gl p = position g p) /\
  foldM (fun g m => play false g m) around g = Ok g' /\ foldM (fun g m => play false g m) around gl = Panic.
Proof.
  destruct (sampleb false 19 JAPANESE [MPlay 18 0; MPass] (fun g =>
     mcolor_eqb (position g (18, 0)) (Some (gm_turn g)) &&
     match u_play false (MPlay 19 0) g, foldM (fun g m => play false g m) around g with
     | (gl, _), Ok _ => match foldM (fun g m => play false g m) around gl with Panic => true | _ => false end
     | _, _ => false end) ltac:(lia)) as (g & b & w & HG & _ & F); [vm_compute; reflexivity|].
  apply andb_true_iff in F as [F1 F2]. destruct (mcolor_eqb_spec (position g (18, 0)) (Some (gm_turn g))) as [Ho|]; [|discriminate].
  destruct (far_broken b w g 19 0 HG ltac:(lia) Ho) as (gl & _ & _ & EL & _ & _ & HP & _).
  rewrite EL in F2. destruct (foldM _ around g) as [g'| |] eqn:E; try discriminate.
  destruct (foldM _ around gl) eqn:E'; try discriminate.
  exists g, gl, g', b, w. auto.
Qed.

Lemma case_broken : exists g b w, greach false 19 b w g /\ 361 <= 19 * 19 + 3 < 368 /\ position g (18, 19 * 19 + 3 - 361) = Some (gm_turn g).
Proof.
  destruct (sampleb false 19 JAPANESE [MPlay 18 3; MPass] (fun g =>
     mcolor_eqb (position g (18, 3)) (Some (gm_turn g))) ltac:(lia)) as (g & b & w & HG & _ & F); [vm_compute; reflexivity|].
  exists g, b, w. split; [exact HG|]. split; [lia|].
  destruct (mcolor_eqb_spec (position g (18, 3)) (Some (gm_turn g))) as [Ho|]; [exact Ho|discriminate].
Qed.

(** ** A debug build stops too late *)

Lemma debug_overwrites : exists g gl b w, greach true 9 b w g /\ u_play true (MPlay 4 4) g = (gl, Panic) /\
  position g (4, 4) = Some White /\ position gl (4, 4) = Some Black.
Proof.
  destruct (sampleb true 9 JAPANESE [MPlay 4 3; MPlay 4 4; MPlay 4 5; MPass] (fun g =>
     mcolor_eqb (position g (4, 4)) (Some White) &&
     match u_play true (MPlay 4 4) g with (gl, Panic) => mcolor_eqb (position gl (4, 4)) (Some Black) | _ => false end) ltac:(lia))
    as (g & b & w & HG & _ & F); [vm_compute; reflexivity|].
  apply andb_true_iff in F as [F1 F2]. destruct (mcolor_eqb_spec (position g (4, 4)) (Some White)) as [Ho|]; [|discriminate].
  destruct (u_play true (MPlay 4 4) g) as [gl [| |]] eqn:E; try discriminate.
  destruct (mcolor_eqb_spec (position gl (4, 4)) (Some Black)) as [Ho'|]; [|discriminate].
  exists g, gl, b, w. auto.
Qed.

(** ** Cases *)

Lemma case_paused dbg : exists g b w, greach dbg 9 b w g /\ 2 <= gm_passes g.
Proof.
  destruct (sampleb dbg 9 JAPANESE [MPlay 4 4; MPass; MPass] (fun g => 2 <=? gm_passes g) ltac:(lia))
    as (g & b & w & HG & _ & F); [destruct dbg; vm_compute; reflexivity|].
  apply Nat.leb_le in F. exists g, b, w. auto.
Qed.

Lemma case_far dbg : exists g b w, greach dbg 9 b w g /\ 361 <= 40 * 9 + 7 /\ gm_passes g <> 2 /\
  (dbg = false -> 9 = 19 -> 40 * 9 + 7 < 368 -> position g (18, 40 * 9 + 7 - 361) <> Some (gm_turn g)) /\
  gm_history g <> [] /\ position g (4, 4) = Some Black.
Proof.
  destruct (sampleb dbg 9 JAPANESE [MPlay 4 4; MPlay 5 4] (fun g =>
     negb (gm_passes g =? 2) && negb (length (gm_history g) =? 0) && mcolor_eqb (position g (4, 4)) (Some Black)) ltac:(lia))
    as (g & b & w & HG & _ & F); [destruct dbg; vm_compute; reflexivity|].
  apply andb_true_iff in F as [F F3]. apply andb_true_iff in F as [F1 F2].
  exists g, b, w. split; [exact HG|]. split; [lia|]. split; [apply negb_true_iff, Nat.eqb_neq in F1; exact F1|].
  split; [intros _ H; discriminate H|]. split; [intros H; rewrite H in F2; discriminate|].
  destruct (mcolor_eqb_spec (position g (4, 4)) (Some Black)); [assumption|discriminate].
Qed.

Lemma case_handicap_left : exists g g1 b w, greach true 9 b w g /\ put_handicap true g [(2, 2); (6, 6)] = Ok g1 /\
  outside (gm_goban g1) (9, 0) /\ position g1 (2, 2) = Some Black /\ position g (2, 2) = None.
Proof.
  destruct (sampleb true 9 JAPANESE [] (fun g => mcolor_eqb (position g (2, 2)) None && 
     match put_handicap true g [(2, 2); (6, 6)] with
     | Ok g1 => (fst (gsize (gm_goban g1)) =? 9) && mcolor_eqb (position g1 (2, 2)) (Some Black) | _ => false end) ltac:(lia))
    as (g & b & w & HG & _ & F); [vm_compute; reflexivity|].
  apply andb_true_iff in F as [F1 F2]. destruct (put_handicap true g [(2, 2); (6, 6)]) as [g1| |] eqn:E; try discriminate.
  apply andb_true_iff in F2 as [F2 F3]. apply Nat.eqb_eq in F2.
  exists g, g1, b, w. split; [exact HG|]. split; [exact E|]. split.
  { unfold outside. cbn [fst]. lia. }
  destruct (mcolor_eqb_spec (position g1 (2, 2)) (Some Black)); [|discriminate].
  destruct (mcolor_eqb_spec (position g (2, 2)) None); [|discriminate]. auto.
Qed.

Lemma case_many_left : exists g g1 m, breach true 9 m g /\ push_many true g [(2, 2); (6, 6)] White = Ok g1 /\
  outside g1 (0, 9) /\ pos_of g1 (2, 2) = Some White /\ pos_of g (2, 2) = None.
Proof.
  destruct (sampleb true 9 JAPANESE [MPlay 4 4] (fun g => mcolor_eqb (position g (2, 2)) None && 
     match push_many true (gm_goban g) [(2, 2); (6, 6)] White with
     | Ok g1 => (snd (gsize g1) =? 9) && mcolor_eqb (pos_of g1 (2, 2)) (Some White) | _ => false end) ltac:(lia))
    as (g & b & w & HG & _ & F); [vm_compute; reflexivity|].
  apply andb_true_iff in F as [F1 F2]. destruct (push_many true (gm_goban g) [(2, 2); (6, 6)] White) as [g1| |] eqn:E; try discriminate.
  apply andb_true_iff in F2 as [F2 F3]. apply Nat.eqb_eq in F2.
  exists (gm_goban g), g1, (b + w). split; [apply br_game, HG|]. split; [exact E|]. split.
  { unfold outside. cbn [snd]. lia. }
  destruct (mcolor_eqb_spec (pos_of g1 (2, 2)) (Some White)); [|discriminate].
  destruct (mcolor_eqb_spec (position g (2, 2)) None); [|discriminate]. auto.
Qed.

(** ** Without superko the noted board is never looked at *)

Lemma corners_history dbg g h c l : check_eye_corners dbg (with_history g h) c l = check_eye_corners dbg g c l.
Proof.
  induction l as [|q l IH]; cbn [check_eye_corners]; [reflexivity|]. rewrite IH. reflexivity.
Qed.

Lemma eye_history dbg g h s : check_eye dbg (with_history g h) s = check_eye dbg g s.
Proof.
  destruct s as [p c]. unfold check_eye. cbn [gm_goban with_history].
  destruct (get_color (gm_goban g) p) as [[]| |]; cbn [bind]; try reflexivity.
  destruct (neighbors_coords dbg (gm_goban g) p); cbn [bind]; try reflexivity.
  destruct (anyM _ _) as [[]| |]; cbn [bind]; try reflexivity.
  change (helper_check_eye dbg (with_history g h) p c) with (helper_check_eye dbg g p c).
  destruct (helper_check_eye dbg g p c) as [[[al of] em]| |]; cbn [bind]; try reflexivity.
  rewrite corners_history. reflexivity.
Qed.

Lemma check_history dbg g h p : flag_contains (flag_illegal (gm_rule g)) SUPERKO = false ->
  check_point dbg (with_history g h) p = check_point dbg g p.
Proof.
  intros H. unfold check_point, check_point_by. cbn [gm_rule with_history]. rewrite H, eye_history. reflexivity.
Qed.

Lemma play_history dbg n b w g h m : ginv n b w g -> Forall (wf n) h ->
  match play dbg g m with
  | Ok g' => exists h', play dbg (with_history g h) m = Ok (with_history g' h') /\ Forall (wf n) h'
  | Panic => play dbg (with_history g h) m = Panic
  | Diverge => play dbg (with_history g h) m = Diverge
  end.
Proof.
  intros G Wh. destruct m as [|c|x y]; unfold play; cbn [gm_passes gm_goban gm_history gm_turn gm_rule gm_prisoners with_history].
  - destruct (assert_ _); cbn [bind]; [|reflexivity|reflexivity]. exists h. split; [reflexivity|exact Wh].
  - exists h. split; [reflexivity|exact Wh].
  - destruct (history_insert_spec n h (gm_goban g) Wh (gi_wf _ _ _ _ G)) as (h' & -> & Wh' & _).
    destruct (history_insert_spec n (gm_history g) (gm_goban g) (gi_hist _ _ _ _ G) (gi_wf _ _ _ _ G)) as (h0 & -> & _).
    cbn [bind]. destruct (push_wth_feedback dbg (gm_goban g) (x, y) (gm_turn g)) as [[[gb d] a]| |]; cbn [bind]; [|reflexivity|reflexivity].
    destruct (game_remove_captured_stones _ _ _ _ _ _) as [[[gb' pr] ko]| |]; cbn [bind]; [|reflexivity|reflexivity].
    exists h'. split; [reflexivity|exact Wh'].
Qed.

Lemma try_history dbg n b w g h m : ginv n b w g -> Forall (wf n) h ->
  flag_contains (flag_illegal (gm_rule g)) SUPERKO = false ->
  match try_play dbg g m with
  | Ok (g', v) => exists h', try_play dbg (with_history g h) m = Ok (with_history g' h', v) /\ Forall (wf n) h'
  | Panic => try_play dbg (with_history g h) m = Panic
  | Diverge => try_play dbg (with_history g h) m = Diverge
  end.
Proof.
  intros G Wh HS. unfold try_play. cbn [gm_passes gm_goban with_history].
  destruct (gm_passes g =? 2); [exists h; split; [reflexivity|exact Wh]|].
  assert (P : match (let! g' := play dbg g m in Ok (g', Accepted)) with
     | Ok (g', v) => exists h', (let! g' := play dbg (with_history g h) m in Ok (g', Accepted)) = Ok (with_history g' h', v) /\ Forall (wf n) h'
     | Panic => (let! g' := play dbg (with_history g h) m in Ok (g', Accepted)) = Panic
     | Diverge => (let! g' := play dbg (with_history g h) m in Ok (g', Accepted)) = Diverge
     end).
  { pose proof (play_history dbg n b w g h m G Wh) as F. destruct (play dbg g m); cbn [bind].
    - destruct F as (h' & -> & Wh'). exists h'. split; [reflexivity|exact Wh'].
    - rewrite F. reflexivity.
    - rewrite F. reflexivity. }
  destruct m as [|c|x y]; [exact P|exact P|].
  destruct (get_color (gm_goban g) (x, y)) as [c| |]; cbn [bind]; [|reflexivity|reflexivity].
  destruct (negb _); [exists h; split; [reflexivity|exact Wh]|].
  rewrite (check_history dbg g h (x, y) HS).
  destruct (check_point dbg g (x, y)) as [[e|]| |]; cbn [bind]; [exists h; split; [reflexivity|exact Wh]|exact P|reflexivity|reflexivity].
Qed.

Lemma attempts_history dbg n ms : (forall x y, MPlay x y ∈ ms -> on n (x, y)) -> forall b w g h, greach dbg n b w g -> Forall (wf n) h ->
  flag_contains (flag_illegal (gm_rule g)) SUPERKO = false ->
  match attempts dbg g ms with
  | Ok (vs, g') => exists h', attempts dbg (with_history g h) ms = Ok (vs, with_history g' h')
  | Panic => attempts dbg (with_history g h) ms = Panic
  | Diverge => attempts dbg (with_history g h) ms = Diverge
  end.
Proof.
  induction ms as [|m ms IH]; intros Hon b w g h HG Wh HS; cbn [attempts].
  - exists h. reflexivity.
  - pose proof (try_history dbg n b w g h m (greach_inv _ _ _ _ _ HG) Wh HS) as F.
    destruct (try_play dbg g m) as [[g' v]| |] eqn:E; cbn [bind]; [|rewrite F; reflexivity|rewrite F; reflexivity].
    destruct F as (h' & -> & Wh'). cbn [bind].
    destruct (greach_try dbg n b w g m g' v HG) with (2 := E) as (b' & w' & HG' & _).
    { intros x y ->. apply Hon. left. }
    assert (HS' : flag_contains (flag_illegal (gm_rule g')) SUPERKO = false).
    { rewrite <- HS. f_equal. f_equal. unfold try_play in E. destruct (gm_passes g =? 2); [congruence|].
      assert (K : forall m g2, play dbg g m = Ok g2 -> gm_rule g2 = gm_rule g).
      { clear. intros [|c|x y] g2; unfold play; intros E.
        - apply bind_ok in E as (? & _ & E). injection E as <-. reflexivity.
        - injection E as <-. reflexivity.
        - apply bind_ok in E as (? & _ & E). apply bind_ok in E as ([[? ?] ?] & _ & E). apply bind_ok in E as ([[? ?] ?] & _ & E).
          injection E as <-. reflexivity. }
      destruct m as [|c|x y].
      - apply bind_ok in E as (g2 & E & E2). injection E2 as <- _. eapply K, E.
      - apply bind_ok in E as (g2 & E & E2). injection E2 as <- _. eapply K, E.
      - apply bind_ok in E as (c & _ & E). destruct (negb _); [congruence|]. apply bind_ok in E as ([e|] & _ & E); [congruence|].
        apply bind_ok in E as (g2 & E & E2). injection E2 as <- _. eapply K, E. }
    specialize (IH ltac:(intros x y Hx; apply Hon; right; exact Hx) b' w' g' h' HG' Wh' HS').
    destruct (attempts dbg g' ms) as [[vs g'']| |]; cbn [bind].
    + destruct IH as (h'' & ->). exists h''. reflexivity.
    + rewrite IH. reflexivity.
    + rewrite IH. reflexivity.
Qed.

Lemma far_harmless dbg n b w g gl x y ms : greach dbg n b w g -> 361 <= x * n + y ->
  (dbg = false -> n = 19 -> x * n + y < 368 -> position g (18, x * n + y - 361) <> Some (gm_turn g)) ->
  flag_contains (flag_illegal (gm_rule g)) SUPERKO = false -> u_play dbg (MPlay x y) g = (gl, Panic) ->
  (forall a c, MPlay a c ∈ ms -> on n (a, c)) ->
  match attempts dbg g ms with
  | Ok (vs, g') => exists gl', attempts dbg gl ms = Ok (vs, gl') /\ gm_goban gl' = gm_goban g' /\ rest_kept g' gl'
  | Panic => attempts dbg gl ms = Panic
  | Diverge => attempts dbg gl ms = Diverge
  end.
Proof.
  intros HG Hi Hx HS E Hon. pose proof (greach_inv _ _ _ _ _ HG) as G. pose proof (gi_wf _ _ _ _ G) as W.
  assert (EP : u_push_wth_feedback dbg (x, y) (gm_turn g) (gm_goban g) = (gm_goban g, Panic)).
  { apply (far_push dbg n _ x y _ W Hi). intros Ed En Hs Hc. apply (Hx Ed En Hs). apply (own_edge n b w g _ _ G En); [lia|exact Hc]. }
  destruct (play_leaves dbg n b w g x y _ G EP) as (h & Eh & Ep). rewrite Ep in E. injection E as <-.
  assert (Wh : Forall (wf n) h).
  { destruct (history_insert_spec n (gm_history g) (gm_goban g) (gi_hist _ _ _ _ G) W) as (h0 & E0 & W0 & _). rewrite Eh in E0. injection E0 as <-. exact W0. }
  change (with_goban (with_history g h) (gm_goban g)) with (with_history g h).
  pose proof (attempts_history dbg n ms Hon b w g h HG Wh HS) as F.
  destruct (attempts dbg g ms) as [[vs g']| |]; [|exact F|exact F]. destruct F as (h' & F). eexists. split; [exact F|]. repeat split.
Qed.

Lemma case_harmless dbg : exists g b w gl, greach dbg 9 b w g /\ 361 <= 40 * 9 + 7 /\
  (dbg = false -> 9 = 19 -> 40 * 9 + 7 < 368 -> position g (18, 40 * 9 + 7 - 361) <> Some (gm_turn g)) /\
  flag_contains (flag_illegal (gm_rule g)) SUPERKO = false /\ u_play dbg (MPlay 40 7) g = (gl, Panic) /\
  (forall a c, MPlay a c ∈ [MPlay 1 1; MPass; MPlay 3 3] -> on 9 (a, c)) /\
  gm_history gl <> gm_history g /\ exists g', attempts dbg g [MPlay 1 1; MPass; MPlay 3 3] = Ok ([Refused EKo; Accepted; Accepted], g').
Proof.
  destruct (sampleb dbg 9 JAPANESE ko_moves (fun g => negb (flag_contains (flag_illegal (gm_rule g)) SUPERKO) &&
     match u_play dbg (MPlay 40 7) g with (gl, Panic) => negb (length (gm_history gl) =? length (gm_history g)) | _ => false end &&
     match attempts dbg g [MPlay 1 1; MPass; MPlay 3 3] with Ok ([Refused EKo; Accepted; Accepted], _) => true | _ => false end) ltac:(lia))
    as (g & b & w & HG & _ & F); [destruct dbg; vm_compute; reflexivity|].
  apply andb_true_iff in F as [F F3]. apply andb_true_iff in F as [F1 F2]. apply negb_true_iff in F1.
  destruct (u_play dbg (MPlay 40 7) g) as [gl [| |]] eqn:E; try discriminate.
  exists g, b, w, gl. split; [exact HG|]. split; [lia|]. split; [intros _ H; discriminate H|]. split; [exact F1|]. split; [exact E|].
  split; [intros a c Hx; rewrite !elem_of_cons, elem_of_nil in Hx; destruct Hx as [[= -> ->]|[Hx|[[= -> ->]|[]]]]; [on_|discriminate|on_]|].
  split; [intros H; rewrite H, Nat.eqb_refl in F2; discriminate|].
  destruct (attempts dbg g _) as [[vs g']| |]; try discriminate. exists g'.
  destruct vs as [|[|[]] [|[] [|[] []]]]; try discriminate. reflexivity.
Qed.
