(** Built and imported games on boards whose width divides their height are runs of the
    abstract game. *)
From stdpp Require Import relations sorting strings.
From Verif Require Import Spec Observe RectBuildSpec RectReach Samples.
From Verif Require Import MonadFacts CoordFacts RectCoord RectInv RectGame RectReachFacts GameFacts SetupFacts SgfFacts RectTable RulesFacts CaseFacts SampleFacts BuildClaims.
From Coq Require Import Lia.

Local Notation length := Datatypes.length.
Open Scope nat_scope.

Lemma rbuild_ok dbg n bl : fits n -> b_size bl = n ->
  NoDup (setup_stones bl).*1 -> (forall s, s ∈ setup_stones bl -> ron n (fst s)) ->
  (N.of_nat (length (setup_stones bl)) <= 65535)%N ->
  exists g0,
    rgreach dbg n (of_color Black (setup_stones bl)) (of_color White (setup_stones bl)) g0 /\
    (forall p c, ron n p -> pos_of (gm_goban g0) p = Some c <-> (p, c) ∈ setup_stones bl) /\
    gm_passes g0 = 0%nat /\ gm_prisoners g0 = (0%N, 0%N) /\ gm_history g0 = [] /\ gm_ko_point g0 = None /\
    gm_outcome g0 = b_outcome bl /\
    gm_handicap g0 = default (N.of_nat (length (b_handicap_points bl))) (b_handicap bl) /\
    gm_turn g0 = default (if decide (gm_handicap g0 = 0%N) then Black else White) (b_turn bl) /\
    komi g0 = default (r_komi (b_rule bl)) (b_komi bl) /\
    flag_illegal (gm_rule g0) = flag_illegal (b_rule bl) /\ flag_score (gm_rule g0) = flag_score (b_rule bl) /\
    build dbg bl = (builder_default, foldM (fun g m => play dbg g m) (b_moves bl) g0).
Proof.
  intros Hn Hs Nd Hon L. destruct (rnew_wf n Hn) as (gn & En & Wn & Cn & Zn).
  assert (Pn : forall p, ron n p -> pos_of gn p = None) by (intros p Hp; apply (rpos_new n gn p Wn Zn Hp)).
  destruct (rpush_list_wf dbg n (setup_stones bl) gn Wn Nd) as [[_ F]|(gb & Eg & Wg & Hp & _)].
  { intros s Hin. split; [apply Hon, Hin|apply Pn, Hon, Hin]. }
  { exfalso. rewrite Cn in F. cbn in F. lia. }
  exists (built bl gb).
  assert (Hu : len_as_u32 (b_handicap_points bl) = N.of_nat (length (b_handicap_points bl))).
  { apply len_small. unfold setup_stones in L. rewrite app_length, map_length in L. lia. }
  split.
  { change (setup_stones bl) with (setup_stones (set_moves bl [])).
    apply rg_build; [pose proof Hn as (? & ? & ?); lia|pose proof Hn as (? & ? & ?); lia|exact Hs|reflexivity|exact Nd|exact Hon|].
    rewrite build_inner_eq. change (b_size (set_moves bl [])) with (b_size bl). rewrite Hs, En. cbn [bind].
    change (setup_stones (set_moves bl [])) with (setup_stones bl). rewrite Eg. reflexivity. }
  split.
  { intros p c On. cbn [gm_goban built]. rewrite (Hp p On), (Pn p On).
    match goal with |- context [List.find ?f0 _] => set (f := f0) end.
    destruct (List.find f (setup_stones bl)) as [[q d]|] eqn:Ef.
    - apply List.find_some in Ef as [Hi Hf]. unfold f in Hf. apply coord_eqb_eq in Hf. cbn in Hf. subst q. cbn [snd].
      apply elem_of_list_In in Hi. split; [intros E; injection E as ->; exact Hi|]. intros Hc. f_equal.
      apply elem_of_list_lookup in Hi as [i Hi]. apply elem_of_list_lookup in Hc as [j Hj].
      assert (i = j).
      { eapply (NoDup_lookup (setup_stones bl).*1 i j p); [exact Nd|rewrite list_lookup_fmap, Hi; reflexivity|rewrite list_lookup_fmap, Hj; reflexivity]. }
      subst j. congruence.
    - split; [discriminate|]. intros Hc. apply elem_of_list_In in Hc. pose proof (List.find_none _ _ Ef _ Hc) as Hf.
      unfold f in Hf. cbn in Hf. assert (coord_eqb p p = true) by (apply coord_eqb_eq; reflexivity). congruence. }
  do 4 (split; [reflexivity|]). split; [reflexivity|].
  split; [cbn [built gm_handicap]; rewrite Hu; destruct (b_handicap bl); reflexivity|].
  split.
  { cbn [built gm_handicap gm_turn]. destruct (b_turn bl); [reflexivity|]. cbn [default].
    destruct (N.eqb_spec (match b_handicap bl with Some h => h | None => len_as_u32 (b_handicap_points bl) end) 0) as [->|Hne].
    - rewrite decide_True by reflexivity. reflexivity.
    - rewrite decide_False by exact Hne. reflexivity. }
  split; [unfold komi; cbn [built gm_rule]; destruct (b_komi bl); reflexivity|].
  split; [cbn [built gm_rule]; destruct (b_komi bl); reflexivity|].
  split; [cbn [built gm_rule]; destruct (b_komi bl); reflexivity|].
  unfold build. rewrite build_inner_eq, Hs, En. cbn [bind]. rewrite Eg. reflexivity.
Qed.

(** accepted moves may as well be carried out without asking *)
Lemma raccepted_run n f ms : forall t l t', rtable_run n f t (List.map OTry ms) l t' -> (forall a, a ∈ l -> a = Some Accepted) ->
  rtable_run n f t (List.map OPlay ms) (List.map (fun _ => None) ms) t'.
Proof.
  induction ms as [|m ms IH]; intros t l t' R A; inversion R as [|? ? ? t1 ? l1 ? C R']; subst; [constructor|].
  pose proof (A a ltac:(left)) as ->. inversion C; subst. cbn. econstructor; [constructor; eassumption|]. apply (IH _ l1); [exact R'|].
  intros a Ha. apply A. right. exact Ha.
Qed.

Lemma ropening_same n bl t g : (forall p c, ron n p -> pos_of (gm_goban g) p = Some c <-> (p, c) ∈ setup_stones bl) ->
  ropening n bl t -> rsame_pos n (position g) (t_pos t).
Proof.
  intros H O p Hp. unfold position. destruct (pos_of (gm_goban g) p) as [c|] eqn:E; destruct (t_pos t p) as [d|] eqn:F; try reflexivity.
  - apply H in E; [|exact Hp]. apply (rop_pos _ _ _ O) in E; [|exact Hp]. congruence.
  - apply H in E; [|exact Hp]. apply (rop_pos _ _ _ O) in E; [|exact Hp]. congruence.
  - apply (rop_pos _ _ _ O) in F; [|exact Hp]. apply H in F; [|exact Hp]. congruence.
Qed.

Theorem rbuild_follows dbg n bl t l t' : Nat.divide (snd n) (fst n) -> 1 <= fst n <= 19 -> 1 <= snd n -> b_size bl = n ->
  NoDup (setup_stones bl).*1 -> (forall s, s ∈ setup_stones bl -> ron n (fst s)) ->
  ropening n bl t -> rtable_run n (flag_illegal (b_rule bl)) t (List.map OPlay (b_moves bl)) l t' ->
  (N.of_nat (length (setup_stones bl) + all_stones (List.map OPlay (b_moves bl))) <= 65535)%N ->
  exists g, build dbg bl = (builder_default, Ok g) /\ rsame_table n (table_of g) t' /\
    komi g = default (r_komi (b_rule bl)) (b_komi bl).
Proof.
  intros Hd Hn1 Hn2 Hs Nd Ho O R L. destruct (rbuild_ok dbg n bl (conj Hn1 (conj Hn2 Hd)) Hs Nd Ho ltac:(lia)) as (g0 & G0 & P0 & H1 & H2 & H3 & H4 & H5 & H6 & H7 & H8 & H9 & H10 & E).
  assert (S : rsame_table n (table_of g0) t).
  { constructor; cbn [table_of t_pos t_turn t_passes t_outcome t_prisoners t_ko t_seen].
    - apply (ropening_same n bl); assumption.
    - rewrite (rop_turn _ _ _ O), H7, H6. destruct (b_turn bl); reflexivity.
    - rewrite (rop_passes _ _ _ O). exact H1.
    - rewrite (rop_outcome _ _ _ O). exact H5.
    - rewrite (rop_prisoners _ _ _ O). exact H2.
    - rewrite (rop_ko _ _ _ O). exact H4.
    - rewrite (rop_seen _ _ _ O), H3. constructor. }
  pose proof (of_color_total (setup_stones bl)) as Tot.
  destruct (rcalls_follow dbg n (flag_illegal (b_rule bl)) _ _ _ g0 t l t' Hd G0 H9 S R ltac:(lia)) as (g & C & S').
  pose proof (calls_play _ _ _ _ _ C) as F. exists g. rewrite E, F. split; [reflexivity|]. split; [exact S'|]. rewrite <- H8. clear -F.
  revert g0 F. induction (b_moves bl) as [|m ms IH]; intros g0 F; [cbn in F; injection F as ->; reflexivity|].
  cbn [foldM] in F. apply bind_ok in F as (g1 & F1 & F). rewrite (IH _ F). unfold komi. f_equal. exact (play_rule dbg g0 m g1 F1).
Qed.

Theorem rimport_follows dbg n root rest t l t' : Nat.divide (snd n) (fst n) -> 1 <= fst n <= 19 -> 1 <= snd n -> supported dbg root rest ->
  (fst (record_size root) mod 256 = N.of_nat (fst n) /\ snd (record_size root) mod 256 = N.of_nat (snd n))%N ->
  NoDup (record_stones root).*1 -> (forall s, s ∈ record_stones root -> ron n (fst s)) ->
  rrecord_opening n root t -> rtable_run n (flag_illegal (record_rule root)) t (List.map OPlay (record_moves rest)) l t' ->
  (N.of_nat (length (record_stones root) + all_stones (List.map OPlay (record_moves rest))) <= 65535)%N ->
  exists g, from_sgf_nodes dbg (root :: rest) = Ok g /\ rsame_table n (table_of g) t' /\
    komi g = default (r_komi (record_rule root)) (last_said said_komi root).
Proof.
  intros Hd Hn1 Hn2 Su [Hz1 Hz2] Nd Ho O R L. rewrite (sgf_supported dbg root rest Su).
  destruct (rbuild_follows dbg n (record_builder root rest) t l t') as (g & E & S & K); try assumption.
  - unfold record_builder, b_size, record_size in *. destruct (last_said said_size root) as [[x y]|]; cbv [default from_option id fst snd] in Hz1, Hz2.
    + rewrite Hz1, Hz2, !Nat2N.id. destruct n; reflexivity.
    + destruct n as [h v]. cbn [fst snd] in Hz1, Hz2. assert (h = 19) as -> by (apply Nat2N.inj; rewrite <- Hz1; reflexivity).
      assert (v = 19) as -> by (apply Nat2N.inj; rewrite <- Hz2; reflexivity). reflexivity.
  - destruct O as [O1 O2 O3 O4 O5 O6 O7]. constructor; try assumption. rewrite O2. unfold first_player, record_builder. cbn [b_turn b_handicap b_handicap_points length].
    destruct (last_said said_player root); [reflexivity|]. destruct (last_said said_handicap root); reflexivity.
  - exists g. rewrite E. split; [reflexivity|]. split; [exact S|]. exact K.
Qed.

(** ** A record with handicap, set-up stones, a pass and a capture *)

Definition tall_root : sgf_node :=
  [TGame true; TSize 8 4; TRule SJapanese; THandicap 2; TAdd Black 3 3; TAdd Black 4 8; TAdd White 1 1; TResult (SWinnerByResign Black)].
Definition tall_rest : list sgf_node :=
  [[TMove White (SMove 2 7)]; [TOther]; [TMove Black (SMove 2 1)]; [TMove White SPass]; [TMove Black (SMove 1 2)]].

Lemma tall_fits : fits (8, 4).
Proof. split; [cbn; lia|]. split; [cbn; lia|]. exists 2. reflexivity. Qed.

Lemma tall_supported dbg : supported dbg tall_root tall_rest.
Proof.
  split.
  - intros t Ht. unfold tall_root in Ht. rewrite !elem_of_cons, elem_of_nil in Ht.
    destruct Ht as [->|[->|[->|[->|[->|[->|[->|[->|[]]]]]]]]]; cbn; auto; try discriminate; lia.
  - intros node c a Hn Hf. unfold tall_rest in Hn. rewrite !elem_of_cons, elem_of_nil in Hn.
    destruct Hn as [->|[->|[->|[->|[->|[]]]]]]; cbn in Hf; try discriminate; injection Hf as <- <-; cbn; lia.
Qed.

Definition tall_opening : builder := record_builder tall_root [].

Lemma tall_setup : NoDup (setup_stones tall_opening).*1 /\ (forall s, s ∈ setup_stones tall_opening -> ron (8, 4) (fst s)).
Proof.
  split; [vm_compute; repeat constructor; rewrite ?elem_of_cons, ?elem_of_nil; intuition congruence|].
  intros s Hs. change (setup_stones tall_opening) with [((2, 2), Black); ((7, 3), Black); ((0, 0), White)] in Hs. rewrite !elem_of_cons, elem_of_nil in Hs. destruct Hs as [->|[->|[->|[]]]]; on_.
Qed.

Definition after_tall (t : table) : Prop :=
  t_pos t (0, 0) = None /\ t_pos t (1, 0) = Some Black /\ t_pos t (6, 1) = Some White /\ t_prisoners t = (1, 0)%N /\
  t_outcome t = Some (WinnerByResign Black) /\ t_turn t = White.

Lemma tall_run : exists t l t',
  ropening (8, 4) tall_opening t /\
  rtable_run (8, 4) (flag_illegal JAPANESE) t (List.map OTry (record_moves tall_rest)) l t' /\ (forall a, a ∈ l -> a = Some Accepted) /\ after_tall t'.
Proof.
  destruct tall_setup as [Nd On].
  destruct (rbuild_ok false (8, 4) tall_opening tall_fits eq_refl Nd On ltac:(vm_compute; discriminate)) as (g0 & G0 & P0 & H1 & H2 & H3 & H4 & H5 & H6 & H7 & H8 & H9 & H10 & E).
  destruct (rcalls_sim false (8, 4) (List.map OTry (record_moves tall_rest)) _ _ g0 (proj2 (proj2 tall_fits)) G0) as (g' & l & C & R).
  { intros o Ho. change (List.map OTry (record_moves tall_rest)) with [OTry (MPlay 6 1); OTry (MPlay 0 1); OTry MPass; OTry (MPlay 1 0)] in Ho. rewrite !elem_of_cons, elem_of_nil in Ho. destruct Ho as [->|[->|[->|[->|[]]]]]; cbn; try exact I; on_. }
  { vm_compute. discriminate. }
  assert (F : match snd (build false tall_opening) with
              | Ok g => match calls false g (List.map OTry (record_moves tall_rest)) with
                        | Ok (g', l) => forallb (fun a : option verdict => match a with Some Accepted => true | _ => false end) l && has g' (0, 0) None && has g' (1, 0) (Some Black) && has g' (6, 1) (Some White) &&
                            match gm_outcome g' with Some (WinnerByResign Black) => true | _ => false end && bool_decide (gm_prisoners g' = (1, 0)%N) && bool_decide (gm_turn g' = White)
                        | _ => false end
              | _ => false end = true) by (vm_compute; reflexivity).
  rewrite E in F. cbn [snd b_moves tall_opening record_builder omap list_omap List.map foldM] in F. rewrite C in F. bools F. unfold has in *.
  assert (Ho : gm_outcome g' = Some (WinnerByResign Black)) by (clear - F2; destruct (gm_outcome g') as [[? ?|[]|?|?|]|]; first [discriminate F2|reflexivity]).
  repeat match goal with H : bool_decide _ = true |- _ => apply bool_decide_eq_true in H end.
  exists (table_of g0), l, (table_of g'). split.
  { constructor; cbn [table_of t_pos t_turn t_passes t_outcome t_prisoners t_ko t_seen]; [exact P0|rewrite H7, H6; reflexivity|exact H1|exact H5|exact H2|exact H4|rewrite H3; reflexivity]. }
  split; [rewrite H9 in R; exact R|]. split.
  { intros a Ha. match goal with H : forallb _ _ = true |- _ => rewrite forallb_forall in H; apply elem_of_list_In, H in Ha; destruct a as [[]|]; discriminate Ha || reflexivity end. }
  repeat split; assumption.
Qed.

Lemma rcase_import dbg : exists t l t', supported dbg tall_root tall_rest /\
  (fst (record_size tall_root) mod 256 = N.of_nat 8 /\ snd (record_size tall_root) mod 256 = N.of_nat 4)%N /\
  NoDup (record_stones tall_root).*1 /\ (forall s, s ∈ record_stones tall_root -> ron (8, 4) (fst s)) /\
  rrecord_opening (8, 4) tall_root t /\
  rtable_run (8, 4) (flag_illegal (record_rule tall_root)) t (List.map OPlay (record_moves tall_rest)) l t' /\
  (N.of_nat (length (record_stones tall_root) + all_stones (List.map OPlay (record_moves tall_rest))) <= 65535)%N /\ after_tall t'.
Proof.
  destruct tall_run as (t & l & t' & O & R & A & F). destruct tall_setup as [Nd On].
  exists t, (List.map (fun _ => None) (record_moves tall_rest)), t'. split; [apply tall_supported|]. split; [split; reflexivity|].
  split; [exact Nd|]. split; [exact On|]. split; [destruct O; constructor; assumption|]. split; [exact (raccepted_run _ _ _ _ _ _ R A)|].
  split; [vm_compute; discriminate|exact F].
Qed.

Definition tall_builder : builder := record_builder tall_root tall_rest.

Lemma rcase_built : exists t l t', Nat.divide 4 8 /\ b_size tall_builder = (8, 4) /\
  NoDup (setup_stones tall_builder).*1 /\ (forall s, s ∈ setup_stones tall_builder -> ron (8, 4) (fst s)) /\
  ropening (8, 4) tall_builder t /\ rtable_run (8, 4) (flag_illegal (b_rule tall_builder)) t (List.map OPlay (b_moves tall_builder)) l t' /\
  (N.of_nat (length (setup_stones tall_builder) + all_stones (List.map OPlay (b_moves tall_builder))) <= 65535)%N /\ after_tall t'.
Proof.
  destruct tall_run as (t & l & t' & O & R & A & F). destruct tall_setup as [Nd On].
  exists t, (List.map (fun _ => None) (record_moves tall_rest)), t'. split; [exact (proj2 (proj2 tall_fits))|]. split; [reflexivity|]. split; [exact Nd|]. split; [exact On|].
  split; [destruct O; constructor; assumption|]. split; [exact (raccepted_run _ _ _ _ _ _ R A)|]. split; [vm_compute; discriminate|exact F].
Qed.

Lemma rcase_accepted : exists t l t', rtable_run (8, 4) (flag_illegal JAPANESE) t (List.map OTry (record_moves tall_rest)) l t' /\
  (forall a, a ∈ l -> a = Some Accepted) /\ after_tall t'.
Proof. destruct tall_run as (t & l & t' & O & R & A & F). exists t, l, t'. auto. Qed.
