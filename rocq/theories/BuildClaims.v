(** Built and imported games are runs of the abstract game. *)
From stdpp Require Import relations sorting strings.
From Verif Require Import Spec Observe BuildSpec Samples.
From Verif Require Import MonadFacts CoordFacts Struct Inv Bridge GameFacts SetupFacts SgfFacts TableFacts RulesFacts CaseFacts SampleFacts.
From Coq Require Import Lia.

Local Notation length := Datatypes.length.
Open Scope nat_scope.

Lemma calls_play dbg ms : forall g g' l, calls dbg g (List.map OPlay ms) = Ok (g', l) -> foldM (fun g m => play dbg g m) ms g = Ok g'.
Proof.
  induction ms as [|m ms IH]; intros g g' l E; [cbn in E; injection E as -> _; reflexivity|].
  cbn [List.map calls call foldM] in *. destruct (play dbg g m) as [g1| |]; [|discriminate E..]. cbn [bind] in *.
  apply bind_ok in E as ([g2 l2] & E & E2). injection E2 as -> _. exact (IH _ _ _ E).
Qed.

Lemma play_rule dbg g m g' : play dbg g m = Ok g' -> gm_rule g' = gm_rule g.
Proof.
  intros Ep. destruct m as [|c|x y]; unfold play in Ep.
  - apply bind_ok in Ep as (? & _ & Ep). injection Ep as <-. reflexivity.
  - injection Ep as <-. reflexivity.
  - apply bind_ok in Ep as (? & _ & Ep). apply bind_ok in Ep as ([[? ?] ?] & _ & Ep). apply bind_ok in Ep as ([[? ?] ?] & _ & Ep).
    injection Ep as <-. reflexivity.
Qed.

(** accepted moves may as well be carried out without asking *)
Lemma accepted_run n f ms : forall t l t', table_run n f t (List.map OTry ms) l t' -> (forall a, a ∈ l -> a = Some Accepted) ->
  table_run n f t (List.map OPlay ms) (List.map (fun _ => None) ms) t'.
Proof.
  induction ms as [|m ms IH]; intros t l t' R A; inversion R as [|? ? ? t1 ? l1 ? C R']; subst; [constructor|].
  pose proof (A a ltac:(left)) as ->. inversion C; subst. cbn. econstructor; [constructor; eassumption|]. apply (IH _ l1); [exact R'|].
  intros a Ha. apply A. right. exact Ha.
Qed.

Lemma opening_same n bl t g : (forall p c, on n p -> pos_of (gm_goban g) p = Some c <-> (p, c) ∈ setup_stones bl) ->
  opening n bl t -> same_pos n (position g) (t_pos t).
Proof.
  intros H O p Hp. unfold position. destruct (pos_of (gm_goban g) p) as [c|] eqn:E; destruct (t_pos t p) as [d|] eqn:F; try reflexivity.
  - apply H in E; [|exact Hp]. apply (op_pos _ _ _ O) in E; [|exact Hp]. congruence.
  - apply H in E; [|exact Hp]. apply (op_pos _ _ _ O) in E; [|exact Hp]. congruence.
  - apply (op_pos _ _ _ O) in F; [|exact Hp]. apply H in F; [|exact Hp]. congruence.
Qed.

Theorem build_follows dbg n bl t l t' : 1 <= n <= 19 -> b_size bl = (n, n) ->
  NoDup (setup_stones bl).*1 -> (forall s, s ∈ setup_stones bl -> on n (fst s)) ->
  opening n bl t -> table_run n (flag_illegal (b_rule bl)) t (List.map OPlay (b_moves bl)) l t' ->
  (N.of_nat (length (setup_stones bl) + all_stones (List.map OPlay (b_moves bl))) <= 65535)%N ->
  exists g, build dbg bl = (builder_default, Ok g) /\ same_table n (table_of g) t' /\
    komi g = default (r_komi (b_rule bl)) (b_komi bl).
Proof.
  intros Hn Hs Nd Ho O R L. destruct (build_ok dbg n bl Hn Hs Nd Ho ltac:(lia)) as (g0 & G0 & P0 & H1 & H2 & H3 & H4 & H5 & H6 & H7 & H8 & H9 & H10 & E).
  assert (S : same_table n (table_of g0) t).
  { constructor; cbn [table_of t_pos t_turn t_passes t_outcome t_prisoners t_ko t_seen].
    - apply (opening_same n bl); assumption.
    - rewrite (op_turn _ _ _ O), H7, H6. destruct (b_turn bl); reflexivity.
    - rewrite (op_passes _ _ _ O). exact H1.
    - rewrite (op_outcome _ _ _ O). exact H5.
    - rewrite (op_prisoners _ _ _ O). exact H2.
    - rewrite (op_ko _ _ _ O). exact H4.
    - rewrite (op_seen _ _ _ O), H3. constructor. }
  pose proof (of_color_total (setup_stones bl)) as Tot.
  destruct (calls_follow dbg n (flag_illegal (b_rule bl)) _ _ _ g0 t l t' G0 H9 S R ltac:(lia)) as (g & C & S').
  pose proof (calls_play _ _ _ _ _ C) as F. exists g. rewrite E, F. split; [reflexivity|]. split; [exact S'|]. rewrite <- H8. clear -F.
  revert g0 F. induction (b_moves bl) as [|m ms IH]; intros g0 F; [cbn in F; injection F as ->; reflexivity|].
  cbn [foldM] in F. apply bind_ok in F as (g1 & F1 & F). rewrite (IH _ F). unfold komi. f_equal. exact (play_rule dbg g0 m g1 F1).
Qed.

Theorem import_follows dbg n root rest t l t' : 1 <= n <= 19 -> supported dbg root rest ->
  (fst (record_size root) mod 256 = N.of_nat n /\ snd (record_size root) mod 256 = N.of_nat n)%N ->
  NoDup (record_stones root).*1 -> (forall s, s ∈ record_stones root -> on n (fst s)) ->
  record_opening n root t -> table_run n (flag_illegal (record_rule root)) t (List.map OPlay (record_moves rest)) l t' ->
  (N.of_nat (length (record_stones root) + all_stones (List.map OPlay (record_moves rest))) <= 65535)%N ->
  exists g, from_sgf_nodes dbg (root :: rest) = Ok g /\ same_table n (table_of g) t' /\
    komi g = default (r_komi (record_rule root)) (last_said said_komi root).
Proof.
  intros Hn Su [Hz1 Hz2] Nd Ho O R L. rewrite (sgf_supported dbg root rest Su).
  destruct (build_follows dbg n (record_builder root rest) t l t') as (g & E & S & K); try assumption.
  - unfold record_builder, b_size, record_size in *. destruct (last_said said_size root) as [[x y]|]; cbv [default from_option id fst snd] in Hz1, Hz2.
    + rewrite Hz1, Hz2, !Nat2N.id. reflexivity.
    + assert (n = 19) as -> by (apply Nat2N.inj; rewrite <- Hz1; reflexivity). reflexivity.
  - destruct O as [O1 O2 O3 O4 O5 O6 O7]. constructor; try assumption. rewrite O2. unfold first_player, record_builder. cbn [b_turn b_handicap b_handicap_points length].
    destruct (last_said said_player root); [reflexivity|]. destruct (last_said said_handicap root); reflexivity.
  - exists g. rewrite E. split; [reflexivity|]. split; [exact S|]. exact K.
Qed.

(** ** A record with handicap, set-up stones, a pass and a capture *)

Definition capture_root : sgf_node :=
  [TGame true; TSize 9 9; TRule SJapanese; THandicap 2; TAdd Black 3 3; TAdd Black 7 7; TAdd White 1 1; TResult (SWinnerByResign Black)].
Definition capture_rest : list sgf_node :=
  [[TMove White (SMove 5 5)]; [TOther]; [TMove Black (SMove 2 1)]; [TMove White SPass]; [TMove Black (SMove 1 2)]].

Lemma capture_supported dbg : supported dbg capture_root capture_rest.
Proof.
  split.
  - intros t Ht. unfold capture_root in Ht. rewrite !elem_of_cons, elem_of_nil in Ht.
    destruct Ht as [->|[->|[->|[->|[->|[->|[->|[->|[]]]]]]]]]; cbn; auto; try discriminate; lia.
  - intros node c a Hn Hf. unfold capture_rest in Hn. rewrite !elem_of_cons, elem_of_nil in Hn.
    destruct Hn as [->|[->|[->|[->|[->|[]]]]]]; cbn in Hf; try discriminate; injection Hf as <- <-; cbn; lia.
Qed.

Definition opening_builder : builder := record_builder capture_root [].

Lemma opening_setup : NoDup (setup_stones opening_builder).*1 /\ (forall s, s ∈ setup_stones opening_builder -> on 9 (fst s)).
Proof.
  split; [vm_compute; repeat constructor; rewrite ?elem_of_cons, ?elem_of_nil; intuition congruence|].
  intros s Hs. change (setup_stones opening_builder) with [((2, 2), Black); ((6, 6), Black); ((0, 0), White)] in Hs. rewrite !elem_of_cons, elem_of_nil in Hs. destruct Hs as [->|[->|[->|[]]]]; on_.
Qed.

Definition after_capture (t : table) : Prop :=
  t_pos t (0, 0) = None /\ t_pos t (1, 0) = Some Black /\ t_pos t (4, 4) = Some White /\ t_prisoners t = (1, 0)%N /\
  t_outcome t = Some (WinnerByResign Black) /\ t_turn t = White.

Lemma capture_run : exists t l t',
  opening 9 opening_builder t /\
  table_run 9 (flag_illegal JAPANESE) t (List.map OTry (record_moves capture_rest)) l t' /\ (forall a, a ∈ l -> a = Some Accepted) /\ after_capture t'.
Proof.
  destruct opening_setup as [Nd On].
  destruct (build_ok false 9 opening_builder ltac:(lia) eq_refl Nd On ltac:(vm_compute; discriminate)) as (g0 & G0 & P0 & H1 & H2 & H3 & H4 & H5 & H6 & H7 & H8 & H9 & H10 & E).
  destruct (calls_sim false 9 (List.map OTry (record_moves capture_rest)) _ _ g0 G0) as (g' & l & C & R).
  { intros o Ho. change (List.map OTry (record_moves capture_rest)) with [OTry (MPlay 4 4); OTry (MPlay 0 1); OTry MPass; OTry (MPlay 1 0)] in Ho. rewrite !elem_of_cons, elem_of_nil in Ho. destruct Ho as [->|[->|[->|[->|[]]]]]; cbn; try exact I; on_. }
  { vm_compute. discriminate. }
  assert (F : match snd (build false opening_builder) with
              | Ok g => match calls false g (List.map OTry (record_moves capture_rest)) with
                        | Ok (g', l) => forallb (fun a : option verdict => match a with Some Accepted => true | _ => false end) l && has g' (0, 0) None && has g' (1, 0) (Some Black) && has g' (4, 4) (Some White) &&
                            match gm_outcome g' with Some (WinnerByResign Black) => true | _ => false end && bool_decide (gm_prisoners g' = (1, 0)%N) && bool_decide (gm_turn g' = White)
                        | _ => false end
              | _ => false end = true) by (vm_compute; reflexivity).
  rewrite E in F. cbn [snd b_moves opening_builder record_builder omap list_omap List.map foldM] in F. rewrite C in F. bools F. unfold has in *.
  assert (Ho : gm_outcome g' = Some (WinnerByResign Black)) by (clear - F2; destruct (gm_outcome g') as [[? ?|[]|?|?|]|]; first [discriminate F2|reflexivity]).
  repeat match goal with H : bool_decide _ = true |- _ => apply bool_decide_eq_true in H end.
  exists (table_of g0), l, (table_of g'). split.
  { constructor; cbn [table_of t_pos t_turn t_passes t_outcome t_prisoners t_ko t_seen]; [exact P0|rewrite H7, H6; reflexivity|exact H1|exact H5|exact H2|exact H4|rewrite H3; reflexivity]. }
  split; [rewrite H9 in R; exact R|]. split.
  { intros a Ha. match goal with H : forallb _ _ = true |- _ => rewrite forallb_forall in H; apply elem_of_list_In, H in Ha; destruct a as [[]|]; discriminate Ha || reflexivity end. }
  repeat split; assumption.
Qed.

Lemma case_import dbg : exists t l t', supported dbg capture_root capture_rest /\
  (fst (record_size capture_root) mod 256 = N.of_nat 9 /\ snd (record_size capture_root) mod 256 = N.of_nat 9)%N /\
  NoDup (record_stones capture_root).*1 /\ (forall s, s ∈ record_stones capture_root -> on 9 (fst s)) /\
  record_opening 9 capture_root t /\
  table_run 9 (flag_illegal (record_rule capture_root)) t (List.map OPlay (record_moves capture_rest)) l t' /\
  (N.of_nat (length (record_stones capture_root) + all_stones (List.map OPlay (record_moves capture_rest))) <= 65535)%N /\ after_capture t'.
Proof.
  destruct capture_run as (t & l & t' & O & R & A & F). destruct opening_setup as [Nd On].
  exists t, (List.map (fun _ => None) (record_moves capture_rest)), t'. split; [apply capture_supported|]. split; [split; reflexivity|].
  split; [exact Nd|]. split; [exact On|]. split; [destruct O; constructor; assumption|]. split; [exact (accepted_run _ _ _ _ _ _ R A)|].
  split; [vm_compute; discriminate|exact F].
Qed.

Definition capture_builder : builder := record_builder capture_root capture_rest.

Lemma case_built : exists t l t', 1 <= 9 <= 19 /\ b_size capture_builder = (9, 9) /\
  NoDup (setup_stones capture_builder).*1 /\ (forall s, s ∈ setup_stones capture_builder -> on 9 (fst s)) /\
  opening 9 capture_builder t /\ table_run 9 (flag_illegal (b_rule capture_builder)) t (List.map OPlay (b_moves capture_builder)) l t' /\
  (N.of_nat (length (setup_stones capture_builder) + all_stones (List.map OPlay (b_moves capture_builder))) <= 65535)%N /\ after_capture t'.
Proof.
  destruct capture_run as (t & l & t' & O & R & A & F). destruct opening_setup as [Nd On].
  exists t, (List.map (fun _ => None) (record_moves capture_rest)), t'. split; [lia|]. split; [reflexivity|]. split; [exact Nd|]. split; [exact On|].
  split; [destruct O; constructor; assumption|]. split; [exact (accepted_run _ _ _ _ _ _ R A)|]. split; [vm_compute; discriminate|exact F].
Qed.

Lemma case_accepted : exists t l t', table_run 9 (flag_illegal JAPANESE) t (List.map OTry (record_moves capture_rest)) l t' /\
  (forall a, a ∈ l -> a = Some Accepted) /\ after_capture t'.
Proof. destruct capture_run as (t & l & t' & O & R & A & F). exists t, l, t'. auto. Qed.
