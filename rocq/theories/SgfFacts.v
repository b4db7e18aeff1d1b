(** SGF import. *)
From stdpp Require Import strings.
From Verif Require Import SgfSpec MonadFacts.
From Coq Require Import Lia.

Local Notation length := Datatypes.length.

Lemma last_said_app {A} (f : sgf_token -> option A) l t :
  last_said f (l ++ [t]) = match f t with Some a => Some a | None => last_said f l end.
Proof.
  unfold last_said. rewrite omap_app. cbn. destruct (f t); [apply last_snoc|]. rewrite app_nil_r. reflexivity.
Qed.

(** the builder after the tokens [l] of the root, with the player [pl] *)
Definition root_builder (l : sgf_node) (pl : option color) : builder :=
  let b := record_builder l [] in
  mkBuilder (b_size b) (b_rule b) (b_komi b) (b_handicap b) [] pl [] (b_outcome b) (b_setup b).

Definition player_color (v : string) : color := if decide (v = "B"%string) then Black else White.

Lemma u8_sub_one dbg a : (dbg = true -> (1 <= a)%nat) -> u8_sub dbg a 1 = Ok (from_one a).
Proof.
  intros H. unfold u8_sub, from_one. destruct (Nat.leb_spec 1 a).
  - rewrite decide_False by lia. reflexivity.
  - destruct dbg; [specialize (H eq_refl); lia|]. rewrite decide_True by lia. f_equal. lia.
Qed.

Lemma u8_sub_zero a : ~ (1 <= a)%nat -> u8_sub true a 1 = Panic.
Proof. intros H. unfold u8_sub. destruct (Nat.leb_spec 1 a); [lia|reflexivity]. Qed.

Lemma root_token_ok_step dbg l pl t : root_token_ok dbg t ->
  sgf_root_token dbg (root_builder l pl) t = Ok (root_builder (l ++ [t]) pl).
Proof.
  intros H.
  destruct t as [c x y|c a|g|r|o|k|x y|h|k v|]; cbn [sgf_root_token root_token_ok] in *;
    unfold root_builder, record_builder; rewrite !last_said_app, ?omap_app, ?map_app; cbn [said_size said_rule said_komi said_handicap said_result said_add omap list_omap]; cbn.
  - rewrite (u8_sub_one dbg y), (u8_sub_one dbg x) by (intros D; apply H in D; lia). cbn. reflexivity.
  - rewrite app_nil_r. reflexivity.
  - rewrite H. cbn. rewrite app_nil_r. reflexivity.
  - rewrite app_nil_r. destruct r; [reflexivity..|contradiction].
  - rewrite app_nil_r. destruct o; reflexivity.
  - rewrite app_nil_r. reflexivity.
  - rewrite app_nil_r. reflexivity.
  - rewrite app_nil_r. reflexivity.
  - rewrite app_nil_r. reflexivity.
  - rewrite app_nil_r. reflexivity.
Qed.

Definition is_unknown (t : sgf_token) : bool := match t with TUnknown _ _ => true | _ => false end.

Lemma root_token_bad dbg b t : ~ root_token_ok dbg t -> is_unknown t = false -> sgf_root_token dbg b t = Panic.
Proof.
  intros H Hu. destruct t as [c x y|c a|g|r|o|k|x y|h|k v|]; cbn [sgf_root_token root_token_ok is_unknown] in *; try tauto; try discriminate.
  - destruct dbg; [|exfalso; apply H; discriminate].
    destruct (decide (1 <= y)%nat).
    + rewrite (u8_sub_one true y) by lia. cbn [bind]. rewrite u8_sub_zero; [reflexivity|]. intros ?. apply H. lia.
    + rewrite u8_sub_zero by assumption. reflexivity.
  - destruct g; [contradiction H; reflexivity|reflexivity].
  - destruct r; try reflexivity; exfalso; apply H; discriminate.
Qed.

(** the PL tokens of a node set the player *)
Definition player_of (node : sgf_node) (pl : option color) : option color :=
  match last_said said_player node with Some v => Some (player_color v) | None => pl end.

Lemma sgf_player_app node t b : sgf_player (node ++ [t]) b = (let! b' := sgf_player node b in sgf_player [t] b').
Proof. unfold sgf_player. rewrite foldM_app. reflexivity. Qed.

Lemma sgf_player_ok dbg node l pl : (forall t, t ∈ node -> root_token_ok dbg t) ->
  sgf_player node (root_builder l pl) = Ok (root_builder l (player_of node pl)).
Proof.
  intros H. induction node as [|t node IH] using rev_ind; [reflexivity|].
  rewrite sgf_player_app, IH by (intros t' Ht; apply H, elem_of_app; auto). cbn [bind].
  assert (Ht : root_token_ok dbg t) by (apply H, elem_of_app; right; left).
  unfold player_of. rewrite last_said_app. unfold sgf_player. cbn [foldM].
  destruct t as [c x y|c a|g|r|o|k|x y|h|k v|]; try reflexivity. cbn [said_player].
  destruct (String.eqb_spec k "PL"%string) as [->|Hk].
  - rewrite decide_True by reflexivity. destruct (Ht eq_refl) as [-> | ->]; reflexivity.
  - rewrite decide_False by exact Hk. reflexivity.
Qed.

Lemma sgf_player_bad dbg node b : (exists t, t ∈ node /\ is_unknown t = true /\ ~ root_token_ok dbg t) -> sgf_player node b = Panic.
Proof.
  intros (t & Ht & Hu & Hb). revert b. unfold sgf_player. induction Ht as [t node|t u node Ht IH]; intros b; cbn [foldM].
  - destruct t as [| | | | | | | |k v|]; try discriminate. cbn [root_token_ok] in Hb.
    destruct (String.eqb_spec k "PL"%string) as [->|Hk]; [|tauto].
    destruct (String.eqb_spec v "B"%string) as [->|?]; [tauto|]. destruct (String.eqb_spec v "W"%string) as [->|?]; [tauto|]. reflexivity.
  - specialize (IH Hu Hb). destruct u; cbn [bind]; try apply IH.
    destruct (String.eqb _ _); [|apply IH]. destruct (String.eqb _ _); [apply IH|]. destruct (String.eqb _ _); [apply IH|]. reflexivity.
Qed.

Lemma player_twice node pl : player_of node (player_of node pl) = player_of node pl.
Proof. unfold player_of. destruct (last_said _ _); reflexivity. Qed.

Lemma sgf_root_ok dbg node : (forall t, t ∈ node -> root_token_ok dbg t) ->
  sgf_root dbg node builder_default = Ok (root_builder node (player_of node None)).
Proof.
  intros H. unfold sgf_root.
  assert (K : forall l l', l ++ l' = node ->
    foldM (fun b t => let! b := sgf_root_token dbg b t in sgf_player node b) l' (root_builder l (if decide (l = []) then None else player_of node None))
    = Ok (root_builder node (if decide (node = []) then None else player_of node None))).
  { intros l l'. revert l. induction l' as [|t l' IH]; intros l E; cbn [foldM].
    - rewrite app_nil_r in E. subst. reflexivity.
    - rewrite root_token_ok_step by (apply H; rewrite <- E; apply elem_of_app; right; left). cbn [bind].
      rewrite (sgf_player_ok dbg) by exact H. cbn [bind].
      replace (player_of node (if decide (l = []) then None else player_of node None)) with (player_of node None) by (destruct (decide (l = [])); [reflexivity|rewrite player_twice; reflexivity]).
      specialize (IH (l ++ [t])). rewrite <- app_assoc in IH. specialize (IH E).
      rewrite decide_False in IH by (destruct l; discriminate). exact IH. }
  specialize (K [] node eq_refl). rewrite decide_True in K by reflexivity. etransitivity; [exact K|].
  destruct (decide (node = [])) as [->|]; reflexivity.
Qed.

Lemma root_ok_dec dbg t : Decision (root_token_ok dbg t).
Proof.
  destruct t as [c x y|c a|g|r|o|k|x y|h|k v|]; cbn; try (left; exact Logic.I); try apply _.
  destruct r; [left; discriminate|left; discriminate|right; intros F; apply F; reflexivity].
Defined.

Lemma sgf_root_bad dbg node : (exists t, t ∈ node /\ ~ root_token_ok dbg t) -> sgf_root dbg node builder_default = Panic.
Proof.
  intros (t & Ht & Hb). unfold sgf_root.
  assert (K : forall l b, (exists t, t ∈ l /\ ~ root_token_ok dbg t /\ is_unknown t = false) ->
     foldM (fun b t => let! b := sgf_root_token dbg b t in sgf_player node b) l b = Panic).
  { induction l as [|u l IH]; intros b (t' & Ht' & Hb' & Hu'); [inversion Ht'|]. cbn [foldM].
    apply elem_of_cons in Ht' as [->|Ht'].
    - rewrite root_token_bad by assumption. reflexivity.
    - assert (Q : sgf_root_token dbg b u <> Diverge).
      { clear. unfold sgf_root_token, u8_sub, assert_. destruct u; cbn; try discriminate.
        - destruct x, y, dbg; cbn; discriminate.
        - destruct is_go; cbn; discriminate.
        - destruct r; cbn; discriminate. }
      destruct (sgf_root_token dbg b u) as [b'| |]; [|reflexivity|contradiction]. cbn [bind].
      assert (Q' : sgf_player node b' <> Diverge).
      { clear. unfold sgf_player. revert b'. induction node as [|v l IH]; intros b'; cbn [foldM]; [discriminate|].
        destruct v; cbn [bind]; try apply IH. destruct (String.eqb _ _); [|apply IH]. destruct (String.eqb _ _); [apply IH|]. destruct (String.eqb _ _); [apply IH|]. discriminate. }
      destruct (sgf_player node b') as [b''| |]; [|reflexivity|contradiction]. cbn [bind]. apply IH. exists t'. auto. }
  destruct (is_unknown t) eqn:Eu; [|apply K; eauto].
  destruct node as [|u node]; [inversion Ht|]. cbn [foldM].
  destruct (root_ok_dec dbg u) as [Hu|Hu].
  - change builder_default with (root_builder [] None). rewrite root_token_ok_step by exact Hu. cbn [bind]. rewrite (sgf_player_bad dbg) by eauto. reflexivity.
  - destruct (is_unknown u) eqn:Euu; [|rewrite root_token_bad by assumption; reflexivity].
    destruct u; try discriminate. cbn [sgf_root_token bind]. rewrite (sgf_player_bad dbg) by eauto. reflexivity.
Qed.

Lemma move_ok dbg a : action_ok dbg a -> move_of_sgf dbg a = Ok (sgf_move a).
Proof.
  destruct a as [c l|]; [|reflexivity]. cbn. intros H.
  rewrite (u8_sub_one dbg l), (u8_sub_one dbg c) by (intros D; apply H in D; lia). reflexivity.
Qed.
Lemma move_bad dbg a : ~ action_ok dbg a -> move_of_sgf dbg a = Panic.
Proof.
  destruct a as [c l|]; [|cbn; tauto]. cbn. intros H. destruct dbg; [|exfalso; apply H; discriminate].
  destruct (decide (1 <= l)%nat).
  - rewrite (u8_sub_one true l) by lia. cbn [bind]. rewrite u8_sub_zero; [reflexivity|]. intros ?. apply H. lia.
  - rewrite u8_sub_zero by assumption. reflexivity.
Qed.
Lemma action_ok_dec dbg a : Decision (action_ok dbg a).
Proof. destruct a; cbn; apply _. Defined.

Lemma later_fold dbg rest : forall acc,
  (forall node c a, node ∈ rest -> first_move node = Some (c, a) -> action_ok dbg a) ->
  foldM (sgf_later dbg) rest acc = Ok (acc ++ List.map (fun m => sgf_move (snd m)) (omap first_move rest)).
Proof.
  induction rest as [|node rest IH]; intros acc H; cbn [foldM omap list_omap]; [rewrite app_nil_r; reflexivity|].
  assert (E : sgf_later dbg acc node = Ok (acc ++ match first_move node with Some m => [sgf_move (snd m)] | None => [] end)).
  { destruct node as [|[] node]; cbn [sgf_later first_move]; rewrite ?app_nil_r; try reflexivity.
    rewrite move_ok; [reflexivity|]. eapply H; [left|reflexivity]. }
  rewrite E. cbn [bind]. rewrite IH by (intros; eapply H; [right|]; eassumption).
  destruct (first_move node); cbn [List.map]; rewrite <- ?app_assoc; rewrite ?app_nil_r; reflexivity.
Qed.

Lemma later_bad dbg rest : forall acc,
  (exists node c a, node ∈ rest /\ first_move node = Some (c, a) /\ ~ action_ok dbg a) ->
  foldM (sgf_later dbg) rest acc = Panic.
Proof.
  induction rest as [|node rest IH]; intros acc (nd & c & a & Hn & Hf & Hb); [inversion Hn|]. cbn [foldM].
  apply elem_of_cons in Hn as [->|Hn].
  - destruct node as [|[] node]; try discriminate. cbn in Hf. injection Hf as -> ->. cbn [sgf_later]. rewrite move_bad by exact Hb. reflexivity.
  - assert (Q : sgf_later dbg acc node = Panic \/ exists l, sgf_later dbg acc node = Ok l).
    { destruct node as [|[] node]; cbn [sgf_later]; eauto. destruct (action_ok_dec dbg a0); [rewrite move_ok by assumption; cbn; eauto|rewrite move_bad by assumption; auto]. }
    destruct Q as [->|[l ->]]; [reflexivity|]. cbn [bind]. apply IH. eauto 6.
Qed.

Definition later_ok (dbg : bool) (node : sgf_node) : Prop :=
  match first_move node with Some (c, a) => action_ok dbg a | None => True end.
Lemma later_ok_dec dbg node : Decision (later_ok dbg node).
Proof. unfold later_ok. destruct (first_move node) as [[c a]|]; [apply action_ok_dec|left; exact Logic.I]. Defined.

Local Existing Instances root_ok_dec later_ok_dec.

(** what an import does, exactly *)
Theorem sgf_supported dbg root rest : supported dbg root rest ->
  from_sgf_nodes dbg (root :: rest) = snd (build dbg (record_builder root rest)).
Proof.
  intros [H1 H2]. unfold from_sgf_nodes. rewrite (sgf_root_ok dbg root H1). cbn [bind].
  rewrite (later_fold dbg rest [] H2). cbn [bind app]. f_equal.
Qed.

Theorem sgf_unsupported dbg root rest : ~ supported dbg root rest -> from_sgf_nodes dbg (root :: rest) = Panic.
Proof.
  intros H. unfold from_sgf_nodes.
  destruct (Forall_dec (root_token_ok dbg) root) as [H1|H1].
  - rewrite Forall_forall in H1. rewrite (sgf_root_ok dbg root H1). cbn [bind].
    destruct (Forall_dec (later_ok dbg) rest) as [H2|H2].
    + exfalso. apply H. split; [exact H1|]. intros node c a Hn Hf. rewrite Forall_forall in H2. specialize (H2 node Hn). unfold later_ok in H2. rewrite Hf in H2. exact H2.
    + rewrite later_bad; [reflexivity|]. apply not_Forall_Exists in H2; [|apply _].
      apply Exists_exists in H2 as (node & Hn & Hb). unfold compose, later_ok in Hb. destruct (first_move node) as [[c a]|] eqn:Ef; [|tauto].
      eauto 6.
  - rewrite sgf_root_bad; [reflexivity|]. apply not_Forall_Exists in H1; [|apply _].
    apply Exists_exists in H1 as (t & Ht & Hb). eauto.
Qed.

(** node by node: each first-token move is played in order by the side to move *)
Lemma supported_take dbg root rest k : supported dbg root rest -> supported dbg root (take k rest).
Proof.
  intros [H1 H2]. split; [exact H1|]. intros node c a Hn. apply H2. apply elem_of_list_lookup in Hn as [i Hi].
  apply lookup_take_Some in Hi as [Hi _]. eapply elem_of_list_lookup_2, Hi.
Qed.

Lemma build_moves dbg root rest :
  build_inner dbg (record_builder root rest)
  = (let! g := build_inner dbg (record_builder root []) in foldM (fun g m => play dbg g m) (b_moves (record_builder root rest)) g).
Proof.
  unfold build_inner. cbn [record_builder b_size b_handicap b_handicap_points b_setup b_rule b_komi b_turn b_outcome b_moves omap list_omap List.map foldM bind].
  destruct (goban_new _) as [gb| |]; [|reflexivity..]. cbn [bind].
  destruct (foldM _ _ gb) as [gb'| |]; reflexivity.
Qed.

Theorem sgf_step dbg root rest k node : supported dbg root rest -> rest !! k = Some node ->
  from_sgf_nodes dbg (root :: take (S k) rest)
  = (let! g := from_sgf_nodes dbg (root :: take k rest) in
     match first_move node with Some (c, a) => play dbg g (sgf_move a) | None => Ok g end).
Proof.
  intros H Hk. rewrite !sgf_supported by (apply supported_take, H). cbn [build snd].
  rewrite (build_moves dbg root (take (S k) rest)), (build_moves dbg root (take k rest)).
  destruct (build_inner dbg (record_builder root [])) as [g| |]; [|reflexivity..]. cbn [bind record_builder b_moves].
  rewrite (take_S_r _ _ _ Hk), omap_app, map_app, foldM_app.
  destruct (foldM _ _ g) as [g'| |]; [|reflexivity..]. cbn [bind omap list_omap].
  destruct (first_move node) as [[c a]|]; cbn [List.map foldM snd bind]; [|reflexivity]. destruct (play dbg g' (sgf_move a)); reflexivity.
Qed.

Lemma turn_step dbg g a g' : play dbg g (sgf_move a) = Ok g' -> gm_turn g' = opp (gm_turn g).
Proof.
  destruct a as [col line|]; cbn [sgf_move sgf_point play].
  - intros E. apply bind_ok in E as (? & _ & E). apply bind_ok in E as ([[? ?] ?] & _ & E). apply bind_ok in E as ([[? ?] ?] & _ & E).
    injection E as <-. reflexivity.
  - unfold assert_. destruct (_ <? _)%nat; [|discriminate]. cbn. intros E. injection E as <-. reflexivity.
Qed.

Lemma root_turn dbg root g : (forall t, t ∈ root -> root_token_ok dbg t) -> from_sgf_nodes dbg [root] = Ok g -> gm_turn g = first_player root.
Proof.
  intros H E. rewrite sgf_supported in E by (split; [exact H|intros node c a Hn; inversion Hn]). cbn [build snd] in E.
  unfold build_inner in E. apply bind_ok in E as (gb & _ & E). apply bind_ok in E as (gb' & _ & E). apply bind_ok in E as (gb'' & _ & E).
  cbn [record_builder b_moves omap list_omap List.map foldM] in E. injection E as <-. cbn [gm_turn record_builder b_turn b_handicap b_handicap_points].
  unfold first_player. destruct (last_said said_player root); [reflexivity|].
  destruct (last_said said_handicap root) as [h|]; cbn; [|reflexivity]. destruct (N.eqb_spec h 0) as [->|].
  - rewrite decide_True by reflexivity. reflexivity.
  - rewrite decide_False by assumption. reflexivity.
Qed.

Theorem sgf_turns dbg root rest k g : supported dbg root rest -> from_sgf_nodes dbg (root :: take k rest) = Ok g ->
  gm_turn g = nth_turn (first_player root) (length (omap first_move (take k rest))).
Proof.
  intros H. revert g. induction k as [|k IH]; intros g E.
  { cbn [take omap list_omap length nth_turn]. apply (root_turn dbg); [apply H|exact E]. }
  destruct (rest !! k) as [node|] eqn:Ek.
  - rewrite (sgf_step dbg root rest k node H Ek) in E. apply bind_ok in E as (g0 & E0 & E). specialize (IH g0 E0).
    rewrite (take_S_r _ _ _ Ek), omap_app, app_length. cbn [omap list_omap].
    destruct (first_move node) as [[c a]|]; cbn [length].
    + rewrite Nat.add_1_r. cbn [nth_turn]. rewrite <- IH. exact (turn_step _ _ _ _ E).
    + injection E as <-. rewrite Nat.add_0_r. exact IH.
  - apply lookup_ge_None in Ek. rewrite take_ge in E by lia. rewrite take_ge by lia. rewrite take_ge in IH by lia. apply IH. exact E.
Qed.

Lemma alternate_nth c l : alternate c l -> forall k d, l !! k = Some d -> d = nth_turn c k.
Proof.
  revert c. induction l as [|e l IH]; intros c H [|k] d E; try discriminate; destruct H as [-> H].
  - cbn in E. injection E as <-. reflexivity.
  - cbn [lookup list_lookup] in E. apply IH with (k := k) (d := d) in H; [|exact E]. rewrite H. clear. induction k; [reflexivity|]. cbn [nth_turn]. f_equal. exact IHk.
Qed.

(** the recorded colours are those played when they alternate from the first player *)
Theorem sgf_colours dbg root rest : supported dbg root rest ->
  alternate (first_player root) (List.map fst (omap first_move rest)) ->
  forall k node c a g, rest !! k = Some node -> first_move node = Some (c, a) ->
    from_sgf_nodes dbg (root :: take k rest) = Ok g -> gm_turn g = c.
Proof.
  intros H A k node c a g Hk Hf E. rewrite (sgf_turns dbg root rest k g H E). symmetry. apply (alternate_nth _ _ A).
  assert (Eo : omap first_move rest = omap first_move (take k rest) ++ omap first_move (drop k rest)) by (rewrite <- omap_app, take_drop; reflexivity).
  rewrite Eo, map_app, lookup_app_r by (rewrite map_length; lia).
  rewrite map_length, Nat.sub_diag. rewrite (drop_S _ _ _ Hk). cbn [omap list_omap]. rewrite Hf. reflexivity.
Qed.
