(** The structural invariant of boards: circular stone lists, group numbers and
    the board array agree.  Preservation by the primitive operations. *)
From Verif Require Import Goban BitsetFacts.
From Coq Require Import Lia.

(** group number standing at an index; group stored under a number *)
Definition cell (g : goban) (i : nat) : option nat := mjoin (board g !! i).
Definition live (g : goban) (k : nat) : option group := mjoin (chains g !! k).

Lemma cell_lookup g i k : cell g i = Some k <-> board g !! i = Some (Some k).
Proof. unfold cell. destruct (board g !! i) as [[]|]; cbn; intuition congruence. Qed.

Lemma cell_None g i : (i < length (board g))%nat -> cell g i = None <-> board g !! i = Some None.
Proof.
  intros Hi. unfold cell. destruct (board g !! i) as [[]|] eqn:E; cbn; [intuition congruence..|].
  apply lookup_ge_None in E. lia.
Qed.

Lemma cell_lt g i k : cell g i = Some k -> (i < length (board g))%nat.
Proof. intros H. apply cell_lookup in H. eapply lookup_lt_Some, H. Qed.

Lemma live_lookup g k grp : live g k = Some grp <-> chains g !! k = Some (Some grp).
Proof. unfold live. destruct (chains g !! k) as [[]|]; cbn; intuition congruence. Qed.

Lemma live_lt g k grp : live g k = Some grp -> (k < length (chains g))%nat.
Proof. intros H. apply live_lookup in H. eapply lookup_lt_Some, H. Qed.

Lemma chain_at_live g k grp : live g k = Some grp -> chain_at (chains g) k = Ok grp.
Proof. intros H. apply live_lookup in H. unfold chain_at, vget. rewrite H. reflexivity. Qed.

Lemma chain_put_live g k grp x :
  live g k = Some grp -> chain_put (chains g) k x = Ok (<[k := Some x]> (chains g)).
Proof.
  intros H. unfold chain_put. rewrite (chain_at_live _ _ _ H). cbn [bind]. unfold vset.
  apply live_lt in H. destruct (Nat.ltb_spec k (length (chains g))); [reflexivity|lia].
Qed.

Lemma vget_board g i : (i < length (board g))%nat -> vget (board g) i = Ok (cell g i).
Proof.
  intros Hi. unfold vget, cell. destruct (lookup_lt_is_Some_2 (board g) i Hi) as [x ->]. reflexivity.
Qed.

Lemma vset_ok {A} (v : list A) i x : (i < length v)%nat -> vset v i x = Ok (<[i := x]> v).
Proof. intros H. unfold vset. destruct (Nat.ltb_spec i (length v)); [reflexivity|lia]. Qed.

(** circular lists *)
Fixpoint links (nx : list nat) (l : list nat) (fin : nat) : Prop :=
  match l with
  | [] => True
  | x :: t => nx !! x = Some (default fin (head t)) /\ links nx t fin
  end.

Lemma links_insert nx l fin x y : x ∉ l -> links nx l fin -> links (<[x := y]> nx) l fin.
Proof.
  induction l as [|a t IH]; intros Hx H; [exact I|]. cbn in *. apply not_elem_of_cons in Hx as [H1 H2].
  destruct H as [Ha Ht]. split; [|apply IH; assumption].
  rewrite list_lookup_insert_ne by congruence. exact Ha.
Qed.

Lemma links_app nx l1 l2 fin :
  links nx (l1 ++ l2) fin <-> links nx l1 (default fin (head l2)) /\ links nx l2 fin.
Proof.
  induction l1 as [|a t IH]; cbn; [tauto|]. rewrite IH.
  destruct t as [|b t]; cbn; tauto.
Qed.

Lemma links_relast nx l e fin fin' :
  NoDup (l ++ [e]) -> (e < length nx)%nat -> links nx (l ++ [e]) fin ->
  links (<[e := fin']> nx) (l ++ [e]) fin'.
Proof.
  intros Hnd He H. apply links_app in H as [H1 H2]. cbn in *.
  apply links_app. apply NoDup_app in Hnd as (_ & Hd & _).
  split.
  - cbn. apply links_insert; [|exact H1]. intros Hin. apply (Hd e Hin). left.
  - cbn. split; [|exact I]. apply list_lookup_insert. exact He.
Qed.

Lemma iter_from_links dbg nx o x t fuel :
  links nx (x :: t) o -> NoDup (x :: t) -> o ∉ t -> (length (x :: t) <= fuel)%nat ->
  iter_from fuel dbg nx o x = Ok (x :: t).
Proof.
  revert x fuel. induction t as [|y t IH]; intros x fuel Hl Hnd Ho Hf;
    destruct fuel as [|fuel]; try (cbn in Hf; lia).
  - cbn in *. destruct Hl as [Hx _]. unfold vget. rewrite Hx. cbn [unwrap bind].
    rewrite Nat.eqb_refl. reflexivity.
  - cbn [iter_from]. destruct Hl as [Hx Ht]. unfold vget. rewrite Hx. cbn [unwrap bind head default from_option].
    apply NoDup_cons in Hnd as [Hxy Hnd]. apply not_elem_of_cons in Ho as [Hoy Hot].
    apply not_elem_of_cons in Hxy as [Hxy _].
    cbn. destruct (Nat.eqb_spec y o); [congruence|]. destruct (Nat.eqb_spec y x); [congruence|].
    rewrite andb_false_r. rewrite (IH y fuel); [reflexivity|assumption..|cbn in *; lia].
Qed.

Record ring (nx : list nat) (grp : group) (l : list nat) : Prop := mkRing {
  ring_links : links nx l (g_origin grp);
  ring_head : head l = Some (g_origin grp);
  ring_last : last l = Some (g_last grp);
  ring_nodup : NoDup l;
  ring_num : length l = g_num_stones grp
}.

Lemma NoDup_bounded (l : list nat) m : NoDup l -> (forall i, i ∈ l -> (i < m)%nat) -> (length l <= m)%nat.
Proof.
  intros Hnd H. transitivity (length (seq 0 m)); [|rewrite seq_length; lia].
  apply submseteq_length, NoDup_submseteq; [exact Hnd|].
  intros i Hi. apply elem_of_seq. specialize (H i Hi). lia.
Qed.

Lemma ring_iter dbg nx grp l :
  ring nx grp l -> (forall i, i ∈ l -> (i < length nx)%nat) -> group_iter dbg grp nx = Ok l.
Proof.
  intros [Hl Hh Hla Hnd Hn] Hb. unfold group_iter. destruct l as [|x t]; [discriminate|].
  cbn in Hh. injection Hh as Hx.
  rewrite <- Hx in *. apply iter_from_links; [exact Hl|exact Hnd| |].
  - apply NoDup_cons in Hnd. apply Hnd.
  - pose proof (NoDup_bounded _ _ Hnd Hb). lia.
Qed.

Lemma ring_ext nx nx' grp l : ring nx grp l -> (forall i, i ∈ l -> nx' !! i = nx !! i) -> ring nx' grp l.
Proof.
  intros [Hl Hh Hla Hnd Hn] He. constructor; [|assumption..].
  clear Hh Hla Hnd Hn. revert Hl He. generalize (g_origin grp). induction l as [|a t IH]; intros o Hl He; [exact I|].
  cbn in *. destruct Hl as [H1 H2]. split; [rewrite He by left; exact H1|].
  apply IH; [exact H2|]. intros i Hi. apply He. right. exact Hi.
Qed.

Definition chain_wf (g : goban) (k : nat) (grp : group) : Prop :=
  bits_ok (g_liberties grp) /\
  exists l, ring (next_stone g) grp l /\ forall i, i ∈ l <-> cell g i = Some k.

Record wf0 (g : goban) : Prop := mkWf0 {
  wf0_board : length (board g) = 361%nat;
  wf0_next : length (next_stone g) = 361%nat;
  wf0_len : (N.of_nat (length (chains g)) <= 65535)%N;
  wf0_cell : forall i k, cell g i = Some k -> is_Some (live g k);
  wf0_chain : forall k grp, live g k = Some grp -> chain_wf g k grp
}.

Lemma wf0_cell_lt g i k : wf0 g -> cell g i = Some k -> (i < 361)%nat.
Proof. intros W H. apply cell_lt in H. rewrite (wf0_board g W) in H. exact H. Qed.

(** a loop over a walk that ends is a loop over the list of its stones *)
Lemma for_from_iter {S} dbg nx o (f : S -> nat -> res S) fuel fuel' : forall cur l s, (fuel <= fuel')%nat ->
  iter_from fuel dbg nx o cur = Ok l -> for_from fuel' dbg nx o cur f s = foldM f l s.
Proof.
  revert fuel'. induction fuel as [|fuel IH]; intros fuel' cur l s L H; [discriminate H|]. destruct fuel' as [|fuel']; [lia|].
  cbn [iter_from] in H. cbn [for_from]. destruct (vget nx cur) as [y| |]; [|discriminate H..]. cbn [bind] in *.
  destruct (y =? o)%nat.
  - injection H as <-. cbn [foldM]. destruct (f s cur); reflexivity.
  - destruct (dbg && _); [discriminate H|]. destruct (iter_from fuel dbg nx o y) as [t| |] eqn:E; [|discriminate H..]. injection H as <-.
    cbn [foldM]. destruct (f s cur) as [s'| |]; [|reflexivity..]. cbn [bind]. apply (IH fuel' y t s'); [lia|exact E].
Qed.
Lemma group_for_iter {S} dbg grp nx (f : S -> nat -> res S) l s :
  group_iter dbg grp nx = Ok l -> group_for dbg grp nx f s = foldM f l s.
Proof. intros H. unfold group_for. eapply for_from_iter; [|exact H]. lia. Qed.

(** a loop that ends has walked along some list *)
Lemma for_from_inv {S} dbg nx o (f : S -> nat -> res S) fuel : forall cur s s',
  for_from fuel dbg nx o cur f s = Ok s' -> exists l, iter_from fuel dbg nx o cur = Ok l /\ foldM f l s = Ok s'.
Proof.
  induction fuel as [|fuel IH]; intros cur s s' H; [discriminate H|]. cbn [for_from] in H. cbn [iter_from].
  destruct (vget nx cur) as [y| |]; [|discriminate H..]. cbn [bind] in *. destruct (y =? o)%nat.
  - exists [cur]. split; [reflexivity|]. cbn [foldM]. rewrite H. reflexivity.
  - destruct (dbg && _); [discriminate H|]. destruct (f s cur) as [s1| |] eqn:E; [|discriminate H..]. cbn [bind] in H.
    destruct (IH y s1 s' H) as (l & El & Fl). exists (cur :: l). rewrite El. split; [reflexivity|]. cbn [foldM]. rewrite E. exact Fl.
Qed.

Lemma wf0_iter dbg g k grp l :
  wf0 g -> ring (next_stone g) grp l -> (forall i, i ∈ l <-> cell g i = Some k) ->
  group_iter dbg grp (next_stone g) = Ok l.
Proof.
  intros W R Hm. apply ring_iter; [exact R|]. intros i Hi. rewrite (wf0_next g W).
  apply Hm in Hi. eapply wf0_cell_lt; eassumption.
Qed.

Lemma nonmax_ok k : (N.of_nat k < 65535)%N -> nonmax_u16 k = Ok k.
Proof.
  intros H. unfold nonmax_u16. rewrite N.mod_small by lia.
  destruct (N.eqb_spec (N.of_nat k) 65535); [lia|]. f_equal. lia.
Qed.

Lemma nonmax_full k : (N.of_nat k = 65535)%N -> nonmax_u16 k = Panic.
Proof. intros H. unfold nonmax_u16. rewrite H. reflexivity. Qed.

(** writing a group number on the stones of a list *)
Lemma paint_spec k (l : list nat) (b : list (option nat)) :
  (N.of_nat k < 65535)%N -> (forall i, i ∈ l -> (i < length b)%nat) ->
  exists b', foldM (fun b p => let! k' := nonmax_u16 k in vset b p (Some k')) l b = Ok b' /\
    length b' = length b /\
    forall j, b' !! j = if decide (j ∈ l) then Some (Some k) else b !! j.
Proof.
  intros Hk. revert b. induction l as [|x t IH]; intros b Hb.
  - exists b. split; [reflexivity|]. split; [reflexivity|]. intros j.
    destruct (decide (j ∈ [])) as [E|E]; [apply elem_of_nil in E; destruct E|reflexivity].
  - cbn [foldM]. rewrite nonmax_ok by exact Hk. cbn [bind].
    rewrite vset_ok by (apply Hb; left). cbn [bind].
    destruct (IH (<[x := Some k]> b)) as (b' & E & Hl & Hj).
    { intros i Hi. rewrite insert_length. apply Hb. right. exact Hi. }
    rewrite nonmax_ok in E by exact Hk. cbn [bind] in E.
    exists b'. split; [exact E|]. rewrite insert_length in Hl. split; [exact Hl|].
    intros j. rewrite Hj. destruct (decide (j ∈ t)) as [Et|Et].
    + destruct (decide (j ∈ x :: t)) as [E2|E2]; [reflexivity|]. destruct E2. right. exact Et.
    + destruct (decide (j = x)) as [->|Hne].
      * rewrite list_lookup_insert by (apply Hb; left).
        destruct (decide (x ∈ x :: t)) as [E2|E2]; [reflexivity|]. destruct E2. left.
      * rewrite list_lookup_insert_ne by congruence.
        destruct (decide (j ∈ x :: t)) as [E2|E2]; [|reflexivity].
        apply elem_of_cons in E2 as [|]; contradiction.
Qed.

Lemma paint_full k x (l : list nat) (b : list (option nat)) :
  (N.of_nat k = 65535)%N ->
  foldM (fun b p => let! k' := nonmax_u16 k in vset b p (Some k')) (x :: l) b = Panic.
Proof. intros Hk. cbn [foldM]. rewrite nonmax_full by exact Hk. reflexivity. Qed.

Lemma update_spec dbg g k grp l :
  live g k = Some grp -> ring (next_stone g) grp l ->
  length (board g) = 361%nat -> length (next_stone g) = 361%nat ->
  (forall i, i ∈ l -> (i < 361)%nat) -> (N.of_nat k < 65535)%N ->
  exists b, update_chain_indexes_in_board dbg g k = Ok (with_board g b) /\
    length b = 361%nat /\
    forall j, b !! j = if decide (j ∈ l) then Some (Some k) else board g !! j.
Proof.
  intros Hk R Lb Ln Hb Hk'. unfold update_chain_indexes_in_board.
  rewrite (chain_at_live _ _ _ Hk). cbn [bind].
  assert (Hi : group_iter dbg grp (next_stone g) = Ok l).
  { apply ring_iter; [exact R|]. rewrite Ln. exact Hb. }
  rewrite (group_for_iter _ _ _ _ _ _ Hi). rewrite Hi. cbn [bind]. rewrite (ring_last _ _ _ R). cbn [unwrap bind]. rewrite Nat.eqb_refl.
  destruct (paint_spec k l (board g) Hk') as (b & E & Hlen & Hj); [rewrite Lb; exact Hb|].
  rewrite E. exists b. split; [destruct dbg; reflexivity|]. split; [congruence|exact Hj].
Qed.

Lemma update_full dbg g k grp l :
  live g k = Some grp -> ring (next_stone g) grp l ->
  length (next_stone g) = 361%nat ->
  (forall i, i ∈ l -> (i < 361)%nat) -> (N.of_nat k = 65535)%N ->
  update_chain_indexes_in_board dbg g k = Panic.
Proof.
  intros Hk R Ln Hb Hk'. unfold update_chain_indexes_in_board.
  rewrite (chain_at_live _ _ _ Hk). cbn [bind].
  assert (Hi : group_iter dbg grp (next_stone g) = Ok l).
  { apply ring_iter; [exact R|]. rewrite Ln. exact Hb. }
  rewrite (group_for_iter _ _ _ _ _ _ Hi). rewrite Hi. cbn [bind]. rewrite (ring_last _ _ _ R). cbn [unwrap bind]. rewrite Nat.eqb_refl.
  destruct l as [|x t]; [destruct R; discriminate|].
  rewrite paint_full by exact Hk'. destruct dbg; reflexivity.
Qed.

Lemma live_put g k x k' cs :
  (k < length (chains g))%nat -> cs = <[k := x]> (chains g) ->
  mjoin (cs !! k') = if decide (k' = k) then x else live g k'.
Proof.
  intros Hk ->. destruct (decide (k' = k)) as [->|Hne].
  - rewrite list_lookup_insert by exact Hk. destruct x; reflexivity.
  - rewrite list_lookup_insert_ne by congruence. reflexivity.
Qed.

(** [create_chain] *)
Lemma create_spec dbg g i c libs :
  wf0 g -> (i < 361)%nat -> cell g i = None -> Forall (fun j => (j < 368)%nat) libs ->
  (create_chain dbg g i c libs = Panic /\ (N.of_nat (length (chains g)) = 65535)%N) \/
  exists g' grp,
    (N.of_nat (length (chains g)) < 65535)%N /\
    create_chain dbg g i c libs = Ok (g', length (chains g)) /\
    wf0 g' /\ gsize g' = gsize g /\ zobrist_hash g' = zobrist_hash g /\
    length (chains g') = S (length (chains g)) /\
    (forall j, cell g' j = if decide (j = i) then Some (length (chains g)) else cell g j) /\
    (forall k, live g' k = if decide (k = length (chains g)) then Some grp else live g k) /\
    g_color grp = c /\ (forall j, lbit (g_liberties grp) j = true <-> j ∈ libs).
Proof.
  intros W Hi Hc Hlibs.
  destruct (lib_set_all EMPTY_LIBERTIES libs bits_ok_empty Hlibs) as (bits & Eb & Hbits & Bbits).
  set (grp := new_with_liberties c i bits).
  set (K := length (chains g)).
  set (nx := <[i := i]> (next_stone g)).
  set (g1 := with_chains (with_next g nx) (chains g ++ [Some grp])).
  assert (Lnx : length nx = 361%nat) by (unfold nx; rewrite insert_length; apply (wf0_next g W)).
  assert (Hcreate : create_chain dbg g i c libs =
    let! g' := update_chain_indexes_in_board dbg g1 K in Ok (g', K)).
  { unfold create_chain. rewrite Eb. cbn [bind].
    rewrite vset_ok by (rewrite (wf0_next g W); exact Hi). reflexivity. }
  assert (Hlive1 : forall k, live g1 k = if decide (k = K) then Some grp else live g k).
  { intros k. unfold live at 1. cbn [g1 chains with_chains].
    destruct (decide (k = K)) as [->|Hne].
    - rewrite lookup_app_r by (unfold K; lia). unfold K. rewrite Nat.sub_diag. reflexivity.
    - destruct (decide (k < K)%nat).
      + rewrite lookup_app_l by (unfold K in *; lia). reflexivity.
      + rewrite lookup_ge_None_2 by (rewrite app_length; cbn; unfold K in *; lia).
        unfold live. rewrite lookup_ge_None_2 by (unfold K in *; lia). reflexivity. }
  assert (Hk1 : live g1 K = Some grp) by (rewrite Hlive1; destruct (decide _); congruence).
  assert (R1 : ring nx grp [i]).
  { constructor; cbn.
    - split; [|exact I]. apply list_lookup_insert. rewrite (wf0_next g W). exact Hi.
    - reflexivity.
    - reflexivity.
    - apply NoDup_singleton.
    - reflexivity. }
  assert (Hmem : forall j, j ∈ [i] -> (j < 361)%nat).
  { intros j Hj. apply elem_of_list_singleton in Hj. lia. }
  pose proof (wf0_len g W) as Hlen.
  destruct (decide (N.of_nat K < 65535)%N) as [HK|HK].
  - right.
    destruct (update_spec dbg g1 K grp [i] Hk1 R1 (wf0_board g W) Lnx Hmem HK) as (b & Eu & Lb & Hb).
    exists (with_board g1 b), grp. split; [exact HK|].
    split; [rewrite Hcreate, Eu; reflexivity|].
    assert (Hcell : forall j, cell (with_board g1 b) j = if decide (j = i) then Some K else cell g j).
    { intros j. unfold cell at 1. cbn [board with_board]. rewrite Hb.
      destruct (decide (j ∈ [i])) as [E|E]; destruct (decide (j = i)) as [E'|E'].
      - reflexivity.
      - apply elem_of_list_singleton in E. contradiction.
      - subst. destruct E. apply elem_of_list_singleton. reflexivity.
      - reflexivity. }
    assert (Hnew : forall j, cell g j <> Some K).
    { intros j Hj. destruct (wf0_cell g W _ _ Hj) as [x Hx]. apply live_lt in Hx. unfold K in Hx. lia. }
    assert (Hlive2 : forall k, live (with_board g1 b) k = if decide (k = K) then Some grp else live g k)
      by exact Hlive1.
    split; [|repeat split].
    + constructor.
      * exact Lb.
      * exact Lnx.
      * cbn. rewrite app_length. cbn. unfold K in HK. lia.
      * intros j k Hj. rewrite Hcell in Hj. rewrite Hlive2.
        destruct (decide (k = K)); [eauto|]. destruct (decide (j = i)); [congruence|].
        eapply wf0_cell; eassumption.
      * intros k gr Hkg. rewrite Hlive2 in Hkg. destruct (decide (k = K)) as [->|Hne].
        -- injection Hkg as <-. split; [exact Hbits|]. exists [i]. split; [exact R1|].
           intros j. rewrite elem_of_list_singleton, Hcell. destruct (decide (j = i)).
           ++ tauto.
           ++ split; [congruence|]. intros Hx. destruct (Hnew _ Hx).
        -- destruct (wf0_chain g W k gr Hkg) as [Hbo (l & R & Hm)]. split; [exact Hbo|].
           exists l. split.
           ++ eapply ring_ext; [exact R|]. intros j Hj. cbn. unfold nx.
              rewrite list_lookup_insert_ne; [reflexivity|]. intros <-. apply Hm in Hj. congruence.
           ++ intros j. rewrite Hm, Hcell. destruct (decide (j = i)) as [->|]; [|reflexivity].
              split; congruence.
    + cbn. rewrite app_length. cbn. lia.
    + exact Hcell.
    + exact Hlive2.
    + cbn. rewrite Bbits, lbit_empty. intuition congruence.
    + cbn. rewrite Bbits. tauto.
  - left. unfold K in HK. split; [|lia].
    rewrite Hcreate. rewrite (update_full dbg g1 K grp [i] Hk1 R1 Lnx Hmem); [reflexivity|].
    unfold K. lia.
Qed.

(** [add_stone_to_chain] followed by the update of the board cell *)
Lemma add_stone_spec dbg g k grp i :
  wf0 g -> live g k = Some grp -> (i < 361)%nat -> cell g i = None ->
  exists g1 grp',
    add_stone_to_chain dbg g k i = Ok g1 /\
    board g1 = board g /\ gsize g1 = gsize g /\ zobrist_hash g1 = zobrist_hash g /\
    length (chains g1) = length (chains g) /\
    wf0 (with_board g1 (<[i := Some k]> (board g1))) /\
    (forall k', live g1 k' = if decide (k' = k) then Some grp' else live g k') /\
    g_color grp' = g_color grp /\ g_liberties grp' = g_liberties grp.
Proof.
  intros W Hk Hi Hc. destruct (wf0_chain g W k grp Hk) as [Hbo (l & R & Hm)].
  assert (Hil : i ∉ l) by (intros H; apply Hm in H; congruence).
  assert (Hl361 : forall j, j ∈ l -> (j < 361)%nat) by (intros j Hj; apply Hm in Hj; eapply wf0_cell_lt; eassumption).
  pose proof (NoDup_bounded _ _ (ring_nodup _ _ _ R) Hl361) as Hcount.
  pose proof (ring_last _ _ _ R) as Hlast.
  assert (exists l0, l = l0 ++ [g_last grp]) as [l0 Hl0] by (apply last_Some in Hlast; exact Hlast).
  assert (Hlastin : g_last grp ∈ l) by (rewrite Hl0; apply elem_of_app; right; left).
  assert (Hlast361 : (g_last grp < 361)%nat) by auto.
  assert (Hne : g_last grp <> i) by (intros E; rewrite E in Hlastin; contradiction).
  pose proof (ring_head _ _ _ R) as Hhead.
  assert (exists t, l = g_origin grp :: t) as [t Ht].
  { destruct l; [discriminate|]. cbn in Hhead. injection Hhead as ->. eauto. }
  assert (Hnum : u16_add dbg (g_num_stones grp) 1 = Ok (g_num_stones grp + 1)%nat).
  { unfold u16_add. rewrite <- (ring_num _ _ _ R). destruct (N.ltb_spec (N.of_nat (length l + 1)) 65536); [reflexivity|lia]. }
  pose proof (wf0_next g W) as Ln.
  pose proof (ring_links _ _ _ R) as Hlk. pose proof (ring_nodup _ _ _ R) as Hnd.
  assert (exists nx origin lst l', 
     (if (i <? g_origin grp)%nat then
       let! nx := vset (next_stone g) i (g_origin grp) in
       let! nx := vset nx (g_last grp) i in
       Ok (nx, i, g_last grp)
     else
       let! nx := vset (next_stone g) (g_last grp) i in
       let! nx := vset nx i (g_origin grp) in
       Ok (nx, g_origin grp, i)) = Ok (nx, origin, lst) /\
     length nx = 361%nat /\
     ring nx (mkGroup (g_color grp) origin lst (g_liberties grp) (g_num_stones grp + 1)) l' /\
     (forall j, j ∈ l' <-> j = i \/ j ∈ l) /\
     (forall j, j ∉ l -> j <> i -> nx !! j = next_stone g !! j)) as
    (nx & origin & lst & l' & Eif & Lnx & R' & Hl' & Hsame).
  { destruct (i <? g_origin grp)%nat.
    - exists (<[g_last grp := i]> (<[i := g_origin grp]> (next_stone g))), i, (g_last grp), (i :: l).
      rewrite vset_ok by lia. cbn [bind]. rewrite vset_ok by (rewrite insert_length; lia).
      split; [reflexivity|]. split; [rewrite !insert_length; exact Ln|]. split; [|split].
      + constructor; cbn.
        * split.
          -- rewrite list_lookup_insert_ne by congruence. rewrite list_lookup_insert by lia.
             rewrite Hhead. reflexivity.
          -- rewrite Hl0 in *. eapply links_relast; [exact Hnd|rewrite insert_length; lia|].
             apply links_insert; [exact Hil|exact Hlk].
        * reflexivity.
        * rewrite last_cons, Hlast. reflexivity.
        * apply NoDup_cons. split; assumption.
        * rewrite (ring_num _ _ _ R). lia.
      + intros j. rewrite elem_of_cons. tauto.
      + intros j Hj Hji. rewrite !list_lookup_insert_ne by congruence. reflexivity.
    - exists (<[i := g_origin grp]> (<[g_last grp := i]> (next_stone g))), (g_origin grp), i, (l ++ [i]).
      rewrite vset_ok by lia. cbn [bind]. rewrite vset_ok by (rewrite insert_length; lia).
      split; [reflexivity|]. split; [rewrite !insert_length; exact Ln|]. split; [|split].
      + constructor; cbn.
        * apply links_app. cbn. split.
          -- apply links_insert; [exact Hil|]. rewrite Hl0 in *.
             eapply links_relast; [exact Hnd|lia|exact Hlk].
          -- split; [|exact I]. apply list_lookup_insert. rewrite insert_length. lia.
        * rewrite Ht. reflexivity.
        * apply last_snoc.
        * apply NoDup_app. split; [exact Hnd|]. split; [|apply NoDup_singleton].
          intros x Hx Hx'. apply elem_of_list_singleton in Hx'. subst. contradiction.
        * rewrite app_length, (ring_num _ _ _ R). reflexivity.
      + intros j. rewrite elem_of_app, elem_of_list_singleton. tauto.
      + intros j Hj Hji. rewrite !list_lookup_insert_ne by congruence. reflexivity. }
  set (grp' := mkGroup (g_color grp) origin lst (g_liberties grp) (g_num_stones grp + 1)) in *.
  set (cs := <[k := Some grp']> (chains g)).
  set (g1 := with_chains (with_next g nx) cs).
  assert (Hl'361 : forall j, j ∈ l' -> (j < 361)%nat).
  { intros j Hj. apply Hl' in Hj as [->|Hj]; auto. }
  assert (Hklt : (k < length (chains g))%nat) by (eapply live_lt; exact Hk).
  assert (Hlive : forall k', live g1 k' = if decide (k' = k) then Some grp' else live g k').
  { intros k'. unfold live at 1. apply live_put; [exact Hklt|reflexivity]. }
  exists g1, grp'. split.
  { unfold add_stone_to_chain. rewrite (chain_at_live _ _ _ Hk). cbn [bind]. rewrite Eif. cbn [bind].
    rewrite Hnum. cbn [bind]. fold grp'. rewrite (chain_put_live _ _ _ _ Hk). cbn [bind]. fold cs. fold g1.
    replace (next_stone g1) with nx by reflexivity.
    rewrite (ring_iter dbg nx grp' l' R') by (rewrite Lnx; exact Hl'361). cbn [bind].
    rewrite (ring_last _ _ _ R'). cbn [unwrap bind]. rewrite Nat.eqb_refl. destruct dbg; reflexivity. }
  split; [reflexivity|]. split; [reflexivity|]. split; [reflexivity|].
  split; [cbn; unfold cs; apply insert_length|].
  split; [|split; [exact Hlive|split; reflexivity]].
  set (g2 := with_board g1 (<[i := Some k]> (board g1))).
  assert (Hcell : forall j, cell g2 j = if decide (j = i) then Some k else cell g j).
  { intros j. unfold cell at 1, g2. cbn. destruct (decide (j = i)) as [->|Hji].
    - rewrite list_lookup_insert by (rewrite (wf0_board g W); lia). reflexivity.
    - rewrite list_lookup_insert_ne by congruence. reflexivity. }
  constructor.
  - cbn. rewrite insert_length. apply (wf0_board g W).
  - exact Lnx.
  - cbn. unfold cs. rewrite insert_length. apply (wf0_len g W).
  - intros j k' Hj. change (live g2 k') with (live g1 k'). rewrite Hlive.
    destruct (decide (k' = k)); [eauto|]. rewrite Hcell in Hj. destruct (decide (j = i)); [congruence|].
    eapply wf0_cell; eassumption.
  - intros k' gr Hk'. change (live g2 k') with (live g1 k') in Hk'. rewrite Hlive in Hk'.
    destruct (decide (k' = k)) as [->|Hkk].
    + injection Hk' as <-. split; [exact Hbo|]. exists l'. split; [exact R'|].
      intros j. rewrite Hl', Hcell, Hm. destruct (decide (j = i)); [tauto|]. intuition congruence.
    + destruct (wf0_chain g W k' gr Hk') as [Hbo' (l2 & R2 & Hm2)]. split; [exact Hbo'|].
      exists l2. split.
      * eapply ring_ext; [exact R2|]. intros j Hj. apply Hm2 in Hj. cbn. apply Hsame.
        -- intros Hj'. apply Hm in Hj'. congruence.
        -- congruence.
      * intros j. rewrite Hm2, Hcell. destruct (decide (j = i)) as [->|]; [|reflexivity].
        split; congruence.
Qed.

(** [merge_strings] *)
Lemma merge_spec dbg g k1 k2 c1 c2 :
  wf0 g -> live g k1 = Some c1 -> live g k2 = Some c2 -> g_color c1 = g_color c2 -> k1 <> k2 ->
  exists g' grp,
    merge_strings dbg g k1 k2 = Ok g' /\
    wf0 g' /\ gsize g' = gsize g /\ zobrist_hash g' = zobrist_hash g /\
    length (chains g') = length (chains g) /\
    (forall j, cell g' j = if decide (cell g j = Some k2) then Some k1 else cell g j) /\
    (forall k, live g' k = if decide (k = k1) then Some grp
                           else if decide (k = k2) then None else live g k) /\
    g_color grp = g_color c1 /\
    (forall j, lbit (g_liberties grp) j = lbit (g_liberties c1) j || lbit (g_liberties c2) j).
Proof.
  intros W Hk1 Hk2 Hcol Hkk.
  destruct (wf0_chain g W k1 c1 Hk1) as [Hbo1 (l1 & R1 & Hm1)].
  destruct (wf0_chain g W k2 c2 Hk2) as [Hbo2 (l2 & R2 & Hm2)].
  destruct (lib_merge_spec _ _ Hbo1 Hbo2) as [Hbo Hbits].
  assert (Hdisj : forall j, j ∈ l1 -> j ∈ l2 -> False).
  { intros j H1 H2. apply Hm1 in H1. apply Hm2 in H2. congruence. }
  assert (H1_361 : forall j, j ∈ l1 -> (j < 361)%nat) by (intros j Hj; apply Hm1 in Hj; eapply wf0_cell_lt; eassumption).
  assert (H2_361 : forall j, j ∈ l2 -> (j < 361)%nat) by (intros j Hj; apply Hm2 in Hj; eapply wf0_cell_lt; eassumption).
  pose proof (wf0_next g W) as Ln.
  destruct R1 as [Lk1 Hh1 Hla1 Hnd1 Hnu1]. destruct R2 as [Lk2 Hh2 Hla2 Hnd2 Hnu2].
  set (e1 := g_last c1) in *. set (e2 := g_last c2) in *.
  set (o1 := g_origin c1) in *. set (o2 := g_origin c2) in *.
  assert (exists t1, l1 = t1 ++ [e1]) as [t1 Ht1] by (apply last_Some in Hla1; exact Hla1).
  assert (exists t2, l2 = t2 ++ [e2]) as [t2 Ht2] by (apply last_Some in Hla2; exact Hla2).
  assert (He1 : e1 ∈ l1) by (rewrite Ht1; apply elem_of_app; right; left).
  assert (He2 : e2 ∈ l2) by (rewrite Ht2; apply elem_of_app; right; left).
  assert (Hne : e1 <> e2) by (intros E; rewrite E in He1; eauto).
  assert (He1b : (e1 < 361)%nat) by auto. assert (He2b : (e2 < 361)%nat) by auto.
  assert (Nx1 : next_stone g !! e1 = Some o1).
  { rewrite Ht1 in Lk1. apply links_app in Lk1 as [_ Lk1]. cbn in Lk1. apply Lk1. }
  assert (Nx2 : next_stone g !! e2 = Some o2).
  { rewrite Ht2 in Lk2. apply links_app in Lk2 as [_ Lk2]. cbn in Lk2. apply Lk2. }
  set (nx := <[e2 := o1]> (<[e1 := o2]> (next_stone g))).
  assert (Lnx : length nx = 361%nat) by (unfold nx; rewrite !insert_length; exact Ln).
  assert (Hswap : vswap (next_stone g) e1 e2 = Ok nx).
  { unfold vswap, vget. rewrite Nx1, Nx2. cbn [unwrap bind]. rewrite vset_ok by lia. cbn [bind].
    rewrite vset_ok by (rewrite insert_length; lia). reflexivity. }
  assert (Lk1' : links nx l1 o2).
  { unfold nx. apply links_insert; [intros H; eauto|]. rewrite Ht1 in *.
    eapply links_relast; [exact Hnd1|lia|exact Lk1]. }
  assert (Lk2' : links nx l2 o1).
  { unfold nx. rewrite Ht2 in *. eapply links_relast; [exact Hnd2|rewrite insert_length; lia|].
    apply links_insert; [|exact Lk2]. intros H. apply (Hdisj e1); assumption. }
  set (pr := if (o2 <? o1)%nat then (o2, e1) else (o1, e2)).
  set (grp := mkGroup (g_color c1) (fst pr) (snd pr) (lib_merge (g_liberties c1) (g_liberties c2))
                      (g_num_stones c1 + g_num_stones c2)).
  assert (exists l, ring nx grp l /\ forall j, j ∈ l <-> j ∈ l1 \/ j ∈ l2) as (l & R & Hl).
  { unfold grp, pr. destruct (o2 <? o1)%nat.
    - exists (l2 ++ l1). split; [|intros j; rewrite elem_of_app; tauto]. constructor; cbn [g_origin g_last g_num_stones fst snd].
      + apply links_app. rewrite Hh1. split; assumption.
      + destruct l2; [discriminate|]. exact Hh2.
      + rewrite last_app, Hla1. reflexivity.
      + apply NoDup_app. split; [exact Hnd2|]. split; [|exact Hnd1]. intros x Hx Hx'. eauto.
      + rewrite app_length. lia.
    - exists (l1 ++ l2). split; [|intros j; rewrite elem_of_app; tauto]. constructor; cbn [g_origin g_last g_num_stones fst snd].
      + apply links_app. rewrite Hh2. split; assumption.
      + destruct l1; [discriminate|]. exact Hh1.
      + rewrite last_app, Hla2. reflexivity.
      + apply NoDup_app. split; [exact Hnd1|]. split; [|exact Hnd2]. intros x Hx Hx'. eauto.
      + rewrite app_length. lia. }
  assert (Hl361 : forall j, j ∈ l -> (j < 361)%nat) by (intros j Hj; apply Hl in Hj as [Hj|Hj]; auto).
  assert (Hnum : u16_add dbg (g_num_stones c1) (g_num_stones c2) = Ok (g_num_stones c1 + g_num_stones c2)%nat).
  { unfold u16_add. pose proof (NoDup_bounded _ _ (ring_nodup _ _ _ R) Hl361) as Hc.
    pose proof (ring_num _ _ _ R) as Hn. cbn in Hn.
    destruct (N.ltb_spec (N.of_nat (g_num_stones c1 + g_num_stones c2)) 65536); [reflexivity|lia]. }
  set (cs := <[k1 := Some grp]> (chains g)).
  set (g1 := with_chains (with_next g nx) cs).
  assert (Hk1lt : (k1 < length (chains g))%nat) by (eapply live_lt; exact Hk1).
  assert (Hk2lt : (k2 < length (chains g))%nat) by (eapply live_lt; exact Hk2).
  assert (Hlive1 : forall k', live g1 k' = if decide (k' = k1) then Some grp else live g k').
  { intros k'. unfold live at 1. apply live_put; [exact Hk1lt|reflexivity]. }
  assert (HkN : (N.of_nat k1 < 65535)%N) by (pose proof (wf0_len g W); lia).
  destruct (update_spec dbg g1 k1 grp l) as (b & Eu & Lb & Hb);
    [rewrite Hlive1; destruct (decide _); congruence|exact R|apply (wf0_board g W)|exact Lnx|exact Hl361|exact HkN|].
  set (cs' := <[k2 := None]> cs).
  set (g' := with_chains (with_board g1 b) cs').
  assert (Hcell : forall j, cell g' j = if decide (cell g j = Some k2) then Some k1 else cell g j).
  { intros j. unfold cell at 1. cbn [g' board with_chains with_board]. rewrite Hb.
    destruct (decide (j ∈ l)) as [Hj|Hj].
    - cbn. apply Hl in Hj as [Hj|Hj]; [apply Hm1 in Hj|apply Hm2 in Hj]; rewrite Hj;
        destruct (decide _); congruence.
    - fold (cell g j). change (board g1 !! j) with (board g !! j). fold (cell g j).
      destruct (decide (cell g j = Some k2)) as [E|E]; [|reflexivity].
      destruct Hj. apply Hl. right. apply Hm2, E. }
  assert (Hlive : forall k, live g' k = if decide (k = k1) then Some grp
                           else if decide (k = k2) then None else live g k).
  { intros k. unfold live at 1. cbn [g' chains with_chains]. unfold cs'.
    destruct (decide (k = k2)) as [->|Hne2].
    - rewrite list_lookup_insert by (unfold cs; rewrite insert_length; exact Hk2lt). cbn.
      destruct (decide (k2 = k1)); [congruence|reflexivity].
    - rewrite list_lookup_insert_ne by congruence. apply Hlive1. }
  exists g', grp. split.
  { unfold merge_strings. rewrite (chain_at_live _ _ _ Hk1), (chain_at_live _ _ _ Hk2). cbn [bind].
    rewrite Hcol. replace (color_eqb (g_color c2) (g_color c2)) with true by (destruct (g_color c2); reflexivity).
    cbn [assert_ bind]. destruct (Nat.eqb_spec k1 k2); [congruence|]. cbn [negb assert_ bind].
    fold o1 o2 e1 e2. fold pr.
    assert (Epr : (if (o2 <? o1)%nat then (o2, e1) else (o1, e2)) = (fst pr, snd pr)) by (unfold pr; destruct (o2 <? o1)%nat; reflexivity).
    rewrite (surjective_pairing pr). rewrite Hswap. cbn [bind]. rewrite Hnum. cbn [bind].
    rewrite <- Hcol. fold grp. rewrite (chain_put_live _ _ _ _ Hk1). cbn [bind]. fold cs. fold g1.
    rewrite Eu. cbn [bind]. unfold chains_remove. rewrite vset_ok by (cbn; unfold cs; rewrite insert_length; exact Hk2lt).
    reflexivity. }
  split; [|repeat split].
  - constructor.
    + exact Lb.
    + exact Lnx.
    + cbn. unfold cs', cs. rewrite !insert_length. apply (wf0_len g W).
    + intros j k Hj. rewrite Hlive. rewrite Hcell in Hj.
      destruct (decide (k = k1)); [eauto|]. destruct (decide (cell g j = Some k2)); [congruence|].
      destruct (decide (k = k2)); [congruence|]. eapply wf0_cell; eassumption.
    + intros k gr Hk. rewrite Hlive in Hk. destruct (decide (k = k1)) as [->|Hn1].
      * injection Hk as <-. split; [exact Hbo|]. exists l. split; [exact R|].
        intros j. rewrite Hl, Hm1, Hm2, Hcell. destruct (decide (cell g j = Some k2)); intuition congruence.
      * destruct (decide (k = k2)) as [->|Hn2]; [discriminate|].
        destruct (wf0_chain g W k gr Hk) as [Hbo' (l' & R' & Hm')]. split; [exact Hbo'|].
        exists l'. split.
        -- eapply ring_ext; [exact R'|]. intros j Hj. apply Hm' in Hj. cbn. unfold nx.
           rewrite !list_lookup_insert_ne; [reflexivity| |].
           ++ intros <-. apply Hm1 in He1. congruence.
           ++ intros <-. apply Hm2 in He2. congruence.
        -- intros j. rewrite Hm', Hcell. destruct (decide (cell g j = Some k2)); intuition congruence.
  - cbn. unfold cs', cs. rewrite !insert_length. reflexivity.
  - exact Hcell.
  - exact Hlive.
  - exact Hbits.
Qed.

(** debug-build integrity check *)
Lemma integrity_ok dbg g : wf0 g -> check_integrity_all dbg g = Ok tt.
Proof.
  intros W. unfold check_integrity_all.
  assert (H : forall ks, foldM (fun (_ : unit) k => match chains g !! k with
                    | Some (Some _) => check_integrity_ren dbg g k
                    | _ => Ok tt
                    end) ks tt = Ok tt).
  { induction ks as [|k ks IH]; [reflexivity|]. cbn [foldM].
    destruct (chains g !! k) as [[grp|]|] eqn:E; [|exact IH|exact IH].
    assert (Hk : live g k = Some grp) by (apply live_lookup; exact E).
    destruct (wf0_chain g W k grp Hk) as [Hbo (l & R & Hm)].
    assert (Hl361 : forall j, j ∈ l -> (j < 361)%nat) by (intros j Hj; apply Hm in Hj; eapply wf0_cell_lt; eassumption).
    pose proof (NoDup_bounded _ _ (ring_nodup _ _ _ R) Hl361) as Hc.
    unfold check_integrity_ren. rewrite (chain_at_live _ _ _ Hk). cbn [bind].
    rewrite (wf0_iter dbg g k grp l W R Hm). cbn [bind].
    rewrite (ring_head _ _ _ R), (ring_last _ _ _ R). cbn [unwrap bind]. rewrite !Nat.eqb_refl. cbn [assert_ bind].
    rewrite (ring_num _ _ _ R) in *. rewrite N.mod_small by lia. rewrite N.eqb_refl. cbn [assert_ bind]. exact IH. }
  apply H.
Qed.
