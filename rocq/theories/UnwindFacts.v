(** The functions of Unwind.v answer as those of Goban.v and Game.v do. *)
From Verif Require Import Unwind.
Local Open Scope nat_scope.

(** [m] answers as [f]: the same outcome, and the same value afterwards when it
    returns *)
Definition follows {S A} (m : mut S A) (f : S -> res (S * A)) : Prop :=
  forall s, match f s with
            | Ok (s', a) => m s = (s', Ok a)
            | Panic => snd (m s) = Panic
            | Diverge => snd (m s) = Diverge
            end.

Lemma follows_ext {S A} (m : mut S A) f f' : follows m f -> (forall s, f' s = f s) -> follows m f'.
Proof. intros H E s. rewrite E. apply H. Qed.

Lemma follows_bind {S A B} (m : mut S A) (k : A -> mut S B) f h :
  follows m f -> (forall a, follows (k a) (h a)) ->
  follows (mbind m k) (fun s => let! '(s', a) := f s in h a s').
Proof.
  intros Hm Hk s. unfold mbind. specialize (Hm s).
  destruct (f s) as [[s' a]| |]; cbn [bind]; destruct (m s) as [s1 r]; cbn [snd] in Hm.
  - injection Hm as -> ->. apply Hk.
  - rewrite Hm. reflexivity.
  - rewrite Hm. reflexivity.
Qed.

Lemma follows_reads {S A} (f : S -> res A) : follows (reads f) (fun s => let! a := f s in Ok (s, a)).
Proof. intros s. unfold reads. destruct (f s); reflexivity. Qed.

Lemma follows_writes {S} (f : S -> res S) : follows (writes f) (fun s => let! s' := f s in Ok (s', tt)).
Proof. intros s. unfold writes. destruct (f s); reflexivity. Qed.

Lemma follows_ret {S A} (a : A) : follows (mret a : mut S A) (fun s => Ok (s, a)).
Proof. intros s. reflexivity. Qed.

Lemma mbind_reads {S A B} (f : S -> res A) (k : A -> mut S B) s :
  mbind (reads f) k s = match f s with Ok a => k a s | Panic => (s, Panic) | Diverge => (s, Diverge) end.
Proof. reflexivity. Qed.
Lemma mbind_writes {S B} (f : S -> res S) (k : unit -> mut S B) s :
  mbind (writes f) k s = match f s with Ok s' => k tt s' | Panic => (s, Panic) | Diverge => (s, Diverge) end.
Proof. unfold mbind, writes. destruct (f s); reflexivity. Qed.
Lemma mbind_ret {S A B} (a : A) (k : A -> mut S B) s : mbind (mret a) k s = k a s.
Proof. reflexivity. Qed.
Lemma mbind_mbind {S A B C} (m : mut S A) (k : A -> mut S B) (l : B -> mut S C) s :
  mbind (mbind m k) l s = mbind m (fun a => mbind (k a) l) s.
Proof. unfold mbind. destruct (m s) as [s' [a| |]]; reflexivity. Qed.

Lemma follows_hash p c : follows (put_hash p c) (fun g => let! g' := (let! z := index_zobrist p c in
                   Ok (with_hash g (N.lxor (zobrist_hash g) z))) in Ok (g', tt)).
Proof. apply follows_writes. Qed.
Lemma follows_cell p cell : follows (put_cell p cell) (fun g => let! g' := (let! c := cell in
                   let! b := vset (board g) p c in Ok (with_board g b)) in Ok (g', tt)).
Proof. apply follows_writes. Qed.
Lemma follows_drop k : follows (drop_chain k) (fun g => let! g' := (let! cs := chains_remove (chains g) k in
                   Ok (with_chains g cs)) in Ok (g', tt)).
Proof. apply follows_writes. Qed.
Lemma follows_put k f : follows (put_chain k f) (fun g => let! g' := (let! grp := chain_at (chains g) k in
                   let! grp' := f grp in
                   let! cs := chain_put (chains g) k grp' in
                   Ok (with_chains g cs)) in Ok (g', tt)).
Proof. apply follows_writes. Qed.

Lemma follows_each {S A} (f : A -> mut S unit) (h : S -> A -> res S) l :
  (forall x, follows (f x) (fun s => let! s' := h s x in Ok (s', tt))) ->
  follows (meach f l) (fun s => let! s' := foldM h l s in Ok (s', tt)).
Proof.
  intros H. induction l as [|x t IH]; intros s; [reflexivity|].
  cbn [meach foldM].
  pose proof (follows_bind _ (fun _ => meach f t) _ (fun _ s => let! s' := foldM h t s in Ok (s', tt))
    (H x) (fun _ => IH) s) as F. revert F.
  cbn beta. destruct (h s x); cbn [bind]; exact (fun F => F).
Qed.

Lemma follows_fold {S A B} (f : B -> A -> mut S B) (h : S * B -> A -> res (S * B)) l b :
  (forall b x, follows (f b x) (fun s => h (s, b) x)) ->
  follows (mfold f l b) (fun s => foldM h l (s, b)).
Proof.
  intros H. revert b. induction l as [|x t IH]; intros b s; [reflexivity|].
  cbn [mfold foldM].
  pose proof (follows_bind _ _ _ (fun b s => foldM h t (s, b)) (H b x) IH s) as F. revert F.
  cbn beta. destruct (h (s, b) x) as [[s' b']| |]; cbn [bind]; exact (fun F => F).
Qed.

Lemma follows_for {S} fuel dbg next origin cur (f : nat -> mut S unit) (h : S -> nat -> res S) :
  (forall p, follows (f p) (fun s => let! s' := h s p in Ok (s', tt))) ->
  follows (mfor_from fuel dbg next origin cur f)
    (fun s => let! s' := for_from fuel dbg next origin cur h s in Ok (s', tt)).
Proof.
  intros H. revert cur. induction fuel as [|k IH]; intros cur s; [reflexivity|].
  cbn [mfor_from for_from].
  rewrite mbind_reads. destruct (vget next cur) as [nx| |]; cbn [bind snd]; [|reflexivity|reflexivity].
  destruct (nx =? origin); [apply H|].
  destruct (dbg && (nx =? cur)); [reflexivity|].
  pose proof (follows_bind _ (fun _ => mfor_from k dbg next origin nx f) _
    (fun _ s => let! s' := for_from k dbg next origin nx h s in Ok (s', tt)) (H cur) (fun _ => IH nx) s) as F.
  revert F. cbn beta. destruct (h s cur); cbn [bind]; exact (fun F => F).
Qed.

(** ** Loops on one field *)
Lemma foldM_lens {S T A} (put : S -> T -> S) (get : S -> T) (h : T -> A -> res T) l :
  (forall s t, get (put s t) = t) -> (forall s t t', put (put s t) t' = put s t') -> (forall s, put s (get s) = s) ->
  forall s, foldM (fun s x => let! t := h (get s) x in Ok (put s t)) l s
            = (let! t := foldM h l (get s) in Ok (put s t)).
Proof.
  intros G P E. induction l as [|x t IH]; intros s; cbn [foldM bind]; [rewrite E; reflexivity|].
  destruct (h (get s) x) as [t'| |]; cbn [bind]; [|reflexivity|reflexivity].
  rewrite IH, G. destruct (foldM h t t'); cbn [bind]; [rewrite P|..]; reflexivity.
Qed.

Lemma for_from_lens {S T} (put : S -> T -> S) (get : S -> T) (h : T -> nat -> res T) fuel dbg next origin :
  (forall s t, get (put s t) = t) -> (forall s t t', put (put s t) t' = put s t') ->
  forall cur s, for_from fuel dbg next origin cur (fun s x => let! t := h (get s) x in Ok (put s t)) s
            = (let! t := for_from fuel dbg next origin cur h (get s) in Ok (put s t)).
Proof.
  intros G P. induction fuel as [|k IH]; intros cur s; cbn [for_from bind]; [reflexivity|].
  destruct (vget next cur) as [nx| |]; cbn [bind]; [|reflexivity|reflexivity].
  destruct (nx =? origin); [reflexivity|]. destruct (dbg && (nx =? cur)); [reflexivity|].
  destruct (h (get s) cur) as [t'| |]; cbn [bind]; [|reflexivity|reflexivity].
  rewrite IH, G. destruct (for_from k dbg next origin nx h t'); cbn [bind]; [rewrite P|..]; reflexivity.
Qed.

(** ** Groups *)
Lemma chain_at_some cs k x : chain_at cs k = Ok x -> cs !! k = Some (Some x).
Proof.
  unfold chain_at, vget, unwrap. destruct (cs !! k) as [[y|]|]; cbn [bind]; try discriminate.
  intros E. injection E as ->. reflexivity.
Qed.
Lemma chain_put_some cs k x y : chain_at cs k = Ok x -> chain_put cs k y = Ok (<[k := Some y]> cs).
Proof.
  intros H. unfold chain_put. rewrite H. cbn [bind]. unfold vset.
  apply chain_at_some, lookup_lt_Some in H. apply Nat.ltb_lt in H. rewrite H. reflexivity.
Qed.
Lemma chain_at_put cs k x y : chain_at cs k = Ok x -> chain_at (<[k := Some y]> cs) k = Ok y.
Proof.
  intros H. apply chain_at_some, lookup_lt_Some in H.
  unfold chain_at, vget. rewrite list_lookup_insert by exact H. reflexivity.
Qed.

(** [put_chain], once the group is known *)
Lemma put_chain_at g k x f : chain_at (chains g) k = Ok x ->
  put_chain k f g = match f x with
                    | Ok y => (with_chains g (<[k := Some y]> (chains g)), Ok tt)
                    | Panic => (g, Panic) | Diverge => (g, Diverge) end.
Proof.
  intros H. unfold put_chain, writes. rewrite H. cbn [bind].
  destruct (f x) as [y| |]; cbn [bind]; [|reflexivity|reflexivity].
  rewrite (chain_put_some _ _ _ _ H). reflexivity.
Qed.
Lemma put_chain_again g k cs x y f : chain_at cs k = Ok x ->
  put_chain k f (with_chains g (<[k := Some y]> cs))
  = match f y with
    | Ok z => (with_chains g (<[k := Some z]> cs), Ok tt)
    | Panic => (with_chains g (<[k := Some y]> cs), Panic)
    | Diverge => (with_chains g (<[k := Some y]> cs), Diverge) end.
Proof.
  intros H. rewrite (put_chain_at _ _ y) by exact (chain_at_put _ _ _ _ H).
  destruct (f y); cbn [chains with_chains]; rewrite ?list_insert_insert; reflexivity.
Qed.
Lemma mbind_put {B} g k x f (K : unit -> mut goban B) : chain_at (chains g) k = Ok x ->
  mbind (put_chain k f) K g = match f x with
                    | Ok y => K tt (with_chains g (<[k := Some y]> (chains g)))
                    | Panic => (g, Panic) | Diverge => (g, Diverge) end.
Proof. intros H. unfold mbind. rewrite (put_chain_at _ _ _ _ H). destruct (f x); reflexivity. Qed.
Lemma mbind_put_again {B} g k cs x y f (K : unit -> mut goban B) : chain_at cs k = Ok x ->
  mbind (put_chain k f) K (with_chains g (<[k := Some y]> cs))
  = match f y with
    | Ok z => K tt (with_chains g (<[k := Some z]> cs))
    | Panic => (with_chains g (<[k := Some y]> cs), Panic)
    | Diverge => (with_chains g (<[k := Some y]> cs), Diverge) end.
Proof. intros H. unfold mbind. rewrite (put_chain_again _ _ _ _ _ _ H). destruct (f y); reflexivity. Qed.
Lemma put_chain_none g k f : chain_at (chains g) k = Panic -> put_chain k f g = (g, Panic).
Proof. intros H. unfold put_chain, writes. rewrite H. reflexivity. Qed.
Lemma mbind_none {B} g k f (K : unit -> mut goban B) : chain_at (chains g) k = Panic ->
  mbind (put_chain k f) K g = (g, Panic).
Proof. intros H. unfold mbind. rewrite put_chain_none by exact H. reflexivity. Qed.
Lemma mbind_run {S A B} (m : mut S A) (k : A -> mut S B) s s' r : m s = (s', r) ->
  mbind m k s = match r with Ok a => k a s' | Panic => (s', Panic) | Diverge => (s', Diverge) end.
Proof. intros H. unfold mbind. rewrite H. destruct r; reflexivity. Qed.
Lemma chain_at_answers cs k : (exists x, chain_at cs k = Ok x) \/ chain_at cs k = Panic.
Proof.
  unfold chain_at, vget, unwrap. destruct (cs !! k) as [[x|]|]; cbn [bind]; eauto.
Qed.

Lemma with_chains_id g : with_chains g (chains g) = g.
Proof. destruct g; reflexivity. Qed.
Lemma with_board_id g : with_board g (board g) = g.
Proof. destruct g; reflexivity. Qed.

(** ** Boards *)
Lemma follows_update dbg k :
  follows (u_update_chain_indexes dbg k)
    (fun g => let! g' := update_chain_indexes_in_board dbg g k in Ok (g', tt)).
Proof.
  intros g. unfold u_update_chain_indexes, update_chain_indexes_in_board, last_is_last.
  rewrite mbind_reads.
  destruct (debug_assert _ _) as [?| |]; cbn [bind snd]; [|reflexivity|reflexivity].
  rewrite mbind_reads.
  destruct (chain_at (chains g) k) as [grp| |]; cbn [bind snd]; [|reflexivity|reflexivity].
  rewrite mbind_reads. unfold mgroup_for, group_for.
  set (h := fun (b : list (option nat)) p => let! k' := nonmax_u16 k in vset b p (Some k')).
  pose proof (follows_for (2 * S (length (next_stone g))) dbg (next_stone g) (g_origin grp) (g_origin grp)
    (fun p => put_cell p (let! k' := nonmax_u16 k in Ok (Some k')))
    (fun g p => let! b := h (board g) p in Ok (with_board g b))) as F.
  match type of F with ?P -> _ => assert (A : P) end.
  { intros p g'. unfold put_cell, writes, h. destruct (nonmax_u16 k); cbn [bind]; [|reflexivity|reflexivity].
    destruct (vset _ _ _); reflexivity. }
  specialize (F A g). cbn beta in F. rewrite (for_from_lens with_board board) in F by reflexivity.
  exact F.
Qed.

Lemma follows_create dbg origin c libs :
  follows (u_create_chain dbg origin c libs) (fun g => create_chain dbg g origin c libs).
Proof.
  intros g. unfold u_create_chain, create_chain. rewrite mbind_reads.
  destruct (foldM _ _ _) as [bits| |]; cbn [bind]; [|reflexivity|reflexivity].
  unfold put_next. rewrite mbind_writes.
  destruct (vset _ _ _) as [nx| |]; cbn [bind]; [|reflexivity|reflexivity].
  rewrite mbind_reads, mbind_writes. cbn [put_free_spot fst chains with_next].
  set (g1 := with_chains _ _).
  pose proof (follows_bind _ (fun _ => mret (length (chains g))) _ (fun _ s => Ok (s, length (chains g)))
    (follows_update dbg (length (chains g))) (fun _ => follows_ret _) g1) as F. cbn beta in F.
  destruct (update_chain_indexes_in_board dbg g1 _); cbn [bind] in *; exact F.
Qed.

Lemma follows_add_stone dbg k stone :
  follows (u_add_stone_to_chain dbg k stone) (fun g => let! g' := add_stone_to_chain dbg g k stone in Ok (g', tt)).
Proof.
  intros g. unfold u_add_stone_to_chain, add_stone_to_chain. rewrite mbind_reads.
  destruct (chain_at (chains g) k) as [grp| |] eqn:E; cbn [bind]; [|reflexivity|reflexivity].
  unfold put_next.
  destruct (stone <? g_origin grp).
  - rewrite mbind_mbind, mbind_writes.
    destruct (vset _ _ _) as [nx| |]; cbn [bind]; [|reflexivity|reflexivity].
    rewrite mbind_mbind, mbind_writes. cbn [next_stone with_next].
    destruct (vset _ _ _) as [nx'| |]; cbn [bind]; [|reflexivity|reflexivity].
    rewrite (mbind_put _ _ grp) by exact E. cbn [chains with_next with_chains].
    rewrite (mbind_put_again _ _ _ _ _ _ _ E).
    cbn [g_num_stones g_color g_origin g_last g_liberties chains with_chains].
    destruct (u16_add _ _ _) as [num| |]; cbn [bind]; [|reflexivity|reflexivity].
    rewrite (chain_put_some _ _ _ _ E). cbn [bind].
    unfold last_is_last, reads. cbn [chains with_chains with_next next_stone].
    rewrite (chain_at_put _ _ _ _ E). cbn [bind]. destruct (debug_assert _ _) as [[]| |]; reflexivity.
  - rewrite mbind_mbind, mbind_writes.
    destruct (vset _ _ _) as [nx| |]; cbn [bind]; [|reflexivity|reflexivity].
    rewrite mbind_mbind, mbind_writes. cbn [next_stone with_next].
    destruct (vset _ _ _) as [nx'| |]; cbn [bind]; [|reflexivity|reflexivity].
    rewrite (mbind_put _ _ grp) by exact E. cbn [chains with_next with_chains].
    rewrite (mbind_put_again _ _ _ _ _ _ _ E).
    cbn [g_num_stones g_color g_origin g_last g_liberties chains with_chains].
    destruct (u16_add _ _ _) as [num| |]; cbn [bind]; [|reflexivity|reflexivity].
    rewrite (chain_put_some _ _ _ _ E). cbn [bind].
    unfold last_is_last, reads. cbn [chains with_chains with_next next_stone].
    rewrite (chain_at_put _ _ _ _ E). cbn [bind]. destruct (debug_assert _ _) as [[]| |]; reflexivity.
Qed.

Lemma follows_merge dbg k1 k2 :
  follows (u_merge_strings dbg k1 k2) (fun g => let! g' := merge_strings dbg g k1 k2 in Ok (g', tt)).
Proof.
  intros g. unfold u_merge_strings, merge_strings. rewrite mbind_reads.
  destruct (chain_at (chains g) k1) as [c1| |] eqn:E1; cbn [bind]; [|reflexivity|reflexivity].
  rewrite mbind_reads.
  destruct (chain_at (chains g) k2) as [c2| |] eqn:E2; cbn [bind]; [|reflexivity|reflexivity].
  rewrite mbind_reads. destruct (assert_ _) as [[]| |]; cbn [bind]; [|reflexivity|reflexivity].
  rewrite mbind_reads. destruct (assert_ _) as [[]| |]; cbn [bind]; [|reflexivity|reflexivity].
  rewrite (mbind_put _ _ c1) by exact E1.
  rewrite (mbind_put_again _ _ _ _ _ _ _ E1).
  rewrite mbind_writes. cbn [next_stone with_chains].
  destruct (g_origin c2 <? g_origin c1);
  (destruct (vswap _ _ _) as [nx| |]; cbn [bind]; [|reflexivity|reflexivity];
   match goal with |- context [with_next (with_chains g ?cs) nx] =>
     change (with_next (with_chains g cs) nx) with (with_chains (with_next g nx) cs) end;
   rewrite (mbind_put_again _ _ _ _ _ _ _ E1);
   cbn [g_num_stones g_color g_origin g_last g_liberties with_liberties];
   destruct (u16_add _ _ _) as [num| |]; cbn [bind]; [|reflexivity|reflexivity];
   rewrite (chain_put_some _ _ _ _ E1); cbn [bind];
   pose proof (follows_bind _ (fun _ => drop_chain k2) _ _
     (follows_update dbg k1) (fun _ => follows_drop k2)) as F;
   match goal with |- context [update_chain_indexes_in_board dbg ?gg k1] =>
     specialize (F gg); cbn beta in F;
     destruct (update_chain_indexes_in_board dbg gg k1) as [g'| |]; cbn [bind] in *; [|exact F|exact F] end;
   destruct (chains_remove (chains g') k2); exact F).
Qed.

Lemma follows_remove_liberties dbg oppo p :
  follows (u_remove_liberties dbg oppo p)
    (fun g => let! '(cs, dead) := remove_liberties dbg (chains g) oppo p in Ok (with_chains g cs, dead)).
Proof.
  intros g. unfold u_remove_liberties, remove_liberties.
  match goal with |- context [mfold ?f _ _] =>
    pose proof (follows_fold f (fun '(g, dead) k =>
      let! '(cs, dead') := (let! grp := chain_at (chains g) k in
           let! grp' := remove_liberty dbg grp p in
           let! cs' := chain_put (chains g) k grp' in
           if is_dead grp' then let! dead' := av_push 4 dead k in Ok (cs', dead')
           else Ok (cs', dead)) in Ok (with_chains g cs, dead')) oppo []) as F end.
  match type of F with ?P -> _ => assert (A : P) end.
  { intros dead k g'. 
    destruct (chain_at_answers (chains g') k) as [(x & E)|E]; rewrite E; cbn [bind].
    - rewrite (mbind_put _ _ _ _ _ E).
      destruct (remove_liberty dbg x p) as [x'| |]; cbn [bind]; [|reflexivity|reflexivity].
      rewrite (chain_put_some _ _ _ _ E). cbn [bind]. rewrite mbind_reads. cbn [chains with_chains]. rewrite (chain_at_put _ _ _ _ E).
      destruct (is_dead x'); [destruct (av_push 4 dead k)|]; reflexivity.
    - unfold mbind. rewrite put_chain_none by exact E. reflexivity. }
  specialize (F A g). clear A. revert F.
  cbn beta.
  match goal with |- context [bind (foldM ?h2 oppo (chains g, [])) _] => set (H2 := h2) end.
  match goal with |- context [foldM ?h1 oppo (g, [])] => set (H1 := h1) end.
  assert (L : forall l g dead, foldM H1 l (g, dead) = (let! '(cs, dead') := foldM H2 l (chains g, dead) in Ok (with_chains g cs, dead'))).
  { intros l. induction l as [|k t IH]; intros g' dead; cbn [foldM bind]; [rewrite with_chains_id; reflexivity|].
    unfold H1 at 1, H2 at 1.
    destruct (chain_at (chains g') k) as [x| |]; cbn [bind]; [|reflexivity|reflexivity].
    destruct (remove_liberty dbg x p) as [x'| |]; cbn [bind]; [|reflexivity|reflexivity].
    destruct (chain_put _ _ _) as [cs'| |]; cbn [bind]; [|reflexivity|reflexivity].
    destruct (is_dead x').
    - destruct (av_push 4 dead k) as [d| |]; cbn [bind]; [|reflexivity|reflexivity].
      rewrite IH. cbn [chains with_chains]. destruct (foldM H2 t (cs', d)) as [[? ?]| |]; reflexivity.
    - cbn [bind]. rewrite IH. cbn [chains with_chains]. destruct (foldM H2 t (cs', dead)) as [[? ?]| |]; reflexivity. }
  rewrite L. exact (fun F => F).
Qed.

Lemma follows_merge_all dbg t same : follows (u_merge_all dbg t same) (fun g => merge_all dbg g t same).
Proof.
  unfold u_merge_all, merge_all.
  refine (follows_fold _ _ same t _). clear t. intros t a g. rewrite mbind_reads.
  destruct (chain_at (chains g) a) as [ga| |]; cbn [bind]; [|reflexivity|reflexivity].
  rewrite mbind_reads.
  destruct (chain_at (chains g) t) as [gt| |]; cbn [bind]; [|reflexivity|reflexivity].
  destruct (_ <? _).
  - pose proof (follows_bind _ (fun _ => mret t) _ (fun _ s => Ok (s, t))
      (follows_merge dbg t a) (fun _ => follows_ret _) g) as F. cbn beta in F.
    destruct (merge_strings dbg g t a); exact F.
  - pose proof (follows_bind _ (fun _ => mret a) _ (fun _ s => Ok (s, a))
      (follows_merge dbg a t) (fun _ => follows_ret _) g) as F. cbn beta in F.
    destruct (merge_strings dbg g a t); exact F.
Qed.

Lemma union_each only libs g x y cs : chain_at cs only = Ok x ->
  match union_liberties_slice y libs with
  | Ok z => meach (fun i => put_chain only (fun x => add_liberty_unchecked x i)) libs
              (with_chains g (<[only := Some y]> cs)) = (with_chains g (<[only := Some z]> cs), Ok tt)
  | Panic => snd (meach (fun i => put_chain only (fun x => add_liberty_unchecked x i)) libs
              (with_chains g (<[only := Some y]> cs))) = Panic
  | Diverge => snd (meach (fun i => put_chain only (fun x => add_liberty_unchecked x i)) libs
              (with_chains g (<[only := Some y]> cs))) = Diverge
  end.
Proof.
  intros E. revert y. unfold union_liberties_slice. induction libs as [|i t IH]; intros y; cbn [foldM meach]; [reflexivity|].
  rewrite (mbind_put_again _ _ _ _ _ _ _ E).
  destruct (add_liberty_unchecked y i) as [z| |]; cbn [bind]; [apply IH|reflexivity|reflexivity].
Qed.

Lemma follows_place dbg p c same libs :
  follows (u_place_stone dbg p c same libs) (fun g => place_stone dbg g p c same libs).
Proof.
  destruct same as [|only [|k same]].
  - apply follows_create.
  - intros g. cbn [u_place_stone place_stone].
    destruct (chain_at_answers (chains g) only) as [(x & E)|E].
    2: { rewrite E, mbind_none by exact E. reflexivity. }
    rewrite (mbind_put _ _ _ _ _ E). rewrite E. cbn [bind].
    destruct (remove_liberty dbg x p) as [y| |]; cbn [bind]; [|reflexivity|reflexivity].
    pose proof (union_each only libs g x y _ E) as U.
    set (R := meach _ libs) in *. destruct (R _) as [g0 r0] eqn:ER.
    rewrite !(mbind_run _ _ _ _ _ ER).
    destruct (union_liberties_slice y libs) as [z| |]; cbn [bind snd] in *.
    2, 3: rewrite U; reflexivity.
    injection U as -> ->. clear ER R. rewrite (chain_put_some _ _ _ _ E). cbn [bind].
    match goal with |- context [add_stone_to_chain dbg ?gg only p] =>
      pose proof (follows_bind _ (fun _ => do! _ := put_cell p (let! k := nonmax_u16 only in Ok (Some k)) in mret only) _
        _ (follows_add_stone dbg only p)
        (fun _ => follows_bind _ (fun _ => mret only) _ (fun _ s => Ok (s, only)) (follows_writes _) (fun _ => follows_ret _)) gg) as F;
      cbn beta in F; destruct (add_stone_to_chain dbg gg only p) as [g'| |]; cbn [bind] in *; [|exact F|exact F] end.
    destruct (nonmax_u16 only); cbn [bind] in *; [|exact F|exact F].
    destruct (vset _ _ _); exact F.
  - intros g. cbn [u_place_stone place_stone].
    pose proof (follows_bind _ _ _ _ (follows_create dbg p c libs) (fun t =>
      follows_bind _ _ _ _ (follows_merge_all dbg t (only :: k :: same)) (fun t =>
        follows_bind _ (fun _ => mret t) _ (fun _ s => Ok (s, t))
          (follows_writes (fun g => let! grp := chain_at (chains g) t in
                   let! grp' := remove_liberty dbg grp p in
                   let! cs := chain_put (chains g) t grp' in
                   Ok (with_chains g cs))) (fun _ => follows_ret _))) g) as F.
    cbn beta in F.
    destruct (create_chain dbg g p c libs) as [[g1 t]| |]; cbn [bind] in *; [|exact F|exact F].
    destruct (merge_all dbg g1 t _) as [[g2 t']| |]; cbn [bind] in *; [|exact F|exact F].
    destruct (chain_at (chains g2) t') as [grp| |]; cbn [bind] in *; [|exact F|exact F].
    destruct (remove_liberty dbg grp p); cbn [bind] in *; [|exact F|exact F].
    destruct (chain_put _ _ _); exact F.
Qed.

Lemma follows_push_feedback dbg pt c :
  follows (u_push_wth_feedback dbg pt c)
    (fun g => let! '(g', dead, u) := push_wth_feedback dbg g pt c in Ok (g', (dead, u))).
Proof.
  intros g. unfold u_push_wth_feedback, push_wth_feedback. rewrite mbind_reads. cbv zeta.
  set (p := two_to_1dim (gsize g) pt). rewrite mbind_reads.
  destruct (neighbors_idx dbg (gsize g) p) as [nbs| |]; cbn [bind]; [|reflexivity|reflexivity].
  rewrite mbind_reads.
  destruct (classify g c nbs) as [[[same oppo] libs]| |]; cbn [bind]; [|reflexivity|reflexivity].
  pose proof (follows_bind _ _ _ _ (follows_remove_liberties dbg oppo p) (fun dead =>
    follows_bind _ _ _ _ (follows_place dbg p c same libs) (fun u =>
      follows_bind _ _ _ _ (follows_hash p c) (fun _ =>
       follows_bind _ (fun _ => mret (dead, u)) _ _
         (follows_reads (fun g => if dbg then check_integrity_all dbg g else Ok tt)) (fun _ => follows_ret (dead, u))))) g) as F.
  cbn beta in F.
  destruct (remove_liberties dbg (chains g) oppo p) as [[cs dead]| |]; cbn [bind] in *; [|exact F|exact F].
  destruct (place_stone dbg _ p c same libs) as [[g1 u]| |]; cbn [bind] in *; [|exact F|exact F].
  destruct (index_zobrist p c) as [z| |]; cbn [bind] in *; [|exact F|exact F].
  destruct (if dbg then _ else _); exact F.
Qed.

Lemma follows_remove_chain dbg k :
  follows (u_remove_chain dbg k) (fun g => let! g' := remove_chain dbg g k in Ok (g', tt)).
Proof.
  intros g. unfold u_remove_chain, remove_chain. rewrite mbind_reads.
  destruct (chain_at (chains g) k) as [chain| |]; cbn [bind]; [|reflexivity|reflexivity].
  rewrite mbind_reads. unfold mgroup_for, group_for.
  match goal with |- context [for_from _ _ _ _ _ ?h _] => set (H := h) end.
  match goal with |- context [mfor_from _ _ _ _ _ ?h] => set (M := h) end.
  assert (A : forall p, follows (M p) (fun s => let! s' := H s p in Ok (s', tt))).
  { intros p s. unfold M, H. rewrite mbind_reads.
    destruct (get_connected_groups_idx dbg s p) as [nbs| |]; cbn [bind]; [|reflexivity|reflexivity].
    set (l := List.filter _ nbs).
    pose (ad := fun (cs : groups) n => let! grp := chain_at cs n in let! grp' := add_liberty dbg grp p in chain_put cs n grp').
    assert (B : follows (meach (fun n => put_chain n (fun x => add_liberty dbg x p)) l)
                  (fun g => let! cs := foldM ad l (chains g) in Ok (with_chains g cs, tt))).
    { refine (follows_ext _ _ _ (follows_each _ (fun g n => let! cs := ad (chains g) n in Ok (with_chains g cs)) l _) _).
      - intros n s'. unfold ad, put_chain, writes.
        destruct (chain_at (chains s') n) as [x| |]; cbn [bind]; [|reflexivity|reflexivity].
        destruct (add_liberty dbg x p) as [x'| |]; cbn [bind]; [|reflexivity|reflexivity].
        destruct (chain_put _ _ _); reflexivity.
      - intros s'. rewrite (foldM_lens with_chains chains) by (intros; try apply with_chains_id; reflexivity).
        destruct (foldM ad l (chains s')); reflexivity. }
    pose proof (follows_bind _ _ _ _ B (fun _ => follows_bind _ _ _ _ (follows_hash p (g_color chain)) (fun _ => follows_cell p (Ok None))) s) as F. cbn beta in F.
    fold ad. destruct (foldM ad l (chains s)) as [cs| |]; cbn [bind] in *; [|exact F|exact F].
    destruct (index_zobrist p (g_color chain)) as [z| |]; cbn [bind] in *; [|exact F|exact F].
    cbn [board with_hash with_chains] in F. destruct (vset _ _ _); exact F. }
  pose proof (follows_bind _ _ _ _ (follows_for (2 * S (length (next_stone g))) dbg (next_stone g) (g_origin chain) (g_origin chain) M H A)
    (fun _ => follows_drop k) g) as F. cbn beta in F.
  destruct (for_from _ _ _ _ _ H g) as [g'| |]; cbn [bind] in *; [|exact F|exact F].
  destruct (chains_remove _ _); exact F.
Qed.

Lemma follows_captured dbg suicide dead added :
  follows (u_remove_captured_stones_aux dbg suicide dead added)
    (fun g => let! '(g', removed, ko) := remove_captured_stones_aux dbg g suicide dead added in Ok (g', (removed, ko))).
Proof.
  intros g. unfold u_remove_captured_stones_aux, remove_captured_stones_aux. cbv zeta.
  set (one := length dead =? 1).
  match goal with |- context [foldM ?h dead _] => set (H := h) end.
  match goal with |- context [mfold ?h dead _] => set (M := h) end.
  pose (H' := fun (s : goban * ((N * N) * option coord)) d => let '(g, (removed, ko)) := s in
    let! '(g', removed', ko') := H (g, removed, ko) d in Ok (g', (removed', ko'))).
  assert (A : forall b d, follows (M b d) (fun s => H' (s, b) d)).
  { intros [removed ko] d s. unfold M, H', H. rewrite mbind_reads.
    destruct (chain_at (chains s) d) as [x| |]; cbn [bind]; [|reflexivity|reflexivity].
    rewrite mbind_reads.
    destruct (if (g_num_stones x =? 1) && one then _ else _) as [ko'| |]; cbn [bind]; [|reflexivity|reflexivity].
    pose proof (follows_bind _ (fun _ => mret (credit x removed, ko')) _ _ (follows_remove_chain dbg d) (fun _ => follows_ret _) s) as F. cbn beta in F.
    destruct (remove_chain dbg s d); exact F. }
  assert (L : forall l g r k, foldM H' l (g, (r, k)) = (let! '(g', r', k') := foldM H l (g, r, k) in Ok (g', (r', k')))).
  { intros l. induction l as [|d t IH]; intros g' r k; cbn [foldM bind]; [reflexivity|].
    unfold H' at 1. destruct (H (g', r, k) d) as [[[g1 r1] k1]| |]; cbn [bind]; [apply IH|reflexivity|reflexivity]. }
  pose proof (follows_fold M H' dead ((0%N, 0%N), None) A) as F1.
  pose (K := fun b : (N * N) * option coord => let '(removed, ko) := b in
    do! mine := reads (fun g => chain_at (chains g) added) in
    if suicide && is_dead mine then
      do! _ := u_remove_chain dbg added in mret (credit mine removed, None : option coord)
    else mret (removed, ko)).
  pose (K' := fun (b : (N * N) * option coord) g => let '(removed, ko) := b in
    let! mine := chain_at (chains g) added in
    if suicide && is_dead mine then
      let! g2 := remove_chain dbg g added in Ok (g2, (credit mine removed, None : option coord))
    else Ok (g, (removed, ko))).
  assert (FK : forall b, follows (K b) (K' b)).
  { intros [removed ko] s. unfold K, K'. rewrite mbind_reads.
    destruct (chain_at (chains s) added) as [mine| |]; cbn [bind]; [|reflexivity|reflexivity].
    destruct (suicide && is_dead mine); [|reflexivity].
    pose proof (follows_bind _ (fun _ => mret (credit mine removed, None : option coord)) _ _ (follows_remove_chain dbg added) (fun _ => follows_ret _) s) as F. cbn beta in F.
    destruct (remove_chain dbg s added); exact F. }
  pose proof (follows_bind _ _ _ _ F1 FK g) as F. cbn beta in F. rewrite L in F.
  change (mbind (mfold M dead (0%N, 0%N, None)) K g) with
    (mbind (mfold M dead (0%N, 0%N, None)) (fun b => K b) g) in F.
  destruct (foldM H dead (g, (0%N, 0%N), None)) as [[[g1 r1] k1]| |]; cbn [bind] in *; [|exact F|exact F].
  unfold K' in F. destruct (chain_at (chains g1) added) as [mine| |]; cbn [bind] in *; [|exact F|exact F].
  destruct (suicide && is_dead mine); cbn [bind] in *; [|exact F].
  destruct (remove_chain dbg g1 added); exact F.
Qed.

Lemma follows_push dbg pt c : follows (u_push dbg pt c) (fun g => let! g' := push dbg g pt c in Ok (g', tt)).
Proof.
  intros g. unfold u_push, push. rewrite mbind_reads.
  destruct (debug_assert dbg _); cbn [bind]; [|reflexivity|reflexivity]. rewrite mbind_reads.
  destruct (debug_assert dbg _); cbn [bind]; [|reflexivity|reflexivity].
  pose proof (follows_bind _ (fun _ => mret tt) _ _ (follows_push_feedback dbg pt c) (fun _ => follows_ret tt) g) as F. cbn beta in F.
  destruct (push_wth_feedback dbg g pt c) as [[[g' d] u]| |]; exact F.
Qed.

Lemma follows_push_many dbg pts c :
  follows (u_push_many dbg pts c) (fun g => let! g' := push_many dbg g pts c in Ok (g', tt)).
Proof. exact (follows_each _ _ pts (fun p => follows_push dbg p c)). Qed.

(** ** Games *)
Lemma follows_on_goban {A} (m : mut goban A) f : follows m f ->
  follows (on_goban m) (fun g => let! '(gb, a) := f (gm_goban g) in Ok (with_goban g gb, a)).
Proof.
  intros H g. unfold on_goban. specialize (H (gm_goban g)).
  destruct (m (gm_goban g)) as [gb r]. destruct (f (gm_goban g)) as [[gb' a]| |]; cbn [bind snd] in *; [|exact H|exact H].
  injection H as -> ->. reflexivity.
Qed.

Lemma follows_play dbg m : follows (u_play dbg m) (fun g => let! g' := play dbg g m in Ok (g', tt)).
Proof.
  intros g. destruct m as [|pl|x y].
  - unfold u_play, play. rewrite mbind_reads.
    destruct (assert_ _) as [[]| |]; cbn [bind]; reflexivity.
  - reflexivity.
  - unfold u_play, play. rewrite mbind_writes.
    destruct (history_insert _ _) as [h| |]; cbn [bind]; [|reflexivity|reflexivity].
    rewrite mbind_reads. cbn [gm_turn with_history].
    set (g0 := with_history g h).
    pose proof (follows_bind _ _ _ _ (follows_on_goban _ _ (follows_push_feedback dbg (x, y) (gm_turn g))) (fun da : list nat * nat =>
      follows_bind _ _ _ _ (follows_writes (fun g => Ok (with_ko g None))) (fun _ =>
      follows_bind _ _ _ _ (follows_bind _ _ _ _ (follows_reads (fun g => Ok (negb (flag_contains (flag_illegal (gm_rule g)) SUICIDE))))
        (fun suicide => follows_bind _ _ _ _ (follows_on_goban _ _ (follows_captured dbg suicide (fst da) (snd da))) (fun pk : (N * N) * option coord =>
          follows_bind _ _ _ _ (follows_writes (fun g => let! b := u32_add dbg (fst (gm_prisoners g)) (fst (fst pk)) in
                            Ok (with_prisoners g (b, snd (gm_prisoners g))))) (fun _ =>
          follows_bind _ _ _ _ (follows_writes (fun g => let! w := u32_add dbg (snd (gm_prisoners g)) (snd (fst pk)) in
                            Ok (with_prisoners g (fst (gm_prisoners g), w)))) (fun _ =>
          follows_writes (fun g => Ok (with_ko g (snd pk))))))))
       (fun _ => follows_bind _ _ _ _ (follows_writes (fun g => Ok (with_turn g (opp (gm_turn g))))) (fun _ =>
          follows_writes (fun g => Ok (with_passes g 0)))))) g0) as F. cbn beta in F.
    match type of F with context [snd ?M = Panic] => set (M1 := M) in F end.
    match goal with |- context [snd ?M = Panic] => set (M2 := M) end.
    assert (EM : M2 = M1).
    { unfold M1, M2, mbind, on_goban. destruct (u_push_wth_feedback dbg (x, y) (gm_turn g) (gm_goban g0)) as [gb [[dead added]| |]]; [|reflexivity|reflexivity].
      unfold u_remove_captured_stones, mbind, writes, reads, on_goban. cbn [fst snd].
      destruct (u_remove_captured_stones_aux _ _ _ _ _) as [gb' [[[pb pw] ko]| |]]; reflexivity. }
    rewrite EM. clear EM M2.
    unfold g0 in F. cbn [gm_goban with_history] in F.
    destruct (push_wth_feedback dbg (gm_goban g) (x, y) (gm_turn g)) as [[[gb dead] added]| |]; cbn [bind] in *; [|exact F|exact F].
    unfold game_remove_captured_stones.
    cbn [fst snd gm_rule gm_goban with_ko with_goban with_history] in F.
    destruct (remove_captured_stones_aux dbg gb _ dead added) as [[[gb' [pb pw]] ko]| |]; cbn [bind] in *; [|exact F|exact F].
    cbn [fst snd gm_prisoners with_ko with_goban with_history] in F.
    destruct (u32_add dbg (fst (gm_prisoners g)) pb) as [b| |]; cbn [bind] in *; [|exact F|exact F].
    cbn [fst snd gm_prisoners with_prisoners] in F.
    destruct (u32_add dbg (snd (gm_prisoners g)) pw) as [w| |]; cbn [bind] in *; exact F.
Qed.

Lemma follows_try_play dbg m : follows (u_try_play dbg m) (fun g => try_play dbg g m).
Proof.
  intros g. unfold u_try_play, try_play. rewrite mbind_reads.
  destruct (gm_passes g =? 2); [reflexivity|].
  assert (P : match (let! g' := play dbg g m in Ok (g', Accepted)) with
              | Ok (s', a) => (do! _ := u_play dbg m in mret Accepted) g = (s', Ok a)
              | Panic => snd ((do! _ := u_play dbg m in mret Accepted) g) = Panic
              | Diverge => snd ((do! _ := u_play dbg m in mret Accepted) g) = Diverge end).
  { pose proof (follows_bind _ (fun _ => mret Accepted) _ _ (follows_play dbg m) (fun _ => follows_ret _) g) as F. cbn beta in F.
    destruct (play dbg g m); exact F. }
  destruct m as [|pl|x y]; [exact P|exact P|].
  rewrite mbind_reads. destruct (get_color (gm_goban g) (x, y)) as [c| |]; cbn [bind]; [|reflexivity|reflexivity].
  destruct (negb (mcolor_eqb c None)); [reflexivity|].
  rewrite mbind_reads. destruct (check_point dbg g (x, y)) as [[e|]| |]; cbn [bind]; [reflexivity|exact P|reflexivity|reflexivity].
Qed.

Lemma follows_handicap dbg pts :
  follows (u_put_handicap dbg pts) (fun g => let! g' := put_handicap dbg g pts in Ok (g', tt)).
Proof.
  intros g. unfold u_put_handicap, put_handicap. rewrite mbind_writes.
  set (g0 := with_handicap g (len_as_u32 pts)).
  assert (A : forall p, follows (on_goban (u_push dbg p Black))
     (fun g => let! g' := (let! gb := push dbg (gm_goban g) p Black in Ok (with_goban g gb)) in Ok (g', tt))).
  { intros p. refine (follows_ext _ _ _ (follows_on_goban _ _ (follows_push dbg p Black)) _).
    intros s. destruct (push dbg (gm_goban s) p Black); reflexivity. }
  pose proof (follows_bind _ _ _ _ (follows_each (fun p => on_goban (u_push dbg p Black))
     (fun g p => let! gb := push dbg (gm_goban g) p Black in Ok (with_goban g gb)) pts A)
     (fun _ => follows_writes (fun g => Ok (with_turn g White))) g0) as F. cbn beta in F.
  rewrite (foldM_lens with_goban gm_goban (fun gb p => push dbg gb p Black)) in F by (intros []; reflexivity).
  change (gm_goban g0) with (gm_goban g) in F.
  destruct (foldM _ pts (gm_goban g)); exact F.
Qed.
