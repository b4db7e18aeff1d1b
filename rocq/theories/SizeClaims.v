(** The size of an imported board, cases. *)
From stdpp Require Import relations sorting strings.
From Verif Require Import Spec Observe RectBuildSpec RectReach Samples.
From Verif Require Import MonadFacts CoordFacts RectCoord RectInv RectGame RectReachFacts GameFacts SetupFacts SgfFacts RectTable TableFacts RulesFacts CaseFacts SampleFacts BuildClaims RectBuild SizeKept.
From Coq Require Import Lia.

Local Notation length := Datatypes.length.
Open Scope nat_scope.

(** three columns and six rows; Black captures a stone in the lower left corner *)
Definition strip_root : sgf_node := [TGame true; TSize 3 6].
Definition strip_rest : list sgf_node := [[TMove Black (SMove 2 6)]; [TMove White (SMove 1 6)]; [TMove Black (SMove 1 5)]].

Lemma strip_supported dbg : supported dbg strip_root strip_rest.
Proof.
  split.
  - intros t Ht. unfold strip_root in Ht. rewrite !elem_of_cons, elem_of_nil in Ht. destruct Ht as [->|[->|[]]]; cbn; auto; try discriminate; lia.
  - intros node c a Hn Hf. unfold strip_rest in Hn. rewrite !elem_of_cons, elem_of_nil in Hn.
    destruct Hn as [->|[->|[->|[]]]]; cbn in Hf; try discriminate; injection Hf as <- <-; cbn; lia.
Qed.

Definition turned_builder : builder := record_builder [TGame true; TSize 6 3] [].

Lemma strip_fits : fits (6, 3).
Proof. split; [cbn; lia|]. split; [cbn; lia|]. exists 2. reflexivity. Qed.

(** the record is not followed *)
Lemma strip_lost dbg : exists t l t' g,
  supported dbg strip_root strip_rest /\ record_size strip_root = (3, 6)%N /\
  rrecord_opening (6, 3) strip_root t /\
  rtable_run (6, 3) (flag_illegal (record_rule strip_root)) t (List.map OPlay (record_moves strip_rest)) l t' /\
  from_sgf_nodes dbg (strip_root :: strip_rest) = Ok g /\ gsize (gm_goban g) = (3, 6) /\
  t_pos t' (5, 0) = None /\ position g (5, 0) = Some White.
Proof.
  destruct (rbuild_ok false (6, 3) turned_builder strip_fits eq_refl) as (g0 & G0 & P0 & H1 & H2 & H3 & H4 & H5 & H6 & H7 & H8 & H9 & H10 & E).
  { vm_compute. constructor. }
  { intros s Hs. change (setup_stones turned_builder) with (@nil stone) in Hs. apply elem_of_nil in Hs. destruct Hs. }
  { vm_compute. discriminate. }
  destruct (rcalls_sim false (6, 3) (List.map OTry (record_moves strip_rest)) _ _ g0 (proj2 (proj2 strip_fits)) G0) as (g' & l & C & R).
  { intros o Ho. change (List.map OTry (record_moves strip_rest)) with [OTry (MPlay 5 1); OTry (MPlay 5 0); OTry (MPlay 4 0)] in Ho.
    rewrite !elem_of_cons, elem_of_nil in Ho. destruct Ho as [->|[->|[->|[]]]]; split; cbn; lia. }
  { vm_compute. discriminate. }
  assert (F : match snd (build false turned_builder) with
              | Ok g => match calls false g (List.map OTry (record_moves strip_rest)) with
                        | Ok (g', l) => forallb (fun a : option verdict => match a with Some Accepted => true | _ => false end) l && has g' (5, 0) None
                        | _ => false end
              | _ => false end = true) by (vm_compute; reflexivity).
  rewrite E in F. cbn [snd b_moves turned_builder record_builder omap list_omap List.map foldM] in F. rewrite C in F. bools F. unfold has in *.
  repeat match goal with H : bool_decide _ = true |- _ => apply bool_decide_eq_true in H end.
  assert (D : match from_sgf_nodes dbg (strip_root :: strip_rest) with
              | Ok g => bool_decide (gsize (gm_goban g) = (3, 6)) && has g (5, 0) (Some White) | _ => false end = true) by (destruct dbg; vm_compute; reflexivity).
  destruct (from_sgf_nodes dbg (strip_root :: strip_rest)) as [g| |] eqn:Eg; [|discriminate..]. bools D. unfold has in *. apply bool_decide_eq_true in D, D0.
  exists (table_of g0), (List.map (fun _ => None) (record_moves strip_rest)), (table_of g'), g.
  split; [apply strip_supported|]. split; [reflexivity|]. split.
  { constructor; cbn [table_of t_pos t_turn t_passes t_outcome t_prisoners t_ko t_seen]; [exact P0|rewrite H7, H6; reflexivity|exact H1|exact H5|exact H2|exact H4|rewrite H3; reflexivity]. }
  split; [rewrite H9 in R; apply (raccepted_run _ _ _ _ _ _ R)|].
  { intros a Ha. match goal with H : forallb _ _ = true |- _ => rewrite forallb_forall in H; apply elem_of_list_In, H in Ha; destruct a as [[]|]; discriminate Ha || reflexivity end. }
  split; [reflexivity|]. split; [exact D|]. split; assumption.
Qed.

(** a run of calls, one of them on a point that is taken *)
Definition kept_ops : list op := [OHandicap [(4, 4)]; OTry (MPlay 0 0); OPlay (MPlay 0 8); OTry (MPlay 0 0); OPlay MPass; OKomi (f32_of_N 0); OResume; OPlay (MResign White)].

Lemma case_kept dbg : exists g g' l, game_new Nine JAPANESE = Ok g /\ gsize (gm_goban g) = (9, 9) /\ calls dbg g kept_ops = Ok (g', l) /\ length l = 8 /\
  position g' (0, 0) = Some White.
Proof.
  destruct (game_new Nine JAPANESE) as [g| |] eqn:E0; [|vm_compute in E0; discriminate..].
  assert (F : match calls dbg g kept_ops with Ok (g', l) => bool_decide (length l = 8) && has g' (0, 0) (Some White) | _ => false end && bool_decide (gsize (gm_goban g) = (9, 9)) = true)
    by (vm_compute in E0; injection E0 as <-; destruct dbg; vm_compute; reflexivity).
  bools F. destruct (calls dbg g kept_ops) as [[g' l]| |] eqn:E; [|discriminate..]. bools F. unfold has in *.
  repeat match goal with H : bool_decide _ = true |- _ => apply bool_decide_eq_true in H end.
  exists g, g', l. auto.
Qed.

Lemma case_import_size dbg : exists g, supported dbg tall_root tall_rest /\ from_sgf_nodes dbg (tall_root :: tall_rest) = Ok g /\
  record_size tall_root = (8, 4)%N /\ record_builder tall_root tall_rest = tall_builder /\ snd (build dbg tall_builder) = Ok g.
Proof.
  pose proof (tall_supported dbg) as S. destruct (snd (build dbg tall_builder)) as [g| |] eqn:E; [|destruct dbg; vm_compute in E; discriminate..].
  exists g. split; [exact S|]. rewrite (sgf_supported _ _ _ S). auto.
Qed.
