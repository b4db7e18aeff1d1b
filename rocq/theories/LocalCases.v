(** Concrete cases for the theorems about the neighbourhood of a stone. *)
From stdpp Require Import relations.
From Verif Require Import LocalSpec OrderSpec Spec Observe Reach Ops Samples Game MonadFacts GameFacts RefuteFacts CaseFacts.
From Verif Require Import RectBridge RectSpec RectReach RectGo RectInv RectGame RectLegal RectLegalClaims RectSymFacts RectSymClaims RectReachFacts RectVerdictSpec RectVerdict PastFacts PastCases OrderFacts OrderCases FreeFacts TightClaims RectCases LocalFacts.
From Coq Require Import Lia.
Local Notation length := Datatypes.length.
Local Open Scope nat_scope.

(** the same fight in the first two rows, other stones far away *)
Definition here_moves : list move := [MPlay 1 0; MPlay 0 0; MPlay 7 3; MPlay 7 2].
Definition there_moves : list move := [MPlay 1 0; MPlay 0 0; MPlay 6 3; MPlay 5 3; MPlay 5 0; MPlay 7 1].

Definition rows_alike (P Q : pos) : bool :=
  forallb (fun q => implb (fst q <=? 2) (bool_decide (P q = Q q)) && implb (fst q =? 2) (bool_decide (P q = None))) (rpoints (8, 4)).

Lemma rows_two P Q y : rows_alike P Q = true -> forall q, ron (8, 4) q -> within_two (0, y) q -> P q = Q q.
Proof.
  unfold rows_alike. rewrite forallb_forall. intros H q Hq [L _]. change (fst q <= 2) in L. assert (I : In q (rpoints (8, 4))) by (destruct q; apply in_prod; apply in_seq; unfold ron in Hq; cbn in *; lia).
  apply H, andb_true_iff in I as [I _]. rewrite (proj2 (Nat.leb_le _ _) L) in I. apply bool_decide_eq_true in I. exact I.
Qed.

Lemma rows_near P Q y : rows_alike P Q = true -> alike_near (8, 4) (0, y) P Q.
Proof.
  unfold rows_alike. rewrite forallb_forall. intros H.
  assert (H1 : forall q, ron (8, 4) q -> fst q <= 2 -> P q = Q q).
  { intros q Hq L. assert (I : In q (rpoints (8, 4))) by (destruct q; apply in_prod; apply in_seq; unfold ron in Hq; cbn in *; lia).
    apply H, andb_true_iff in I as [I _]. rewrite (proj2 (Nat.leb_le _ _) L) in I. apply bool_decide_eq_true in I. exact I. }
  assert (H2 : forall q, ron (8, 4) q -> fst q = 2 -> P q = None).
  { intros q Hq L. assert (I : In q (rpoints (8, 4))) by (destruct q; apply in_prod; apply in_seq; unfold ron in Hq; cbn in *; lia).
    apply H, andb_true_iff in I as [_ I]. rewrite (proj2 (Nat.eqb_eq _ _) L) in I. apply bool_decide_eq_true in I. exact I. }
  assert (H3 : forall t a, P t <> None -> fst t <= 1 -> rconnected (8, 4) P t a -> fst a <= 1).
  { intros t a N L C. unfold rconnected in C. induction C as [|t u a (A1 & A2 & A3 & A4) _ IH]; [exact L|]. apply IH; [congruence|].
    assert (fst u <> 2) by (intros F; apply N; rewrite A4; exact (H2 u A2 F)). unfold adj in A3. lia. }
  intros q Hq N. apply H1; [exact Hq|]. destruct N as [->|[A|(t & a & Ht & A & N & C & K)]].
  - cbn. lia.
  - unfold adj in A. cbn in A. lia.
  - assert (L : fst a <= 1) by (apply (H3 t a N); [unfold adj in A; cbn in A; lia|exact C]). destruct K as [->|K]; [lia|]. unfold adj in K. lia.
Qed.

Lemma case_local dbg dbg' : exists g h g' h' b w b' w', Nat.divide 4 8 /\ rgreach dbg (8, 4) b w g /\ rgreach dbg' (8, 4) b' w' h /\ ron (8, 4) (0, 1) /\
  ~ no_slot_left g /\ ~ no_slot_left h /\ position g (0, 1) = None /\ alike_near (8, 4) (0, 1) (position g) (position h) /\
  gm_turn h = gm_turn g /\ gm_rule h = gm_rule g /\ (gm_passes g = 2 <-> gm_passes h = 2) /\ (gm_ko_point g = Some (0, 1) <-> gm_ko_point h = Some (0, 1)) /\
  (forbids_fill_eye (gm_rule g) = false \/ (forall q, ron (8, 4) q -> within_two (0, 1) q -> position g q = position h q)) /\
  (forbids_superko (gm_rule g) = false \/ ~ rcaptures (8, 4) (position g) (0, 1) (gm_turn g)) /\
  try_play dbg g (MPlay 0 1) = Ok (g', Accepted) /\ try_play dbg' h (MPlay 0 1) = Ok (h', Accepted) /\
  position g (0, 0) = Some White /\ position g' (0, 0) = None /\ position g (7, 3) <> position h (7, 3).
Proof.
  destruct (rstart 8 4 JAPANESE) as [g0| |] eqn:E0; [|vm_compute in E0; discriminate..].
  assert (F : match rsample dbg 8 4 JAPANESE here_moves, rsample dbg' 8 4 JAPANESE there_moves with
     | Some g, Some h => match try_play dbg g (MPlay 0 1), try_play dbg' h (MPlay 0 1) with
         | Ok (g', Accepted), Ok (h', Accepted) => bool_decide (gm_turn h = gm_turn g) && bool_decide (gm_passes h = gm_passes g) && bool_decide (gm_ko_point g = None) && bool_decide (gm_ko_point h = None) &&
             rows_alike (position g) (position h) && bool_decide (position g (0, 0) = Some White) && bool_decide (position g' (0, 0) = None) && negb (bool_decide (position g (7, 3) = position h (7, 3))) && bool_decide (position g (0, 1) = None)
         | _, _ => false end
     | _, _ => false end = true) by (destruct dbg, dbg'; vm_compute; reflexivity).
  assert (R : match rsample dbg 8 4 JAPANESE here_moves, rsample dbg' 8 4 JAPANESE there_moves with Some g, Some h => gm_rule g = JAPANESE /\ gm_rule h = JAPANESE | _, _ => False end) by (destruct dbg, dbg'; vm_compute; split; reflexivity).
  destruct (rsample dbg 8 4 JAPANESE here_moves) as [g|] eqn:Tg; [|discriminate]. destruct (rsample dbg' 8 4 JAPANESE there_moves) as [h|] eqn:Th; [|discriminate].
  destruct (try_play dbg g (MPlay 0 1)) as [[g' [|e]]| |] eqn:Eg; try discriminate. destruct (try_play dbg' h (MPlay 0 1)) as [[h' [|e]]| |] eqn:Eh; try discriminate.
  rewrite !andb_true_iff, negb_true_iff, !bool_decide_eq_true, bool_decide_eq_false in F. destruct F as [[[[[[[[F1 F2] F3] F4] F5] F6] F7] F8] F9]. destruct R as [R1 R2].
  destruct (rsample_reach dbg 8 4 JAPANESE _ g ltac:(lia) ltac:(lia) Tg) as (b & w & HG & L). destruct (rsample_reach dbg' 8 4 JAPANESE _ h ltac:(lia) ltac:(lia) Th) as (b' & w' & HH & L').
  assert (D : Nat.divide 4 8) by (exists 2; reflexivity). cbn [length here_moves there_moves] in L, L'.
  exists g, h, g', h', b, w, b', w'. split; [exact D|]. split; [exact HG|]. split; [exact HH|]. split; [split; cbn; lia|].
  split; [apply (rfew dbg (8, 4) b w g D HG); lia|]. split; [apply (rfew dbg' (8, 4) b' w' h D HH); lia|]. split; [exact F9|]. split; [apply rows_near, F5|].
  split; [exact F1|]. split; [congruence|]. split; [rewrite F2; reflexivity|]. split; [rewrite F3, F4; reflexivity|]. rewrite R1. split; [left; reflexivity|]. split; [left; reflexivity|].
  split; [exact Eg|]. split; [exact Eh|]. split; [exact F6|]. split; [exact F7|exact F8].
Qed.

(** all four bans *)
Definition STRICT : rule := mkRule (f32_make 15 (-1)) 15 3.

(** with superko and protected eyes, a stone that captures nothing *)
Lemma case_local_strict dbg dbg' : exists g h b w b' w', Nat.divide 4 8 /\ rgreach dbg (8, 4) b w g /\ rgreach dbg' (8, 4) b' w' h /\ ron (8, 4) (0, 2) /\
  ~ no_slot_left g /\ ~ no_slot_left h /\ position g (0, 2) = None /\ alike_near (8, 4) (0, 2) (position g) (position h) /\
  gm_turn h = gm_turn g /\ gm_rule h = gm_rule g /\ (gm_passes g = 2 <-> gm_passes h = 2) /\ (gm_ko_point g = Some (0, 2) <-> gm_ko_point h = Some (0, 2)) /\
  (forbids_fill_eye (gm_rule g) = false \/ (forall q, ron (8, 4) q -> within_two (0, 2) q -> position g q = position h q)) /\
  (forbids_superko (gm_rule g) = false \/ ~ rcaptures (8, 4) (position g) (0, 2) (gm_turn g)) /\
  forbids_fill_eye (gm_rule g) = true /\ forbids_superko (gm_rule g) = true /\ length (gm_history g) = 4 /\ position g (7, 3) <> position h (7, 3).
Proof.
  assert (F : match rsample dbg 8 4 STRICT here_moves, rsample dbg' 8 4 STRICT there_moves with
     | Some g, Some h => bool_decide (gm_turn h = gm_turn g) && bool_decide (gm_passes h = gm_passes g) && bool_decide (gm_ko_point g = None) && bool_decide (gm_ko_point h = None) &&
             rows_alike (position g) (position h) && negb (bool_decide (position g (7, 3) = position h (7, 3))) && bool_decide (position g (0, 2) = None) &&
             bool_decide (position g (0, 1) = None) && bool_decide (position g (0, 3) = None) && bool_decide (position g (1, 2) = None) && bool_decide (length (gm_history g) = 4)
     | _, _ => false end = true) by (destruct dbg, dbg'; vm_compute; reflexivity).
  assert (R : match rsample dbg 8 4 STRICT here_moves, rsample dbg' 8 4 STRICT there_moves with Some g, Some h => gm_rule g = STRICT /\ gm_rule h = STRICT | _, _ => False end) by (destruct dbg, dbg'; vm_compute; split; reflexivity).
  destruct (rsample dbg 8 4 STRICT here_moves) as [g|] eqn:Tg; [|discriminate]. destruct (rsample dbg' 8 4 STRICT there_moves) as [h|] eqn:Th; [|discriminate].
  rewrite !andb_true_iff, negb_true_iff, !bool_decide_eq_true, bool_decide_eq_false in F. destruct F as [[[[[[[[[[F1 F2] F3] F4] F5] F6] F7] F8] F9] F10] F11]. destruct R as [R1 R2].
  destruct (rsample_reach dbg 8 4 STRICT _ g ltac:(lia) ltac:(lia) Tg) as (b & w & HG & L). destruct (rsample_reach dbg' 8 4 STRICT _ h ltac:(lia) ltac:(lia) Th) as (b' & w' & HH & L').
  assert (D : Nat.divide 4 8) by (exists 2; reflexivity). cbn [length here_moves there_moves] in L, L'.
  exists g, h, b, w, b', w'. split; [exact D|]. split; [exact HG|]. split; [exact HH|]. split; [split; cbn; lia|].
  split; [apply (rfew dbg (8, 4) b w g D HG); lia|]. split; [apply (rfew dbg' (8, 4) b' w' h D HH); lia|]. split; [exact F7|]. split; [apply rows_near, F5|].
  split; [exact F1|]. split; [congruence|]. split; [rewrite F2; reflexivity|]. split; [rewrite F3, F4; reflexivity|]. split; [right; apply rows_two, F5|]. split.
  - right. intros (q & Hq & (x, y) & Ht & A & O & _). assert ((x, y) = (0, 1) \/ (x, y) = (0, 3) \/ (x, y) = (1, 2)) as K.
    { unfold adj in A. cbn in A. destruct x as [|[|x]]; [|right; right; f_equal; lia|lia]. destruct (decide (y = 1)) as [->|]; [left; reflexivity|right; left; f_equal; lia]. }
    destruct K as [K|[K|K]]; rewrite K in O; unfold put in O; destruct (decide _) in O; try congruence.
  - rewrite R1. split; [reflexivity|]. split; [reflexivity|]. split; [exact F11|exact F6].
Qed.
