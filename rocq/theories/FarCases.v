(** Concrete cases for the exchange of stones that are far apart. *)
From stdpp Require Import relations.
From Verif Require Import LocalSpec OrderSpec Spec Observe Reach Ops Samples Game MonadFacts GameFacts RefuteFacts CaseFacts.
From Verif Require Import RectBridge RectSpec RectReach RectGo RectInv RectGame RectLegal RectLegalClaims RectSymFacts RectSymClaims RectReachFacts RectVerdictSpec RectVerdict PastFacts PastCases OrderFacts OrderCases FreeFacts TightClaims RectCases LocalFacts FarFacts.
From Coq Require Import Lia.
Local Notation length := Datatypes.length.
Local Open Scope nat_scope.

(** two white stones in opposite corners, each with one liberty left *)
Definition corners_moves : list move := [MPlay 1 0; MPlay 0 0; MPlay 6 3; MPlay 7 3].
Definition far_line : list move := [MPlay 0 1; MPass; MPlay 7 2].

Definition middle_empty (P : pos) : bool := forallb (fun q => implb ((fst q =? 2) || (fst q =? 5)) (bool_decide (P q = None))) (rpoints (8, 4)).

Lemma middle_far P : middle_empty P = true -> far_apart (8, 4) P (0, 1) (7, 2).
Proof.
  unfold middle_empty. rewrite forallb_forall. intros H.
  assert (H2 : forall q, ron (8, 4) q -> fst q = 2 \/ fst q = 5 -> P q = None).
  { intros q Hq L. assert (I : In q (rpoints (8, 4))) by (destruct q; apply in_prod; apply in_seq; unfold ron in Hq; cbn in *; lia).
    apply H in I. rewrite (proj2 (orb_true_iff _ _)) in I by (rewrite !Nat.eqb_eq; exact L). apply bool_decide_eq_true in I. exact I. }
  assert (U : forall t a, P t <> None -> fst t <= 1 -> rconnected (8, 4) P t a -> fst a <= 1).
  { intros t a N L C. unfold rconnected in C. induction C as [|t u a (A1 & A2 & A3 & A4) _ IH]; [exact L|]. apply IH; [congruence|].
    assert (fst u <> 2) by (intros F; apply N; rewrite A4; apply (H2 u A2); left; exact F). unfold adj in A3. lia. }
  assert (D : forall t a, P t <> None -> 6 <= fst t -> rconnected (8, 4) P t a -> 6 <= fst a).
  { intros t a N L C. unfold rconnected in C. induction C as [|t u a (A1 & A2 & A3 & A4) _ IH]; [exact L|]. apply IH; [congruence|].
    assert (fst u <> 5) by (intros F; apply N; rewrite A4; apply (H2 u A2); right; exact F). unfold adj in A3. lia. }
  intros r Hr N M. assert (fst r <= 2).
  { destruct N as [->|[A|(t & a & Ht & A & N & C & K)]]; [cbn; lia|unfold adj in A; cbn in A; lia|].
    assert (L : fst a <= 1) by (apply (U t a N); [unfold adj in A; cbn in A; lia|exact C]). destruct K as [->|K]; [lia|]. unfold adj in K. lia. }
  assert (5 <= fst r); [|lia].
  destruct M as [->|[A|(t & a & Ht & A & M & C & K)]]; [cbn; lia|unfold adj in A; cbn in A; lia|].
  assert (L : 6 <= fst a) by (apply (D t a M); [unfold adj in A; cbn in A; lia|exact C]). destruct K as [->|K]; [lia|]. unfold adj in K. lia.
Qed.

Lemma case_far dbg : exists g g1 b w, Nat.divide 4 8 /\ rgreach dbg (8, 4) b w g /\ ron (8, 4) (0, 1) /\ ron (8, 4) (7, 2) /\
  far_apart (8, 4) (position g) (0, 1) (7, 2) /\ gm_ko_point g = None /\ forbids_fill_eye (gm_rule g) = false /\ forbids_superko (gm_rule g) = false /\
  (N.of_nat (b + w + 2) < 65535)%N /\ all_accepted dbg g far_line g1 /\ gm_prisoners g = (0%N, 0%N) /\ gm_prisoners g1 = (2%N, 0%N).
Proof.
  assert (F : match rsample dbg 8 4 JAPANESE corners_moves with
     | Some g => match tried dbg g far_line with
         | Some g1 => middle_empty (position g) && bool_decide (gm_ko_point g = None) && bool_decide (gm_prisoners g = (0%N, 0%N)) && bool_decide (gm_prisoners g1 = (2%N, 0%N))
         | None => false end
     | None => false end = true) by (destruct dbg; vm_compute; reflexivity).
  assert (R : match rsample dbg 8 4 JAPANESE corners_moves with Some g => gm_rule g = JAPANESE | None => False end) by (destruct dbg; vm_compute; reflexivity).
  destruct (rsample dbg 8 4 JAPANESE corners_moves) as [g|] eqn:T; [|discriminate]. destruct (tried dbg g far_line) as [g1|] eqn:T1; [|discriminate].
  rewrite !andb_true_iff, !bool_decide_eq_true in F. destruct F as [[[F1 F2] F3] F4].
  destruct (rsample_reach dbg 8 4 JAPANESE _ g ltac:(lia) ltac:(lia) T) as (b & w & HG & L). cbn [length corners_moves] in L.
  exists g, g1, b, w. split; [exists 2; reflexivity|]. split; [exact HG|]. split; [split; cbn; lia|]. split; [split; cbn; lia|]. split; [apply middle_far, F1|].
  split; [exact F2|]. rewrite R. split; [reflexivity|]. split; [reflexivity|]. split; [lia|]. split; [apply tried_all, T1|]. split; assumption.
Qed.

(** a stone that captures only after the other one has been played *)
Definition close_moves : list move := [MPlay 1 1; MPlay 0 1; MPlay 7 3; MPlay 1 0].

Lemma case_close dbg : exists g g1 g2 b w, rgreach dbg (8, 4) b w g /\ gm_ko_point g = None /\ forbids_fill_eye (gm_rule g) = false /\ forbids_superko (gm_rule g) = false /\
  position g (2, 0) = None /\ position g (0, 0) = None /\
  all_accepted dbg g [MPlay 2 0; MPass; MPlay 0 0] g1 /\ try_play dbg g (MPlay 0 0) = Ok (g2, Refused ESuicide).
Proof.
  assert (F : match rsample dbg 8 4 JAPANESE close_moves with
     | Some g => match tried dbg g [MPlay 2 0; MPass; MPlay 0 0], try_play dbg g (MPlay 0 0) with
         | Some g1, Ok (g2, Refused ESuicide) => bool_decide (gm_ko_point g = None) && bool_decide (position g (2, 0) = None) && bool_decide (position g (0, 0) = None)
         | _, _ => false end
     | None => false end = true) by (destruct dbg; vm_compute; reflexivity).
  assert (R : match rsample dbg 8 4 JAPANESE close_moves with Some g => gm_rule g = JAPANESE | None => False end) by (destruct dbg; vm_compute; reflexivity).
  destruct (rsample dbg 8 4 JAPANESE close_moves) as [g|] eqn:T; [|discriminate]. destruct (tried dbg g [MPlay 2 0; MPass; MPlay 0 0]) as [g1|] eqn:T1; [|discriminate].
  destruct (try_play dbg g (MPlay 0 0)) as [[g2 [|[]]]| |] eqn:T2; try discriminate.
  rewrite !andb_true_iff, !bool_decide_eq_true in F. destruct F as [[F1 F2] F3].
  destruct (rsample_reach dbg 8 4 JAPANESE _ g ltac:(lia) ltac:(lia) T) as (b & w & HG & L).
  exists g, g1, g2, b, w. split; [exact HG|]. split; [exact F1|]. rewrite R. split; [reflexivity|]. split; [reflexivity|]. split; [exact F2|]. split; [exact F3|]. split; [apply tried_all, T1|exact T2].
Qed.

Lemma case_far_verdict dbg : exists g g1 b w, Nat.divide 4 8 /\ rgreach dbg (8, 4) b w g /\ ron (8, 4) (0, 1) /\ ron (8, 4) (7, 2) /\
  far_apart (8, 4) (position g) (0, 1) (7, 2) /\ position g (7, 2) = None /\ gm_ko_point g <> Some (7, 2) /\
  forbids_fill_eye (gm_rule g) = false /\ (forbids_superko (gm_rule g) = false \/ ~ rcaptures (8, 4) (position g) (7, 2) (gm_turn g)) /\
  (N.of_nat (b + w + 1) < 65535)%N /\ all_accepted dbg g [MPlay 0 1; MPass] g1 /\ exists h, try_play dbg g1 (MPlay 7 2) = Ok (h, Accepted).
Proof.
  destruct (case_far dbg) as (g & g1 & b & w & Hd & HG & Hp & Hq & F & K & Fe & Fs & L & A & _).
  destruct (far_exchange dbg (8, 4) b w g 0 1 7 2 g1 Hd HG Hp Hq F K Fe Fs L A) as (g2 & (h1 & E & _) & _).
  destruct (stone_facts dbg (8, 4) b w g 7 2 h1 Hd HG Hq E) as (Eq & _). destruct A as (ga & Ea & gp & Ep & gz & Ez & _).
  exists g, gp, b, w. split; [exact Hd|]. split; [exact HG|]. split; [exact Hp|]. split; [exact Hq|]. split; [exact F|]. split; [exact Eq|]. split; [congruence|].
  split; [exact Fe|]. split; [left; exact Fs|]. split; [lia|]. split; [exists ga; split; [exact Ea|]; exists gp; split; [exact Ep|reflexivity]|]. exists gz. exact Ez.
Qed.
