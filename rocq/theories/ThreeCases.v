(** A concrete case for the exchange around a stone of the other player. *)
From stdpp Require Import relations.
From Verif Require Import LocalSpec OrderSpec Spec Observe Reach Ops Samples Game MonadFacts GameFacts RefuteFacts CaseFacts.
From Verif Require Import RectBridge RectSpec RectReach RectGo RectInv RectGame RectLegal RectLegalClaims RectSymFacts RectSymClaims RectReachFacts RectVerdict PastFacts PastCases OrderFacts OrderCases FreeFacts TightClaims RectCases LocalFacts FarFacts FarCases FarThree.
From Coq Require Import Lia.
Local Notation length := Datatypes.length.
Local Open Scope nat_scope.

Definition three_line : list move := [MPlay 0 1; MPlay 3 1; MPlay 7 2].

Lemma lone_chain n P t a c : P t = Some c -> (forall u, ron n u -> adj t u -> P u <> Some c) -> rconnected n P t a -> a = t.
Proof.
  intros E H C. unfold rconnected in C. destruct C as [|t u a (A1 & A2 & A3 & A4) _]; [reflexivity|]. destruct (H u A2 A3). congruence.
Qed.

(** the contents of the three neighbourhoods *)
Definition three_shape (P : pos) : bool :=
  bool_decide (P (0, 0) = Some White) && bool_decide (P (0, 1) = None) && bool_decide (P (0, 2) = None) && bool_decide (P (1, 1) = None) && bool_decide (P (1, 0) = Some Black) &&
  bool_decide (P (7, 3) = Some White) && bool_decide (P (7, 2) = None) && bool_decide (P (7, 1) = None) && bool_decide (P (6, 2) = None) && bool_decide (P (6, 3) = Some Black) &&
  bool_decide (P (2, 1) = None) && bool_decide (P (4, 1) = None) && bool_decide (P (3, 0) = None) && bool_decide (P (3, 2) = None).

Lemma three_rows P : three_shape P = true ->
  (forall r, near (8, 4) P (0, 1) r -> fst r <= 1) /\ (forall r, near (8, 4) P (3, 1) r -> 2 <= fst r <= 4) /\ (forall r, near (8, 4) P (7, 2) r -> 6 <= fst r).
Proof.
  unfold three_shape. rewrite !andb_true_iff, !bool_decide_eq_true. intros [[[[[[[[[[[[[A1 A2] A3] A4] A5] B1] B2] B3] B4] B5] C1] C2] C3] C4]. split; [|split].
  - intros r [->|[A|([tx ty] & a & Ht & A & N & C & K)]]; [cbn; lia|unfold adj in A; cbn in A; lia|].
    assert ((tx, ty) = (0, 0)) as T.
    { unfold adj in A. cbn in A. assert (K1 : (tx, ty) = (0, 0) \/ (tx, ty) = (0, 2) \/ (tx, ty) = (1, 1)).
      { destruct tx as [|[|tx]]; [|right; right; f_equal; lia|lia]. destruct (decide (ty = 0)) as [->|]; [left; reflexivity|right; left; f_equal; lia]. }
      destruct K1 as [X|[X|X]]; [exact X|rewrite X in N; contradiction|rewrite X in N; contradiction]. }
    rewrite T in C. apply (lone_chain (8, 4) P (0, 0) a White A1) in C as ->.
    + destruct K as [->|K]; [cbn; lia|unfold adj in K; cbn in K; lia].
    + intros [ux uy] Hu U. unfold adj in U. cbn in U. assert (K1 : (ux, uy) = (0, 1) \/ (ux, uy) = (1, 0)).
      { destruct ux as [|ux]; [left; f_equal; lia|right; f_equal; lia]. }
      destruct K1 as [->| ->]; congruence.
  - intros r [->|[A|([tx ty] & a & Ht & A & N & C & K)]]; [cbn; lia|unfold adj in A; cbn in A; lia|]. exfalso. apply N.
    unfold adj in A. cbn in A. assert (K1 : (tx, ty) = (2, 1) \/ (tx, ty) = (4, 1) \/ (tx, ty) = (3, 0) \/ (tx, ty) = (3, 2)).
    { destruct (decide (tx = 2)) as [->|]; [left; f_equal; lia|]. destruct (decide (tx = 4)) as [->|]; [right; left; f_equal; lia|].
      destruct (decide (ty = 0)) as [->|]; [right; right; left; f_equal; lia|right; right; right; f_equal; lia]. }
    destruct K1 as [->|[->|[->| ->]]]; assumption.
  - intros r [->|[A|([tx ty] & a & Ht & A & N & C & K)]]; [cbn; lia|unfold adj in A; cbn in A; lia|].
    assert ((tx, ty) = (7, 3)) as T.
    { unfold adj in A. unfold ron in Ht. cbn in A, Ht. assert (K1 : (tx, ty) = (7, 3) \/ (tx, ty) = (7, 1) \/ (tx, ty) = (6, 2)).
      { destruct (decide (tx = 6)) as [->|]; [right; right; f_equal; lia|]. destruct (decide (ty = 3)) as [->|]; [left; f_equal; lia|right; left; f_equal; lia]. }
      destruct K1 as [X|[X|X]]; [exact X|rewrite X in N; contradiction|rewrite X in N; contradiction]. }
    rewrite T in C. apply (lone_chain (8, 4) P (7, 3) a White B1) in C as ->.
    + destruct K as [->|K]; [cbn; lia|unfold adj in K; cbn in K; lia].
    + intros [ux uy] Hu U. unfold adj in U. unfold ron in Hu. cbn in U, Hu. assert (K1 : (ux, uy) = (7, 2) \/ (ux, uy) = (6, 3)).
      { destruct (decide (ux = 6)) as [->|]; [right; f_equal; lia|left; f_equal; lia]. }
      destruct K1 as [->| ->]; congruence.
Qed.

Lemma case_three dbg : exists g g1 b w, Nat.divide 4 8 /\ rgreach dbg (8, 4) b w g /\ ron (8, 4) (0, 1) /\ ron (8, 4) (3, 1) /\ ron (8, 4) (7, 2) /\
  far_apart (8, 4) (position g) (0, 1) (3, 1) /\ far_apart (8, 4) (position g) (0, 1) (7, 2) /\ far_apart (8, 4) (position g) (3, 1) (7, 2) /\
  gm_ko_point g = None /\ forbids_fill_eye (gm_rule g) = false /\ forbids_superko (gm_rule g) = false /\
  (N.of_nat (b + w + 3) < 65535)%N /\ all_accepted dbg g three_line g1 /\ gm_prisoners g = (0%N, 0%N) /\ gm_prisoners g1 = (2%N, 0%N).
Proof.
  assert (F : match rsample dbg 8 4 JAPANESE corners_moves with
     | Some g => match tried dbg g three_line with
         | Some g1 => three_shape (position g) && bool_decide (gm_ko_point g = None) && bool_decide (gm_prisoners g = (0%N, 0%N)) && bool_decide (gm_prisoners g1 = (2%N, 0%N))
         | None => false end
     | None => false end = true) by (destruct dbg; vm_compute; reflexivity).
  assert (R : match rsample dbg 8 4 JAPANESE corners_moves with Some g => gm_rule g = JAPANESE | None => False end) by (destruct dbg; vm_compute; reflexivity).
  destruct (rsample dbg 8 4 JAPANESE corners_moves) as [g|] eqn:T; [|discriminate]. destruct (tried dbg g three_line) as [g1|] eqn:T1; [|discriminate].
  rewrite !andb_true_iff, !bool_decide_eq_true in F. destruct F as [[[F1 F2] F3] F4]. destruct (three_rows _ F1) as (N1 & N2 & N3).
  destruct (rsample_reach dbg 8 4 JAPANESE _ g ltac:(lia) ltac:(lia) T) as (b & w & HG & L). cbn [length corners_moves] in L.
  exists g, g1, b, w. split; [exists 2; reflexivity|]. split; [exact HG|]. split; [split; cbn; lia|]. split; [split; cbn; lia|]. split; [split; cbn; lia|].
  split; [intros r _ X Y; specialize (N1 r X); specialize (N2 r Y); lia|]. split; [intros r _ X Y; specialize (N1 r X); specialize (N3 r Y); lia|]. split; [intros r _ X Y; specialize (N2 r X); specialize (N3 r Y); lia|].
  split; [exact F2|]. rewrite R. split; [reflexivity|]. split; [reflexivity|]. split; [lia|]. split; [apply tried_all, T1|]. split; assumption.
Qed.
