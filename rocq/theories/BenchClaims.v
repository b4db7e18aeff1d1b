(** Cases for the theorems about the benchmarks. *)
From stdpp Require Import relations sorting.
From Verif Require Import BenchSpec PlayoutSpec SymSpec Samples.
From Verif Require Import MonadFacts Struct GameFacts SampleFacts RefuteFacts SymFacts CaseFacts PlayClaims TableFacts PerftFacts PerftClaims BenchFacts.
From Coq Require Import Lia.

Local Notation length := Datatypes.length.

Definition counts (dbg : bool) (g : game) (d : nat) (k : N) : bool := match perft dbg g d with Ok x => (x =? k)%N | _ => false end.
Lemma counts_eq dbg g d k : counts dbg g d k = true -> perft dbg g d = Ok k.
Proof. unfold counts. destruct (perft dbg g d) as [x| |]; [|discriminate..]. intros H. apply N.eqb_eq in H as ->. reflexivity. Qed.

(** White's corner stone has been taken; White may not play there again *)
Lemma case_perft dbg : exists g b w, greach dbg 3 b w g /\ gm_passes g <> 2%nat /\ (N.of_nat (b + w + 3) <= 65535)%N /\
  position g (0, 0) = None /\ position g (0, 1) = Some Black /\ gm_turn g = White /\ perft dbg g 1 = Ok 6%N /\ perft dbg g 2 = Ok 36%N /\ perft dbg g 3 = Ok 142%N.
Proof.
  destruct (sampleb dbg 3 JAPANESE corner_moves (fun g => (gm_passes g <? 2)%nat && has g (0, 0) None && has g (0, 1) (Some Black) &&
    bool_decide (gm_turn g = White) && counts dbg g 1 6 && counts dbg g 2 36 && counts dbg g 3 142))
    as (g & b & w & HG & HB & F); [lia|destruct dbg; vm_compute; reflexivity|].
  bools F. exists g, b, w. split; [exact HG|]. split; [apply Nat.ltb_lt in F; lia|]. split; [unfold corner_moves in HB; cbn in HB; lia|].
  split; [exact (bool_decide_eq_true_1 _ F5)|]. split; [exact (bool_decide_eq_true_1 _ F4)|]. split; [exact (bool_decide_eq_true_1 _ F3)|].
  split; [exact (counts_eq _ _ _ _ F2)|]. split; [exact (counts_eq _ _ _ _ F1)|exact (counts_eq _ _ _ _ F0)].
Qed.

(** a game paused by two passes *)
Lemma case_perft_paused dbg : exists g, lreach dbg 3 g /\ gm_passes g = 2%nat /\ perft dbg g 2 = Ok 42%N /\ perft dbg (resume g) 2 = Ok 42%N.
Proof.
  destruct (legal_sampleb dbg 3 JAPANESE [MPlay 1 1; MPlay 0 1; MPass; MPass] (fun g => (gm_passes g =? 2)%nat && counts dbg g 2 42 && counts dbg (resume g) 2 42))
    as (g & HG & F); [lia|destruct dbg; vm_compute; reflexivity|].
  bools F. exists g. split; [exact HG|]. split; [apply Nat.eqb_eq, F|]. split; apply counts_eq; assumption.
Qed.

Lemma case_perft_image dbg : exists g h,
  board_sym 9 (square_symmetry 9 5) (square_symmetry 9 6) opp /\ greach dbg 9 0 0 g /\ greach dbg 9 0 0 h /\
  image_game 9 (square_symmetry 9 5) opp g h /\ image_history 9 (square_symmetry 9 5) opp g h /\ image_caught opp g h /\ gm_passes g <> 2%nat /\
  (N.of_nat (0 + 0 + 2) <= 65535)%N /\ forbids_fill_eye (gm_rule g) = false /\ gm_turn g = Black /\ gm_turn h = White.
Proof.
  destruct (case_image dbg dbg) as (g & h & H1 & H2 & H3 & H4 & H5 & H6 & _ & _ & H7 & H8 & H9 & H10). exists g, h.
  split; [exact H1|]. split; [exact H2|]. split; [exact H3|]. split; [exact H4|]. split; [exact H5|]. split; [exact H6|].
  split; [rewrite H10; discriminate|]. split; [vm_compute; discriminate|auto].
Qed.

Lemma case_perft_empty dbg : exists g, (2 <= 13)%nat /\ size_of Thirteen = (13, 13)%nat /\ game_new Thirteen CHINESE = Ok g /\
  perft dbg g 3 = Ok (169 * 168 * 167)%N.
Proof.
  destruct (game_new Thirteen CHINESE) as [g| |] eqn:E; [|vm_compute in E; discriminate E..]. exists g. split; [lia|]. split; [reflexivity|]. split; [reflexivity|].
  exact (proj2 (proj2 (perft_empty dbg 13 Thirteen CHINESE g ltac:(lia) eq_refl E))).
Qed.

(** a whole benchmark game *)
Lemma case_bench dbg : exists g', (forall i l, wheel i l ≡ₚ l) /\ (47316994 < N.of_nat (N.to_nat 47316995))%N /\ (N.of_nat 800 <= 65535)%N /\
  fast_play_game 800 wheel dbg CHINESE = Ok g' /\ is_over g' = true /\ length (gm_history g') = 531%nat.
Proof.
  assert (F : match fast_play_game 800 wheel dbg CHINESE with Ok g => is_over g && (length (gm_history g) =? 531)%nat | _ => false end = true) by (destruct dbg; vm_compute; reflexivity).
  destruct (fast_play_game 800 wheel dbg CHINESE) as [g'| |]; [|discriminate F..]. bools F. exists g'. split; [exact wheel_perm|].
  split; [rewrite N2Nat.id; reflexivity|]. split; [vm_compute; discriminate|]. split; [reflexivity|]. split; [exact F|apply Nat.eqb_eq, F0].
Qed.
