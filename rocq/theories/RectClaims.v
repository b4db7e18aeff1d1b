(** Games on boards that are wider than high. *)
From Verif Require Import Spec Observe Ops.
From Verif Require Import CaseFacts.
From Coq Require Import Lia.

Open Scope nat_scope.

(** the points (r, c) and (r + 1, c - h) are one and the same *)
Theorem shared_points h w (g : game) r c : gsize (gm_goban g) = (h, w) -> h <= c ->
  position g (r, c) = position g (S r, c - h).
Proof.
  intros Hs Hc. unfold position, pos_of, get_color, two_to_1dim. rewrite Hs. cbn [fst snd].
  replace (S r * h + (c - h)) with (r * h + c) by nia. reflexivity.
Qed.

(** the sizes of the README, 4 x 5 and 4 x 9: a stone at the end of a row is
    also at the start of the next, which can no longer be played *)
Theorem readme_sizes dbg w : w = 5%N \/ w = 9%N -> exists g g',
  game_new (Custom 4 w) JAPANESE = Ok g /\ position g (1, 0) = None /\ try_play dbg g (MPlay 0 4) = Ok (g', Accepted) /\
  position g' (0, 4) = Some Black /\ position g' (1, 0) = Some Black /\ try_play dbg g' (MPlay 1 0) = Ok (g', Refused EPointNotEmpty).
Proof.
  intros Hw. destruct (game_new (Custom 4 w) JAPANESE) as [g| |] eqn:E; [|destruct Hw as [-> | ->]; vm_compute in E; discriminate..].
  assert (K : match game_new (Custom 4 w) JAPANESE with Ok g => match try_play dbg g (MPlay 0 4) with
     | Ok (g', Accepted) => has g (1, 0) None && has g' (0, 4) (Some Black) && has g' (1, 0) (Some Black) && verdict_is (try_play dbg g' (MPlay 1 0)) (Some EPointNotEmpty)
     | _ => false end | _ => false end = true) by (destruct Hw as [-> | ->], dbg; vm_compute; reflexivity).
  rewrite E in K. destruct (try_play dbg g (MPlay 0 4)) as [[g' []]| |] eqn:T; try discriminate. bools K.
  exists g, g'. split; [reflexivity|]. split; [exact (bool_decide_eq_true_1 _ K)|]. split; [exact T|].
  split; [exact (bool_decide_eq_true_1 _ K2)|]. split; [exact (bool_decide_eq_true_1 _ K1)|]. apply refused_is, K0.
Qed.
Lemma case_shared : exists g, game_new (Custom 4 9) JAPANESE = Ok g /\ gsize (gm_goban g) = (4, 9) /\ 4 <= 8.
Proof.
  destruct (game_new (Custom 4 9) JAPANESE) as [g| |] eqn:E; [|vm_compute in E; discriminate..]. exists g. split; [reflexivity|].
  injection E as <-. split; [reflexivity|lia].
Qed.
