(** A concrete case for the theorems about life on boards whose width divides their
    height. *)
From stdpp Require Import relations sorting.
From Verif Require Import Spec Observe Reach Samples DeadStones RectLifeSpec RectPlayoutSpec RectReach RectGo.
From Verif Require Import Bridge MonadFacts GameFacts LegalFacts RectInv RectBridge RectGame RectReachFacts RectPlayout RectDead RectLife RectSolid CaseFacts LifeClaims PlayClaims SolidClaims RectPlayoutClaims.
From Coq Require Import Lia.

Local Notation length := Datatypes.length.
Open Scope nat_scope.

Definition tall_wall : list coord := [(1, 1); (0, 1); (1, 0); (1, 2)].
Definition tall_wall_moves : list move := [MPlay 1 1; MPass; MPlay 0 1; MPass; MPlay 1 0; MPlay 5 2; MPlay 1 2].

Lemma star_connected (n : nat * nat) P c : (forall a, a ∈ tall_wall -> ron n a /\ P a = Some c) -> forall a, a ∈ tall_wall -> rconnected n P (1, 1) a.
Proof.
  intros H a Ha. destruct (decide (a = (1, 1))) as [->|Hn]; [apply rtc_refl|]. apply rtc_once.
  destruct (H (1, 1) ltac:(left)) as [O1 E1]. destruct (H a Ha) as [O2 E2]. split; [exact O1|]. split; [exact O2|]. split; [|congruence].
  unfold tall_wall in Ha. elems Ha; [congruence|unfold adj; cbn; lia..].
Qed.

(** Black has two eyes in the corners of a board with six rows and three columns;
    White plays on, and the game is played out at random and by the search *)
Lemma case_rlife dbg : exists g b w g' h l, Nat.divide 3 6 /\ 6 = 2 * 3 /\ rgreach dbg (6, 3) b w g /\ forbids_suicide (gm_rule g) = true /\
  ron (6, 3) (1, 1) /\ position g (1, 1) = Some Black /\
  ralive (6, 3) (position g) Black tall_wall [[(0, 0)]; [(0, 2)]] /\
  rsolid_eye (6, 3) (position g) (1, 1) (0, 0) /\ rsolid_eye (6, 3) (position g) (1, 1) (0, 2) /\
  try_play dbg g (MPlay 2 1) = Ok (g', Accepted) /\ rtc (rspares dbg (6, 3) Black [[(0, 0)]; [(0, 2)]]) g g' /\
  (forall i l, wheel i l ≡ₚ l) /\ playout 100 0 wheel dbg g = Ok h /\
  answers_offered dbg last_move g /\ dead_stones 100 last_move dbg g = Ok l /\
  get_floating_stones dbg g = Ok [0] /\ group_no (gm_goban g) (1, 1) = Some 0.
Proof.
  assert (Hd : Nat.divide 3 6) by (exists 2; reflexivity).
  destruct (rsample dbg 6 3 JAPANESE tall_wall_moves) as [g|] eqn:E; [|destruct dbg; vm_compute in E; discriminate].
  assert (F : match rsample dbg 6 3 JAPANESE tall_wall_moves with
     | Some g => forbids_suicide (gm_rule g) && all_have g tall_wall (Some Black) && has g (0, 0) None && has g (0, 2) None && bool_decide (gm_turn g = White) &&
         verdict_is (try_play dbg g (MPlay 2 1)) None &&
         match playout 100 0 wheel dbg g with Ok _ => true | _ => false end && match dead_stones 100 last_move dbg g with Ok _ => true | _ => false end &&
         match get_floating_stones dbg g with Ok l => bool_decide (l = [0]) | _ => false end && bool_decide (group_no (gm_goban g) (1, 1) = Some 0)
     | None => false end = true) by (destruct dbg; vm_compute; reflexivity).
  rewrite E in F. bools F. pose proof (all_have_spec _ _ _ F8) as HB. unfold has in F7, F6. apply bool_decide_eq_true in F7, F6, F5, F0.
  apply accepted_is in F4. destruct F4 as [g' E1].
  destruct (playout 100 0 wheel dbg g) as [h| |] eqn:E2; [|discriminate..]. destruct (dead_stones 100 last_move dbg g) as [l| |] eqn:E3; [|discriminate..].
  destruct (get_floating_stones dbg g) as [fl| |] eqn:E4; [|discriminate..]. apply bool_decide_eq_true in F1. subst fl.
  destruct (rsample_reach dbg 6 3 JAPANESE _ g ltac:(lia) ltac:(lia) E) as (b & w & HG & _).
  assert (HO : forall a, a ∈ tall_wall -> ron (6, 3) a /\ position g a = Some Black).
  { intros a Ha. split; [|apply HB, Ha]. unfold tall_wall in Ha. elems Ha; split; cbn; lia. }
  pose proof (star_connected (6, 3) (position g) Black HO) as K.
  assert (L : forall x e q, x ∈ tall_wall -> q ∈ tall_wall -> ron (6, 3) e -> position g e = None -> adj q e -> rliberty (6, 3) (position g) x e).
  { intros x e q Hx Hq Oe Ee A. split; [exact Oe|]. split; [exact Ee|]. exists q. split; [|exact A].
    eapply rtc_transitive; [apply rconnected_sym, K, Hx|apply K, Hq]. }
  assert (A1 : forall q, ron (6, 3) q -> adj (0, 0) q \/ diag (0, 0) q -> q ∈ tall_wall).
  { intros [x y] [Q1 Q2] A. cbn in Q1, Q2. unfold adj, diag in A. cbn in A.
    assert (x = 0 /\ y = 1 \/ x = 1 /\ y = 0 \/ x = 1 /\ y = 1) as [[-> ->]|[[-> ->]|[-> ->]]] by lia; unfold tall_wall; elem_. }
  assert (A2 : forall q, ron (6, 3) q -> adj (0, 2) q \/ diag (0, 2) q -> q ∈ tall_wall).
  { intros [x y] [Q1 Q2] A. cbn in Q1, Q2. unfold adj, diag in A. cbn in A.
    assert (x = 0 /\ y = 1 \/ x = 1 /\ y = 2 \/ x = 1 /\ y = 1) as [[-> ->]|[[-> ->]|[-> ->]]] by lia; unfold tall_wall; elem_. }
  assert (Lx : forall x e, x ∈ tall_wall -> e = (0, 0) \/ e = (0, 2) -> rliberty (6, 3) (position g) x e).
  { intros x e Hx [-> | ->]; apply (L x _ (0, 1) Hx); try (unfold tall_wall; elem_); try (split; cbn; lia); try assumption; unfold adj; cbn; lia. }
  exists g, b, w, g', h, l. split; [exact Hd|]. split; [reflexivity|]. split; [exact HG|]. split; [exact F|]. split; [split; cbn; lia|]. split; [apply HB; left|]. split.
  { split; [exact HO|]. split.
    - intros R HR. elems HR; (split; [intros p Hp; elems Hp; split; [split; cbn; lia|congruence]|]).
      + split; [exists (0, 0); split; [left|exact F7]|]. intros p q Hp Hq A. elems Hp. right. apply A1; auto.
      + split; [exists (0, 2); split; [left|exact F6]|]. intros p q Hp Hq A. elems Hp. right. apply A2; auto.
    - intros x Hx. exists [(0, 0)], [(0, 2)]. split; [left|]. split; [right; left|]. split; [|split].
      + intros p Hp Hq. elems Hp. apply elem_of_list_singleton in Hq. discriminate.
      + intros p Hp _. elems Hp. apply Lx; auto.
      + intros p Hp _. elems Hp. apply Lx; auto. }
  split; [split; [apply Lx; [left|auto]|intros q Hq A; apply K, A1; assumption]|].
  split; [split; [apply Lx; [left|auto]|intros q Hq A; apply K, A2; assumption]|].
  split; [exact E1|]. split.
  { apply rtc_once. left. exists 2, 1, Accepted. split; [split; cbn; lia|]. split; [exact E1|]. intros T. congruence. }
  split; [exact wheel_perm|]. split; [exact E2|]. split; [exact (last_fair dbg g)|]. auto.
Qed.
