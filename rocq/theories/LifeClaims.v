(** Concrete cases for the theorems about life, area and territory. *)
From stdpp Require Import relations.
From Verif Require Import LifeSpec AreaSpec Spec Observe Ops ScoreSpec.
From Verif Require Import Bridge MonadFacts GameFacts LegalFacts LifeFacts AreaFacts.
From Verif Require Export CaseFacts.
From Coq Require Import Lia.

Local Notation length := Datatypes.length.
Open Scope nat_scope.

Definition all_have (g : game) (l : list coord) (c : option color) : bool := forallb (fun p => has g p c) l.

Lemma all_have_spec g l c : all_have g l c = true -> forall p, p ∈ l -> position g p = c.
Proof.
  intros H p Hp. unfold all_have in H. rewrite List.forallb_forall in H. apply elem_of_list_In in Hp. specialize (H p Hp).
  unfold has in H. apply bool_decide_eq_true in H. exact H.
Qed.

(** points each next to an earlier one of the same colour are connected *)
Fixpoint grown (n : nat) (p : coord) (done l : list coord) : bool :=
  match l with
  | [] => true
  | q :: l => bool_decide (on n q) && existsb (fun a => bool_decide (adj a q)) done && grown n p (q :: done) l
  end.

Lemma grown_connected n P p c l : forall done, grown n p done l = true ->
  (forall a, a ∈ done -> on n a /\ P a = Some c /\ connected n P p a) -> (forall a, a ∈ l -> P a = Some c) ->
  forall a, a ∈ l -> connected n P p a.
Proof.
  induction l as [|q l IH]; intros done G HD HL a Ha; [apply elem_of_nil in Ha; contradiction|].
  cbn in G. apply andb_true_iff in G. destruct G as [G G2]. apply andb_true_iff in G. destruct G as [G0 G1].
  apply bool_decide_eq_true in G0. apply existsb_exists in G1. destruct G1 as (d & Hd & A). apply bool_decide_eq_true in A. apply elem_of_list_In in Hd.
  destruct (HD d Hd) as (Od & Cd & Kd).
  assert (Kq : connected n P p q).
  { eapply rtc_r; [exact Kd|]. split; [exact Od|]. split; [exact G0|]. split; [exact A|]. rewrite Cd. symmetry. apply HL. apply elem_of_cons; auto. }
  apply elem_of_cons in Ha. destruct Ha as [->|Ha]; [exact Kq|].
  apply (IH (q :: done) G2); [| |exact Ha].
  - intros b Hb. apply elem_of_cons in Hb. destruct Hb as [->|Hb]; [|auto]. split; [exact G0|]. split; [|exact Kq]. apply HL. apply elem_of_cons; auto.
  - intros b Hb. apply HL. apply elem_of_cons; auto.
Qed.

Definition wall : list coord := [(1, 1); (0, 1); (1, 0); (1, 2); (1, 3); (1, 4); (0, 4)].
Definition wall_moves : list move :=
  [MPlay 1 1; MPass; MPlay 0 1; MPass; MPlay 1 0; MPlay 0 3; MPlay 1 2; MPass; MPlay 1 3; MPass; MPlay 1 4; MPass; MPlay 0 4].

Ltac elems H := repeat (apply elem_of_cons in H; destruct H as [->|H]); try (apply elem_of_nil in H; contradiction).
Ltac elem_ := repeat (first [left; fail | apply elem_of_list_here | apply elem_of_list_further]).

(** Black has an eye and a region of two points with a white stone in it; White is
    refused in both and plays elsewhere *)
Lemma case_life dbg : exists g b w g', greach dbg 5 b w g /\ forbids_suicide (gm_rule g) = true /\
  alive 5 (position g) Black wall [[(0, 0)]; [(0, 2); (0, 3)]] /\ position g (0, 3) = Some White /\
  try_play dbg g (MPlay 0 0) = Ok (g, Refused ESuicide) /\ try_play dbg g (MPlay 0 2) = Ok (g, Refused ESuicide) /\
  try_play dbg g (MPlay 3 3) = Ok (g', Accepted) /\ rtc (spares dbg 5 Black [[(0, 0)]; [(0, 2); (0, 3)]]) g g'.
Proof.
  destruct (sampleb dbg 5 JAPANESE wall_moves (fun g =>
     forbids_suicide (gm_rule g) && all_have g wall (Some Black) && has g (0, 0) None && has g (0, 2) None && has g (0, 3) (Some White) && bool_decide (gm_turn g = White) &&
     verdict_is (try_play dbg g (MPlay 0 0)) (Some ESuicide) && verdict_is (try_play dbg g (MPlay 0 2)) (Some ESuicide) &&
     verdict_is (try_play dbg g (MPlay 3 3)) None) ltac:(lia)) as (g & b & w & HG & _ & F); [destruct dbg; vm_compute; reflexivity|].
  bools F. pose proof (all_have_spec _ _ _ F7) as HB. unfold has in F6, F5, F4. apply bool_decide_eq_true in F6, F5, F4, F3.
  apply refused_is in F2, F1. apply accepted_is in F0. destruct F0 as [g' E].
  exists g, b, w, g'. split; [exact HG|]. split; [exact F|].
  assert (K : forall a, a ∈ wall -> connected 5 (position g) (1, 1) a).
  { intros a Ha. unfold wall in Ha. apply elem_of_cons in Ha. destruct Ha as [->|Ha]; [apply rtc_refl|].
    eapply (grown_connected 5 (position g) (1, 1) Black (tail wall) [(1, 1)]); [vm_compute; reflexivity| | |exact Ha].
    - intros z Hz. apply elem_of_list_singleton in Hz. subst z. split; [on_|]. split; [apply HB; apply elem_of_cons; auto|apply rtc_refl].
    - intros z Hz. apply HB. apply elem_of_cons. right. exact Hz. }
  assert (L : forall x e q, x ∈ wall -> q ∈ wall -> on 5 e -> position g e = None -> adj q e -> liberty 5 (position g) x e).
  { intros x e q Hx Hq Oe Ee A. split; [exact Oe|]. split; [exact Ee|]. exists q. split; [|exact A].
    eapply rtc_transitive; [apply connected_sym, K, Hx|apply K, Hq]. }
  split.
  { split; [|split].
    - intros x Hx. split; [|apply HB, Hx]. unfold wall in Hx. elems Hx; on_.
    - intros R HR. elems HR.
      + split; [|split].
        * intros p Hp. elems Hp. split; [on_|congruence].
        * exists (0, 0). split; [apply elem_of_list_here|exact F6].
        * intros p q Hp Hq A. elems Hp. right. destruct q as [x y]. unfold adj in A. cbn in A. destruct Hq as [Q1 Q2]. cbn in Q1, Q2.
          assert (x = 0 /\ y = 1 \/ x = 1 /\ y = 0) as [[-> ->]|[-> ->]] by lia; unfold wall; elem_.
      + split; [|split].
        * intros p Hp. elems Hp; (split; [on_|congruence]).
        * exists (0, 2). split; [apply elem_of_list_here|exact F5].
        * intros p q Hp Hq A. destruct q as [x y]. unfold adj in A. destruct Hq as [Q1 Q2]. cbn in Q1, Q2. elems Hp; cbn in A.
          -- assert (x = 0 /\ y = 1 \/ x = 0 /\ y = 3 \/ x = 1 /\ y = 2) as [[-> ->]|[[-> ->]|[-> ->]]] by lia; [right; unfold wall; elem_|left; elem_|right; unfold wall; elem_].
          -- assert (x = 0 /\ y = 2 \/ x = 0 /\ y = 4 \/ x = 1 /\ y = 3) as [[-> ->]|[[-> ->]|[-> ->]]] by lia; [left; elem_|right; unfold wall; elem_|right; unfold wall; elem_].
    - intros x Hx. exists [(0, 0)], [(0, 2); (0, 3)]. split; [apply elem_of_list_here|]. split; [apply elem_of_list_further, elem_of_list_here|].
      split; [|split].
      + intros p Hp Hq. elems Hp. apply elem_of_list_In in Hq. cbn in Hq. destruct Hq as [Hq|[Hq|[]]]; discriminate.
      + intros p Hp Ep. elems Hp. apply (L x (0, 0) (0, 1)); [exact Hx|unfold wall; elem_|on_|exact F6|unfold adj; cbn; lia].
      + intros p Hp Ep. elems Hp; [|congruence]. apply (L x (0, 2) (1, 2)); [exact Hx|unfold wall; elem_|on_|exact F5|unfold adj; cbn; lia]. }
  split; [exact F4|]. split; [exact F2|]. split; [exact F1|]. split; [exact E|].
  apply rtc_once. left. exists 3, 3, Accepted. split; [on_|]. split; [exact E|]. intros T. congruence.
Qed.

Definition two_eyes_wall : list coord := [(1, 1); (0, 1); (1, 0); (1, 2); (1, 3); (0, 3)].
Definition two_eyes_moves : list move :=
  [MPlay 1 1; MPass; MPlay 0 1; MPass; MPlay 1 0; MPlay 4 3; MPlay 1 2; MPass; MPlay 1 3; MPass; MPlay 0 3].

(** a chain with two eyes in the corner; White attacks from outside *)
Lemma case_two_eyes dbg : exists g b w g', greach dbg 5 b w g /\ forbids_suicide (gm_rule g) = true /\
  on 5 (1, 1) /\ position g (1, 1) = Some Black /\ liberty 5 (position g) (1, 1) (0, 0) /\ liberty 5 (position g) (1, 1) (0, 2) /\
  (forall q, on 5 q -> adj (0, 0) q \/ adj (0, 2) q -> connected 5 (position g) (1, 1) q) /\
  try_play dbg g (MPlay 2 1) = Ok (g', Accepted) /\ rtc (spares dbg 5 Black [[(0, 0)]; [(0, 2)]]) g g'.
Proof.
  destruct (sampleb dbg 5 CHINESE two_eyes_moves (fun g =>
     forbids_suicide (gm_rule g) && all_have g two_eyes_wall (Some Black) && has g (0, 0) None && has g (0, 2) None && bool_decide (gm_turn g = White) &&
     verdict_is (try_play dbg g (MPlay 2 1)) None) ltac:(lia)) as (g & b & w & HG & _ & F); [destruct dbg; vm_compute; reflexivity|].
  bools F. pose proof (all_have_spec _ _ _ F4) as HB. unfold has in F3, F2. apply bool_decide_eq_true in F3, F2, F1.
  apply accepted_is in F0. destruct F0 as [g' E].
  assert (K : forall a, a ∈ two_eyes_wall -> connected 5 (position g) (1, 1) a).
  { intros a Ha. unfold two_eyes_wall in Ha. apply elem_of_cons in Ha. destruct Ha as [->|Ha]; [apply rtc_refl|].
    eapply (grown_connected 5 (position g) (1, 1) Black (tail two_eyes_wall) [(1, 1)]); [vm_compute; reflexivity| | |exact Ha].
    - intros z Hz. apply elem_of_list_singleton in Hz. subst z. split; [on_|]. split; [apply HB; apply elem_of_cons; auto|apply rtc_refl].
    - intros z Hz. apply HB. apply elem_of_cons. right. exact Hz. }
  exists g, b, w, g'. split; [exact HG|]. split; [exact F|]. split; [on_|]. split; [apply HB, elem_of_list_here|].
  split; [split; [on_|split; [exact F3|exists (0, 1); split; [apply K; unfold two_eyes_wall; elem_|unfold adj; cbn; lia]]]|].
  split; [split; [on_|split; [exact F2|exists (0, 1); split; [apply K; unfold two_eyes_wall; elem_|unfold adj; cbn; lia]]]|].
  split.
  { intros [x y] [Q1 Q2] A. cbn in Q1, Q2. unfold adj in A. cbn in A. apply K.
    assert (x = 0 /\ y = 1 \/ x = 1 /\ y = 0 \/ x = 0 /\ y = 3 \/ x = 1 /\ y = 2) as [[-> ->]|[[-> ->]|[[-> ->]|[-> ->]]]] by lia; unfold two_eyes_wall; elem_. }
  split; [exact E|]. apply rtc_once. left. exists 2, 1, Accepted. split; [on_|]. split; [exact E|]. intros T. congruence.
Qed.

(** ** Where suicide is allowed *)

Lemma accepted_turn dbg g x y g' : try_play dbg g (MPlay x y) = Ok (g', Accepted) -> gm_turn g' = opp (gm_turn g).
Proof.
  intros E. destruct (try_play_inv _ _ _ _ _ E) as [(e & ? & _)|(_ & _ & Ep)]; [discriminate|]. cbn in Ep.
  destruct (history_insert _ _) as [h| |]; try discriminate. cbn in Ep.
  destruct (push_wth_feedback _ _ _ _) as [[[gb dead] added]| |]; try discriminate. cbn in Ep.
  destruct (game_remove_captured_stones _ _ _ _ _ _) as [[[gb' pris] ko]| |]; try discriminate. cbn in Ep.
  injection Ep as <-. reflexivity.
Qed.

Lemma accepted_pass_turn dbg g g' : try_play dbg g MPass = Ok (g', Accepted) -> gm_turn g' = opp (gm_turn g).
Proof.
  intros E. destruct (try_play_inv _ _ _ _ _ E) as [(e & ? & _)|(_ & _ & Ep)]; [discriminate|].
  cbn in Ep. destruct (assert_ _) as [[]| |]; try discriminate. injection Ep as <-. reflexivity.
Qed.

(** [c] passes all the time *)
Definition alone (ws : list coord) : list move := flat_map (fun p => [MPlay (fst p) (snd p); MPass]) ws.

Lemma alone_spares dbg n c F ws : forall g g', gm_turn g = opp c -> tries dbg n g (alone ws) = Some g' -> rtc (spares dbg n c F) g g'.
Proof.
  induction ws as [|[x y] ws IH]; intros g g' T E; [cbn in E; injection E as <-; apply rtc_refl|].
  cbn [alone flat_map app fst snd tries] in E. destruct ((x <? n) && (y <? n)) eqn:On; [|discriminate].
  destruct (try_play dbg g (MPlay x y)) as [[g1 []]| |] eqn:E1; try discriminate.
  destruct (try_play dbg g1 MPass) as [[g2 []]| |] eqn:E2; try discriminate.
  apply andb_true_iff in On. rewrite !Nat.ltb_lt in On.
  pose proof (accepted_turn _ _ _ _ _ E1) as T1. pose proof (accepted_pass_turn _ _ _ E2) as T2.
  eapply rtc_l; [left; exists x, y, Accepted; split; [exact On|split; [exact E1|]]|].
  { intros Tc. rewrite Tc in T. destruct c; discriminate. }
  eapply rtc_l; [right; left; exists Accepted; exact E2|]. apply IH; [|exact E].
  rewrite T2, T1, T. destruct c; reflexivity.
Qed.

Definition suicide_wall : list coord := [(0, 2); (1, 2); (2, 2); (2, 1); (2, 0); (1, 3); (1, 4); (0, 4)].
Definition suicide_moves : list move :=
  [MPlay 0 2; MPlay 0 0; MPlay 1 2; MPlay 0 1; MPlay 2 2; MPlay 1 0; MPlay 2 1; MPass; MPlay 2 0; MPass; MPlay 1 3; MPass; MPlay 1 4; MPass; MPlay 0 4].

(** Without the ban on suicide the theorem fails: White gives up four stones in
    the large region, comes back with an eye there and takes everything. *)
Lemma suicide_breaks_life dbg : exists g b w g', greach dbg 5 b w g /\ forbids_suicide (gm_rule g) = false /\
  alive 5 (position g) Black suicide_wall [[(0, 3)]; [(1, 1); (0, 0); (0, 1); (1, 0)]] /\
  rtc (spares dbg 5 Black [[(0, 3)]; [(1, 1); (0, 0); (0, 1); (1, 0)]]) g g' /\
  forall x, x ∈ suicide_wall -> position g' x = None.
Proof.
  destruct (sampleb dbg 5 FREE suicide_moves (fun g =>
     negb (forbids_suicide (gm_rule g)) && all_have g suicide_wall (Some Black) && all_have g [(0, 0); (0, 1); (1, 0)] (Some White) &&
     has g (0, 3) None && has g (1, 1) None && bool_decide (gm_turn g = White) &&
     match tries dbg 5 g (alone [(1, 1); (3, 0); (3, 1); (3, 2); (2, 3); (2, 4); (0, 1); (1, 0); (1, 1); (0, 3)]) with
     | Some g' => all_have g' suicide_wall None | None => false end)
    ltac:(lia)) as (g & b & w & HG & _ & F); [destruct dbg; vm_compute; reflexivity|].
  bools F. apply negb_true_iff in F. pose proof (all_have_spec _ _ _ F5) as HB. pose proof (all_have_spec _ _ _ F4) as HW.
  unfold has in F3, F2. apply bool_decide_eq_true in F3, F2, F1.
  destruct (tries _ _ _ _) as [g'|] eqn:E; [|discriminate]. pose proof (all_have_spec _ _ _ F0) as HE.
  assert (W1 : position g (0, 0) = Some White) by (apply HW; elem_).
  assert (W2 : position g (0, 1) = Some White) by (apply HW; elem_).
  assert (W3 : position g (1, 0) = Some White) by (apply HW; elem_).
  exists g, b, w, g'. split; [exact HG|]. split; [exact F|].
  assert (K : forall a, a ∈ suicide_wall -> connected 5 (position g) (0, 2) a).
  { intros a Ha. unfold suicide_wall in Ha. apply elem_of_cons in Ha. destruct Ha as [->|Ha]; [apply rtc_refl|].
    eapply (grown_connected 5 (position g) (0, 2) Black (tail suicide_wall) [(0, 2)]); [vm_compute; reflexivity| | |exact Ha].
    - intros z Hz. apply elem_of_list_singleton in Hz. subst z. split; [on_|]. split; [apply HB; apply elem_of_cons; auto|apply rtc_refl].
    - intros z Hz. apply HB. apply elem_of_cons. right. exact Hz. }
  assert (L : forall x e q, x ∈ suicide_wall -> q ∈ suicide_wall -> on 5 e -> position g e = None -> adj q e -> liberty 5 (position g) x e).
  { intros x e q Hx Hq Oe Ee A. split; [exact Oe|]. split; [exact Ee|]. exists q. split; [|exact A].
    eapply rtc_transitive; [apply connected_sym, K, Hx|apply K, Hq]. }
  split; [|split; [exact (alone_spares dbg 5 Black _ _ _ _ F1 E)|exact HE]].
  split; [|split].
  - intros x Hx. split; [|apply HB, Hx]. unfold suicide_wall in Hx. elems Hx; on_.
  - intros R HR. elems HR.
    + split; [|split].
      * intros p Hp. elems Hp. split; [on_|congruence].
      * exists (0, 3). split; [apply elem_of_list_here|exact F3].
      * intros p q Hp Hq A. elems Hp. right. destruct q as [x y]. unfold adj in A. cbn in A. destruct Hq as [Q1 Q2]. cbn in Q1, Q2.
        assert (x = 0 /\ y = 2 \/ x = 0 /\ y = 4 \/ x = 1 /\ y = 3) as [[-> ->]|[[-> ->]|[-> ->]]] by lia; unfold suicide_wall; elem_.
    + split; [|split].
      * intros p Hp. elems Hp; (split; [on_|congruence]).
      * exists (1, 1). split; [apply elem_of_list_here|exact F2].
      * intros p [x y] Hp [Q1 Q2] A. unfold adj in A. cbn in Q1, Q2.
        assert (H : x < 2 /\ y < 2 \/ x = 0 /\ y = 2 \/ x = 1 /\ y = 2 \/ x = 2 /\ y = 0 \/ x = 2 /\ y = 1) by (elems Hp; cbn in A; lia).
        destruct H as [[X Y]|H].
        -- left. destruct x as [|[|]], y as [|[|]]; try lia; elem_.
        -- right. destruct H as [[-> ->]|[[-> ->]|[[-> ->]|[-> ->]]]]; unfold suicide_wall; elem_.
  - intros x Hx. exists [(0, 3)], [(1, 1); (0, 0); (0, 1); (1, 0)]. split; [apply elem_of_list_here|]. split; [apply elem_of_list_further, elem_of_list_here|].
    split; [|split].
    + intros p Hp Hq. elems Hp. apply elem_of_list_In in Hq. cbn in Hq. destruct Hq as [Hq|[Hq|[Hq|[Hq|[]]]]]; discriminate.
    + intros p Hp Ep. elems Hp. apply (L x (0, 3) (0, 2)); [exact Hx|unfold suicide_wall; elem_|on_|exact F3|unfold adj; cbn; lia].
    + intros p Hp Ep. elems Hp; try congruence. apply (L x (1, 1) (1, 2)); [exact Hx|unfold suicide_wall; elem_|on_|exact F2|unfold adj; cbn; lia].
Qed.

Definition aga_moves : list move := corner_moves ++ [MPass; MPlay 1 1; MPass; MPass].

Lemma tries_accepted dbg n l : forall g g', tries dbg n g l = Some g' -> all_accepted dbg g l g'.
Proof.
  induction l as [|m l IH]; intros g g' E; cbn [tries] in E; [injection E as <-; reflexivity|].
  destruct (match m with MPlay x y => _ | _ => _ end); [|discriminate].
  destruct (try_play dbg g m) as [[g1 []]| |] eqn:EP; try discriminate. exists g1. auto.
Qed.

(** a game on 3 x 3 with a capture and two passes of White against one of Black *)
Lemma case_pass_stones dbg : exists s g0 g, size_of s = (3, 3) /\ game_new s JAPANESE = Ok g0 /\
  is_f32 (r_komi JAPANESE) /\ halves (r_komi JAPANESE) 13 /\ (Z.abs 13 <= 200000)%Z /\
  Forall (plain 3) aga_moves /\ (N.of_nat (length aga_moves) < 1000000)%N /\
  all_accepted dbg g0 aga_moves g /\ gm_prisoners g = (1%N, 0%N) /\
  pass_moves Black Black aga_moves = 1 /\ pass_moves Black White aga_moves = 2.
Proof.
  assert (S : sat (tried dbg 3 JAPANESE aga_moves) (fun g => bool_decide (gm_prisoners g = (1%N, 0%N))) = true) by (destruct dbg; vm_compute; reflexivity).
  unfold tried in S. destruct (game_new _ _) as [g0| |] eqn:E0; [|discriminate..].
  destruct (tries _ _ _ _) as [g|] eqn:E; [|discriminate]. cbn [sat] in S. apply bool_decide_eq_true in S.
  eexists _, g0, g. split; [|split; [exact E0|]]; [reflexivity|].
  split; [vm_compute; reflexivity|]. split; [vm_compute; reflexivity|]. split; [vm_compute; discriminate|].
  split; [repeat constructor|]. split; [vm_compute; reflexivity|]. split; [exact (tries_accepted _ _ _ _ _ E)|].
  split; [exact S|]. split; reflexivity.
Qed.
