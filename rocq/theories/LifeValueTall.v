(** Living stones need not decide the game on a board that is not square. *)
From stdpp Require Import relations.
From Verif Require Import StrategySpec Spec Observe Reach Samples RectLifeSpec RectReach RectGo.
From Verif Require Import Bridge MonadFacts GameFacts LegalFacts RectInv RectBridge RectGame RectReachFacts RectLife CaseFacts LifeClaims.
From Coq Require Import Lia.

Local Notation length := Datatypes.length.
Open Scope nat_scope.

Definition low_wall : list coord := [(4, 1); (5, 1); (4, 0); (4, 2); (3, 0); (3, 1); (3, 2); (2, 2)].
Definition low_wall_moves : list move :=
  [MPlay 4 1; MPlay 0 1; MPlay 5 1; MPlay 1 0; MPlay 4 0; MPlay 1 1; MPlay 4 2; MPlay 1 2; MPlay 3 0; MPlay 2 0; MPlay 3 1; MPlay 2 1; MPlay 3 2; MPass; MPlay 2 2; MPass; MPass].
(** the Chinese rule without komi *)
Definition AREA_ONLY : rule := mkRule (S754_zero false) (flag_illegal CHINESE) 1.

Lemma low_wall_connected (n : nat * nat) P c : (forall a, a ∈ low_wall -> ron n a /\ P a = Some c) -> forall a, a ∈ low_wall -> rconnected n P (4, 1) a.
Proof.
  intros H. assert (S : forall a b, a ∈ low_wall -> b ∈ low_wall -> adj a b -> rcstep n P a b).
  { intros a b Ha Hb A. destruct (H a Ha) as [O1 E1]. destruct (H b Hb) as [O2 E2]. split; [exact O1|]. split; [exact O2|]. split; [exact A|congruence]. }
  assert (K31 : rconnected n P (4, 1) (3, 1)) by (apply rtc_once, S; [unfold low_wall; elem_..|unfold adj; cbn; lia]).
  assert (K32 : rconnected n P (4, 1) (3, 2)) by (apply (rtc_r _ (3, 1)); [exact K31|apply S; [unfold low_wall; elem_..|unfold adj; cbn; lia]]).
  intros a Ha. unfold low_wall in Ha. elems Ha; try exact K31; try exact K32; try apply rtc_refl.
  all: first [apply rtc_once, S; [unfold low_wall; elem_..|unfold adj; cbn; lia]
             |apply (rtc_r _ (3, 1)); [exact K31|apply S; [unfold low_wall; elem_..|unfold adj; cbn; lia]]
             |apply (rtc_r _ (3, 2)); [exact K32|apply S; [unfold low_wall; elem_..|unfold adj; cbn; lia]]].
Qed.

(** Black's eight living stones and two eyes are ten of the eighteen points, and there is
    no komi; White, with the other eight points, is given fourteen points against eight *)
Lemma tall_differs dbg : exists g b w, Nat.divide 3 6 /\ rgreach dbg (6, 3) b w g /\ forbids_suicide (gm_rule g) = true /\ gm_outcome g = None /\
  flag_score (gm_rule g) = 1%N /\ is_over g = true /\
  ralive (6, 3) (position g) Black low_wall [[(5, 0)]; [(5, 2)]] /\ NoDup low_wall /\ length low_wall = 8 /\ 2 * (8 + 2) > 6 * 3 /\
  ~ forces dbg (6, 3) Black (not_lost dbg Black) g.
Proof.
  assert (Hd : Nat.divide 3 6) by (exists 2; reflexivity).
  destruct (rsample dbg 6 3 AREA_ONLY low_wall_moves) as [g|] eqn:E; [|destruct dbg; vm_compute in E; discriminate].
  assert (F : match rsample dbg 6 3 AREA_ONLY low_wall_moves with
     | Some g => forbids_suicide (gm_rule g) && all_have g low_wall (Some Black) && has g (5, 0) None && has g (5, 2) None && is_over g &&
         match gm_outcome g with None => true | _ => false end && bool_decide (flag_score (gm_rule g) = 1%N) &&
         match outcome id dbg g with Ok (Some e) => match endgame_winner e with Some White => true | _ => false end | _ => false end
     | None => false end = true) by (destruct dbg; vm_compute; reflexivity).
  rewrite E in F. repeat match goal with H : (_ && _) = true |- _ => apply andb_true_iff in H as [? ?] end.
  match goal with H : all_have _ _ _ = true |- _ => pose proof (all_have_spec _ _ _ H) as HB end.
  match goal with H : match outcome _ _ _ with _ => _ end = true |- _ => rename H into HO end.
  unfold has in *. repeat match goal with H : bool_decide _ = true |- _ => apply bool_decide_eq_true in H end.
  assert (E1 : position g (5, 0) = None) by assumption. assert (E2 : position g (5, 2) = None) by assumption. assert (Ov : is_over g = true) by assumption.
  destruct (rsample_reach dbg 6 3 AREA_ONLY _ g ltac:(lia) ltac:(lia) E) as (b & w & HG & _).
  assert (HW : forall a, a ∈ low_wall -> ron (6, 3) a /\ position g a = Some Black).
  { intros a Ha. split; [|apply HB, Ha]. unfold low_wall in Ha. elems Ha; split; cbn; lia. }
  pose proof (low_wall_connected (6, 3) (position g) Black HW) as K.
  assert (L : forall x e q, x ∈ low_wall -> q ∈ low_wall -> ron (6, 3) e -> position g e = None -> adj q e -> rliberty (6, 3) (position g) x e).
  { intros x e q Hx Hq Oe Ee A. split; [exact Oe|]. split; [exact Ee|]. exists q. split; [|exact A].
    eapply rtc_transitive; [apply rconnected_sym, K, Hx|apply K, Hq]. }
  assert (A1 : forall q, ron (6, 3) q -> adj (5, 0) q -> q ∈ low_wall).
  { intros [x y] [Q1 Q2] A. cbn in Q1, Q2. unfold adj in A. cbn in A.
    assert (x = 4 /\ y = 0 \/ x = 5 /\ y = 1) as [[-> ->]|[-> ->]] by lia; unfold low_wall; elem_. }
  assert (A2 : forall q, ron (6, 3) q -> adj (5, 2) q -> q ∈ low_wall).
  { intros [x y] [Q1 Q2] A. cbn in Q1, Q2. unfold adj in A. cbn in A.
    assert (x = 4 /\ y = 2 \/ x = 5 /\ y = 1) as [[-> ->]|[-> ->]] by lia; unfold low_wall; elem_. }
  assert (Lx : forall x e, x ∈ low_wall -> e = (5, 0) \/ e = (5, 2) -> rliberty (6, 3) (position g) x e).
  { intros x e Hx [-> | ->]; apply (L x _ (5, 1) Hx); try (unfold low_wall; elem_); try (split; cbn; lia); try assumption; unfold adj; cbn; lia. }
  exists g, b, w. split; [exact Hd|]. split; [exact HG|]. split; [assumption|]. split; [destruct (gm_outcome g); [discriminate|reflexivity]|]. split; [assumption|]. split; [exact Ov|]. split.
  { split; [exact HW|]. split.
    - intros R HR. elems HR; (split; [intros p Hp; elems Hp; split; [split; cbn; lia|congruence]|]).
      + split; [exists (5, 0); split; [left|exact E1]|]. intros p q Hp Hq A. elems Hp. right. apply A1; auto.
      + split; [exists (5, 2); split; [left|exact E2]|]. intros p q Hp Hq A. elems Hp. right. apply A2; auto.
    - intros x Hx. exists [(5, 0)], [(5, 2)]. split; [apply elem_of_list_here|]. split; [apply elem_of_list_further, elem_of_list_here|].
      split; [intros p Hp Hq; elems Hp; apply elem_of_list_singleton in Hq; discriminate|].
      split; intros p Hp Ep; elems Hp; apply Lx; auto. }
  split; [apply (bool_decide_eq_true_1 (NoDup low_wall)); vm_compute; reflexivity|]. split; [reflexivity|]. split; [lia|].
  intros Fo. destruct Fo as [g Ov' N|g m g' Ov' ? ? ?|g Ov' ? ?]; [|congruence..].
  destruct (N id (fun l => reflexivity l)) as (e & Ee & Ne). rewrite Ee in HO. cbn [opp] in Ne. destruct (endgame_winner e) as [[|]|]; congruence.
Qed.
