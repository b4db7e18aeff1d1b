(** Concrete cases for the theorem about free orders. *)
From stdpp Require Import relations.
From Verif Require Import OrderSpec Spec Observe Reach Ops Samples Game MonadFacts GameFacts RefuteFacts CaseFacts.
From Verif Require Import RectBridge RectSpec RectReach RectGo RectInv RectGame RectLegal RectLegalClaims RectSymFacts RectSymClaims PastFacts PastCases OrderCases FreeFacts TightClaims.
From Coq Require Import Lia.
Local Notation length := Datatypes.length.
Local Open Scope nat_scope.

Lemma all_tried dbg l : forall g g', all_accepted dbg g l g' -> tried dbg g l = Some g'.
Proof. induction l as [|m l IH]; intros g g' H; cbn in *; [congruence|]. destruct H as (g1 & E & H). rewrite E. apply IH, H. Qed.

Lemma accepted_rlreach dbg n l : forall g g', rlreach dbg n g -> (forall x y, MPlay x y ∈ l -> ron n (x, y)) -> all_accepted dbg g l g' -> rlreach dbg n g'.
Proof.
  induction l as [|m l IH]; intros g g' HG On A; cbn in A; [subst; exact HG|]. destruct A as (g1 & E & A). apply (IH g1 g'); [|intros; apply On; right; assumption|exact A].
  destruct m as [|c|x y]; [exact (rl_pass _ _ _ _ HG E)|exact (rl_resign _ _ _ _ _ HG E)|]. apply (rl_play dbg n g x y g1 HG); [apply On; left|exact E].
Qed.

(** in legal games every chain breathes *)
Theorem free_orders_legal dbg dbg' n b' w' g ms ms' l l' g1 : Nat.divide (snd n) (fst n) -> rlreach dbg n g -> rgreach dbg' n b' w' g ->
  (forall x y, MPlay x y ∈ ms -> ron n (x, y)) ->
  laid_stones (gm_turn g) ms = Some l -> laid_stones (gm_turn g) ms' = Some l' -> l ≡ₚ l' ->
  all_accepted dbg g ms g1 -> gm_prisoners g1 = gm_prisoners g ->
  gm_ko_point g = None -> forbids_fill_eye (gm_rule g) = false -> (N.of_nat (b' + w' + length ms') < 65535)%N ->
  exists g2, all_accepted dbg' g ms' g2 /\ gm_prisoners g2 = gm_prisoners g /\ same_now n g1 g2.
Proof.
  intros Hd HL HH On S S' P A Pr Hk Hf L. destruct (rlreach_greach dbg n g Hd HL) as (b & w & HG).
  apply (free_orders dbg dbg' n b w b' w' g ms ms' l l' g1); try assumption. apply (rclaim_breathes dbg n g1 Hd). exact (accepted_rlreach dbg n ms g g1 HL On A).
Qed.

Definition moves_on (n : nat * nat) (l : list move) : bool := forallb (fun m => match m with MPlay x y => (x <? fst n) && (y <? snd n) | _ => true end) l.

Lemma moves_on_spec n l x y : moves_on n l = true -> MPlay x y ∈ l -> ron n (x, y).
Proof.
  unfold moves_on. rewrite forallb_forall. intros H I. apply elem_of_list_In, H in I. cbn in I. apply andb_true_iff in I as [I J]. apply Nat.ltb_lt in I, J. split; assumption.
Qed.

(** a ko fight and two more stones, under Chinese rules *)
Definition free_start : list move := ko_moves ++ [MPlay 7 3; MPlay 7 0].

Lemma case_free dbg dbg' : exists g g1 b w b' w', Nat.divide 4 8 /\ rlreach dbg (8, 4) g /\ rgreach dbg (8, 4) b w g /\ rgreach dbg' (8, 4) b' w' g /\
  (forall x y, MPlay x y ∈ order_ms -> ron (8, 4) (x, y)) /\
  laid_stones (gm_turn g) order_ms = Some [((5, 0), White); ((5, 1), Black); ((6, 0), White)] /\
  laid_stones (gm_turn g) order_ms' = Some [((6, 0), White); ((5, 1), Black); ((5, 0), White)] /\
  [((5, 0), White); ((5, 1), Black); ((6, 0), White)] ≡ₚ [((6, 0), White); ((5, 1), Black); ((5, 0), White)] /\
  all_accepted dbg g order_ms g1 /\ gm_prisoners g1 = gm_prisoners g /\ rall_breathe (8, 4) (position g1) /\
  gm_ko_point g = None /\ forbids_fill_eye (gm_rule g) = false /\ gm_rule g = CHINESE /\ gm_prisoners g <> (0%N, 0%N) /\ b' + w' <= 11.
Proof.
  destruct (rstart 8 4 CHINESE) as [g0| |] eqn:E0; [|vm_compute in E0; discriminate..].
  assert (F : match rstart 8 4 CHINESE with Ok g0 => match tried dbg g0 free_start with
     | Some g => match tried dbg g order_ms with
         | Some g1 => bool_decide (gm_turn g = White) && bool_decide (gm_prisoners g1 = gm_prisoners g) && bool_decide (gm_ko_point g = None) && negb (bool_decide (gm_prisoners g = (0%N, 0%N)))
         | None => false end
     | None => false end | _ => false end = true) by (destruct dbg; vm_compute; reflexivity).
  assert (R : match rstart 8 4 CHINESE with Ok g0 => match tried dbg g0 free_start with Some g => gm_rule g = CHINESE | None => False end | _ => False end) by (destruct dbg; vm_compute; reflexivity).
  assert (X : match rstart 8 4 CHINESE with Ok g0 => tried dbg g0 free_start = rsample dbg 8 4 CHINESE free_start /\ tried dbg g0 free_start = rsample dbg' 8 4 CHINESE free_start | _ => False end)
    by (destruct dbg, dbg'; vm_compute; split; reflexivity).
  rewrite E0 in F, R, X. destruct (tried dbg g0 free_start) as [g|] eqn:T0; [|discriminate]. destruct (tried dbg g order_ms) as [g1|] eqn:T1; [|discriminate].
  rewrite !andb_true_iff, negb_true_iff, !bool_decide_eq_true, bool_decide_eq_false in F. destruct F as [[[F1 F2] F3] F4]. destruct X as [X X'].
  destruct (rsample_reach dbg 8 4 CHINESE _ g ltac:(lia) ltac:(lia) (eq_sym X)) as (b & w & HG & L). destruct (rsample_reach dbg' 8 4 CHINESE _ g ltac:(lia) ltac:(lia) (eq_sym X')) as (b' & w' & HH & L').
  assert (HL : rlreach dbg (8, 4) g).
  { apply (accepted_rlreach dbg (8, 4) free_start g0 g); [|intros x y; apply moves_on_spec; reflexivity|apply tried_all, T0].
    eapply rl_new; [cbn; lia|cbn; lia| |exact E0]. apply rstart_size; lia. }
  exists g, g1, b, w, b', w'. split; [exists 2; reflexivity|]. split; [exact HL|]. split; [exact HG|]. split; [exact HH|]. split; [intros x y; apply moves_on_spec; reflexivity|].
  rewrite F1. split; [reflexivity|]. split; [reflexivity|]. split; [apply (Permutation_rev [((5, 0), White); ((5, 1), Black); ((6, 0), White)])|]. split; [apply tried_all, T1|]. split; [exact F2|].
  split.
  { apply (rclaim_breathes dbg (8, 4) g1); [exists 2; reflexivity|]. apply (accepted_rlreach dbg (8, 4) order_ms g g1); [|intros x y; apply moves_on_spec; reflexivity|apply tried_all, T1].
    exact HL. }
  split; [exact F3|]. rewrite R. split; [reflexivity|]. split; [reflexivity|]. split; [exact F4|exact L'].
Qed.

(** with eyes protected the last stone of one order would fill an eye *)
Definition eye_first : list move := [MPlay 0 0; MPlay 3 3; MPlay 0 1; MPlay 3 2; MPlay 1 0; MPlay 2 3; MPlay 1 1].
Definition eye_last : list move := [MPlay 0 1; MPlay 3 3; MPlay 1 0; MPlay 3 2; MPlay 1 1; MPlay 2 3; MPlay 0 0].

Lemma eye_order dbg : exists g g1 l l', rgreach dbg (4, 4) 0 0 g /\ gm_rule g = EYES /\
  laid_stones (gm_turn g) eye_first = Some l /\ laid_stones (gm_turn g) eye_last = Some l' /\ l ≡ₚ l' /\
  all_accepted dbg g eye_first g1 /\ gm_prisoners g1 = gm_prisoners g /\ rall_breathe (4, 4) (position g1) /\ gm_ko_point g = None /\
  ~ exists g2, all_accepted dbg g eye_last g2.
Proof.
  destruct (rstart 4 4 EYES) as [g| |] eqn:E; [|vm_compute in E; discriminate..].
  assert (HG : rgreach dbg (4, 4) 0 0 g) by (eapply rg_new; [cbn; lia|cbn; lia| |exact E]; apply rstart_size; lia).
  assert (HL : rlreach dbg (4, 4) g) by (eapply rl_new; [cbn; lia|cbn; lia| |exact E]; apply rstart_size; lia).
  assert (F : match rstart 4 4 EYES with Ok g => match tried dbg g eye_first, tried dbg g eye_last with
         | Some g1, None => bool_decide (gm_turn g = Black) && bool_decide (gm_prisoners g1 = gm_prisoners g) && bool_decide (gm_ko_point g = None)
         | _, _ => false end
     | _ => false end = true) by (destruct dbg; vm_compute; reflexivity).
  assert (R : match rstart 4 4 EYES with Ok g => gm_rule g = EYES | _ => False end) by (vm_compute; reflexivity).
  rewrite E in F, R. destruct (tried dbg g eye_first) as [g1|] eqn:T1; [|discriminate]. destruct (tried dbg g eye_last) as [g2|] eqn:T2; [discriminate|].
  rewrite !andb_true_iff, !bool_decide_eq_true in F. destruct F as [[F1 F2] F3].
  eexists g, g1, _, _. split; [exact HG|]. split; [exact R|]. rewrite F1. split; [vm_compute; reflexivity|]. split; [vm_compute; reflexivity|].
  split; [|split; [apply tried_all, T1|split; [exact F2|split; [|split; [exact F3|]]]]].
  - apply NoDup_Permutation; [repeat (constructor; [rewrite ?elem_of_cons, elem_of_nil; intuition discriminate|]); constructor..|].
    intros x. rewrite !elem_of_cons. tauto.
  - apply (rclaim_breathes dbg (4, 4) g1); [exists 1; reflexivity|]. apply (accepted_rlreach dbg (4, 4) eye_first g g1 HL); [intros x y; apply moves_on_spec; reflexivity|apply tried_all, T1].
  - intros (g2 & A). apply all_tried in A. congruence.
Qed.
