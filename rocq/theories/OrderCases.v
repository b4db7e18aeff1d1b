(** Concrete cases for the theorems about the order of moves. *)
From stdpp Require Import relations.
From Verif Require Import OrderSpec Spec Observe Reach Ops Samples Game MonadFacts GameFacts RefuteFacts CaseFacts.
From Verif Require Import RectBridge RectSpec RectReach RectGo RectInv RectGame RectSymFacts RectSymClaims PastFacts PastCases OrderFacts.
From Coq Require Import Lia.
Local Notation length := Datatypes.length.
Local Open Scope nat_scope.

Fixpoint tried (dbg : bool) (g : game) (l : list move) : option game :=
  match l with
  | [] => Some g
  | m :: l => match try_play dbg g m with Ok (g1, Accepted) => tried dbg g1 l | _ => None end
  end.

Lemma tried_all dbg l : forall g g', tried dbg g l = Some g' -> all_accepted dbg g l g'.
Proof.
  induction l as [|m l IH]; intros g g' H; cbn in *; [congruence|]. destruct (try_play dbg g m) as [[g1 [|e]]| |]; try discriminate. exists g1. split; [reflexivity|apply IH, H].
Qed.

(** after a ko capture, three stones in two orders: two of them join, and the lone white stone joins the others last or first *)
Definition order_ms : list move := [MPlay 5 0; MPlay 5 1; MPlay 6 0].
Definition order_ms' : list move := [MPlay 6 0; MPlay 5 1; MPlay 5 0].

Lemma case_order dbg dbg' : exists g g1 g2 b w b' w', Nat.divide 4 8 /\ rgreach dbg (8, 4) b w g /\ rgreach dbg' (8, 4) b' w' g /\
  laid_stones (gm_turn g) order_ms = Some [((5, 0), White); ((5, 1), Black); ((6, 0), White)] /\
  laid_stones (gm_turn g) order_ms' = Some [((6, 0), White); ((5, 1), Black); ((5, 0), White)] /\
  [((5, 0), White); ((5, 1), Black); ((6, 0), White)] ≡ₚ [((6, 0), White); ((5, 1), Black); ((5, 0), White)] /\
  all_accepted dbg g order_ms g1 /\ all_accepted dbg' g order_ms' g2 /\ gm_prisoners g1 = gm_prisoners g /\ gm_prisoners g2 = gm_prisoners g /\
  forbids_superko (gm_rule g) = false /\ gm_prisoners g <> (0%N, 0%N) /\ gm_ko_point g = Some (1, 1) /\ b + w <= 9 /\ b' + w' <= 9.
Proof.
  destruct (rsample dbg 8 4 JAPANESE ko_moves) as [g|] eqn:E; [|destruct dbg; vm_compute in E; discriminate].
  assert (E' : rsample dbg' 8 4 JAPANESE ko_moves = Some g) by (rewrite <- E; destruct dbg, dbg'; vm_compute; reflexivity).
  destruct (rsample_reach dbg 8 4 JAPANESE _ g ltac:(lia) ltac:(lia) E) as (b & w & HG & L). destruct (rsample_reach dbg' 8 4 JAPANESE _ g ltac:(lia) ltac:(lia) E') as (b' & w' & HH & L').
  assert (F : match rsample dbg 8 4 JAPANESE ko_moves with
     | Some g => match tried dbg g order_ms, tried dbg' g order_ms' with
         | Some g1, Some g2 => bool_decide (gm_turn g = White) && bool_decide (gm_prisoners g1 = gm_prisoners g) && bool_decide (gm_prisoners g2 = gm_prisoners g) && negb (forbids_superko (gm_rule g)) &&
             negb (bool_decide (gm_prisoners g = (0%N, 0%N))) && bool_decide (gm_ko_point g = Some (1, 1))
         | _, _ => false end
     | _ => false end = true) by (destruct dbg, dbg'; vm_compute; reflexivity).
  rewrite E in F. destruct (tried dbg g order_ms) as [g1|] eqn:T1; [|discriminate]. destruct (tried dbg' g order_ms') as [g2|] eqn:T2; [|discriminate].
  rewrite !andb_true_iff, !negb_true_iff, !bool_decide_eq_true, bool_decide_eq_false in F. destruct F as [[[[[F1 F2] F3] F4] F5] F6].
  exists g, g1, g2, b, w, b', w'. split; [exists 2; reflexivity|]. split; [exact HG|]. split; [exact HH|]. rewrite F1. split; [reflexivity|]. split; [reflexivity|].
  split; [apply (Permutation_rev [((5, 0), White); ((5, 1), Black); ((6, 0), White)])|]. split; [apply tried_all, T1|]. split; [apply tried_all, T2|].
  split; [exact F2|]. split; [exact F3|]. split; [exact F4|]. split; [exact F5|]. split; [exact F6|]. split; [exact L|exact L'].
Qed.

Definition corner_ms : list move := [MPlay 0 0; MPlay 0 1; MPlay 1 0].
Definition corner_ms' : list move := [MPlay 1 0; MPlay 0 1; MPlay 0 0].
Definition corner_rest : list move := [MPlay 1 1; MPass; MPlay 1 0; MPlay 0 0].

Lemma superko_order dbg : exists g g1 g2 l l' g1' g2' tr tr', rgreach dbg (2, 2) 0 0 g /\ gm_rule g = CHINESE /\
  laid_stones (gm_turn g) corner_ms = Some l /\ laid_stones (gm_turn g) corner_ms' = Some l' /\ l ≡ₚ l' /\
  all_accepted dbg g corner_ms g1 /\ all_accepted dbg g corner_ms' g2 /\ gm_prisoners g1 = gm_prisoners g /\ gm_prisoners g2 = gm_prisoners g /\
  run dbg g1 (List.map OTry corner_rest) = Ok (g1', tr) /\ run dbg g2 (List.map OTry corner_rest) = Ok (g2', tr') /\ tr <> tr'.
Proof.
  destruct (rsample dbg 2 2 CHINESE []) as [g|] eqn:E; [|destruct dbg; vm_compute in E; discriminate].
  destruct (rsample_reach dbg 2 2 CHINESE _ g ltac:(lia) ltac:(lia) E) as (b & w & HG & L). cbn in L. assert (b = 0) as -> by lia. assert (w = 0) as -> by lia.
  assert (F : match rsample dbg 2 2 CHINESE [] with
     | Some g => match tried dbg g corner_ms, tried dbg g corner_ms' with
         | Some g1, Some g2 => bool_decide (gm_turn g = Black) && bool_decide (gm_prisoners g1 = gm_prisoners g) && bool_decide (gm_prisoners g2 = gm_prisoners g) &&
             match run dbg g1 (List.map OTry corner_rest), run dbg g2 (List.map OTry corner_rest) with
             | Ok (_, tr), Ok (_, tr') => negb (length tr =? length tr') | _, _ => false end
         | _, _ => false end
     | _ => false end = true) by (destruct dbg; vm_compute; reflexivity).
  assert (R : match rsample dbg 2 2 CHINESE [] with Some g => gm_rule g = CHINESE | None => False end) by (destruct dbg; vm_compute; reflexivity).
  rewrite E in F, R. destruct (tried dbg g corner_ms) as [g1|] eqn:T1; [|discriminate]. destruct (tried dbg g corner_ms') as [g2|] eqn:T2; [|discriminate].
  rewrite !andb_true_iff, !bool_decide_eq_true in F. destruct F as [[[F1 F2] F3] F4].
  destruct (run dbg g1 _) as [[g1' tr]| |] eqn:R1; try discriminate. destruct (run dbg g2 _) as [[g2' tr']| |] eqn:R2; try discriminate.
  exists g, g1, g2, [((0, 0), Black); ((0, 1), White); ((1, 0), Black)], [((1, 0), Black); ((0, 1), White); ((0, 0), Black)], g1', g2', tr, tr'.
  split; [exact HG|]. split; [exact R|]. rewrite F1. split; [reflexivity|]. split; [reflexivity|]. split; [apply (Permutation_rev [((0, 0), Black); ((0, 1), White); ((1, 0), Black)])|].
  split; [apply tried_all, T1|]. split; [apply tried_all, T2|]. split; [exact F2|]. split; [exact F3|]. split; [exact R1|]. split; [exact R2|].
  intros <-. rewrite Nat.eqb_refl in F4. discriminate.
Qed.

(** the same stones with a capture: who captures whom depends on the order *)
Definition first_ms : list move := [MPlay 0 1; MPlay 0 0; MPlay 1 0; MPlay 0 2; MPlay 3 3; MPlay 1 1].
Definition last_ms : list move := [MPlay 0 1; MPlay 0 2; MPlay 1 0; MPlay 1 1; MPlay 3 3; MPlay 0 0].

Lemma capture_order dbg : exists g g1 g2 l l', rgreach dbg (4, 4) 0 0 g /\ gm_rule g = JAPANESE /\
  laid_stones (gm_turn g) first_ms = Some l /\ laid_stones (gm_turn g) last_ms = Some l' /\ l ≡ₚ l' /\
  all_accepted dbg g first_ms g1 /\ all_accepted dbg g last_ms g2 /\
  position g1 (0, 0) = None /\ position g2 (0, 0) = Some White /\ position g1 (0, 1) = Some Black /\ position g2 (0, 1) = None.
Proof.
  destruct (rsample dbg 4 4 JAPANESE []) as [g|] eqn:E; [|destruct dbg; vm_compute in E; discriminate].
  destruct (rsample_reach dbg 4 4 JAPANESE _ g ltac:(lia) ltac:(lia) E) as (b & w & HG & L). cbn in L. assert (b = 0) as -> by lia. assert (w = 0) as -> by lia.
  assert (F : match rsample dbg 4 4 JAPANESE [] with
     | Some g => match tried dbg g first_ms, tried dbg g last_ms with
         | Some g1, Some g2 => bool_decide (gm_turn g = Black) && bool_decide (position g1 (0, 0) = None) && bool_decide (position g2 (0, 0) = Some White) &&
             bool_decide (position g1 (0, 1) = Some Black) && bool_decide (position g2 (0, 1) = None)
         | _, _ => false end
     | _ => false end = true) by (destruct dbg; vm_compute; reflexivity).
  assert (R : match rsample dbg 4 4 JAPANESE [] with Some g => gm_rule g = JAPANESE | None => False end) by (destruct dbg; vm_compute; reflexivity).
  rewrite E in F, R. destruct (tried dbg g first_ms) as [g1|] eqn:T1; [|discriminate]. destruct (tried dbg g last_ms) as [g2|] eqn:T2; [|discriminate].
  rewrite !andb_true_iff, !bool_decide_eq_true in F. destruct F as [[[[F1 F2] F3] F4] F5].
  eexists g, g1, g2, _, _. split; [exact HG|]. split; [exact R|]. rewrite F1. split; [vm_compute; reflexivity|]. split; [vm_compute; reflexivity|].
  split; [|split; [apply tried_all, T1|]; split; [apply tried_all, T2|]; tauto].
  apply NoDup_Permutation; [repeat (constructor; [rewrite ?elem_of_cons, elem_of_nil; intuition discriminate|]); constructor..|].
  intros x. rewrite !elem_of_cons. tauto.
Qed.
