(** Statements about playouts and the search for dead stones on boards whose width
    divides their height, with cases. *)
From stdpp Require Import relations sorting.
From Verif Require Import Spec ScoreSpec Observe Reach Samples DeadStones PlayoutSpec RectPlayoutSpec RectReach RectGo.
From Verif Require Import CoordFacts Inv GameFacts MonadFacts PlayoutFacts RectInv RectGame RectReachFacts RectVerdict RectPlayout RectDead LegalFacts CaseFacts PlayClaims SolidClaims.
From Coq Require Import Lia.

Local Notation length := Datatypes.length.

Lemma claim_rplayout dbg n b w g shuffles fuel i : Nat.divide (snd n) (fst n) -> rgreach dbg n b w g -> (forall j l, shuffles j l ≡ₚ l) ->
  (47316994 < N.of_nat fuel)%N ->
  (exists g', playout fuel i shuffles dbg g = Ok g' /\ rtc (rplayout_step dbg n) g g' /\ is_over g' = true) \/
  (playout fuel i shuffles dbg g = Panic /\ exists g1, rtc (rplayout_step dbg n) g g1 /\ no_slot_left g1).
Proof. intros Hd HG Hs L. apply (rplayout_spec dbg n shuffles Hd Hs fuel i b w g HG). pose proof (left_max b w g). lia. Qed.

Lemma claim_rcomplete dbg n b w g g' i : Nat.divide (snd n) (fst n) -> rgreach dbg n b w g -> rtc (rplayout_step dbg n) g g' -> is_over g' = true ->
  exists shuffles fuel, (forall j l, shuffles j l ≡ₚ l) /\ playout fuel i shuffles dbg g = Ok g'.
Proof. intros Hd HG R O. exact (rplayout_complete dbg n g g' Hd R b w HG O i). Qed.

(** what the tree search is offered is in the square as well *)
Lemma roffered_below dbg n b w g g' p : Nat.divide (snd n) (fst n) -> rgreach dbg n b w g -> offered_step dbg g g' ->
  (exists b' w', rgreach dbg n b' w' g') /\ (ron n p -> ~ in_square n p -> position g' p = position g p \/ position g' p = None).
Proof.
  intros Hd HG [ms m HO El Hm E]. pose proof (rgreach_inv _ _ _ _ _ Hd HG) as G. pose proof (rgi_wf _ _ _ _ G) as W. destruct (not_over g HO) as [_ HP].
  unfold legals_moves in El. apply bind_ok in El as (l & El & E2). rewrite HO in E2. injection E2 as <-.
  assert (K : m = MPass \/ exists q, q ∈ l /\ m = MPlay (fst q) (snd q)).
  { destruct l as [|q l]; [left; apply elem_of_list_singleton in Hm; auto|right].
    cbn [List.map] in Hm. apply elem_of_list_In in Hm. apply (in_map_iff (fun p : coord => MPlay (fst p) (snd p)) (q :: l)) in Hm as (q' & <- & Hq). exists q'. split; [apply elem_of_list_In, Hq|reflexivity]. }
  destruct K as [->|([x y] & Hq & ->)].
  - pose proof (try_pass_inv _ _ _ E) as E'. split; [destruct (rleft_pass dbg n b w g g' HG HO E'); eauto|]. intros _ _. left.
    unfold play in E'. destruct (gm_passes g <? 2)%nat; [|discriminate]. cbn in E'. injection E' as <-. reflexivity.
  - destruct (proj1 (proj2 (rlegals_checks dbg n b w g _ l G El) (x, y)) Hq) as [Hsq Ec]. cbn [fst snd] in *.
    pose proof (square_on n (x, y) (rwf_n n _ W) Hsq) as Hon. pose proof (rchecked_empty dbg n b w g (x, y) _ G Hon Ec) as He.
    split; [|intros Hp Hn; exact (rplay_below dbg n b w g x y g' p G Hsq E Hp Hn)].
    apply try_play_inv in E as [(e & [=] & _)|(_ & _ & E)].
    destruct (rleft_stone dbg n b w g x y g' Hd HG HO Hon He E) as (b' & w' & HG' & _). eauto.
Qed.

Lemma roffered_steps_below dbg n b w g g' p : Nat.divide (snd n) (fst n) -> rgreach dbg n b w g ->
  rtc (rplayout_step dbg n) g g' \/ rtc (offered_step dbg) g g' ->
  ron n p -> ~ in_square n p -> position g' p = position g p \/ position g' p = None.
Proof.
  intros Hd HG [R|R] Hp Hn; [exact (rsteps_below dbg n g g' p Hd R b w HG Hp Hn)|].
  revert b w HG. induction R as [g|g g1 g' HS R IH]; intros b w HG; [left; reflexivity|].
  destruct (roffered_below dbg n b w g g1 p Hd HG HS) as [(b1 & w1 & HG1) HB].
  destruct (IH b1 w1 HG1) as [->| ->]; [exact (HB Hp Hn)|right; reflexivity].
Qed.

(** ** Playouts of tall boards can end early *)

Definition early_moves : list move :=
  [MPlay 1 2; MPlay 0 1; MPlay 2 0; MPlay 0 2; MPlay 2 2; MPlay 1 0; MPass; MPlay 1 1; MPass; MPlay 2 1].

Lemma early_end dbg : exists g b w g1 g2 p, rgreach dbg (6, 3) b w g /\ gm_passes g = 0 /\
  rplayout_step dbg (6, 3) g g1 /\ rplayout_step dbg (6, 3) g1 g2 /\ is_over g2 = true /\ ron (6, 3) p /\
  (exists h, try_play dbg g (MPlay (fst p) (snd p)) = Ok (h, Accepted)) /\ ~ reye_shape (6, 3) (position g) (gm_turn g) p /\
  (exists h, try_play dbg g1 (MPlay (fst p) (snd p)) = Ok (h, Accepted)) /\ ~ reye_shape (6, 3) (position g1) (gm_turn g1) p.
Proof.
  assert (Hd : Nat.divide 3 6) by (exists 2; reflexivity).
  destruct (rsample dbg 6 3 JAPANESE early_moves) as [g|] eqn:E; [|destruct dbg; vm_compute in E; discriminate].
  set (ok := fun h => match try_play dbg h (MPlay 4 1) with Ok (_, Accepted) => true | _ => false end &&
                      match check_eye dbg h ((4, 1), gm_turn h) with Ok v => negb v | _ => false end).
  set (next := fun h => let! m := fast_play_random (fun l => l) dbg h in play dbg h m).
  assert (K : match rsample dbg 6 3 JAPANESE early_moves with
     | Some g => (gm_passes g =? 0) && negb (is_over g) && ok g &&
         match next g with Ok g1 => negb (is_over g1) && ok g1 && match next g1 with Ok g2 => is_over g2 | _ => false end | _ => false end
     | None => false end = true) by (destruct dbg; vm_compute; reflexivity).
  rewrite E in K. apply andb_true_iff in K as [K K3]. bools K. destruct (next g) as [g1| |] eqn:E1; [|discriminate..].
  bools K3. destruct (next g1) as [g2| |] eqn:E2; [|discriminate..].
  apply Nat.eqb_eq in K. apply negb_true_iff in K1, K3.
  destruct (rsample_reach dbg 6 3 JAPANESE _ g ltac:(lia) ltac:(lia) E) as (b & w & HG & L).
  assert (Hid : forall (i : nat) (l : list coord), (fun _ l => l) i l ≡ₚ l) by reflexivity.
  destruct (rfast_step dbg (6, 3) (fun _ l => l) Hd Hid b w g 0 HG K1) as [[F _]|(h1 & b1 & w1 & F & S1 & HG1 & _)]; unfold next in E1; rewrite F in E1; [discriminate|injection E1 as ->].
  destruct (rfast_step dbg (6, 3) (fun _ l => l) Hd Hid b1 w1 g1 0 HG1 K3) as [[F2 _]|(h2 & b2 & w2 & F2 & S2 & HG2 & _)]; unfold next in E2; rewrite F2 in E2; [discriminate|injection E2 as ->].
  assert (Hok : forall h b w, rgreach dbg (6, 3) b w h -> ok h = true ->
    (exists h', try_play dbg h (MPlay 4 1) = Ok (h', Accepted)) /\ ~ reye_shape (6, 3) (position h) (gm_turn h) (4, 1)).
  { intros h b0 w0 Hh O. unfold ok in O. bools O. split.
    - destruct (try_play dbg h (MPlay 4 1)) as [[h' []]| |]; try discriminate. eauto.
    - destruct (reye_exact dbg (6, 3) h (4, 1) (gm_turn h) (rgi_wf _ _ _ _ (rgreach_inv dbg (6, 3) b0 w0 h Hd Hh)) ltac:(split; cbn; lia)) as (v & Ev & Hv). pose proof (eq_trans (f_equal (fun r => match r with Ok v => negb v | _ => false end) (eq_sym Ev)) O0) as N0.
      intros X. apply Hv in X. subst v. discriminate. }
  destruct (Hok g b w HG K0) as [A1 A2]. destruct (Hok g1 b1 w1 HG1 K4) as [A3 A4].
  exists g, b, w, g1, g2, (4, 1). split; [exact HG|]. split; [exact K|]. split; [exact S1|]. split; [exact S2|]. split; [exact K2|]. split; [split; cbn; lia|]. auto.
Qed.

(** ** Cases *)

Lemma wheel_steps dbg fuel : forall i b w g g', rgreach dbg (6, 3) b w g -> playout fuel i wheel dbg g = Ok g' -> rtc (rplayout_step dbg (6, 3)) g g'.
Proof.
  assert (Hd : Nat.divide 3 6) by (exists 2; reflexivity).
  induction fuel as [|fuel IH]; intros i b w g g' HG P.
  - cbn [playout] in P. destruct (is_over g); [injection P as ->; apply rtc_refl|discriminate].
  - rewrite playout_unfold in P. destruct (is_over g) eqn:HO; [injection P as ->; apply rtc_refl|].
    destruct (rfast_step dbg (6, 3) wheel Hd wheel_perm b w g i HG HO) as [[E' _]|(g1 & b1 & w1 & E' & HS & HG1 & _)]; rewrite E' in P; [discriminate|].
    cbn [bind] in P. eapply rtc_l; [exact HS|]. exact (IH (S i) b1 w1 g1 g' HG1 P).
Qed.

Lemma case_rplayout dbg : exists g b w g', Nat.divide 3 6 /\ rgreach dbg (6, 3) b w g /\ rlreach dbg (6, 3) g /\ (forall i l, wheel i l ≡ₚ l) /\
  (47316994 < N.of_nat (N.to_nat 47316995))%N /\ playout 60 0 wheel dbg g = Ok g' /\ rtc (rplayout_step dbg (6, 3)) g g' /\ is_over g' = true /\
  ron (6, 3) (4, 1) /\ ~ in_square (6, 3) (4, 1) /\ position g' (4, 1) = None /\ position g' (1, 1) = Some White.
Proof.
  assert (Hd : Nat.divide 3 6) by (exists 2; reflexivity).
  assert (K : match rstart 6 3 JAPANESE with
     | Ok g => match playout 60 0 wheel dbg g with Ok g' => is_over g' && has g' (4, 1) None && has g' (1, 1) (Some White) | _ => false end
     | _ => false end = true) by (destruct dbg; vm_compute; reflexivity).
  unfold rstart in K. destruct (game_new _ JAPANESE) as [g| |] eqn:E; [|discriminate..].
  destruct (playout 60 0 wheel dbg g) as [g'| |] eqn:P; [|discriminate..]. bools K. apply bool_decide_eq_true in K1, K0.
  assert (L : rlreach dbg (6, 3) g) by (eapply rl_new; [cbn; lia|cbn; lia|apply rstart_size; lia|exact E]).
  assert (HG : rgreach dbg (6, 3) 0 0 g) by (eapply rg_new; [cbn; lia|cbn; lia|apply rstart_size; lia|exact E]).
  exists g, 0, 0, g'. split; [exact Hd|]. split; [exact HG|]. split; [exact L|]. split; [exact wheel_perm|]. split; [rewrite N2Nat.id; reflexivity|].
  split; [exact P|]. split.
  - exact (wheel_steps dbg 60 0 0 0 g g' HG P).
  - split; [exact K|]. split; [split; cbn; lia|]. split; [unfold in_square; cbn; lia|]. auto.
Qed.

(** Black has one eye in the corner of a board with nine rows and three columns, the search takes the last move it is offered *)
Definition corner_moves : list move := [MPlay 0 1; MPlay 0 2; MPlay 1 0; MPlay 1 2; MPlay 1 1; MPlay 2 1; MPlay 5 1; MPlay 2 0; MPlay 5 2; MPlay 2 2; MPass].
Definition last_move (i : nat) (g : game) (ms : list move) : res move := Ok (List.last ms MPass).
Lemma last_fair dbg g : answers_offered dbg last_move g.
Proof. intros i h ms _ HO El. pose proof (offered_some dbg h ms HO El) as H. right. eexists. split; [reflexivity|]. apply last_elem, H. Qed.

Lemma case_rsearch dbg : exists g b w, fst (9, 3) = 3 * snd (9, 3) /\ Nat.divide 3 9 /\ rgreach dbg (9, 3) b w g /\ ~ no_slot_left g /\ gm_passes g <> 2 /\
  legals_moves dbg g = Ok [MPlay 0 0; MPlay 0 0; MPlay 0 0] /\
  answers_offered dbg last_move g /\ get_floating_stones dbg g = Ok [2] /\ group_no (gm_goban g) (1, 1) = Some 2 /\ dead_stones 60 last_move dbg g = Ok [2].
Proof.
  assert (Hd : Nat.divide 3 9) by (exists 3; reflexivity).
  destruct (rsample dbg 9 3 JAPANESE corner_moves) as [g|] eqn:E; [|destruct dbg; vm_compute in E; discriminate].
  assert (K : match rsample dbg 9 3 JAPANESE corner_moves with
     | Some g => (N.of_nat (length (chains (gm_goban g))) <? 100)%N && (gm_passes g =? 1) &&
         match legals_moves dbg g with Ok ms => bool_decide (ms = [MPlay 0 0; MPlay 0 0; MPlay 0 0]) | _ => false end &&
         match get_floating_stones dbg g with Ok l => bool_decide (l = [2]) | _ => false end &&
         bool_decide (group_no (gm_goban g) (1, 1) = Some 2) &&
         match dead_stones 60 last_move dbg g with Ok l => bool_decide (l = [2]) | _ => false end
     | None => false end = true) by (destruct dbg; vm_compute; reflexivity).
  rewrite E in K. bools K. destruct (legals_moves dbg g) as [ms| |] eqn:E1; [|discriminate..]. destruct (get_floating_stones dbg g) as [fl| |] eqn:E2; [|discriminate..].
  destruct (dead_stones 60 last_move dbg g) as [l| |] eqn:E3; [|discriminate..]. apply bool_decide_eq_true in K0, K1, K2, K3. subst ms fl l.
  apply N.ltb_lt in K. apply Nat.eqb_eq in K4.
  destruct (rsample_reach dbg 9 3 JAPANESE _ g ltac:(lia) ltac:(lia) E) as (b & w & HG & _).
  exists g, b, w. split; [reflexivity|]. split; [exact Hd|]. split; [exact HG|]. split; [|split; [lia|]].
  - intros Hl. unfold no_slot_left in Hl. lia.
  - split; [exact E1|]. split; [exact (last_fair dbg g)|]. auto.
Qed.

Lemma case_rover dbg : exists g b w, Nat.divide 3 6 /\ rgreach dbg (6, 3) b w g /\ is_over g = true /\ position g (1, 1) = Some Black.
Proof.
  assert (Hd : Nat.divide 3 6) by (exists 2; reflexivity).
  destruct (rsample dbg 6 3 JAPANESE (corner_moves ++ [MPass])) as [g|] eqn:E; [|destruct dbg; vm_compute in E; discriminate].
  assert (K : match rsample dbg 6 3 JAPANESE (corner_moves ++ [MPass]) with Some g => is_over g && has g (1, 1) (Some Black) | None => false end = true) by (destruct dbg; vm_compute; reflexivity).
  rewrite E in K. bools K. apply bool_decide_eq_true in K0.
  destruct (rsample_reach dbg 6 3 JAPANESE _ g ltac:(lia) ltac:(lia) E) as (b & w & HG & _). exists g, b, w. auto.
Qed.
