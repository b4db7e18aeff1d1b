(** Concrete cases for the theorems about strategies. *)
From stdpp Require Import relations.
From Verif Require Import StrategySpec Spec Observe Ops ScoreSpec.
From Verif Require Import Push Inv Remove Capture Bridge MonadFacts GameFacts RulesFacts RefuteFacts CaseFacts SymClaims RectSpec RectReach RectGo TallPoint StrategyFacts StealFacts.
From Coq Require Import Lia.

Local Notation length := Datatypes.length.
Local Open Scope nat_scope.

(** ** Games end *)

Definition taken_in_corner (dbg : bool) (g : game) : bool :=
  match try_play dbg g (MPlay 3 0) with
  | Ok (g1, Accepted) => match try_play dbg g1 MPass with
    | Ok (g2, Accepted) => match try_play dbg g2 (MPlay 1 0) with
      | Ok (g3, Accepted) => (fst (gm_prisoners g3) =? 1)%N
      | _ => false
      end
    | _ => false
    end
  | _ => false
  end.

Lemma case_end dbg : exists g g' b w, Nat.divide 3 6 /\ rgreach dbg (6, 3) b w g /\ rstone_run dbg (6, 3) 2 g g' /\ fst (gm_prisoners g') = 1%N.
Proof.
  destruct (rsampleb dbg 6 3 CHINESE [MPlay 0 1; MPlay 0 0] (taken_in_corner dbg) ltac:(lia) ltac:(lia)) as (g & b & w & HG & F); [destruct dbg; vm_compute; reflexivity|].
  unfold taken_in_corner in F. destruct (try_play dbg g (MPlay 3 0)) as [[g1 []]| |] eqn:E1; try discriminate F.
  destruct (try_play dbg g1 MPass) as [[g2 []]| |] eqn:E2; try discriminate F. destruct (try_play dbg g2 (MPlay 1 0)) as [[g3 []]| |] eqn:E3; try discriminate F.
  exists g, g3, b, w. split; [exists 2; reflexivity|]. split; [exact HG|]. split; [|apply N.eqb_eq, F].
  apply (rr_stone _ _ 1 g 3 0 g1 g3); [split; cbn; lia|exact E1|]. apply (rr_pass _ _ 1 g1 g2 g3); [exact E2|]. apply (rr_stone _ _ 0 g2 1 0 g3 g3); [split; cbn; lia|exact E3|]. apply rr_end.
Qed.

(** ** Values *)

Lemma won_by dbg n b w g c x : Nat.divide (snd n) (fst n) -> rgreach dbg n b w g -> is_over g = true ->
  outcome (fun l => l) dbg g = Ok (Some x) -> endgame_winner x = Some c -> won dbg c g.
Proof.
  intros Hd HG Ov E Wx order Ho. destruct (outcome_over _ _ _ _ _ Hd HG Ov) as (e & He). exists e. split; [apply He, Ho|]. rewrite He in E by reflexivity. congruence.
Qed.
Lemma kept_by dbg n b w g c x : Nat.divide (snd n) (fst n) -> rgreach dbg n b w g -> is_over g = true ->
  outcome (fun l => l) dbg g = Ok (Some x) -> endgame_winner x <> Some (opp c) -> not_lost dbg c g.
Proof.
  intros Hd HG Ov E Wx order Ho. destruct (outcome_over _ _ _ _ _ Hd HG Ov) as (e & He). exists e. split; [apply He, Ho|]. rewrite He in E by reflexivity. congruence.
Qed.

(** Black is ahead and White has just passed *)
Definition black_ahead : list move := List.map (fun p : coord => MPlay (fst p) (snd p)) (fight ++ [(2, 2)]) ++ [MPass].
Definition ends_well (dbg : bool) (g : game) : bool :=
  (length (gm_history g) =? 5) && negb (is_over g) && color_eqb (gm_turn g) Black &&
  match try_play dbg g MPass with
  | Ok (g', Accepted) => is_over g' && match outcome (fun l => l) dbg g' with Ok (Some (WinnerByScore Black _)) => true | _ => false end
  | _ => false
  end.

Lemma case_value dbg : exists g b w, Nat.divide 5 5 /\ rgreach dbg (5, 5) b w g /\ is_over g = false /\ forces dbg (5, 5) Black (won dbg Black) g /\
  (forall h b' w', rgreach dbg (5, 5) b' w' h -> is_over h = true -> won dbg Black h \/ ~ won dbg Black h) /\ (forall h, won dbg Black h -> won dbg White h -> False).
Proof.
  destruct (rsampleb dbg 5 5 NO_KOMI black_ahead (ends_well dbg) ltac:(lia) ltac:(lia)) as (g & b & w & HG & F); [destruct dbg; vm_compute; reflexivity|].
  unfold ends_well in F. repeat match goal with H : (_ && _) = true |- _ => apply andb_true_iff in H as [? ?] end.
  destruct (try_play dbg g MPass) as [[g1 []]| |] eqn:E1; try discriminate. repeat match goal with H : (_ && _) = true |- _ => apply andb_true_iff in H as [? ?] end.
  assert (D : Nat.divide 5 5) by apply Nat.divide_refl. exists g, b, w. split; [exact D|]. split; [exact HG|].
  assert (Ov : is_over g = false) by (destruct (is_over g); [discriminate|reflexivity]). split; [exact Ov|].
  split; [|split].
  2:{ intros h b' w' HH O. apply (won_or dbg (5, 5) b' w' Black h D HH O). }
  2:{ intros h X Y. destruct (X (fun l => l) (fun l => Permutation_refl l)) as (e & E & We). destruct (Y (fun l => l) (fun l => Permutation_refl l)) as (e' & E' & We'). congruence. }
  eapply (fo_own _ _ _ _ g MPass g1 Ov); [destruct (gm_turn g); [discriminate|reflexivity] || (destruct (gm_turn g); [reflexivity|discriminate])|split; [exact I|exact E1]|].
  apply fo_over; [assumption|].
  destruct (may_play_reach dbg (5, 5) b w g MPass g1 D HG (conj I E1)) as (b' & w' & HG' & _).
  destruct (outcome (fun l => l) dbg g1) as [[[c x| | | |]|]| |] eqn:Eo; try discriminate. destruct c; try discriminate.
  eapply (won_by dbg (5, 5)); [exact D|exact HG'|assumption|exact Eo|reflexivity].
Qed.

Lemma case_steal dbg : exists g, Nat.divide 3 6 /\ 1 <= 6 /\ 1 <= 3 /\ size_of (Custom 6 3) = (6, 3) /\ game_new (Custom 6 3) NO_KOMI = Ok g /\ N.testbit (flag_score NO_KOMI) 1 = false /\
  forces dbg (6, 3) Black (not_lost dbg Black) g.
Proof.
  destruct (game_new (Custom 6 3) NO_KOMI) as [g| |] eqn:E; [|vm_compute in E; discriminate E..]. exists g.
  assert (S : size_of (Custom 6 3) = (6, 3)) by (vm_compute; reflexivity). assert (D : Nat.divide 3 6) by (exists 2; reflexivity).
  split; [exact D|]. split; [lia|]. split; [lia|]. split; [exact S|]. split; [reflexivity|]. split; [reflexivity|].
  apply (steal dbg (6, 3) (Custom 6 3) NO_KOMI g); [exact D|cbn; lia|cbn; lia|exact S|exact E|reflexivity].
Qed.

(** ** No more than a draw on the smallest board, and nothing at all with komi *)

Definition passes_out (dbg : bool) (g : game) (v : endgame -> bool) : bool :=
  negb (is_over g) && color_eqb (gm_turn g) Black &&
  match try_play dbg g (MPlay 0 0) with Ok (_, Accepted) => false | Ok _ => true | _ => false end &&
  match try_play dbg g MPass with
  | Ok (g1, Accepted) => negb (is_over g1) && color_eqb (gm_turn g1) White &&
    match try_play dbg g1 MPass with
    | Ok (g2, Accepted) => is_over g2 && match outcome (fun l => l) dbg g2 with Ok (Some e) => v e | _ => false end
    | _ => false
    end
  | _ => false
  end.

Lemma pass_out dbg r g (v : endgame -> bool) (P : game -> Prop) : game_new (Custom 1 1) r = Ok g -> passes_out dbg g v = true ->
  (forall g2 b w e, rgreach dbg (1, 1) b w g2 -> is_over g2 = true -> outcome (fun l => l) dbg g2 = Ok (Some e) -> v e = true -> P g2) ->
  forces dbg (1, 1) White P g.
Proof.
  intros E F HP. assert (HG : rgreach dbg (1, 1) 0 0 g) by (eapply rg_new; [| | |exact E]; [cbn; lia..|vm_compute; reflexivity]).
  assert (D : Nat.divide 1 1) by apply Nat.divide_refl.
  unfold passes_out in F. apply andb_true_iff in F as [F F4]. apply andb_true_iff in F as [F F3]. apply andb_true_iff in F as [F1 F2].
  destruct (try_play dbg g MPass) as [[g1 []]| |] eqn:E1; try discriminate F4. apply andb_true_iff in F4 as [F4 F6]. apply andb_true_iff in F4 as [F4 F5].
  destruct (try_play dbg g1 MPass) as [[g2 []]| |] eqn:E2; try discriminate F6. apply andb_true_iff in F6 as [F6 F7].
  destruct (outcome (fun l => l) dbg g2) as [[e|]| |] eqn:Eo; try discriminate F7.
  apply fo_other; [destruct (is_over g); [discriminate F1|reflexivity]|destruct (gm_turn g); [discriminate F2|reflexivity] || (destruct (gm_turn g); [reflexivity|discriminate F2])|].
  intros m g' [Hm Em]. destruct m as [|c|x y]; [|destruct Hm|].
  - assert (g' = g1) as -> by congruence.
    destruct (may_play_reach dbg (1, 1) 0 0 g MPass g1 D HG (conj I E1)) as (b1 & w1 & HG1 & _).
    destruct (may_play_reach dbg (1, 1) b1 w1 g1 MPass g2 D HG1 (conj I E2)) as (b2 & w2 & HG2 & _).
    eapply (fo_own _ _ _ _ g1 MPass g2); [destruct (is_over g1); [discriminate F4|reflexivity]|destruct (gm_turn g1); [reflexivity|discriminate F5] || (destruct (gm_turn g1); [discriminate F5|reflexivity])|split; [exact I|exact E2]|].
    apply fo_over; [exact F6|]. eapply HP; eassumption.
  - assert ((x, y) = (0, 0)) as Exy by (destruct Hm as [H1 H2]; cbn in H1, H2; f_equal; lia). injection Exy as -> ->.
    rewrite Em in F3. discriminate F3.
Qed.

Lemma only_a_draw dbg : exists g, game_new (Custom 1 1) NO_KOMI = Ok g /\ N.testbit (flag_score NO_KOMI) 1 = false /\
  forces dbg (1, 1) White (not_lost dbg White) g /\ ~ forces dbg (1, 1) Black (won dbg Black) g.
Proof.
  destruct (game_new (Custom 1 1) NO_KOMI) as [g| |] eqn:E; [|vm_compute in E; discriminate E..]. exists g. split; [reflexivity|]. split; [reflexivity|].
  assert (F : forces dbg (1, 1) White (not_lost dbg White) g).
  { apply (pass_out dbg NO_KOMI g (fun e => match e with Draw => true | _ => false end) _ E).
    - assert (K : sat (match game_new (Custom 1 1) NO_KOMI with Ok g => Some g | _ => None end) (fun g => passes_out dbg g (fun e => match e with Draw => true | _ => false end)) = true)
        by (destruct dbg; vm_compute; reflexivity). rewrite E in K. exact K.
    - intros g2 b w e HG Ov Eo Hv. eapply (kept_by dbg (1, 1)); [apply Nat.divide_refl|exact HG|exact Ov|exact Eo|]. destruct e; discriminate. }
  split; [exact F|]. intros F'. assert (HG : rgreach dbg (1, 1) 0 0 g) by (eapply rg_new; [| | |exact E]; [cbn; lia..|vm_compute; reflexivity]).
  destruct (game_value dbg (1, 1) 0 0 g (Nat.divide_refl 1) HG) as (_ & X & _). apply (X Black). split; assumption.
Qed.

Lemma komi_decides dbg : exists g, game_new (Custom 1 1) JAPANESE = Ok g /\ forces dbg (1, 1) White (won dbg White) g /\ ~ forces dbg (1, 1) Black (not_lost dbg Black) g.
Proof.
  destruct (game_new (Custom 1 1) JAPANESE) as [g| |] eqn:E; [|vm_compute in E; discriminate E..]. exists g. split; [reflexivity|].
  assert (F : forces dbg (1, 1) White (won dbg White) g).
  { apply (pass_out dbg JAPANESE g (fun e => match endgame_winner e with Some White => true | _ => false end) _ E).
    - assert (K : sat (match game_new (Custom 1 1) JAPANESE with Ok g => Some g | _ => None end) (fun g => passes_out dbg g (fun e => match endgame_winner e with Some White => true | _ => false end)) = true)
        by (destruct dbg; vm_compute; reflexivity). rewrite E in K. exact K.
    - intros g2 b w e HG Ov Eo Hv. eapply (won_by dbg (1, 1)); [apply Nat.divide_refl|exact HG|exact Ov|exact Eo|]. destruct (endgame_winner e) as [[]|]; try discriminate. reflexivity. }
  split; [exact F|]. intros F'. assert (HG : rgreach dbg (1, 1) 0 0 g) by (eapply rg_new; [| | |exact E]; [cbn; lia..|vm_compute; reflexivity]).
  destruct (game_value dbg (1, 1) 0 0 g (Nat.divide_refl 1) HG) as (_ & X & _). apply (X White). split; assumption.
Qed.
