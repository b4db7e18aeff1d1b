(** Concrete cases for the theorems about komi. *)
From stdpp Require Import relations.
From Verif Require Import StrategySpec Spec Observe Ops ScoreSpec RoundSpec Float32.
From Verif Require Import Push Inv Remove Capture Bridge MonadFacts GameFacts RulesFacts RefuteFacts CaseFacts SymClaims RectSpec RectReach RectGo TallPoint StrategyFacts StealFacts StrategyCases KomiFacts KomiClaims.
From Coq Require Import Lia.

Local Notation length := Datatypes.length.
Local Open Scope nat_scope.

(** half a point *)
Definition half_point : f32 := f32_make 1 (-1).

(** one stone each, Black has just passed; with half a point White has more *)
Definition white_to_pass (dbg : bool) (g : game) : bool :=
  negb (is_over g) && color_eqb (gm_turn g) White && (length (gm_history g) =? 2) && bool_decide (flag_score (gm_rule g) = 3%N) && match gm_outcome g with None => true | _ => false end &&
  match try_play dbg (set_komi g half_point) MPass with
  | Ok (g', Accepted) => is_over g' && match outcome (fun l => l) dbg g' with Ok (Some (WinnerByScore White _)) => true | _ => false end
  | _ => false
  end.

Lemma case_komi dbg : exists g b w u, Nat.divide 3 6 /\ rgreach dbg (6, 3) b w g /\ length (gm_history g) = 2 /\
  gm_outcome g = None /\ N.testbit (flag_score (gm_rule g)) 1 = true /\ N.testbit (flag_score (gm_rule g)) 2 = false /\
  is_f32 half_point /\ is_f32 (r_komi CHINESE) /\ units half_point = Some (2 ^ 148)%Z /\ units (r_komi CHINESE) = Some u /\ (2 ^ 148 <= u)%Z /\
  forces dbg (6, 3) White (won dbg White) (set_komi g half_point).
Proof.
  destruct (rsampleb dbg 6 3 CHINESE [MPlay 1 1; MPlay 3 1; MPass] (white_to_pass dbg) ltac:(lia) ltac:(lia)) as (g & b & w & HG & F); [destruct dbg; vm_compute; reflexivity|].
  unfold white_to_pass in F. repeat match goal with H : (_ && _) = true |- _ => apply andb_true_iff in H as [? ?] end.
  destruct (try_play dbg (set_komi g half_point) MPass) as [[g1 []]| |] eqn:E1; try discriminate. repeat match goal with H : (_ && _) = true |- _ => apply andb_true_iff in H as [? ?] end.
  match goal with H : bool_decide _ = true |- _ => apply bool_decide_eq_true_1 in H; rename H into HF end.
  assert (D : Nat.divide 3 6) by (exists 2; reflexivity). exists g, b, w, (15 * 2 ^ 148)%Z. split; [exact D|]. split; [exact HG|]. split; [apply Nat.eqb_eq; assumption|].
  split; [destruct (gm_outcome g); [discriminate|reflexivity]|]. rewrite HF. do 2 (split; [reflexivity|]). do 2 (split; [vm_compute; reflexivity|]). do 2 (split; [vm_compute; reflexivity|]). split; [vm_compute; discriminate|].
  assert (Ov : is_over (set_komi g half_point) = false) by (change (is_over g = false); destruct (is_over g); [discriminate|reflexivity]).
  eapply (fo_own _ _ _ _ (set_komi g half_point) MPass g1 Ov); [change (gm_turn g = White); destruct (gm_turn g); [reflexivity|discriminate]|split; [exact I|exact E1]|].
  apply fo_over; [assumption|].
  destruct (may_play_reach dbg (6, 3) b w _ MPass g1 D (rg_komi _ _ _ _ _ half_point HG) (conj I E1)) as (b' & w' & HG' & _).
  destruct (outcome (fun l => l) dbg g1) as [[[c x| | | |]|]| |] eqn:Eo; try discriminate. destruct c; try discriminate.
  eapply (won_by dbg (6, 3)); [exact D|exact HG'|assumption|exact Eo|reflexivity].
Qed.

(** the Japanese rule with a komi of minus half a point *)
Definition REVERSE_KOMI : rule := mkRule (f32_make (-1) (-1)) (flag_illegal JAPANESE) (flag_score JAPANESE).

Lemma case_reverse dbg : exists g u, Nat.divide 3 6 /\ 1 <= 6 /\ 1 <= 3 /\ size_of (Custom 6 3) = (6, 3) /\ game_new (Custom 6 3) REVERSE_KOMI = Ok g /\
  N.testbit (flag_score REVERSE_KOMI) 1 = true /\ is_f32 (r_komi REVERSE_KOMI) /\ units (r_komi REVERSE_KOMI) = Some u /\ (u < 0)%Z /\ forces dbg (6, 3) Black (not_lost dbg Black) g.
Proof.
  destruct (game_new (Custom 6 3) REVERSE_KOMI) as [g| |] eqn:E; [|vm_compute in E; discriminate E..]. exists g, (- 2 ^ 148)%Z.
  assert (S : size_of (Custom 6 3) = (6, 3)) by (vm_compute; reflexivity). assert (D : Nat.divide 3 6) by (exists 2; reflexivity).
  assert (V : is_f32 (r_komi REVERSE_KOMI)) by (vm_compute; reflexivity). assert (U : units (r_komi REVERSE_KOMI) = Some (- 2 ^ 148)%Z) by (vm_compute; reflexivity).
  split; [exact D|]. split; [lia|]. split; [lia|]. split; [exact S|]. split; [reflexivity|]. split; [reflexivity|]. split; [exact V|]. split; [exact U|]. split; [lia|].
  apply (steal_komi dbg (6, 3) (Custom 6 3) REVERSE_KOMI g (- 2 ^ 148)%Z); [exact D|cbn; lia|cbn; lia|exact S|exact E|exact V|exact U|lia].
Qed.

(** ** More than one komi is fair *)

(** White cannot but pass in answer to Black's pass *)
Definition passed_out (dbg : bool) (g : game) (v : endgame -> bool) : bool :=
  negb (is_over g) && color_eqb (gm_turn g) Black &&
  match try_play dbg g MPass with
  | Ok (g1, Accepted) => negb (is_over g1) && color_eqb (gm_turn g1) White &&
    match try_play dbg g1 (MPlay 0 0) with Ok (_, Accepted) => false | Ok _ => true | _ => false end &&
    match try_play dbg g1 MPass with
    | Ok (g2, Accepted) => is_over g2 && match outcome (fun l => l) dbg g2 with Ok (Some e) => v e | _ => false end
    | _ => false
    end
  | _ => false
  end.

Lemma pass_out_black dbg r g (v : endgame -> bool) (P : game -> Prop) : game_new (Custom 1 1) r = Ok g -> passed_out dbg g v = true ->
  (forall g2 b w e, rgreach dbg (1, 1) b w g2 -> is_over g2 = true -> outcome (fun l => l) dbg g2 = Ok (Some e) -> v e = true -> P g2) ->
  forces dbg (1, 1) Black P g.
Proof.
  intros E F HP. assert (HG : rgreach dbg (1, 1) 0 0 g) by (eapply rg_new; [| | |exact E]; [cbn; lia..|vm_compute; reflexivity]).
  assert (D : Nat.divide 1 1) by apply Nat.divide_refl.
  unfold passed_out in F. apply andb_true_iff in F as [F F4]. apply andb_true_iff in F as [F1 F2].
  destruct (try_play dbg g MPass) as [[g1 []]| |] eqn:E1; try discriminate F4. apply andb_true_iff in F4 as [F4 F6]. apply andb_true_iff in F4 as [F4 F3]. apply andb_true_iff in F4 as [F4 F5].
  destruct (try_play dbg g1 MPass) as [[g2 []]| |] eqn:E2; try discriminate F6. apply andb_true_iff in F6 as [F6 F7].
  destruct (outcome (fun l => l) dbg g2) as [[e|]| |] eqn:Eo; try discriminate F7.
  destruct (may_play_reach dbg (1, 1) 0 0 g MPass g1 D HG (conj I E1)) as (b1 & w1 & HG1 & _).
  destruct (may_play_reach dbg (1, 1) b1 w1 g1 MPass g2 D HG1 (conj I E2)) as (b2 & w2 & HG2 & _).
  eapply (fo_own _ _ _ _ g MPass g1); [destruct (is_over g); [discriminate F1|reflexivity]|destruct (gm_turn g); [discriminate F2|reflexivity]|split; [exact I|exact E1]|].
  apply fo_other; [destruct (is_over g1); [discriminate F4|reflexivity]|destruct (gm_turn g1); [reflexivity|discriminate F5]|].
  intros m g' [Hm Em]. destruct m as [|c|x y]; [|destruct Hm|].
  - assert (g' = g2) as -> by congruence. apply fo_over; [exact F6|]. eapply HP; eassumption.
  - assert ((x, y) = (0, 0)) as Exy by (destruct Hm as [H1 H2]; cbn in H1, H2; f_equal; lia). injection Exy as -> ->.
    rewrite Em in F3. discriminate F3.
Qed.

Definition drawn (e : endgame) : bool := match e with Draw => true | _ => false end.

Lemma drawn_at dbg k g : game_new (Custom 1 1) (mkRule k (flag_illegal JAPANESE) (flag_score JAPANESE)) = Ok g -> passes_out dbg g drawn = true -> passed_out dbg g drawn = true ->
  forces dbg (1, 1) Black (not_lost dbg Black) g /\ forces dbg (1, 1) White (not_lost dbg White) g.
Proof.
  intros E F1 F2. split.
  - eapply pass_out_black; [exact E|exact F2|]. intros g2 b w e HG Ov Eo Hv. eapply (kept_by dbg (1, 1)); [apply Nat.divide_refl|exact HG|exact Ov|exact Eo|]. destruct e; discriminate.
  - eapply pass_out; [exact E|exact F1|]. intros g2 b w e HG Ov Eo Hv. eapply (kept_by dbg (1, 1)); [apply Nat.divide_refl|exact HG|exact Ov|exact Eo|]. destruct e; discriminate.
Qed.

(** a very small komi, 2^-30 points *)
Definition tiny : f32 := f32_make 1 (-30).

Lemma two_fair_komi dbg : exists g b w k k' u u', rgreach dbg (1, 1) b w g /\ gm_outcome g = None /\ N.testbit (flag_score (gm_rule g)) 1 = true /\
  is_f32 k /\ is_f32 k' /\ units k = Some u /\ units k' = Some u' /\ (u < u')%Z /\
  (forces dbg (1, 1) Black (not_lost dbg Black) (set_komi g k) /\ forces dbg (1, 1) White (not_lost dbg White) (set_komi g k)) /\
  (forces dbg (1, 1) Black (not_lost dbg Black) (set_komi g k') /\ forces dbg (1, 1) White (not_lost dbg White) (set_komi g k')).
Proof.
  destruct (game_new (Custom 1 1) JAPANESE) as [g| |] eqn:E; [|vm_compute in E; discriminate E..]. exists g, 0, 0, (f32_make 0 0), tiny, 0%Z, (2 ^ 119)%Z.
  split; [eapply rg_new; [| | |exact E]; [cbn; lia..|vm_compute; reflexivity]|].
  assert (X : gm_outcome g = None /\ gm_rule g = JAPANESE) by (destruct (new_fields _ _ _ _ E eq_refl) as (_ & _ & _ & A & _ & _ & B); auto). destruct X as [X1 X2].
  split; [exact X1|]. rewrite X2. split; [reflexivity|]. split; [vm_compute; reflexivity|]. split; [vm_compute; reflexivity|]. split; [vm_compute; reflexivity|]. split; [vm_compute; reflexivity|]. split; [lia|].
  assert (N : forall k, game_new (Custom 1 1) (mkRule k (flag_illegal JAPANESE) (flag_score JAPANESE)) = Ok (set_komi g k)).
  { intros k. unfold game_new in *. apply bind_ok in E as (gb & Eg & E). rewrite Eg. cbn [bind]. injection E as <-. reflexivity. }
  assert (S : forall k (f : game -> bool), sat (match game_new (Custom 1 1) (mkRule k (flag_illegal JAPANESE) (flag_score JAPANESE)) with Ok g => Some g | _ => None end) f = true -> f (set_komi g k) = true)
    by (intros k f; rewrite N; intros H; exact H).
  split; (eapply drawn_at; [apply N| |]); match goal with |- ?f dbg (set_komi g ?k) drawn = true => apply (S k (fun g => f dbg g drawn)) end; destruct dbg; vm_compute; reflexivity.
Qed.

(** ** Black owns the board, White has a komi that is not a number *)

Definition all_black (dbg : bool) (g : game) : bool :=
  is_over g && match gm_outcome g with None => true | _ => false end && bool_decide (flag_score (gm_rule g) = 3%N) &&
  match outcome (fun l => l) dbg g with Ok (Some (WinnerByScore Black _)) => true | _ => false end.

Lemma case_odd dbg : exists g b w m, Nat.divide 3 6 /\ rgreach dbg (6, 3) b w g /\ (forall l : list point, (fun l => l) l ≡ₚ l) /\ is_over g = true /\ gm_outcome g = None /\
  N.testbit (flag_score (gm_rule g)) 1 = true /\ outcome (fun l => l) dbg g = Ok (Some (WinnerByScore Black m)).
Proof.
  destruct (rsampleb dbg 6 3 CHINESE [MPlay 1 1; MPass; MPlay 3 1; MPass; MPass] (all_black dbg) ltac:(lia) ltac:(lia)) as (g & b & w & HG & F); [destruct dbg; vm_compute; reflexivity|].
  unfold all_black in F. repeat match goal with H : (_ && _) = true |- _ => apply andb_true_iff in H as [? ?] end.
  match goal with H : bool_decide _ = true |- _ => apply bool_decide_eq_true_1 in H; rename H into HF end.
  destruct (outcome (fun l => l) dbg g) as [[[c x| | | |]|]| |] eqn:Eo; try discriminate. destruct c; try discriminate.
  exists g, b, w, x. split; [exists 2; reflexivity|]. split; [exact HG|]. split; [reflexivity|]. split; [assumption|]. split; [destruct (gm_outcome g); [discriminate|reflexivity]|]. rewrite HF. split; [reflexivity|exact Eo].
Qed.

Lemma case_komi_square dbg : exists g b w, greach dbg 5 b w g /\ length (gm_history g) = 5 /\ gm_outcome g = None /\
  N.testbit (flag_score (gm_rule g)) 1 = true /\ N.testbit (flag_score (gm_rule g)) 2 = false.
Proof.
  destruct (rsampleb dbg 5 5 CHINESE black_ahead (fun g => (length (gm_history g) =? 5) && bool_decide (flag_score (gm_rule g) = 3%N) && match gm_outcome g with None => true | _ => false end) ltac:(lia) ltac:(lia)) as (g & b & w & HG & F); [destruct dbg; vm_compute; reflexivity|].
  apply andb_true_iff in F as [F F3]. apply andb_true_iff in F as [F1 F2]. apply bool_decide_eq_true_1 in F2. exists g, b, w. split; [eapply rgreach_square; [reflexivity|exact HG]|].
  split; [apply Nat.eqb_eq, F1|]. rewrite F2. split; [destruct (gm_outcome g); [discriminate|reflexivity]|]. split; reflexivity.
Qed.

Lemma case_komi_new : exists s g, 1 <= 19 /\ size_of s = (19, 19) /\ game_new s CHINESE = Ok g /\
  N.testbit (flag_score CHINESE) 1 = true /\ N.testbit (flag_score CHINESE) 2 = false.
Proof.
  destruct (game_new Nineteen CHINESE) as [g| |] eqn:E; [|vm_compute in E; discriminate E..]. exists Nineteen, g. split; [lia|]. split; [reflexivity|]. split; [exact E|]. split; reflexivity.
Qed.
