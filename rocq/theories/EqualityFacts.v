(** The derived equalities compare numbers, results and rules. *)
From stdpp Require Import relations.
From Verif Require Import Spec Observe Reach ScoreSpec RoundSpec SymSpec Equality EqualitySpec Samples.
From Verif Require Import MonadFacts Bridge GameFacts RulesFacts BoardFacts Float32Facts RoundFacts RoundScore ReprFacts LegalFacts ClaimFacts RefuteFacts CaseFacts PlayClaims.
From Coq Require Import Lia ZArith.

Local Notation length := Datatypes.length.
Open Scope nat_scope.

Lemma color_eqb_iff c d : color_eqb c d = true <-> c = d.
Proof. destruct c, d; cbn; split; congruence. Qed.

Lemma f32_eq_number x y : is_f32 x -> is_f32 y -> f32_eq x y = true <-> same_number x y.
Proof.
  intros Vx Vy. unfold f32_eq, SFeqb. destruct (units x) as [a|] eqn:Ea.
  - destruct (units y) as [b|] eqn:Eb.
    + rewrite (compare_units x y a b Vx Vy Ea Eb). destruct (Z.compare_spec a b) as [->|L|L]; split; try discriminate; intros H.
      * exact (same_finite _ _ _ Ea Eb).
      * reflexivity.
      * inversion H; subst; [|discriminate]. assert (a = b) by congruence. lia.
      * inversion H; subst; [|discriminate]. assert (a = b) by congruence. lia.
    + assert (F : ~ same_number x y) by (intros H; inversion H; subst; congruence).
      split; [|contradiction]. destruct x as [s|s| |s m e], y as [s'|[]| |s' m' e']; try discriminate; destruct s; discriminate.
  - destruct (units y) as [b|] eqn:Eb.
    + assert (F : ~ same_number x y) by (intros H; inversion H; subst; congruence).
      split; [|contradiction]. destruct x as [s|[]| |s m e], y as [s'|s'| |s' m' e']; try discriminate; destruct s'; discriminate.
    + destruct x as [s|[]| |s m e], y as [s'|[]| |s' m' e']; try discriminate; cbn; split; try discriminate; try reflexivity; intros H; try constructor;
        inversion H; subst; discriminate.
Qed.

Lemma endgame_eq_result e f : proper_result e -> proper_result f -> endgame_eq e f = true <-> same_result e f.
Proof.
  intros Ve Vf. destruct e as [c p|c|c|c|], f as [d q|d|d|d|]; cbn; try (split; [discriminate|intros H; inversion H]).
  - rewrite andb_true_iff, color_eqb_iff, (f32_eq_number p q Ve Vf). split; [intros [-> H]; constructor; exact H|intros H; inversion H; auto].
  - rewrite color_eqb_iff. split; [intros ->; constructor|intros H; inversion H; reflexivity].
  - rewrite color_eqb_iff. split; [intros ->; constructor|intros H; inversion H; reflexivity].
  - rewrite color_eqb_iff. split; [intros ->; constructor|intros H; inversion H; reflexivity].
  - split; [constructor|reflexivity].
Qed.

Lemma rule_eq_same r s : is_f32 (r_komi r) -> is_f32 (r_komi s) ->
  rule_eq r s = true <-> same_number (r_komi r) (r_komi s) /\ flag_illegal r = flag_illegal s /\ flag_score r = flag_score s.
Proof.
  intros Vr Vs. unfold rule_eq. rewrite !andb_true_iff, !N.eqb_eq, (f32_eq_number _ _ Vr Vs). tauto.
Qed.

Lemma move_eq_same m m' : move_eq m m' = true <-> m = m'.
Proof.
  destruct m as [|c|x y], m' as [|d|x' y']; cbn; try (split; congruence).
  - rewrite color_eqb_iff. split; congruence.
  - rewrite andb_true_iff, !Nat.eqb_eq. split; [intros [-> ->]; reflexivity|injection 1; auto].
Qed.

Lemma sizes_eq_name s t : sizes_eq s t = true <-> s = t.
Proof.
  destruct s, t; cbn [sizes_eq]; try (split; [discriminate|intros [=]]); try (split; reflexivity).
  rewrite andb_true_iff, !N.eqb_eq. split; [intros [-> ->]; reflexivity|intros [= -> ->]; auto].
Qed.

(** different names of one size: the same games *)
Lemma size_names : exists s t u, sizes_eq s t = false /\ sizes_eq t u = false /\ sizes_eq s u = false /\
  size_of s = (19, 19) /\ size_of t = (19, 19) /\ size_of u = (19, 19) /\
  (forall r, game_new s r = game_new t r /\ game_new t r = game_new u r).
Proof. exists Nineteen, (Custom 19 19), (Custom 275 19). do 6 (split; [reflexivity|]). intros r. split; reflexivity. Qed.

Lemma rounds_proper m z : rounds_to m z -> is_f32 m /\ same_number m m.
Proof. intros (V & u & U & _). split; [exact V|]. exact (same_finite _ _ _ U U). Qed.

Lemma look_self n g : look_alike n g g.
Proof. constructor; [intros q _; reflexivity|reflexivity..|induction (gm_history g); constructor; [intros q _; reflexivity|assumption]]. Qed.

(** asking twice for the outcome *)
Lemma outcome_twice order order' dbg n b w g : greach dbg n b w g -> (forall l, order l ≡ₚ l) -> (forall l, order' l ≡ₚ l) ->
  is_f32 (komi g) -> (fst (gm_prisoners g) < 1000000)%N -> (snd (gm_prisoners g) < 1000000)%N -> gm_outcome g = None -> gm_passes g = 2 ->
  exists o o', outcome order dbg g = Ok (Some o) /\ outcome order' dbg g = Ok (Some o') /\
    (endgame_eq o o' = true <-> ~ (komi g = S754_nan /\ N.testbit (flag_score (gm_rule g)) 1 = true)).
Proof.
  intros HG Ho Ho' V PB PW Ou Pa.
  destruct (alike_score n order order' dbg dbg b w b w g g 0%N HG HG Ho Ho' (look_self n g)) as [_ (o & E & E')].
  assert (K : exists e, outcome order dbg g = Ok (Some e) /\ (endgame_eq e e = true <-> ~ (komi g = S754_nan /\ N.testbit (flag_score (gm_rule g)) 1 = true))).
  { destruct (if N.testbit (flag_score (gm_rule g)) 1 then units (komi g) else Some 0%Z) as [k|] eqn:Ek.
    - assert (Hn : ~ (komi g = S754_nan /\ N.testbit (flag_score (gm_rule g)) 1 = true)) by (intros [En Et]; rewrite Et, En in Ek; discriminate).
      destruct (outcome_any_komi order dbg n b w g k HG Ho V Ek PB PW Ou Pa) as (tb & tw & x & u & _ & _ & _ & _ & [(Eo & _)|[(m & Eo & _ & R)|(m & Eo & _ & R)]]).
      + exists Draw. split; [exact Eo|]. split; [auto|reflexivity].
      + exists (WinnerByScore Black m). split; [exact Eo|]. split; [auto|]. intros _. destruct (rounds_proper _ _ R) as [Vm Sm].
        apply endgame_eq_result; [exact Vm|exact Vm|constructor; exact Sm].
      + exists (WinnerByScore White m). split; [exact Eo|]. split; [auto|]. intros _. destruct (rounds_proper _ _ R) as [Vm Sm].
        apply endgame_eq_result; [exact Vm|exact Vm|constructor; exact Sm].
    - destruct (N.testbit (flag_score (gm_rule g)) 1) eqn:Et; [|discriminate].
      pose proof (outcome_not_finite order dbg n b w g HG Ho Ek Et PB PW Ou Pa) as Eo. eexists. split; [exact Eo|].
      destruct (komi g) as [s|[]| |s m e]; try discriminate; cbn; split; try discriminate; try reflexivity; try (intros _ [F _]; discriminate).
      intros F. destruct F. auto. }
  destruct K as (e & Ee & He). rewrite E in Ee. injection Ee as ->. exists e, e. split; [exact E|]. split; [exact E'|exact He].
Qed.

(** ** Cases *)

Lemma case_outcome_twice dbg : exists b w g b' w' h,
  greach dbg 9 b w g /\ (forall l : list point, rev l ≡ₚ l) /\ is_f32 (komi g) /\ (fst (gm_prisoners g) < 1000000)%N /\ (snd (gm_prisoners g) < 1000000)%N /\
    gm_outcome g = None /\ gm_passes g = 2 /\ komi g <> S754_nan /\
  greach dbg 9 b' w' h /\ is_f32 (komi h) /\ (fst (gm_prisoners h) < 1000000)%N /\ (snd (gm_prisoners h) < 1000000)%N /\
    gm_outcome h = None /\ gm_passes h = 2 /\ komi h = S754_nan /\ N.testbit (flag_score (gm_rule h)) 1 = true.
Proof.
  destruct (legal_sampleb dbg 9 JAPANESE [MPlay 4 4; MPass; MPass] (fun g => bool_decide (gm_passes g = 2) && bool_decide (komi g = f32_make 13 (-1)) && bool_decide (gm_prisoners g = (0, 0)%N) &&
    match gm_outcome g with None => true | _ => false end) ltac:(lia)) as (g & L & F); [destruct dbg; vm_compute; reflexivity|].
  destruct (legal_sampleb dbg 9 NAN_KOMI [MPlay 4 4; MPass; MPass] (fun g => bool_decide (gm_passes g = 2) && bool_decide (komi g = S754_nan) && bool_decide (gm_prisoners g = (0, 0)%N) && N.testbit (flag_score (gm_rule g)) 1 &&
    match gm_outcome g with None => true | _ => false end) ltac:(lia)) as (h & L' & F'); [destruct dbg; vm_compute; reflexivity|].
  bools F. bools F'. apply bool_decide_eq_true in F, F2, F1, F', F'3, F'2. destruct (lreach_greach _ _ _ L) as (b & w & HG), (lreach_greach _ _ _ L') as (b' & w' & HG').
  destruct (gm_outcome g) eqn:O1; [discriminate|]. destruct (gm_outcome h) eqn:O2; [discriminate|].
  exists b, w, g, b', w', h. rewrite F2, F1, F'3, F'2. split; [exact HG|]. split; [intros l; symmetry; apply Permutation_rev|].
  split; [reflexivity|]. split; [reflexivity|]. split; [reflexivity|]. split; [exact O1|]. split; [exact F|]. split; [vm_compute; discriminate|].
  split; [exact HG'|]. split; [reflexivity|]. split; [reflexivity|]. split; [reflexivity|]. auto.
Qed.

(** the two zeros are one number, one half and a half more are not *)
Lemma case_numbers : exists x y z, is_f32 x /\ is_f32 y /\ is_f32 z /\ x <> y /\ same_number x y /\ ~ same_number x z /\
  is_f32 (r_komi JAPANESE) /\ is_f32 (r_komi CHINESE) /\ rule_eq JAPANESE JAPANESE = true /\ rule_eq JAPANESE CHINESE = false /\
  rule_eq (mkRule S754_nan 5 6) (mkRule S754_nan 5 6) = false /\
  endgame_eq (WinnerByScore Black x) (WinnerByScore Black y) = true /\ endgame_eq (WinnerByScore Black x) (WinnerByResign Black) = false.
Proof.
  exists (S754_zero false), (S754_zero true), (f32_make 1 (-1)). do 3 (split; [reflexivity|]). split; [discriminate|].
  split; [eapply same_finite; reflexivity|]. split; [intros H; inversion H as [x y u U1 U2|]; subst; vm_compute in U1, U2; congruence|].
  repeat split.
Qed.

Lemma case_moves : move_eq (MPlay 3 4) (MPlay 3 4) = true /\ move_eq (MPlay 3 4) (MPlay 4 3) = false /\ move_eq (MResign Black) (MResign White) = false.
Proof. repeat split. Qed.

Lemma case_sizes : sizes_eq (Custom 12 8) (Custom 12 8) = true /\ sizes_eq (Custom 12 8) (Custom 8 12) = false /\ sizes_eq Thirteen Thirteen = true.
Proof. vm_compute. auto. Qed.
