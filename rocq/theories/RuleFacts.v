(** The two built-in rules, their names, and the sizes that have a name. *)
From stdpp Require Import strings.
From Verif Require Import ScoreSpec Observe ScoreFacts MonadFacts.
Open Scope nat_scope.

Lemma rule_tables :
  (forbids_ko JAPANESE = true /\ forbids_superko JAPANESE = false /\ forbids_suicide JAPANESE = true /\ forbids_fill_eye JAPANESE = false) /\
  (forbids_ko CHINESE = true /\ forbids_superko CHINESE = true /\ forbids_suicide CHINESE = true /\ forbids_fill_eye CHINESE = false) /\
  is_f32 (r_komi JAPANESE) /\ halves (r_komi JAPANESE) 13 /\ is_f32 (r_komi CHINESE) /\ halves (r_komi CHINESE) 15 /\
  (forall t s p k, black2 (flag_score JAPANESE) t s p = (2 * Z.of_N (t + p))%Z /\
                   white2 (flag_score JAPANESE) t s p k = (2 * Z.of_N (t + p) + k)%Z /\
                   black2 (flag_score CHINESE) t s p = (2 * Z.of_N (t + s))%Z /\
                   white2 (flag_score CHINESE) t s p k = (2 * Z.of_N (t + s) + k)%Z).
Proof.
  split; [repeat split|]. split; [repeat split|]. split; [reflexivity|]. split; [reflexivity|]. split; [reflexivity|]. split; [reflexivity|].
  intros t s p k. unfold white2, black2. cbn. repeat split; lia.
Qed.

Lemma rule_names s r : rule_from_str s = Some r <->
  (s = "JAP"%string /\ r = JAPANESE) \/ (s = "CHI"%string /\ r = CHINESE).
Proof.
  unfold rule_from_str. destruct (String.eqb s "JAP") eqn:E.
  - apply String.eqb_eq in E as ->. split; [intros [= <-]; by left|]. intros [[_ ->]|[? _]]; [done|discriminate].
  - apply String.eqb_neq in E. destruct (String.eqb s "CHI") eqn:F.
    + apply String.eqb_eq in F as ->. split; [intros [= <-]; by right|]. intros [[? _]|[_ ->]]; [discriminate|done].
    + apply String.eqb_neq in F. split; [discriminate|]. intros [[? _]|[? _]]; done.
Qed.

Lemma named_sizes x :
  (x = 9%N \/ x = 13%N \/ x = 19%N -> exists s, sizes_of_usize x = Ok s /\ size_of s = (N.to_nat x, N.to_nat x) /\
     forall r, exists g, game_new s r = Ok g /\ gsize (gm_goban g) = (N.to_nat x, N.to_nat x)) /\
  (~ (x = 9%N \/ x = 13%N \/ x = 19%N) -> sizes_of_usize x = Panic).
Proof.
  unfold sizes_of_usize. split.
  - intros [-> | [-> | ->]]; (eexists; split; [reflexivity|]; split; [reflexivity|]; intros r; eexists; split; reflexivity).
  - intros H. destruct (N.eqb_spec x 9); [tauto|]. destruct (N.eqb_spec x 13); [tauto|]. destruct (N.eqb_spec x 19); [tauto|]. reflexivity.
Qed.
