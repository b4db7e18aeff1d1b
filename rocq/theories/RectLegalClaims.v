(** What the property files say about legal games on boards whose width divides
    their height, and concrete games for it. *)
From stdpp Require Import relations.
From Verif Require Import VerdictSpec PlayoutSpec TableSpec EndSpec Spec Observe Ops RectSpec RectVerdictSpec RectEndSpec RectTableSpec RectReach.
From Verif Require Import MonadFacts GameFacts LegalFacts ClaimFacts CaseFacts BelowClaims TableClaims EndClaims.
From Verif Require Import RectCoord RectInv RectBridge RectReachFacts RectGame RectCheck RectVerdict RectGo RectMoves RectKo RectLegal RectEnd RectTable RectPosition RectCases.
From Coq Require Import Lia.

Local Notation length := Datatypes.length.
Open Scope nat_scope.

(** on square boards the legal games are those of [Reach.v] *)
Theorem square_legal dbg n g : rlreach dbg (n, n) g <-> lreach dbg n g.
Proof.
  split; induction 1.
  - eapply lr_new; eassumption.
  - eapply lr_build; eassumption.
  - eapply lr_handicap; eassumption.
  - eapply lr_play; eassumption.
  - eapply lr_pass; eassumption.
  - eapply lr_resign; eassumption.
  - apply lr_resume; assumption.
  - apply lr_komi; assumption.
  - eapply rl_new; cbn [fst snd]; eassumption.
  - eapply rl_build; cbn [fst snd]; eassumption.
  - eapply rl_handicap; eassumption.
  - eapply rl_play; eassumption.
  - eapply rl_pass; eassumption.
  - eapply rl_resign; eassumption.
  - apply rl_resume; assumption.
  - apply rl_komi; assumption.
Qed.

Theorem rclaim_breathes dbg n g : Nat.divide (snd n) (fst n) -> rlreach dbg n g -> rall_breathe n (position g).
Proof. intros Hd L. exact (proj1 (rlreach_inv dbg n g Hd L)). Qed.

Theorem rclaim_simple_ko dbg n g0 x y g1 a b :
  Nat.divide (snd n) (fst n) -> rlreach dbg n g0 -> forbids_ko (gm_rule g0) = true -> forbids_suicide (gm_rule g0) = true ->
  forbids_superko (gm_rule g0) = false ->
  ron n (x, y) -> try_play dbg g0 (MPlay x y) = Ok (g1, Accepted) -> ron n (a, b) ->
  try_play dbg g1 (MPlay a b) = Ok (g1, Refused EKo) <->
  position g1 (a, b) = None /\
  exists R, rgo_move false n (position g1) (a, b) (gm_turn g1) R /\ rsame_pos n R (position g0).
Proof. rewrite <- ko_bit, <- suicide_bit, <- superko_bit. apply rsimple_ko. Qed.

Theorem rclaim_ko_repetition dbg n g a b :
  Nat.divide (snd n) (fst n) -> rlreach dbg n g -> forbids_suicide (gm_rule g) = true -> ron n (a, b) ->
  try_play dbg g (MPlay a b) = Ok (g, Refused EKo) ->
  position g (a, b) = None /\ ~ rsuicidal n (position g) (a, b) (gm_turn g) /\
  exists R y, rgo_move false n (position g) (a, b) (gm_turn g) R /\ y ∈ gm_history g /\ rsame_pos n R (pos_of y).
Proof. rewrite <- suicide_bit. apply rko_only_repetitions. Qed.

Theorem rclaim_capturing dbg n g a b g' :
  Nat.divide (snd n) (fst n) -> rlreach dbg n g -> forbids_superko (gm_rule g) = true -> ron n (a, b) ->
  try_play dbg g (MPlay a b) = Ok (g', Accepted) -> (2 < length (gm_history g))%nat ->
  rcaptures n (position g) (a, b) (gm_turn g) ->
  forall y, y ∈ gm_history g -> ~ rsame_pos n (position g') (pos_of y).
Proof. rewrite <- superko_bit. apply rsuperko_capturing. Qed.

Theorem rclaim_tromp_taylor dbg n g x y g' :
  Nat.divide (snd n) (fst n) -> rlreach dbg n g -> ron n (x, y) -> try_play dbg g (MPlay x y) = Ok (g', Accepted) ->
  position g (x, y) = None /\ rtromp_taylor_move n (position g) (x, y) (gm_turn g) (position g').
Proof.
  intros Hd L Hp E. destruct (rlreach_greach _ _ _ Hd L) as (b & w & HG). pose proof (rgreach_inv _ _ _ _ _ Hd HG) as G.
  destruct (raccepted_step dbg n b w g x y g' G Hp E) as (He & Hs & _ & M). cbv zeta in *. split; [exact He|].
  pose proof (rwf_n n _ (rgi_wf _ _ _ _ G)). destruct (rlreach_inv dbg n g Hd L) as [HA _].
  eapply rgo_move_tromp_taylor; eassumption.
Qed.

(** debug and release builds answer guarded calls alike *)
Theorem rgame_builds n s r ops : Nat.divide (snd n) (fst n) -> (1 <= fst n <= 19)%nat -> (1 <= snd n)%nat -> size_of s = n ->
  (forall o, o ∈ ops -> rguarded n o) -> (N.of_nat (all_stones ops) <= 65535)%N ->
  exists g g1 g2 l, game_new s r = Ok g /\ calls true g ops = Ok (g1, l) /\ calls false g ops = Ok (g2, l) /\ rsame_table n (table_of g1) (table_of g2).
Proof.
  intros Hd Hn Hn2 Hs Hg L. assert (F : fits n) by (split; [exact Hn|split; [exact Hn2|destruct Hd as [k Hk]; eauto]]).
  destruct (rgame_guarded true n s r ops Hd Hn Hn2 Hs Hg L) as (g & g1 & l & t & E & C & R & S).
  destruct (rgame_guarded false n s r ops Hd Hn Hn2 Hs Hg L) as (g' & g2 & l' & t' & E' & C' & R' & S').
  rewrite E in E'. injection E' as <-. destruct (rrun_det n F _ _ _ _ _ _ _ _ (rsame_table_refl n start) R R') as [<- Q].
  exists g, g1, g2, l. repeat (split; [assumption|]). eapply rsame_table_trans; [exact S|]. eapply rsame_table_trans; [exact Q|]. apply rsame_table_sym, S'.
Qed.

Theorem rgame_det n f ops t u l l' t' u' : Nat.divide (snd n) (fst n) -> (1 <= fst n <= 19)%nat -> (1 <= snd n)%nat -> rsame_table n t u ->
  rtable_run n f t ops l t' -> rtable_run n f u ops l' u' -> l = l' /\ rsame_table n t' u'.
Proof.
  intros Hd Hn Hn2. apply rrun_det. split; [exact Hn|split; [exact Hn2|destruct Hd as [k Hk]; eauto]].
Qed.

(** ** Concrete games *)

Lemma rtry_legal dbg n l : forall g g', rlreach dbg n g -> Forall (rplain n) l -> try_all dbg g l = Some g' -> rlreach dbg n g'.
Proof. intros g g' L P E. exact (raccepted_lreach dbg n l g g' L P (try_all_accepted _ _ _ _ E)). Qed.

Lemma rlegal_sample dbg s r l g0 (f : game -> bool) : game_new s r = Ok g0 -> 1 <= fst (size_of s) -> 1 <= snd (size_of s) -> Forall (rplain (size_of s)) l ->
  match try_all dbg g0 l with Some g => f g | None => false end = true -> exists g, rlreach dbg (size_of s) g /\ f g = true.
Proof.
  intros E H1 H2 HP F. destruct (try_all dbg g0 l) as [g|] eqn:T; [|discriminate]. exists g. split; [|exact F].
  exact (rtry_legal dbg _ l g0 g (rl_new _ _ _ _ _ H1 H2 eq_refl E) HP T).
Qed.

Definition tall : goban_sizes := Custom 8 4.
Definition strip : goban_sizes := Custom 3 1.

Lemma tall_divides : Nat.divide 4 8.
Proof. exists 2. reflexivity. Qed.

Ltac plain_ := cbn; repeat constructor; cbn; lia.

(** Black takes a ko on the 8 x 4 board *)
Lemma rcase_legal dbg : exists g g',
  Nat.divide 4 8 /\ rlreach dbg (8, 4) g /\ ron (8, 4) (1, 2) /\ forbids_ko (gm_rule g) = true /\ forbids_suicide (gm_rule g) = true /\
  forbids_superko (gm_rule g) = false /\ forbids_fill_eye (gm_rule g) = false /\
  try_play dbg g (MPlay 1 2) = Ok (g', Accepted) /\ position g (1, 1) = Some White /\ position g' (1, 1) = None /\ rlreach dbg (8, 4) g' /\
  ron (8, 4) (1, 1) /\ try_play dbg g' (MPlay 1 1) = Ok (g', Refused EKo) /\
  ron (8, 4) (7, 3) /\ exists g'', try_play dbg g' (MPlay 7 3) = Ok (g'', Accepted).
Proof.
  destruct (game_new tall JAPANESE) as [g0| |] eqn:E0; [|vm_compute in E0; discriminate..].
  destruct (rlegal_sample dbg tall JAPANESE (removelast ko_moves) g0 (fun g =>
     forbids_ko (gm_rule g) && forbids_suicide (gm_rule g) && negb (forbids_superko (gm_rule g)) && negb (forbids_fill_eye (gm_rule g)) && has g (1, 1) (Some White) &&
     match try_play dbg g (MPlay 1 2) with Ok (g', Accepted) => has g' (1, 1) None && verdict_is (try_play dbg g' (MPlay 1 1)) (Some EKo) && verdict_is (try_play dbg g' (MPlay 7 3)) None | _ => false end)
    E0) as (g & L & F); [cbn; lia|cbn; lia|plain_|vm_compute in E0; injection E0 as <-; destruct dbg; vm_compute; reflexivity|].
  bools F. destruct (try_play dbg g (MPlay 1 2)) as [[g' []]| |] eqn:E; try discriminate. bools F0.
  apply bool_decide_eq_true in F1, F0. apply refused_is in F6. apply accepted_is in F5. apply negb_true_iff in F3, F2.
  assert (Hp : ron (8, 4) (1, 2)) by on_. exists g, g'. split; [exact tall_divides|].
  repeat (split; [assumption || on_ || (eapply rl_play; [exact L|exact Hp|exact E])|]). assumption.
Qed.

(** Chinese rules on the 3 x 1 board: Black may not take the two stones although no ko is on the board *)
Definition strip_moves : list move := [MPlay 0 0; MPlay 1 0; MPass; MPlay 2 0].

Lemma rcase_superko dbg : exists g,
  Nat.divide 1 3 /\ rlreach dbg (3, 1) g /\ forbids_superko (gm_rule g) = true /\ forbids_suicide (gm_rule g) = true /\
  forbids_fill_eye (gm_rule g) = false /\ ron (3, 1) (0, 0) /\ 2 < length (gm_history g) /\
  gm_ko_point g = None /\ try_play dbg g (MPlay 0 0) = Ok (g, Refused EKo) /\ try_play dbg g (MPlay 0 0) <> Panic.
Proof.
  destruct (game_new strip CHINESE) as [g0| |] eqn:E0; [|vm_compute in E0; discriminate..].
  destruct (rlegal_sample dbg strip CHINESE strip_moves g0 (fun g =>
     forbids_superko (gm_rule g) && forbids_suicide (gm_rule g) && negb (forbids_fill_eye (gm_rule g)) && (2 <? length (gm_history g)) &&
     bool_decide (gm_ko_point g = None) && verdict_is (try_play dbg g (MPlay 0 0)) (Some EKo))
    E0) as (g & L & F); [cbn; lia|cbn; lia|plain_|vm_compute in E0; injection E0 as <-; destruct dbg; vm_compute; reflexivity|].
  bools F. apply bool_decide_eq_true in F1. apply refused_is in F0. apply Nat.ltb_lt in F2. apply negb_true_iff in F3.
  exists g. split; [apply Nat.divide_1_l|]. repeat (split; [assumption || on_|]). congruence.
Qed.

(** Chinese rules on the 8 x 4 board: a capture is accepted and the game goes on *)
Lemma rcase_run dbg : exists g g1 g',
  Nat.divide 4 8 /\ rlreach dbg (8, 4) g /\ forbids_superko (gm_rule g) = true /\ forbids_suicide (gm_rule g) = true /\
  ron (8, 4) (1, 2) /\ 2 < length (gm_history g) /\ try_play dbg g (MPlay 1 2) = Ok (g1, Accepted) /\ rcaptures (8, 4) (position g) (1, 2) (gm_turn g) /\
  rstone_run dbg (8, 4) 2 g g' /\ position g (1, 1) = Some White /\ position g' (1, 1) = None.
Proof.
  destruct (game_new tall CHINESE) as [g0| |] eqn:E0; [|vm_compute in E0; discriminate..].
  destruct (rlegal_sample dbg tall CHINESE (removelast ko_moves) g0 (fun g =>
     forbids_superko (gm_rule g) && forbids_suicide (gm_rule g) && (2 <? length (gm_history g)) && has g (1, 1) (Some White) && has g (1, 2) None &&
     ok_is (will_capture dbg g (1, 2)) true &&
     match try_play dbg g (MPlay 1 2) with
     | Ok (g1, Accepted) => match try_play dbg g1 (MPlay 7 3) with Ok (g', Accepted) => has g' (1, 1) None | _ => false end
     | _ => false end)
    E0) as (g & L & F); [cbn; lia|cbn; lia|plain_|vm_compute in E0; injection E0 as <-; destruct dbg; vm_compute; reflexivity|].
  bools F. destruct (try_play dbg g (MPlay 1 2)) as [[g1 []]| |] eqn:E1; try discriminate.
  destruct (try_play dbg g1 (MPlay 7 3)) as [[g' []]| |] eqn:E2; try discriminate.
  apply bool_decide_eq_true in F3, F2, F0. apply ok_is_eq in F1. apply Nat.ltb_lt in F4.
  exists g, g1, g'. split; [exact tall_divides|]. repeat (split; [assumption || on_|]). split; [|split; [|auto]].
  - destruct (rlreach_greach dbg (8, 4) g tall_divides L) as (b & w & HG). pose proof (rgi_wf _ _ _ _ (rgreach_inv dbg (8, 4) b w g tall_divides HG)) as W.
    destruct (rwill_capture_ok dbg (8, 4) g (1, 2) W ltac:(on_) F2) as (v & Ev & Hv). rewrite F1 in Ev. injection Ev as <-. apply Hv. reflexivity.
  - eapply rr_stone; [|exact E1|]; [on_|]. eapply rr_stone; [|exact E2|apply rr_end]. on_.
Qed.

(** a position with stones of both colours, one of them in atari *)
Lemma rcase_positions dbg : exists g0 P, Nat.divide 4 8 /\ size_of (Custom 8 4) = (8, 4) /\ game_new (Custom 8 4) CHINESE = Ok g0 /\ forbids_fill_eye CHINESE = false /\
  rall_breathe (8, 4) P /\ P (1, 1) = Some White /\ P (1, 0) = Some Black /\ P (7, 3) = None /\ rlreach dbg (8, 4) g0.
Proof.
  destruct (game_new tall CHINESE) as [g0| |] eqn:E0; [|vm_compute in E0; discriminate..].
  destruct (rlegal_sample dbg tall CHINESE (removelast ko_moves) g0 (fun g => has g (1, 1) (Some White) && has g (1, 0) (Some Black) && has g (7, 3) None)
    E0) as (g & L & F); [cbn; lia|cbn; lia|plain_|vm_compute in E0; injection E0 as <-; destruct dbg; vm_compute; reflexivity|].
  bools F. apply bool_decide_eq_true in F, F0, F1.
  exists g0, (position g). split; [exact tall_divides|]. split; [reflexivity|]. split; [exact E0|]. split; [reflexivity|].
  split; [apply (rlreach_inv dbg (8, 4) g tall_divides L)|]. repeat (split; [assumption|]). apply (rl_new dbg (8, 4) (Custom 8 4) CHINESE); [cbn; lia|cbn; lia|reflexivity|exact E0].
Qed.

#[local] Instance error_dec : EqDecision play_error. Proof. solve_decision. Defined.
#[local] Instance verdict_dec : EqDecision verdict. Proof. solve_decision. Defined.

(** the ko on the 8 x 4 board as a list of calls: retaking at once is refused, later accepted *)
Definition tall_ops : list op :=
  List.map OTry (ko_moves ++ [MPlay 1 1; MPlay 5 3; MPlay 6 3; MPlay 1 1; MPlay 5 3; MPass; MPass; MPlay 7 3]) ++ [OResume; OTry (MPlay 7 3); OTry (MResign White)].

Lemma tall_guarded o : o ∈ tall_ops -> rguarded (8, 4) o.
Proof.
  intros H. assert (F : Forall (fun o => rguarded (8, 4) o) tall_ops).
  { unfold tall_ops, ko_moves, ron. cbn. repeat constructor. }
  rewrite Forall_forall in F. exact (F o H).
Qed.

Lemma rcase_game dbg : exists g g' t', Nat.divide 4 8 /\ game_new (Custom 8 4) JAPANESE = Ok g /\ size_of (Custom 8 4) = (8, 4) /\
  (forall o, o ∈ tall_ops -> rguarded (8, 4) o) /\ (N.of_nat (all_stones tall_ops) <= 65535)%N /\
  rgreach dbg (8, 4) 0 0 g /\ rsame_table (8, 4) (table_of g) start /\
  calls dbg g tall_ops = Ok (g', ko_answers) /\ rtable_run (8, 4) (flag_illegal JAPANESE) start tall_ops ko_answers t' /\ rsame_table (8, 4) (table_of g') t' /\
  t_pos t' (1, 1) = Some White /\ t_pos t' (1, 2) = None /\ t_outcome t' = Some (WinnerByResign White) /\ t_prisoners t' = (1, 1)%N.
Proof.
  destruct (rgame_guarded dbg (8, 4) (Custom 8 4) JAPANESE tall_ops tall_divides ltac:(cbn; lia) ltac:(cbn; lia) eq_refl tall_guarded) as (g & g' & l & t' & E & C & R & S); [vm_compute; discriminate|].
  assert (F : match game_new (Custom 8 4) JAPANESE with
              | Ok g => match calls dbg g tall_ops with
                        | Ok (g', l) => bool_decide (l = ko_answers) && has g' (1, 1) (Some White) && has g' (1, 2) None &&
                            match gm_outcome g' with Some (WinnerByResign White) => true | _ => false end && bool_decide (gm_prisoners g' = (1, 1)%N)
                        | _ => false end
              | _ => false end = true) by (destruct dbg; vm_compute; reflexivity).
  rewrite E, C in F. bools F. unfold has in *. apply bool_decide_eq_true in F, F3, F2, F0.
  assert (Ho : gm_outcome g' = Some (WinnerByResign White)) by (destruct (gm_outcome g') as [e|]; [destruct e; try discriminate F1|discriminate F1]; match goal with c : color |- _ => destruct c end; congruence).
  subst l. destruct S as [S1 S2 S3 S4 S5 S6 S7]. destruct (rstart_table dbg (8, 4) (Custom 8 4) JAPANESE g tall_divides ltac:(cbn; lia) ltac:(cbn; lia) eq_refl E) as [St HG].
  exists g, g', t'. split; [exact tall_divides|]. split; [exact E|]. split; [reflexivity|].
  split; [exact tall_guarded|]. split; [vm_compute; discriminate|].
  split; [exact HG|]. split; [exact St|]. split; [exact C|]. split; [exact R|]. split; [constructor; assumption|].
  cbn [table_of t_pos t_outcome t_prisoners] in *. rewrite <- (S1 (1, 1)), <- (S1 (1, 2)) by on_. rewrite <- S4, <- S5. auto.
Qed.
