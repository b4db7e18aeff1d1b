(** Reachable games that violate plausible claims. *)
From Verif Require Import Spec Observe Ops DeadStones Struct Inv Bridge MonadFacts GameFacts RulesFacts KoFacts BoardFacts CheckFacts EyeFacts LegalFacts ApiFacts.
From Verif Require Export SampleFacts.
From stdpp Require Import relations.

Local Notation length := Datatypes.length.

Lemma sampleb dbg n r l (f : game -> bool) :
  (1 <= n < 256)%nat -> sat (played dbg n r l) f = true ->
  exists g b w, greach dbg n b w g /\ (b + w <= length l)%nat /\ f g = true.
Proof.
  intros Hn H. apply (sample dbg n r l (fun g => f g = true) Hn). destruct (played dbg n r l); [|exact H].
  cbn in *. rewrite H. reflexivity.
Qed.

Lemma legal_sampleb dbg n r l (f : game -> bool) :
  (1 <= n < 256)%nat -> sat (tried dbg n r l) f = true -> exists g, lreach dbg n g /\ f g = true.
Proof.
  intros Hn H. apply (legal_sample dbg n r l (fun g => f g = true) Hn). destruct (tried dbg n r l); [|exact H].
  cbn in *. rewrite H. reflexivity.
Qed.

(** ** Superko misses a repetition (C17) *)

Definition repeat_moves : list move :=
  [MPlay 0 0; MPlay 1 0; MPass; MPlay 1 1; MPlay 0 1; MPlay 1 0; MPass; MPlay 1 1].

Definition repeats (dbg : bool) (g : game) : bool :=
  match try_play dbg g (MPlay 0 0) with
  | Ok (g', Accepted) =>
      (flag_illegal (gm_rule g) =? flag_illegal CHINESE)%N && (2 <? length (gm_history g))%nat &&
      match history_contains (gm_history g) (gm_goban g') with Ok b => b | _ => false end
  | _ => false
  end.

Lemma superko_misses dbg : exists g g' y,
  lreach dbg 2 g /\ flag_illegal (gm_rule g) = flag_illegal CHINESE /\ (2 < length (gm_history g))%nat /\
  try_play dbg g (MPlay 0 0) = Ok (g', Accepted) /\ y ∈ gm_history g /\
  same_pos 2 (pos_of (gm_goban g')) (pos_of y).
Proof.
  destruct (legal_sampleb dbg 2 CHINESE repeat_moves (repeats dbg) ltac:(lia)) as (g & L & F).
  { destruct dbg; vm_compute; reflexivity. }
  unfold repeats in F. destruct (try_play dbg g (MPlay 0 0)) as [[g' []]| |] eqn:E; try discriminate.
  apply andb_true_iff in F as [F1 F2]. destruct (history_contains _ _) as [v| |] eqn:Eh; try discriminate. subst v.
  apply andb_true_iff in F1 as [F0 F1]. apply N.eqb_eq in F0. apply Nat.ltb_lt in F1.
  assert (L' : lreach dbg 2 g') by (eapply lr_play; [exact L| |exact E]; split; cbn; lia).
  destruct (lreach_greach _ _ _ L) as (b & w & HG). destruct (lreach_greach _ _ _ L') as (b' & w' & HG').
  pose proof (greach_inv _ _ _ _ _ HG) as G. pose proof (greach_inv _ _ _ _ _ HG') as G'.
  destruct (history_contains_spec 2 (gm_history g) (gm_goban g') (gi_hist _ _ _ _ G) (gi_wf _ _ _ _ G')) as (v & Ev & Hv).
  rewrite Eh in Ev. injection Ev as <-. destruct (proj1 Hv eq_refl) as (y & Hy & Hs).
  exists g, g', y. auto 10.
Qed.

(** ** A resigned game goes on (C24) *)

Lemma resigned_accepts dbg : exists g g',
  lreach dbg 3 g /\ is_over g = true /\ try_play dbg g (MPlay 0 0) = Ok (g', Accepted).
Proof.
  destruct (legal_sampleb dbg 3 CHINESE [MResign Black]
    (fun g => is_over g && match try_play dbg g (MPlay 0 0) with Ok (_, Accepted) => true | _ => false end) ltac:(lia)) as (g & L & F).
  { destruct dbg; vm_compute; reflexivity. }
  apply andb_true_iff in F as [F1 F2]. destruct (try_play dbg g (MPlay 0 0)) as [[g' []]| |] eqn:E; try discriminate.
  exists g, g'. auto.
Qed.

(** ** [play_for_verification] (C31) *)

Lemma suicide_differs n P p c R R' s : (n <= 19)%nat -> on n p -> suicidal n P p c ->
  go_move s n P p c R -> go_move (negb s) n P p c R' -> ~ same_pos n R R'.
Proof.
  intros Hn On (Q0 & HQ0 & Hd) M M' Hs.
  assert (K : forall R1 b, go_move b n P p c R1 -> if b then R1 p = None else R1 p = Some c).
  { intros R1 b (Q & HQ & HR).
    assert (E : same_pos n Q0 Q) by (eapply cleared_det; [|intros q _; reflexivity|exact HQ0|exact HQ]; intros; reflexivity).
    assert (Hd' : ~ breathes n Q p).
    { intros [l (Hl & He & q & Hc & Ha)]. apply Hd. exists l. split; [exact Hl|]. split; [rewrite E by exact Hl; exact He|].
      exists q. split; [|exact Ha]. eapply connected_ext; [|exact Hc]. intros x Hx. symmetry. apply E, Hx. }
    assert (Qp : Q p = Some c).
    { rewrite (proj2 (HQ p On)); [unfold put; rewrite decide_True by reflexivity; reflexivity|].
      intros Ht. apply taken_color in Ht. unfold put in Ht. rewrite decide_True in Ht by reflexivity. injection Ht as Ht. destruct c; discriminate. }
    destruct (HR p On) as [H1 H2]. destruct b.
    - apply H1. split; [reflexivity|]. split; [exact Hd'|]. apply rtc_refl.
    - rewrite H2; [exact Qp|]. intros [? _]. discriminate. }
  pose proof (K _ _ M) as A. pose proof (K _ _ M') as B. pose proof (Hs p On) as C. destruct s; cbn in *; congruence.
Qed.

Lemma verification_exact dbg n b w g x y : ginv n b w g -> on n (x, y) -> pos_of (gm_goban g) (x, y) = None ->
  play dbg g (MPlay x y) <> Panic ->
  exists v g' r, play_for_verification dbg g (x, y) = Ok v /\ play dbg g (MPlay x y) = Ok g' /\
    goban_eq v (gm_goban g') = Ok r /\ (r = true <-> ~ suicidal n (pos_of (gm_goban g)) (x, y) (gm_turn g)).
Proof.
  intros G On He L. pose proof (gi_wf _ _ _ _ G) as W. pose proof (wf_n n _ W) as Hn.
  destruct (play_spec dbg n b w g x y G On He) as [(F & _)|(g' & Eg & G' & Mg & HL & _)]; [contradiction|].
  destruct (verification_ok dbg n g (x, y) W On He) as [(_ & F & F')|(v & Ev & Wv & Mv)].
  { exfalso. destruct HL as [[HL _]|[_ HL]]; [contradiction|]. pose proof (wf0_len _ (wf_0 n _ (gi_wf _ _ _ _ G'))). lia. }
  destruct (eq_api n v (gm_goban g') Wv (gi_wf _ _ _ _ G')) as (r & Er & Hr & _).
  exists v, g', r. split; [exact Ev|]. split; [exact Eg|]. split; [exact Er|]. rewrite Hr. split.
  - intros Hs Hsu. eapply (suicide_differs n _ _ _ _ _ (flag_contains (flag_illegal (gm_rule g)) SUICIDE)); [lia|exact On|exact Hsu|exact Mv|exact Mg|exact Hs].
  - intros Hns. eapply (go_move_det _ n); [intros q Hq; reflexivity|exact Mv|]. eapply go_move_flag; [exact Hns|exact Mg].
Qed.

(** Black surrounds the corner, White is to move *)
Definition corner_trap : list move := [MPlay 0 1; MPass; MPlay 1 0].

Lemma verification_wrong dbg : exists g b w v g',
  greach dbg 3 b w g /\ pos_of (gm_goban g) (0, 0)%nat = None /\
  play_for_verification dbg g (0, 0)%nat = Ok v /\ play dbg g (MPlay 0 0) = Ok g' /\ goban_eq v (gm_goban g') = Ok false.
Proof.
  destruct (sampleb dbg 3 JAPANESE corner_trap (fun g => free 3 g (0, 0)%nat &&
    match play_for_verification dbg g (0, 0)%nat, play dbg g (MPlay 0 0) with
    | Ok v, Ok g' => match goban_eq v (gm_goban g') with Ok b => negb b | _ => false end | _, _ => false end) ltac:(lia)) as (g & b & w & HG & _ & F).
  { destruct dbg; vm_compute; reflexivity. }
  apply andb_true_iff in F as [F1 F]. apply free_spec in F1 as [_ F1].
  destruct (play_for_verification dbg g (0, 0)%nat) as [v| |] eqn:Ev; try discriminate.
  destruct (play dbg g (MPlay 0 0)) as [g'| |] eqn:Eg; try discriminate.
  destruct (goban_eq v (gm_goban g')) as [[]| |] eqn:Eq; try discriminate.
  exists g, b, w, v, g'. auto.
Qed.

(** ** A stone on an occupied point (C42) *)

Lemma occupied_breaks dbg : exists g b w g' gb,
  greach dbg 3 b w g /\ pos_of (gm_goban g) (1, 1)%nat = Some Black /\
  play dbg g (MPlay 1 1) = Ok g' /\ push dbg (gm_goban g) (1, 1)%nat White = Ok gb /\
  number_of_stones (gm_goban g') = (1, 1)%nat /\ number_of_stones gb = (1, 1)%nat /\
  count 3 (pos_of (gm_goban g')) Black = 0%nat /\ count 3 (pos_of gb) Black = 0%nat.
Proof.
  destruct (sampleb dbg 3 JAPANESE [MPlay 1 1] (fun g =>
    bool_decide (pos_of (gm_goban g) (1, 1)%nat = Some Black) &&
    match play dbg g (MPlay 1 1), push dbg (gm_goban g) (1, 1)%nat White with
    | Ok g', Ok gb => bool_decide (number_of_stones (gm_goban g') = (1, 1)%nat) && bool_decide (number_of_stones gb = (1, 1)%nat) &&
        bool_decide (count 3 (pos_of (gm_goban g')) Black = 0%nat) && bool_decide (count 3 (pos_of gb) Black = 0%nat)
    | _, _ => false end) ltac:(lia)) as (g & b & w & HG & _ & F).
  { destruct dbg; vm_compute; reflexivity. }
  apply andb_true_iff in F as [F1 F]. apply bool_decide_eq_true in F1.
  destruct (play dbg g (MPlay 1 1)) as [g'| |] eqn:Eg; try discriminate.
  destruct (push dbg (gm_goban g) (1, 1)%nat White) as [gb| |] eqn:Eb; try discriminate.
  rewrite !andb_true_iff, !bool_decide_eq_true in F. destruct F as (((A & B) & C) & D).
  exists g, b, w, g', gb. auto 10.
Qed.

(** ** Floating stones (C53) *)

Lemma floating_wrong dbg : exists g b w,
  greach dbg 3 b w g /\ group_no (gm_goban g) (1, 1)%nat = Some 0%nat /\
  (forall p c, on 3 p -> check_eye dbg g (p, c) = Ok false) /\ get_floating_stones dbg g = Ok [].
Proof.
  destruct (sampleb dbg 3 JAPANESE [MPlay 1 1] (fun g =>
    bool_decide (group_no (gm_goban g) (1, 1)%nat = Some 0%nat) &&
    forallb (fun p => forallb (fun c => match check_eye dbg g (p, c) with Ok b => negb b | _ => false end) [Black; White]) (points 3) &&
    match get_floating_stones dbg g with Ok [] => true | _ => false end) ltac:(lia)) as (g & b & w & HG & _ & F).
  { destruct dbg; vm_compute; reflexivity. }
  rewrite !andb_true_iff, bool_decide_eq_true in F. destruct F as ((A & B) & C).
  exists g, b, w. split; [exact HG|]. split; [exact A|]. split.
  - intros p c Hp. rewrite forallb_forall in B. specialize (B p). rewrite <- elem_of_list_In, elem_of_points in B.
    specialize (B Hp). rewrite forallb_forall in B. specialize (B c).
    assert (Hc : In c [Black; White]) by (destruct c; cbn; auto). specialize (B Hc).
    destruct (check_eye dbg g (p, c)) as [[]| |]; try discriminate. reflexivity.
  - destruct (get_floating_stones dbg g) as [[|? ?]| |]; try discriminate. reflexivity.
Qed.

(** ** The tree search interface (C55) *)

Lemma paused_moves dbg : exists g b w ms m,
  greach dbg 2 b w g /\ is_over g = true /\ legals_moves dbg g = Ok ms /\ m ∈ ms /\
  try_play dbg g m = Ok (g, Refused EGamePaused).
Proof.
  destruct (sampleb dbg 2 JAPANESE [MPass; MPass] (fun g => is_over g && (gm_passes g =? 2)%nat &&
    match legals_moves dbg g with Ok (m :: _) => true | _ => false end) ltac:(lia)) as (g & b & w & HG & _ & F).
  { destruct dbg; vm_compute; reflexivity. }
  rewrite !andb_true_iff in F. destruct F as ((A & B) & C).
  destruct (legals_moves dbg g) as [[|m ms]| |] eqn:E; try discriminate.
  exists g, b, w, (m :: ms), m. split; [exact HG|]. split; [exact A|]. split; [exact E|]. split; [left|].
  unfold try_play. rewrite B. reflexivity.
Qed.

(** a rule without komi *)
Definition NO_KOMI : rule := mkRule (S754_zero false) (flag_illegal JAPANESE) (flag_score JAPANESE).

Lemma draw_panics dbg : exists g b w, greach dbg 2 b w g /\ is_over g = true /\
  outcome (fun l => l) dbg g = Ok (Some Draw) /\ game_get_winner (fun l => l) dbg g = Panic.
Proof.
  destruct (sampleb dbg 2 NO_KOMI [MPass; MPass] (fun g => is_over g &&
    match outcome (fun l => l) dbg g with Ok (Some Draw) => true | _ => false end) ltac:(lia)) as (g & b & w & HG & _ & F).
  { destruct dbg; vm_compute; reflexivity. }
  apply andb_true_iff in F as [A B]. exists g, b, w. split; [exact HG|]. split; [exact A|].
  destruct (outcome (fun l => l) dbg g) as [[[]|]| |] eqn:E; try discriminate. split; [reflexivity|].
  unfold game_get_winner. rewrite E. reflexivity.
Qed.

(** ** Chains elsewhere on the board are not captured (C58) *)

(** White kills itself in the corner without being taken off the board *)
Definition zombie_moves : list move := [MPlay 0 1; MPass; MPlay 1 0; MPlay 0 0].

Lemma same_pos_b n (P Q : pos) : forallb (fun p => bool_decide (P p = Q p)) (points n) = true -> same_pos n P Q.
Proof.
  intros H p Hp. rewrite forallb_forall in H. apply elem_of_points, elem_of_list_In in Hp.
  apply H, bool_decide_eq_true in Hp. exact Hp.
Qed.

Lemma zombie_stays dbg : exists g b w g',
  greach dbg 4 b w g /\ on 4 (3, 3)%nat /\ pos_of (gm_goban g) (3, 3)%nat = None /\
  play dbg g (MPlay 3 3) = Ok g' /\ gm_turn g = Black /\
  taken_anywhere 4 (put (pos_of (gm_goban g)) (3, 3)%nat Black) Black (0, 0)%nat /\
  pos_of (gm_goban g') (0, 0)%nat = Some White.
Proof.
  destruct (sampleb dbg 4 JAPANESE zombie_moves (fun g => free 4 g (3, 3)%nat && bool_decide (gm_turn g = Black) &&
    match play dbg g (MPlay 3 3) with
    | Ok g' => bool_decide (pos_of (gm_goban g') (0, 0)%nat = Some White) &&
        forallb (fun p => bool_decide (put (pos_of (gm_goban g)) (3, 3)%nat Black p = pos_of (gm_goban g') p)) (points 4) &&
        match group_of (gm_goban g') (0, 0)%nat with Some grp => is_dead grp | None => false end
    | _ => false end) ltac:(lia)) as (g & b & w & HG & _ & F).
  { destruct dbg; vm_compute; reflexivity. }
  rewrite !andb_true_iff, bool_decide_eq_true in F. destruct F as ((A & B) & C). apply free_spec in A as [On A].
  destruct (play dbg g (MPlay 3 3)) as [g'| |] eqn:E; try discriminate.
  rewrite !andb_true_iff, bool_decide_eq_true in C. destruct C as ((C1 & C2) & C3).
  exists g, b, w, g'. split; [exact HG|]. split; [exact On|]. split; [exact A|]. split; [exact E|]. split; [exact B|].
  assert (HG' : exists b' w', greach dbg 4 b' w' g') by (eexists _, _; eapply gr_play; eassumption).
  destruct HG' as (b' & w' & HG'). pose proof (gi_wf _ _ _ _ (greach_inv _ _ _ _ _ HG')) as W'.
  destruct (group_of (gm_goban g') (0, 0)%nat) as [grp|] eqn:Eg; [|discriminate].
  apply (group_of_at 4 _ _ _ W') in Eg.
  assert (O : on 4 (0, 0)%nat) by (split; cbn; lia).
  apply (group_at_dead 4 _ _ _ W' O Eg) in C3. apply same_pos_b in C2.
  split; [|exact C1]. split; [rewrite (C2 _ O); exact C1|].
  intros [l (Hl & He & q & Hc & Ha)]. apply C3. exists l. split; [exact Hl|]. split; [rewrite <- (C2 _ Hl); exact He|].
  exists q. split; [|exact Ha]. eapply connected_ext; [|exact Hc]. intros z Hz. apply C2, Hz.
Qed.

(** ** Eye detection depends on the orientation (C59) *)

Definition eye_moves : list move :=
  [MPlay 1 2; MPlay 0 1; MPlay 3 2; MPass; MPlay 2 1; MPass; MPlay 2 3; MPass; MPlay 3 1; MPass; MPlay 1 3; MPass; MPlay 4 4; MPass; MPlay 4 2].
Definition turned (m : move) : move := match m with MPlay x y => MPlay (4 - x) (4 - y) | _ => m end.

Lemma eye_asymmetric dbg : exists g g' b w b' w',
  greach dbg 5 b w g /\ greach dbg 5 b' w' g' /\
  (forall x y, on 5 (x, y) -> pos_of (gm_goban g') (x, y) = pos_of (gm_goban g) (4 - x, 4 - y)%nat) /\
  check_eye dbg g ((2, 2)%nat, Black) = Ok true /\ check_eye dbg g' ((2, 2)%nat, Black) = Ok false.
Proof.
  assert (H : sat (played dbg 5 JAPANESE eye_moves) (fun g => sat (played dbg 5 JAPANESE (List.map turned eye_moves)) (fun g' =>
     forallb (fun p => bool_decide (pos_of (gm_goban g') p = pos_of (gm_goban g) (4 - fst p, 4 - snd p)%nat)) (points 5) &&
     match check_eye dbg g ((2, 2)%nat, Black) with Ok b => b | _ => false end &&
     match check_eye dbg g' ((2, 2)%nat, Black) with Ok b => negb b | _ => false end)) = true)
    by (destruct dbg; vm_compute; reflexivity).
  apply sampleb in H as (g & b & w & HG & _ & H); [|lia]. apply sampleb in H as (g' & b' & w' & HG' & _ & H); [|lia].
  rewrite !andb_true_iff in H. destruct H as ((A & B) & C).
  exists g, g', b, w, b', w'. split; [exact HG|]. split; [exact HG'|]. split; [|split].
  - intros x y Hp. rewrite forallb_forall in A. apply elem_of_points, elem_of_list_In in Hp. apply A, bool_decide_eq_true in Hp. exact Hp.
  - destruct (check_eye dbg g _) as [[]| |]; try discriminate. reflexivity.
  - destruct (check_eye dbg g' _) as [[]| |]; try discriminate. reflexivity.
Qed.

(** ** [chain_stones] takes a coordinate for a group number (C60) *)

Lemma chain_stones_coordinate dbg : exists g b w l,
  greach dbg 3 b w g /\ chain_stones dbg (gm_goban g) (two_to_1dim (gsize (gm_goban g)) (0, 1)%nat) = Ok l /\
  pos_of (gm_goban g) (0, 1)%nat = Some Black /\ ((0, 1)%nat, Black) ∉ l.
Proof.
  destruct (sampleb dbg 3 JAPANESE [MPlay 0 1; MPlay 2 2] (fun g =>
    match chain_stones dbg (gm_goban g) (two_to_1dim (gsize (gm_goban g)) (0, 1)%nat) with
    | Ok l => bool_decide (pos_of (gm_goban g) (0, 1)%nat = Some Black) && bool_decide (((0, 1)%nat, Black) ∉ l)
    | _ => false end) ltac:(lia)) as (g & b & w & HG & _ & F).
  { destruct dbg; vm_compute; reflexivity. }
  destruct (chain_stones _ _ _) as [l| |] eqn:E; try discriminate.
  rewrite andb_true_iff, !bool_decide_eq_true in F. exists g, b, w, l. tauto.
Qed.

(** ** Coordinates outside the board (C38) *)

Lemma outside_accepted dbg : exists g g' g'',
  lreach dbg 9 g /\ ~ on 9 (0, 9)%nat /\ try_play dbg g (MPlay 0 9) = Ok (g', Accepted) /\
  pos_of (gm_goban g) (1, 0)%nat = None /\ pos_of (gm_goban g') (1, 0)%nat = Some Black /\
  ~ on 9 (9, 3)%nat /\ play dbg g (MPlay 9 3) = Ok g'' /\
  number_of_stones (gm_goban g'') = (1, 0)%nat /\ count 9 (pos_of (gm_goban g'')) Black = 0%nat.
Proof.
  destruct (legal_sampleb dbg 9 CHINESE [] (fun g =>
    bool_decide (pos_of (gm_goban g) (1, 0)%nat = None) &&
    match try_play dbg g (MPlay 0 9), play dbg g (MPlay 9 3) with
    | Ok (g', Accepted), Ok g'' => bool_decide (pos_of (gm_goban g') (1, 0)%nat = Some Black) &&
        bool_decide (number_of_stones (gm_goban g'') = (1, 0)%nat) && bool_decide (count 9 (pos_of (gm_goban g'')) Black = 0%nat)
    | _, _ => false end) ltac:(lia)) as (g & L & F).
  { destruct dbg; vm_compute; reflexivity. }
  apply andb_true_iff in F as [F1 F]. apply bool_decide_eq_true in F1.
  destruct (try_play dbg g (MPlay 0 9)) as [[g' []]| |] eqn:E1; try discriminate.
  destruct (play dbg g (MPlay 9 3)) as [g''| |] eqn:E2; try discriminate.
  rewrite !andb_true_iff, !bool_decide_eq_true in F. destruct F as ((A & B) & C).
  exists g, g', g''. split; [exact L|]. split; [intros [_ H]; cbn in H; lia|].
  do 3 (split; [first [reflexivity|assumption]|]). split; [intros [H _]; cbn in H; lia|]. auto.
Qed.

(** Black owns the whole board; White has no move left, yet the game is not over *)
Lemma no_moves_left dbg : exists g, lreach dbg 3 g /\ flag_illegal (gm_rule g) = flag_illegal CHINESE /\ legals dbg g = Ok [] /\
  is_over g = false /\ position g (0, 0) = None /\ position g (2, 2) = None /\ gm_turn g = White.
Proof.
  destruct (legal_sample dbg 3 CHINESE
    [MPlay 0 1; MPass; MPlay 1 0; MPass; MPlay 1 1; MPass; MPlay 1 2; MPass; MPlay 2 1; MPass; MPlay 0 2; MPass; MPlay 2 0]
    (fun g => (match legals dbg g with Ok [] => true | _ => false end) = true /\ flag_illegal (gm_rule g) = flag_illegal CHINESE /\
       is_over g = false /\ position g (0, 0) = None /\ position g (2, 2) = None /\ gm_turn g = White) ltac:(lia))
    as (g & HL & E & H1 & H); [destruct dbg; vm_compute; reflexivity|].
  exists g. split; [exact HL|]. split; [exact H1|]. split; [|exact H]. destruct (legals dbg g) as [[|]| |]; discriminate E || reflexivity.
Qed.
