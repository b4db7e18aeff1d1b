(** Games that correspond move by move; a legal game that ends in a panic. *)
From stdpp Require Import relations.
From Verif Require Import SymSpec Struct Inv Bridge MonadFacts GameFacts LegalFacts LegalsFacts ScoreFacts AgreeFacts SampleFacts SymGame.
From Coq Require Import Lia.

Local Notation length := Datatypes.length.

(** ** Whole games under a symmetry (C54) *)

Lemma greach_try dbg n b w g m g' v : greach dbg n b w g -> (forall x y, m = MPlay x y -> on n (x, y)) ->
  try_play dbg g m = Ok (g', v) -> exists b' w', greach dbg n b' w' g' /\ (b' + w' <= S (b + w))%nat.
Proof.
  intros HG Hm E. pose proof (greach_inv _ _ _ _ _ HG) as G. destruct (try_play_inv _ _ _ _ _ E) as [(e & -> & ->)|(-> & Hp & Ep)].
  - exists b, w. split; [exact HG|lia].
  - destruct m as [|c|x y].
    + exists b, w. split; [eapply gr_pass; eassumption|lia].
    + exists b, w. split; [eapply gr_resign; eassumption|lia].
    + specialize (Hm x y eq_refl). destruct (accepted_empty dbg n g x y g' (gi_wf _ _ _ _ G) (gi_hist _ _ _ _ G) Hm E) as (He & _).
      eexists _, _. split; [eapply gr_play; eassumption|]. destruct (gm_turn g); cbn; lia.
Qed.

Lemma try_rule dbg g m g' v : try_play dbg g m = Ok (g', v) -> gm_rule g' = gm_rule g.
Proof.
  intros E. destruct (try_play_inv _ _ _ _ _ E) as [(e & -> & ->)|(-> & Hp & Ep)]; [reflexivity|].
  destruct m as [|c|x y]; unfold play in Ep.
  - apply bind_ok in Ep as (? & _ & Ep). injection Ep as <-. reflexivity.
  - injection Ep as <-. reflexivity.
  - apply bind_ok in Ep as (? & _ & Ep). apply bind_ok in Ep as ([[? ?] ?] & _ & Ep). apply bind_ok in Ep as ([[? ?] ?] & _ & Ep).
    injection Ep as <-. reflexivity.
Qed.

Theorem image_run n σ τ γ dbg dbg' ms : board_sym n σ τ γ -> forall b w b' w' g h,
  greach dbg n b w g -> greach dbg' n b' w' h ->
  image_game n σ γ g h -> image_history n σ γ g h -> image_caught γ g h ->
  (forall x y, MPlay x y ∈ ms -> on n (x, y)) ->
  (N.of_nat (b + w + length ms) <= 65535)%N -> (N.of_nat (b' + w' + length ms) <= 65535)%N ->
  forbids_fill_eye (gm_rule g) = false \/ (forall q, on n q -> σ q = q) ->
  exists g' h' tr,
    run dbg g (List.map OTry ms) = Ok (g', tr) /\
    run dbg' h (List.map OTry (List.map (image_move σ γ) ms)) = Ok (h', List.map (image_event γ) tr) /\
    image_game n σ γ g' h' /\ image_history n σ γ g' h' /\ image_caught γ g' h'.
Proof.
  intros S. induction ms as [|m ms IH]; intros b w b' w' g h HG HG' I IH0 IC0 Hon L L' HF; cbn [List.map run].
  { exists g, h, []. auto. }
  pose proof (greach_inv _ _ _ _ _ HG) as G. pose proof (greach_inv _ _ _ _ _ HG') as G'.
  pose proof (gi_chains _ _ _ _ G) as C. pose proof (gi_chains _ _ _ _ G') as C'. cbn [length] in L, L'.
  assert (Hm : forall x y, m = MPlay x y -> on n (x, y)) by (intros x y ->; apply Hon; left).
  assert (HF' : flag_contains (flag_illegal (gm_rule g)) FILLEYE = false \/ (forall q, on n q -> σ q = q)).
  { destruct HF as [HF|HF]; [left|right; exact HF]. rewrite (flag_bit _ 3) by reflexivity. exact HF. }
  destruct (image_try n σ τ γ S dbg dbg' b w b' w' g h G G' I m Hm ltac:(lia) ltac:(lia) HF' (or_intror IH0)) as (g1 & h1 & v & E1 & E1' & I1 & J1 & K1).
  specialize (J1 IH0). specialize (K1 IC0). destruct (greach_try _ _ _ _ _ _ _ _ HG Hm E1) as (b1 & w1 & HG1 & L1).
  assert (Hm' : forall x y, image_move σ γ m = MPlay x y -> on n (x, y)).
  { destruct m as [| |x0 y0]; cbn; intros x y Ex; try discriminate. injection Ex as <- <-. rewrite <- surjective_pairing. apply (sy_on _ _ _ _ S), Hm. reflexivity. }
  destruct (greach_try _ _ _ _ _ _ _ _ HG' Hm' E1') as (b1' & w1' & HG1' & L1').
  destruct (IH b1 w1 b1' w1' g1 h1 HG1 HG1' I1 J1 K1) as (g2 & h2 & tr & E2 & E2' & I2 & J2).
  { intros x y Hx. apply Hon. right. exact Hx. } { lia. } { lia. }
  { rewrite (try_rule _ _ _ _ _ E1). exact HF. }
  cbn [do_op]. rewrite E1, E1'. cbn [bind]. rewrite E2, E2'. cbn [bind].
  exists g2, h2, (match v with Accepted => [event_of m] | Refused _ => [] end ++ tr). split; [reflexivity|]. split; [|auto].
  rewrite map_app. destruct v; [|reflexivity]. destruct m; reflexivity.
Qed.

(** ** An endless game (C08) *)

Definition same (n : nat) (g h : game) : Prop :=
  image_game n (fun p => p) (fun c => c) g h.

Lemma id_sym n : board_sym n (fun p => p) (fun p => p) (fun c => c).
Proof. constructor; auto. Qed.

(** one more accepted stone move, or the end of all things *)
Lemma follow dbg n b w g h x y h' : lreach dbg n g -> ginv n b w h -> same n h g ->
  flag_contains (flag_illegal (gm_rule h)) SUPERKO = false ->
  on n (x, y) -> try_play dbg h (MPlay x y) = Ok (h', Accepted) ->
  try_play dbg g (MPlay x y) = Panic \/
  exists g', try_play dbg g (MPlay x y) = Ok (g', Accepted) /\ lreach dbg n g' /\ same n h' g' /\
    (length (chains (gm_goban g')) + length (chains (gm_goban h)) = length (chains (gm_goban g)) + length (chains (gm_goban h')))%nat.
Proof.
  intros HL G0 I HS Hp E. destruct (lreach_greach _ _ _ HL) as (b1 & w1 & HG). pose proof (greach_inv _ _ _ _ _ HG) as G.
  pose proof (gi_wf _ _ _ _ G0) as W0. pose proof (gi_wf _ _ _ _ G) as W.
  destruct (accepted_empty dbg n h x y h' W0 (gi_hist _ _ _ _ G0) Hp E) as (He & P2 & Ec & Ep).
  unfold check_point in Ec.
  pose proof (image_check n _ _ _ (id_sym n) dbg dbg b w b1 w1 h g G0 G I (x, y) _ None Hp (or_intror (fun q _ => eq_refl)) (or_introl HS) Ec) as Ec'.
  assert (P2' : gm_passes g <> 2%nat) by (rewrite (im_passes _ _ _ _ _ I); exact P2).
  rewrite (try_play_point dbg n g x y W Hp P2'). unfold check_point. rewrite (im_rule _ _ _ _ _ I), Ec'. cbn [bind].
  destruct (image_play n _ _ _ (id_sym n) dbg dbg b w b1 w1 h g G0 G I x y h' Hp He Ep) as [[F _]|(g' & E' & I' & _ & _ & L)]; cbn [image_move fst snd] in *.
  - left. rewrite F. reflexivity.
  - right. exists g'. rewrite E'. cbn [bind]. split; [reflexivity|]. split; [|auto].
    eapply lr_play; [exact HL|exact Hp|]. rewrite (try_play_point dbg n g x y W Hp P2'). unfold check_point. rewrite (im_rule _ _ _ _ _ I), Ec', E'. reflexivity.
Qed.

(** the same along a list of stone moves *)
Lemma follow_all dbg n ms : forall b w g h h',
  lreach dbg n g -> ginv n b w h -> same n h g -> flag_contains (flag_illegal (gm_rule h)) SUPERKO = false ->
  tries dbg n h (List.map (fun p : coord => MPlay (fst p) (snd p)) ms) = Some h' ->
  (exists g1 x y, lreach dbg n g1 /\ on n (x, y) /\ try_play dbg g1 (MPlay x y) = Panic) \/
  exists g', lreach dbg n g' /\ same n h' g' /\
    (length (chains (gm_goban g')) + length (chains (gm_goban h)) = length (chains (gm_goban g)) + length (chains (gm_goban h')))%nat.
Proof.
  induction ms as [|[x y] ms IH]; intros b w g h h' HL G0 I HS E; cbn [List.map tries fst snd] in E.
  { injection E as <-. right. exists g. split; [exact HL|]. split; [exact I|lia]. }
  destruct ((x <? n)%nat && (y <? n)%nat) eqn:Eon; [|discriminate].
  assert (Hp : on n (x, y)) by (apply andb_true_iff in Eon as [A B]; apply Nat.ltb_lt in A, B; split; assumption).
  destruct (try_play dbg h (MPlay x y)) as [[h1 []]| |] eqn:Eh; try discriminate.
  destruct (follow dbg n b w g h x y h1 HL G0 I HS Hp Eh) as [F|(g1 & E1 & L1 & I1 & C1)]; [left; eauto 6|].
  destruct (accepted_step dbg n b w h x y h1 G0 Hp Eh) as (He & _ & Ep & _).
  destruct (play_spec dbg n b w h x y G0 Hp He) as [[F _]|(h2 & Eh2 & G1 & _)]; [congruence|]. rewrite Ep in Eh2. injection Eh2 as <-.
  destruct (IH _ _ g1 h1 h' L1 G1 I1) as [F|(g' & L' & I' & C')]; [rewrite (try_rule _ _ _ _ _ Eh); exact HS|exact E|left; exact F|].
  right. exists g'. split; [exact L'|]. split; [exact I'|lia].
Qed.

Definition cycle_points : list coord := [(1, 1); (0, 1); (1, 0); (0, 0); (0, 1); (0, 0)]%nat.
Definition cycle_moves : list move := List.map (fun p : coord => MPlay (fst p) (snd p)) cycle_points.

(** the start of the cycle, a game that has gone through it once, both observed *)
Definition seen (g : game) :=
  (List.map (position g) (points 2), gm_turn g, gm_passes g, gm_outcome g, gm_ko_point g, flag_illegal (gm_rule g)).

Lemma seen_pos g h : List.map (position g) (points 2) = List.map (position h) (points 2) -> same_pos 2 (position g) (position h).
Proof.
  intros E p Hp. apply elem_of_points in Hp. revert E. generalize (points 2) Hp. intros l. induction 1 as [|x y l Hx IH]; intros E; cbn in E; injection E as E1 E2; auto.
Qed.

Lemma cycle dbg : exists h0 h1 b w b' w',
  lreach dbg 2 h0 /\ ginv 2 b w h0 /\ ginv 2 b' w' h1 /\ flag_contains (flag_illegal (gm_rule h0)) SUPERKO = false /\
  tries dbg 2 h0 cycle_moves = Some h1 /\ seen h0 = seen h1 /\
  length (chains (gm_goban h1)) = (3 + length (chains (gm_goban h0)))%nat.
Proof.
  assert (E : exists h0 h1, tried dbg 2 JAPANESE [MPlay 0 0] = Some h0 /\ tries dbg 2 h0 cycle_moves = Some h1 /\
     flag_contains (flag_illegal (gm_rule h0)) SUPERKO = false /\
     seen h0 = seen h1 /\ length (chains (gm_goban h1)) = (3 + length (chains (gm_goban h0)))%nat).
  { destruct dbg; (eexists _, _; split; [vm_compute; reflexivity|]; split; [vm_compute; reflexivity|]; split; [|split]; vm_compute; reflexivity). }
  destruct E as (h0 & h1 & E0 & E1 & HS & Es & Ec).
  unfold tried in E0. destruct (game_new (Custom (N.of_nat 2) (N.of_nat 2)) JAPANESE) as [g0| |] eqn:En; try discriminate.
  assert (L0 : lreach dbg 2 g0) by (eapply lr_new; [lia| |exact En]; reflexivity).
  pose proof (tries_lreach dbg 2 [MPlay 0 0] g0 h0 L0 E0) as L1. pose proof (tries_lreach dbg 2 _ h0 h1 L1 E1) as L2.
  destruct (lreach_greach _ _ _ L1) as (b & w & HG). destruct (lreach_greach _ _ _ L2) as (b' & w' & HG').
  exists h0, h1, b, w, b', w'. split; [exact L1|]. split; [apply (greach_inv _ _ _ _ _ HG)|]. split; [apply (greach_inv _ _ _ _ _ HG')|]. auto.
Qed.

Lemma same_seen g h k : seen g = seen h -> same 2 h k -> same 2 g k.
Proof.
  unfold seen. intros E [I1 I2 I3 I4 I5 I6]. 
  assert (E1 : List.map (position g) (points 2) = List.map (position h) (points 2)) by (exact (f_equal (fun t => fst (fst (fst (fst (fst t))))) E)).
  injection E as _ _ _ _ E2 E3 E4 E5 E6.
  pose proof (seen_pos _ _ E1) as E1'. constructor; rewrite ?E2, ?E3, ?E4, ?E5, ?E6; try assumption.
  intros p Hp. unfold image in I1. rewrite (I1 p Hp). rewrite (E1' p Hp). reflexivity.
Qed.

(** going round the cycle: every round makes three new chain slots *)
Lemma rounds dbg h0 h1 b w : ginv 2 b w h0 -> lreach dbg 2 h0 ->
  flag_contains (flag_illegal (gm_rule h0)) SUPERKO = false ->
  tries dbg 2 h0 cycle_moves = Some h1 -> seen h0 = seen h1 ->
  length (chains (gm_goban h1)) = (3 + length (chains (gm_goban h0)))%nat -> forall k,
  (exists g1 x y, lreach dbg 2 g1 /\ on 2 (x, y) /\ try_play dbg g1 (MPlay x y) = Panic) \/
  exists g, lreach dbg 2 g /\ same 2 h0 g /\ length (chains (gm_goban g)) = (3 * k + length (chains (gm_goban h0)))%nat.
Proof.
  intros G0 L0 HS E Es Ec. induction k as [|k [F|(g & L & I & C)]]; [right|left; exact F|].
  { exists h0. split; [exact L0|]. split; [|reflexivity]. constructor; try reflexivity.
    - intros p Hp. destruct (position h0 p); reflexivity.
    - destruct (gm_outcome h0) as [[]|]; reflexivity.
    - destruct (gm_ko_point h0); reflexivity. }
  destruct (follow_all dbg 2 cycle_points b w g h0 h1 L G0 I HS E) as [F|(g' & L' & I' & C')]; [left; exact F|right].
  exists g'. split; [exact L'|]. split; [exact (same_seen _ _ _ Es I')|lia].
Qed.

(** C08: a legal game in which a legal-looking move panics *)
Theorem long_game_panics dbg : exists g x y,
  lreach dbg 2 g /\ on 2 (x, y) /\ try_play dbg g (MPlay x y) = Panic.
Proof.
  destruct (cycle dbg) as (h0 & h1 & b & w & b' & w' & L0 & G0 & _ & HS & E & Es & Ec).
  destruct (rounds dbg h0 h1 b w G0 L0 HS E Es Ec (N.to_nat 30000)) as [F|(g & L & _ & C)]; [exact F|exfalso].
  destruct (lreach_greach _ _ _ L) as (b1 & w1 & HG). pose proof (greach_inv _ _ _ _ _ HG) as G.
  pose proof (wf0_len _ (wf_0 _ _ (gi_wf _ _ _ _ G))) as K. lia.
Qed.
