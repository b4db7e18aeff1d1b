(** Cases for the part of C124 about boards that are not square. *)
From Verif Require Import Spec Observe Reach BitsetFacts CoordFacts Struct Push Inv GameFacts EyeFacts LegalFacts Samples MonadFacts UnwindSpec.
From Verif Require Import RectSpec RectCoord RectInv RectBridge RectGame RectRules RectReach RectReachFacts RectGo TallPoint.
From Verif Require Import Unwind UnwindFacts UnwindClaims UnwindTallSpec UnwindTall.
Local Open Scope nat_scope.

(** ** Two stones that take each other on a 2x1 board, for ever *)

Definition shuttle (g : game) : Prop :=
  match gm_turn g with
  | White => position g (0, 0) = Some Black /\ position g (1, 0) = None
  | Black => position g (0, 0) = None /\ position g (1, 0) = Some White
  end.
Definition shuttleb (g : game) : bool :=
  match gm_turn g with
  | White => mcolor_eqb (position g (0, 0)) (Some Black) && mcolor_eqb (position g (1, 0)) None
  | Black => mcolor_eqb (position g (0, 0)) None && mcolor_eqb (position g (1, 0)) (Some White)
  end.
Lemma shuttleb_ok g : shuttleb g = true -> shuttle g.
Proof.
  unfold shuttleb, shuttle. destruct (gm_turn g); intros H; apply andb_true_iff in H as [H1 H2].
  - destruct (mcolor_eqb_spec (position g (0, 0)) (Some Black)); [|discriminate].
    destruct (mcolor_eqb_spec (position g (1, 0)) None); [|discriminate]. auto.
  - destruct (mcolor_eqb_spec (position g (0, 0)) None); [|discriminate].
    destruct (mcolor_eqb_spec (position g (1, 0)) (Some White)); [|discriminate]. auto.
Qed.

Definition row_of (c : color) : nat := match c with White => 1 | Black => 0 end.

Lemma points_21 p : ron (2, 1) p -> p = (0, 0) \/ p = (1, 0).
Proof. destruct p as [[|[|x]] [|y]]; intros [H1 H2]; cbn [fst snd] in *; try lia; auto. Qed.

Lemma shuttle_same g h : shuttle g -> shuttle h -> gm_turn g = gm_turn h -> rsame_pos (2, 1) (position g) (position h).
Proof.
  unfold shuttle. intros A B E p Hp. rewrite <- E in B. destruct (points_21 p Hp) as [-> | ->];
    destruct (gm_turn g); destruct A as [A1 A2], B as [B1 B2]; congruence.
Qed.

Lemma shuttle_empty g : shuttle g -> position g (row_of (gm_turn g), 0) = None.
Proof. unfold shuttle. destruct (gm_turn g); cbn [row_of]; tauto. Qed.

Lemma shuttle_on c : ron (2, 1) (row_of c, 0).
Proof. destruct c; split; cbn; lia. Qed.

Lemma shuttle_alone g x y : shuttle g -> ~ rone_friend (2, 1) (pos_of (gm_goban g)) (x, y) (gm_turn g).
Proof.
  intros S (q & Hq & _ & Hc & _). change (position g q = Some (gm_turn g)) in Hc.
  unfold shuttle in S. destruct (points_21 q Hq) as [-> | ->]; destruct (gm_turn g); destruct S; congruence.
Qed.

(** one round of the cycle, computed *)
Lemma shuttle_model dbg c : exists h h' b w, rginv (2, 1) b w h /\ shuttle h /\ gm_turn h = c /\ gm_rule h = JAPANESE /\
  play dbg h (MPlay (row_of c) 0) = Ok h' /\ shuttle h' /\ gm_turn h' = opp c.
Proof.
  assert (D : Nat.divide (snd (2, 1)) (fst (2, 1))) by (exists 2; reflexivity).
  pose (ms := match c with White => [MPlay 0 0] | Black => [MPlay 0 0; MPlay 1 0] end).
  destruct (rsample dbg 2 1 JAPANESE ms) as [h|] eqn:E; [|destruct dbg, c; vm_compute in E; discriminate].
  destruct (rsample_reach dbg 2 1 JAPANESE ms h ltac:(lia) ltac:(lia) E) as (b & w & HG & _).
  assert (F : shuttleb h && color_eqb (gm_turn h) c = true)
    by (destruct dbg, c; vm_compute in E; injection E as <-; vm_compute; reflexivity).
  assert (F3 : gm_rule h = JAPANESE) by (destruct dbg, c; vm_compute in E; injection E as <-; vm_compute; reflexivity).
  destruct (play dbg h (MPlay (row_of c) 0)) as [h'| |] eqn:Ep;
    [|destruct dbg, c; vm_compute in E; injection E as <-; vm_compute in Ep; discriminate..].
  assert (F' : shuttleb h' && color_eqb (gm_turn h') (opp c) = true)
    by (destruct dbg, c; vm_compute in E; injection E as <-; vm_compute in Ep; injection Ep as <-; vm_compute; reflexivity).
  apply andb_true_iff in F as [F1 F2], F' as [F1' F2'].
  destruct (color_eqb_spec (gm_turn h) c) as [Ht|]; [|discriminate].
  destruct (color_eqb_spec (gm_turn h') (opp c)) as [Ht'|]; [|discriminate].
  exists h, h', b, w. split; [exact (rgreach_inv _ _ _ _ _ D HG)|]. split; [apply shuttleb_ok, F1|]. split; [exact Ht|].
  split; [exact F3|]. split; [exact Ep|]. split; [apply shuttleb_ok, F1'|exact Ht'].
Qed.

(** so that each stone takes a new group number *)
Lemma shuttle_step dbg b w g g' : rgreach dbg (2, 1) b w g -> shuttle g -> gm_rule g = JAPANESE ->
  play dbg g (MPlay (row_of (gm_turn g)) 0) = Ok g' ->
  (exists b' w', rgreach dbg (2, 1) b' w' g') /\ shuttle g' /\ gm_rule g' = JAPANESE /\
  length (chains (gm_goban g')) = S (length (chains (gm_goban g))).
Proof.
  intros HG Sg Hr E. assert (D : Nat.divide (snd (2, 1)) (fst (2, 1))) by (exists 2; reflexivity).
  pose proof (rgreach_inv _ _ _ _ _ D HG) as G. pose proof (shuttle_empty g Sg) as He.
  destruct (rplay_spec dbg (2, 1) b w g _ 0 G (shuttle_on _) He) as [[F _]|(g1 & E1 & _ & M & L & _ & _ & Ht & Hr' & _)]; [congruence|].
  rewrite E in E1. injection E1 as <-.
  destruct (shuttle_model dbg (gm_turn g)) as (h & h' & hb & hw & Gh & Sh & Hth & Hrh & Eh & Sh' & Hth').
  pose proof (shuttle_empty h Sh) as Heh. rewrite Hth in Heh.
  destruct (rplay_spec dbg (2, 1) hb hw h _ 0 Gh (shuttle_on _) Heh) as [[F _]|(h1 & E1 & _ & Mh & _ & _)]; [congruence|].
  rewrite Eh in E1. injection E1 as <-. rewrite Hth, Hrh in Mh. rewrite Hr in M.
  pose proof (rgo_move_det _ _ _ _ _ _ _ _ (shuttle_same g h Sg Sh (eq_sym Hth)) M Mh) as Same.
  split; [eexists _, _; eapply rg_play; [exact HG|apply shuttle_on|exact He|exact E]|].
  split; [|split; [congruence|destruct L as [[L _]|[_ L]]; [destruct (shuttle_alone g _ _ Sg L)|exact L]]].
  unfold shuttle in *. rewrite Ht. rewrite Hth' in Sh'.
  pose proof (Same (0, 0) ltac:(split; cbn; lia)) as A. pose proof (Same (1, 0) ltac:(split; cbn; lia)) as B.
  unfold position in *. destruct (opp (gm_turn g)); rewrite A, B; exact Sh'.
Qed.

Lemma shuttle_long dbg k : (N.of_nat (S k) <= 65535)%N -> exists g b w, rgreach dbg (2, 1) b w g /\ shuttle g /\ gm_rule g = JAPANESE /\
  length (chains (gm_goban g)) = S k.
Proof.
  assert (D : Nat.divide (snd (2, 1)) (fst (2, 1))) by (exists 2; reflexivity).
  induction k as [|k IH]; intros Hk.
  - destruct (rsample dbg 2 1 JAPANESE [MPlay 0 0]) as [h|] eqn:E; [|destruct dbg; vm_compute in E; discriminate].
    destruct (rsample_reach dbg 2 1 JAPANESE _ h ltac:(lia) ltac:(lia) E) as (b & w & HG & _).
    exists h, b, w. split; [exact HG|]. 
    assert (F : shuttleb h = true) by (destruct dbg; vm_compute in E; injection E as <-; vm_compute; reflexivity).
    split; [apply shuttleb_ok, F|]. split; destruct dbg; vm_compute in E; injection E as <-; vm_compute; reflexivity.
  - destruct (IH ltac:(lia)) as (g & b & w & HG & Sg & Hr & L).
    destruct (rplay_spec dbg (2, 1) b w g (row_of (gm_turn g)) 0 (rgreach_inv _ _ _ _ _ D HG) (shuttle_on _) (shuttle_empty g Sg))
      as [(_ & HK & _)|(g' & E & _)].
    + rewrite L in HK. lia.
    + destruct (shuttle_step dbg b w g g' HG Sg Hr E) as ((b' & w' & HG') & Sg' & Hr' & L').
      exists g', b', w'. split; [exact HG'|]. split; [exact Sg'|]. split; [exact Hr'|]. rewrite L', L. reflexivity.
Qed.

Lemma case_rfull dbg : exists g b w x y, Nat.divide 1 2 /\ rgreach dbg (2, 1) b w g /\ ron (2, 1) (x, y) /\ position g (x, y) = None /\
  play dbg g (MPlay x y) = Panic /\ exists p, ron (2, 1) p /\ adj (x, y) p /\ position g p = Some (opp (gm_turn g)).
Proof.
  assert (D : Nat.divide (snd (2, 1)) (fst (2, 1))) by (exists 2; reflexivity).
  destruct (shuttle_long dbg (N.to_nat 65534) ltac:(lia)) as (g & b & w & HG & Sg & Hr & L).
  exists g, b, w, (row_of (gm_turn g)), 0. split; [exists 2; reflexivity|]. split; [exact HG|]. split; [apply shuttle_on|].
  split; [apply (shuttle_empty g Sg)|]. split.
  - pose proof (rgreach_inv _ _ _ _ _ D HG) as G.
    destruct (play dbg g (MPlay (row_of (gm_turn g)) 0)) as [g'| |] eqn:E; [exfalso|reflexivity|exfalso].
    + destruct (shuttle_step dbg b w g g' HG Sg Hr E) as ((b' & w' & HG') & _ & _ & L').
      pose proof (wf0_len _ (rwf_0 _ _ (rgi_wf _ _ _ _ (rgreach_inv _ _ _ _ _ D HG')))). lia.
    + destruct (rplay_spec dbg (2, 1) b w g _ 0 G (shuttle_on _) (shuttle_empty g Sg)) as [[F _]|(g1 & E1 & _)]; congruence.
  - exists (row_of (opp (gm_turn g)), 0). split; [apply shuttle_on|]. unfold shuttle in Sg.
    destruct (gm_turn g); cbn [row_of opp]; destruct Sg; (split; [unfold adj; cbn; lia|assumption]).
Qed.

(** ** Far outside *)

Lemma case_rfar dbg : exists g b w, Nat.divide 3 9 /\ rgreach dbg (9, 3) b w g /\ 361 <= 40 * 9 + 7 /\ gm_passes g <> 2 /\
  (dbg = false -> 9 = 19 -> 40 * 9 + 7 < 368 -> position g (18, (40 * 9 + 7) mod 3) <> Some (gm_turn g)) /\
  gm_history g <> [] /\ position g (4, 1) = Some Black.
Proof.
  destruct (rsampleb dbg 9 3 JAPANESE [MPlay 4 1; MPlay 5 1] (fun g =>
     negb (gm_passes g =? 2) && negb (length (gm_history g) =? 0) && mcolor_eqb (position g (4, 1)) (Some Black)) ltac:(lia) ltac:(lia))
    as (g & b & w & HG & F); [destruct dbg; vm_compute; reflexivity|].
  apply andb_true_iff in F as [F F3]. apply andb_true_iff in F as [F1 F2].
  exists g, b, w. split; [exists 3; reflexivity|]. split; [exact HG|]. split; [lia|]. split; [apply negb_true_iff, Nat.eqb_neq in F1; exact F1|].
  split; [intros _ H; discriminate H|]. split; [intros H; rewrite H in F2; discriminate|].
  destruct (mcolor_eqb_spec (position g (4, 1)) (Some Black)); [assumption|discriminate].
Qed.

(** the boards 19x1 and 19x19 *)
Lemma case_rbroken : exists g b w, Nat.divide 1 19 /\ rgreach false (19, 1) b w g /\ 361 <= 19 * 19 + 3 < 368 /\
  position g (18, (19 * 19 + 3) mod 1) = Some (gm_turn g).
Proof.
  destruct (rsampleb false 19 1 JAPANESE [MPlay 18 0; MPass] (fun g =>
     mcolor_eqb (position g (18, 0)) (Some (gm_turn g))) ltac:(lia) ltac:(lia)) as (g & b & w & HG & F); [vm_compute; reflexivity|].
  exists g, b, w. split; [exists 19; reflexivity|]. split; [exact HG|]. split; [lia|]. change ((19 * 19 + 3) mod 1) with 0.
  destruct (mcolor_eqb_spec (position g (18, 0)) (Some (gm_turn g))) as [Ho|]; [exact Ho|discriminate].
Qed.

Lemma case_rharmless dbg : exists g b w gl, Nat.divide 3 9 /\ rgreach dbg (9, 3) b w g /\ 361 <= 40 * 9 + 7 /\
  (dbg = false -> 9 = 19 -> 40 * 9 + 7 < 368 -> position g (18, (40 * 9 + 7) mod 3) <> Some (gm_turn g)) /\
  flag_contains (flag_illegal (gm_rule g)) SUPERKO = false /\ u_play dbg (MPlay 40 7) g = (gl, Panic) /\
  (forall a c, MPlay a c ∈ [MPlay 4 1; MPass; MPlay 3 2] -> ron (9, 3) (a, c)) /\
  gm_history gl <> gm_history g /\
  exists g', attempts dbg g [MPlay 4 1; MPass; MPlay 3 2] = Ok ([Refused EPointNotEmpty; Accepted; Accepted], g').
Proof.
  destruct (rsampleb dbg 9 3 JAPANESE [MPlay 4 1; MPlay 5 1] (fun g => negb (flag_contains (flag_illegal (gm_rule g)) SUPERKO) &&
     match u_play dbg (MPlay 40 7) g with (gl, Panic) => negb (length (gm_history gl) =? length (gm_history g)) | _ => false end &&
     match attempts dbg g [MPlay 4 1; MPass; MPlay 3 2] with Ok ([Refused EPointNotEmpty; Accepted; Accepted], _) => true | _ => false end) ltac:(lia) ltac:(lia))
    as (g & b & w & HG & F); [destruct dbg; vm_compute; reflexivity|].
  apply andb_true_iff in F as [F F3]. apply andb_true_iff in F as [F1 F2]. apply negb_true_iff in F1.
  destruct (u_play dbg (MPlay 40 7) g) as [gl [| |]] eqn:E; try discriminate.
  exists g, b, w, gl. split; [exists 3; reflexivity|]. split; [exact HG|]. split; [lia|]. split; [intros _ H; discriminate H|]. split; [exact F1|]. split; [exact E|].
  split; [intros a c Hx; rewrite !elem_of_cons, elem_of_nil in Hx; destruct Hx as [[= -> ->]|[Hx|[[= -> ->]|[]]]]; [split; cbn; lia|discriminate|split; cbn; lia]|].
  split; [intros H; rewrite H, Nat.eqb_refl in F2; discriminate|].
  destruct (attempts dbg g _) as [[vs g']| |]; try discriminate. exists g'.
  destruct vs as [|[|[]] [|[] [|[] []]]]; try discriminate. reflexivity.
Qed.
