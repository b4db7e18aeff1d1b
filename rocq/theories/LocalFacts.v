(** Whether a stone may be put on a point, and what it does, depends only on the neighbourhood of the point. *)
From stdpp Require Import relations.
From Verif Require Import LocalSpec OrderSpec VerdictSpec.
From Verif Require Import MonadFacts Spec Game Builder Struct Push Inv Remove Capture Bridge GameFacts RulesFacts LegalFacts LegalsFacts CheckFacts ClaimFacts LongFacts SymFacts SymGame SymScore ScoreFacts ReprFacts RectCount RectCoord RectBridge RectRules RectKo RectBoard RectCheck RectEye RectVerdict.
From Verif Require Import RectScore RectSpec RectReach RectVerdictSpec RectTableSpec RectInv RectGame RectMoves RectLegal RectTable RectReachFacts RectSymFacts RectSymGame RectSymClaims RectCases PastFacts OrderFacts VerdictFacts.
From Coq Require Import Lia.

Local Notation length := Datatypes.length.
Local Open Scope nat_scope.

Section Near.
  Context (n : nat * nat) (P Q : pos) (p : coord) (c : color).
  Hypothesis HA : alike_near n p P Q.
  Hypothesis Hp : ron n p.
  Hypothesis He : P p = None.
  Let P' := put P p c.
  Let Q' := put Q p c.

  Lemma near_empty : Q p = None.
  Proof using HA Hp He. rewrite <- (HA p Hp); [exact He|left; reflexivity]. Qed.

  Lemma near_next t : ron n t -> adj p t -> P t = Q t.
  Proof using HA. intros Ht A. apply HA; [exact Ht|right; left; exact A]. Qed.

  Lemma near_chain t a : ron n t -> adj p t -> P t <> None -> rconnected n P t a <-> rconnected n Q t a.
  Proof using HA.
    intros Ht A N. assert (Nr : forall a b, rconnected n P t a -> ron n b -> (b = a \/ adj a b) -> P b = Q b).
    { intros x b C Hb K. apply HA; [exact Hb|]. right. right. exists t, x. repeat split; try assumption; apply Ht. }
    split; intros C; unfold rconnected in C; revert a C; refine (rtc_ind_r _ _ _ _); try apply rtc_refl.
    - intros x y C (H1 & H2 & H3 & H4) IH. eapply rtc_r; [exact IH|]. split; [exact H1|]. split; [exact H2|]. split; [exact H3|].
      rewrite <- (Nr x x C H1), <- (Nr x y C H2); auto.
    - intros x y _ (H1 & H2 & H3 & H4) C. eapply rtc_r; [exact C|]. split; [exact H1|]. split; [exact H2|]. split; [exact H3|].
      rewrite (Nr x x C H1), (Nr x y C H2); auto.
  Qed.

  Lemma near_lib t l : ron n t -> adj p t -> P t <> None -> rliberty n P t l <-> rliberty n Q t l.
  Proof using HA.
    intros Ht A N. unfold rliberty. split; intros (H1 & H2 & q & C & J).
    - split; [exact H1|]. split; [|exists q; split; [apply near_chain; assumption|exact J]]. rewrite <- H2. symmetry. apply HA; [exact H1|]. right. right. exists t, q. tauto.
    - apply near_chain in C; try assumption. split; [exact H1|]. split; [|exists q; split; assumption]. rewrite <- H2. apply HA; [exact H1|]. right. right. exists t, q. tauto.
  Qed.

  Lemma near_taken q : rtaken n P' p c q <-> rtaken n Q' p c q.
  Proof using HA Hp He.
    pose proof near_empty as He'. unfold rtaken. split; intros (t & Ht & A & O & C & N); exists t; (split; [exact Ht|]; split; [exact A|]); unfold P', Q' in *.
    - apply (rput_opp P p c He) in O. assert (O' : Q t = Some (opp c)) by (rewrite <- (near_next t Ht A); exact O). split; [apply (rput_opp Q p c He'); exact O'|]. split.
      + apply (rconn_put_opp n Q p c He' t q O'), near_chain; [exact Ht|exact A|congruence|]. apply (rconn_put_opp n P p c He t q O), C.
      + intros B. apply N. apply (rbreathes_put_opp n P p c He t O). apply (rbreathes_put_opp n Q p c He' t O') in B as (l & K & L). exists l. split; [exact K|]. apply near_lib; [exact Ht|exact A|congruence|exact L].
    - apply (rput_opp Q p c He') in O. assert (O' : P t = Some (opp c)) by (rewrite (near_next t Ht A); exact O). split; [apply (rput_opp P p c He); exact O'|]. split.
      + apply (rconn_put_opp n P p c He t q O'), near_chain; [exact Ht|exact A|congruence|]. apply (rconn_put_opp n Q p c He' t q O), C.
      + intros B. apply N. apply (rbreathes_put_opp n Q p c He' t O). apply (rbreathes_put_opp n P p c He t O') in B as (l & K & L). exists l. split; [exact K|]. apply (near_lib t l Ht A); [congruence|exact L].
  Qed.

  Lemma near_own q : rconnected n P' p q <-> rconnected n Q' p q.
  Proof using HA Hp He.
    pose proof near_empty as He'. unfold P', Q'. rewrite (rconn_put_own n P p c Hp He q), (rconn_put_own n Q p c Hp He' q).
    split; (intros [->|(t & Ht & A & O & C)]; [left; reflexivity|]; right; exists t; pose proof (near_next t Ht A) as E; split; [exact Ht|]; split; [exact A|]; split; [congruence|]; apply (near_chain t q Ht A); [congruence|exact C]).
  Qed.

  Lemma near_breathes : rbreathes n P' p <-> rbreathes n Q' p.
  Proof using HA Hp He.
    pose proof near_empty as He'. unfold P', Q'. rewrite (rbreathes_put_own n P p c Hp He), (rbreathes_put_own n Q p c Hp He').
    split; (intros [(l & Hl & A & N)|(t & l & Ht & A & O & K & L)];
      [left; exists l; pose proof (near_next l Hl A); repeat split; try assumption; try apply Hl; congruence|
       right; exists t, l; pose proof (near_next t Ht A); split; [exact Ht|]; split; [exact A|]; split; [congruence|]; split; [exact K|]; apply (near_lib t l Ht A); [congruence|exact L]]).
  Qed.

  Lemma near_suicidal : rsuicidal n P p c <-> rsuicidal n Q p c.
  Proof using HA Hp He.
    pose proof (RectRules.rsuicidal_iff n P p c) as A. pose proof (RectRules.rsuicidal_iff n Q p c) as B. fold P' in A. fold Q' in B. pose proof near_breathes as C.
    rewrite A, B. split; intros [T N]; (split; [|tauto]); intros q Hq X; apply (T q Hq), near_taken, X.
  Qed.

  (** both positions have the same points near [p] *)
  Lemma near_both q : near n P p q <-> near n Q p q.
  Proof using HA.
    split; (intros [->|[A|(t & a & Ht & A & N & C & K)]]; [left; reflexivity|right; left; exact A|]);
      right; right; exists t, a; pose proof (near_next t Ht A) as E; (split; [exact Ht|]; split; [exact A|]; split; [congruence|]; split; [apply (near_chain t a Ht A); [congruence|exact C]|exact K]).
  Qed.

  (** what is taken, and the chain of the stone, are near *)
  Lemma taken_near q : rtaken n P' p c q -> near n P p q.
  Proof using He.
    intros (t & Ht & A & O & C & _). unfold P' in *. apply (rput_opp P p c He) in O. apply (rconn_put_opp n P p c He t q O) in C.
    right. right. exists t, q. repeat split; try assumption; try apply Ht; try congruence. left. reflexivity.
  Qed.
  Lemma own_near q : rconnected n P' p q -> near n P p q.
  Proof using Hp He.
    unfold P'. rewrite (rconn_put_own n P p c Hp He q). intros [->|(t & Ht & A & O & C)]; [left; reflexivity|].
    right. right. exists t, q. repeat split; try assumption; try apply Ht; try congruence. left. reflexivity.
  Qed.

  Lemma near_put q : ron n q -> near n P p q -> P' q = Q' q.
  Proof using HA. intros Hq N. unfold P', Q', put. destruct (decide (q = p)); [reflexivity|]. apply HA; assumption. Qed.

  (** the second clearing, without the position in between *)
  Lemma gone_iff s R : rgo_move s n P p c R -> rcleared n (fun q => rtaken n P' p c q \/ (s = true /\ rsuicidal n P p c /\ rconnected n P' p q)) P' R.
  Proof using Hp He.
    intros (X & C1 & C2) q Hq. destruct (C2 q Hq) as [D1 D2]. fold P' in C1. split.
    - intros [T|(Hs & S & C)].
      + rewrite D2; [apply C1; assumption|]. intros (_ & N & _). apply N, (rcapture_breathes n P p c X q C1 T).
      + apply RectRules.rsuicidal_iff in S as [NT N]. fold P' in NT, N. pose proof (rno_capture n P p c X C1 NT) as Sm. fold P' in Sm. apply D1. split; [exact Hs|]. split.
        * intros B. apply N, (rbreathes_ext n X P' p Sm), B.
        * apply (rconnected_ext n P' X p q); [apply rsame_pos_sym, Sm|exact C].
    - intros N. rewrite D2; [apply C1; tauto|]. intros (Hs & NB & C). apply N. right. assert (S : rsuicidal n P p c) by (exists X; split; assumption).
      split; [exact Hs|]. split; [exact S|]. apply RectRules.rsuicidal_iff in S as [NT _]. fold P' in NT. pose proof (rno_capture n P p c X C1 NT) as Sm. fold P' in Sm. apply (rconnected_ext n X P' p q Sm), C.
  Qed.
End Near.

(** away from [p] nothing changes *)
Lemma move_far n P p c s R q : ron n p -> P p = None -> rgo_move s n P p c R -> ron n q -> ~ near n P p q -> R q = P q.
Proof.
  intros Hp He M Hq N. rewrite (proj2 (gone_iff n P p c Hp He s R M q Hq)).
  - unfold put. destruct (decide (q = p)) as [->|]; [|reflexivity]. destruct N. left. reflexivity.
  - intros [T|(_ & _ & C)]; apply N; [eapply taken_near|eapply own_near]; eassumption.
Qed.

(** near [p] the same happens *)
Lemma move_near n P Q p c s R S q : alike_near n p P Q -> ron n p -> P p = None -> rgo_move s n P p c R -> rgo_move s n Q p c S -> ron n q -> near n P p q -> R q = S q.
Proof.
  intros HA Hp He M M' Hq N. pose proof (near_empty n P Q p HA Hp He) as He'.
  destruct (gone_iff n P p c Hp He s R M q Hq) as [A1 A2]. destruct (gone_iff n Q p c Hp He' s S M' q Hq) as [B1 B2].
  rewrite <- (near_taken n P Q p c HA Hp He), <- (near_suicidal n P Q p c HA Hp He), <- (near_own n P Q p c HA Hp He) in B1, B2.
  rewrite <- (near_put n P Q p c HA q Hq N) in B2.
  destruct (mcolor_dec (R q) (S q)) as [|F]; [assumption|]. exfalso. assert (K : ~ ~ (rtaken n (put P p c) p c q \/ (s = true /\ rsuicidal n P p c /\ rconnected n (put P p c) p q))).
  { intros K. apply F. rewrite A2, B2 by exact K. reflexivity. }
  apply K. intros K'. apply F. rewrite A1, B1 by exact K'. reflexivity.
Qed.

Lemma near_ko n t u p : alike_near n p (t_pos t) (t_pos u) -> (t_ko t = Some p <-> t_ko u = Some p) -> rko_banned n t p <-> rko_banned n u p.
Proof.
  intros HA K. unfold rko_banned. rewrite K. split; intros [K1 H]; (split; [exact K1|]); intros q Hq A N L q' C;
    pose proof (near_next n _ _ p HA q Hq A) as E; (apply (H q Hq A); [congruence| |]).
  - intros l X. apply L. apply (near_lib n _ _ p HA q l Hq A); [congruence|exact X].
  - apply (near_chain n _ _ p HA q q' Hq A); [congruence|exact C].
  - intros l X. apply L. apply (near_lib n _ _ p HA q l Hq A); [congruence|exact X].
  - apply (near_chain n _ _ p HA q q' Hq A); [congruence|exact C].
Qed.

(** ** The shape of an eye, at most two rows and columns away *)
Section Window.
  Context (n : nat * nat) (P Q : pos) (p : coord) (c : color).
  Hypothesis H : forall q, ron n q -> within_two p q -> P q = Q q.
  Hypothesis Hp : ron n p.

  Lemma direction_one d : d ∈ directions -> (fst d = 1 \/ fst d = -1)%Z /\ (snd d = 1 \/ snd d = -1)%Z.
  Proof. unfold directions. rewrite !elem_of_cons, elem_of_nil. intros [->|[->|[->|[->|[]]]]]; cbn; lia. Qed.

  Lemma corner_safes a k : (forall q d, d ∈ directions -> corner a d q -> within_two p q) -> rsafe_corners n P c a k -> rsafe_corners n Q c a k.
  Proof using H.
    intros Hw (l & Nd & L & K). exists l. split; [exact Nd|]. split; [exact L|]. intros d. rewrite K. split; (intros [D S]; split; [exact D|]); intros q Hq Hc; specialize (S q Hq Hc); pose proof (H q Hq (Hw q d D Hc)); congruence.
  Qed.
  Lemma window_corner d q : d ∈ directions -> corner p d q -> within_two p q.
  Proof. intros D [A B]. apply direction_one in D as [D1 D2]. unfold within_two. lia. Qed.
  Lemma window_corners d q d' q' : d ∈ directions -> corner p d q -> d' ∈ directions -> corner q d' q' -> within_two p q'.
  Proof. intros D [A B] D' [A' B']. apply direction_one in D as [D1 D2]. apply direction_one in D' as [D3 D4]. unfold within_two. lia. Qed.
  Lemma window_next d q r : d ∈ directions -> corner p d q -> adj q r -> within_two p r.
  Proof. intros D [A B] J. apply direction_one in D as [D1 D2]. unfold within_two, adj in *. lia. Qed.

  Lemma window_eye : reye_shape n P c p -> reye_shape n Q c p.
  Proof using H Hp.
    intros (He & Hnb & HC). split; [rewrite <- (H p Hp); [exact He|unfold within_two; lia]|]. split.
    { intros q Hq Ha. rewrite <- (H q Hq); [apply Hnb; assumption|]. unfold within_two, adj in *. lia. }
    assert (S0 : forall k, rsafe_corners n P c p k -> rsafe_corners n Q c p k) by (intros k; apply corner_safes; intros q d; apply window_corner).
    destruct HC as [H4|[H23 (i & d & q & Hi & Hh & Hat & Hs & Hall)]]; [left; exact (S0 4 H4)|right]. pose proof (elem_of_list_lookup_2 _ _ _ Hi) as D. destruct Hh as (Hq & Hc & E).
    split; [destruct H23 as [K|K]; [left|right]; apply S0, K|]. exists i, d, q. split; [exact Hi|].
    split; [split; [exact Hq|]; split; [exact Hc|]; rewrite <- (H q Hq (window_corner d q D Hc)); exact E|]. split.
    { intros (r & Hr & J & F). apply Hat. exists r. rewrite (H r Hr (window_next d q r D Hc J)). auto. }
    split.
    { destruct Hs as [K|K]; [left|right]; (eapply corner_safes; [|exact K]); intros q' d' D' Hc'; exact (window_corners d q d' q' D Hc D' Hc'). }
    intros j d' q' Hj Hd' (Hq' & Hc' & E') (r & Hr & J & F). pose proof (elem_of_list_lookup_2 _ _ _ Hd') as D'.
    apply (Hall j d' q' Hj Hd'); [split; [exact Hq'|]; split; [exact Hc'|]; rewrite (H q' Hq' (window_corner d' q' D' Hc')); exact E'|].
    exists r. rewrite (H r Hr (window_next d' q' r D' Hc' J)). auto.
  Qed.
End Window.

Lemma near_captures n P Q p c : alike_near n p P Q -> ron n p -> P p = None -> rcaptures n Q p c -> rcaptures n P p c.
Proof. intros HA Hp He (q & Hq & T). exists q. split; [exact Hq|]. apply (near_taken n P Q p c HA Hp He), T. Qed.

(** ** Games *)
Theorem local_verdict dbg dbg' n b w b' w' g h x y v : Nat.divide (snd n) (fst n) -> rgreach dbg n b w g -> rgreach dbg' n b' w' h -> ron n (x, y) ->
  ~ no_slot_left g -> ~ no_slot_left h -> position g (x, y) = None -> alike_near n (x, y) (position g) (position h) ->
  gm_turn h = gm_turn g -> gm_rule h = gm_rule g -> (gm_passes g = 2 <-> gm_passes h = 2) -> (gm_ko_point g = Some (x, y) <-> gm_ko_point h = Some (x, y)) ->
  forbids_fill_eye (gm_rule g) = false \/ (forall q, ron n q -> within_two (x, y) q -> position g q = position h q) ->
  forbids_superko (gm_rule g) = false \/ ~ rcaptures n (position g) (x, y) (gm_turn g) ->
  (exists g', try_play dbg g (MPlay x y) = Ok (g', v)) <-> (exists h', try_play dbg' h (MPlay x y) = Ok (h', v)).
Proof.
  intros Hd HG HH Hp LG LH He HA T R Ps K F S. pose proof (near_empty n _ _ _ HA Hp He) as He'.
  rewrite (rverdict_exact dbg n b w g x y v Hd HG Hp LG), (rverdict_exact dbg' n b' w' h x y v Hd HH Hp LH). unfold rjudged. rewrite R.
  assert (X : Forall2 (fun a b => fst a = fst b /\ (snd a <-> snd b)) (rreasons n (flag_illegal (gm_rule g)) (table_of g) (x, y)) (rreasons n (flag_illegal (gm_rule g)) (table_of h) (x, y))).
  { unfold rreasons, rpoint_reasons.
    pose proof (near_ko n (table_of g) (table_of h) (x, y) HA K) as B. pose proof (near_suicidal n _ _ (x, y) (gm_turn g) HA Hp He) as U.
    repeat apply Forall2_cons_2; try apply Forall2_nil_2; cbn [fst snd t_pos t_turn t_passes table_of]; (split; [reflexivity|]).
    - exact Ps.
    - rewrite He, He'. tauto.
    - rewrite T, U. reflexivity.
    - rewrite B. reflexivity.
    - destruct F as [F|F]; [split; intros [X _]; unfold forbids_fill_eye in F; unfold no_fill_eye in X; congruence|]. rewrite T.
      split; (intros [X Y]; split; [exact X|]); (eapply window_eye; [|exact Hp|exact Y]); [exact F|]. intros q Hq W. symmetry. exact (F q Hq W).
    - destruct S as [S|S]; [split; intros [X _]; unfold forbids_superko in S; unfold no_superko in X; congruence|].
      split; intros (_ & _ & C & _); exfalso; apply S; [exact C|]. cbn [t_pos t_turn table_of] in C. rewrite T in C. exact (near_captures n _ _ _ _ HA Hp He C). }
  split; apply first_reason_ext; [exact X|]. apply Forall2_flip. eapply Forall2_impl; [exact X|]. intros a c [E I]. split; [symmetry; exact E|tauto].
Qed.

(** the board after the move *)
Theorem local_effect dbg dbg' n b w b' w' g h x y g' h' : Nat.divide (snd n) (fst n) -> rgreach dbg n b w g -> rgreach dbg' n b' w' h -> ron n (x, y) ->
  alike_near n (x, y) (position g) (position h) -> gm_turn h = gm_turn g -> gm_rule h = gm_rule g ->
  try_play dbg g (MPlay x y) = Ok (g', Accepted) -> try_play dbg' h (MPlay x y) = Ok (h', Accepted) ->
  forall q, ron n q -> (near n (position g) (x, y) q -> position g' q = position h' q) /\
    (~ near n (position g) (x, y) q -> position g' q = position g q /\ position h' q = position h q).
Proof.
  intros Hd HG HH Hp HA T R E E' q Hq.
  pose proof (rgreach_inv _ _ _ _ _ Hd HG) as G. pose proof (rgreach_inv _ _ _ _ _ Hd HH) as H.
  destruct (raccepted_empty dbg n g x y g' (rgi_wf _ _ _ _ G) (rgi_hist _ _ _ _ G) Hp E) as (He & _).
  destruct (raccepted_empty dbg' n h x y h' (rgi_wf _ _ _ _ H) (rgi_hist _ _ _ _ H) Hp E') as (He' & _).
  destruct (try_play_inv _ _ _ _ _ E) as [(e & X & _)|(_ & _ & Ep)]; [discriminate|]. destruct (try_play_inv _ _ _ _ _ E') as [(e & X & _)|(_ & _ & Ep')]; [discriminate|].
  destruct (rplay_spec dbg n b w g x y G Hp He) as [[X _]|(g1 & E1 & G1 & M & _)]; [congruence|]. rewrite Ep in E1. injection E1 as <-.
  destruct (rplay_spec dbg' n b' w' h x y H Hp He') as [[X _]|(h1 & E1 & H1 & M' & _)]; [congruence|]. rewrite Ep' in E1. injection E1 as <-.
  rewrite R, T in M'. split.
  - intros N. apply (move_near n (position g) (position h) (x, y) (gm_turn g) _ _ _ q HA Hp He M M' Hq N).
  - intros N. split; [exact (move_far n _ _ _ _ _ q Hp He M Hq N)|]. apply (move_far n _ _ _ _ _ q Hp He' M' Hq). intros N'. apply N, (near_both n _ _ _ HA q), N'.
Qed.
