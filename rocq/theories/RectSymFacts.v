(** Equivariance of the rules under symmetries of a rectangle; [SymFacts.v] for boards of any size. *)
From stdpp Require Import relations.
From Verif Require Import RectSymSpec RectReach RectVerdictSpec RectTableSpec.
From Verif Require Import Struct Push Bridge MonadFacts GameFacts RulesFacts BoardFacts CheckFacts EyeFacts LegalFacts LegalsFacts SymFacts RectCoord RectInv RectBridge RectGame RectRules RectKo RectBoard RectCheck RectEye RectMoves RectLegal.
From Coq Require Import Lia.

Local Notation length := Datatypes.length.

Lemma rboard_sym_sym n σ τ γ : rboard_sym n σ τ γ -> rboard_sym n τ σ γ.
Proof. intros [A B C D E F G]. constructor; assumption. Qed.

Lemma rectangle_ok n k γ : (k < 4)%nat -> (forall c, γ (γ c) = c) -> rboard_sym n (rectangle_symmetry n k) (rectangle_symmetry n k) γ.
Proof.
  intros Hk Hγ. destruct n as [h w].
  do 4 (destruct k as [|k]; [constructor; [..|exact Hγ]; unfold ron, adj; intros;
    repeat match goal with p : coord |- _ => destruct p end; cbn [fst snd rectangle_symmetry] in *; try (f_equal; lia); lia|]). lia.
Qed.

Section Sym.
  Context (n : size_t) (σ τ : coord -> coord) (γ : color -> color).
  Hypothesis S : rboard_sym n σ τ γ.

  Lemma rgamma_inj a b : γ a = γ b -> a = b.
  Proof. intros H. rewrite <- (rsy_color _ _ _ _ S a), H. apply (rsy_color _ _ _ _ S). Qed.
  Lemma rgamma_opp c : γ (opp c) = opp (γ c).
  Proof.
    pose proof (fun H => opp_ne c (rgamma_inj _ _ H)) as H. destruct (γ (opp c)) eqn:E, (γ c) eqn:E'; try reflexivity; exfalso; apply H; rewrite ?E, ?E'; reflexivity.
  Qed.
  Lemma romap_inj (a b : option color) : option_map γ a = option_map γ b -> a = b.
  Proof. destruct a, b; cbn; intros H; try discriminate; [|reflexivity]. injection H as H. f_equal. apply rgamma_inj, H. Qed.
  Lemma romap_some a c : option_map γ a = Some (γ c) <-> a = Some c.
  Proof. split; [|intros ->; reflexivity]. apply (romap_inj a (Some c)). Qed.
  Lemma omap_none a : option_map γ a = None <-> a = None.
  Proof. destruct a; split; intros; try discriminate; reflexivity. Qed.
  Lemma romap_invol a : option_map γ (option_map γ a) = a.
  Proof. destruct a; cbn; [|reflexivity]. rewrite (rsy_color _ _ _ _ S). reflexivity. Qed.
  Lemma rsigma_inj p q : ron n p -> ron n q -> σ p = σ q -> p = q.
  Proof. intros Hp Hq E. rewrite <- (rsy_left _ _ _ _ S p Hp), E. apply (rsy_left _ _ _ _ S q Hq). Qed.

  Lemma rimage_back P Q : rimage n σ γ P Q -> rimage n τ γ Q P.
  Proof.
    intros H p Hp. pose proof (rsy_on' _ _ _ _ S p Hp) as Ht. pose proof (H _ Ht) as E.
    rewrite (rsy_right _ _ _ _ S p Hp) in E. rewrite E, romap_invol. reflexivity.
  Qed.

  Lemma rimage_connected P Q p q : rimage n σ γ P Q -> ron n p -> rconnected n P p q -> rconnected n Q (σ p) (σ q).
  Proof.
    intros H Hp Hc. induction Hc as [|x y z (Hx & Hy & Ha & E) _ IH]; [apply rtc_refl|].
    eapply rtc_l; [|apply IH, Hy]. split; [apply (rsy_on _ _ _ _ S), Hx|]. split; [apply (rsy_on _ _ _ _ S), Hy|].
    split; [apply (rsy_adj _ _ _ _ S); assumption|]. rewrite (H x Hx), (H y Hy), E. reflexivity.
  Qed.

  Lemma rimage_liberty P Q p l : rimage n σ γ P Q -> ron n p -> rliberty n P p l -> rliberty n Q (σ p) (σ l).
  Proof.
    intros H Hp (Hl & E & q & Hc & Ha). split; [apply (rsy_on _ _ _ _ S), Hl|]. split; [rewrite (H l Hl), E; reflexivity|].
    exists (σ q). split; [apply (rimage_connected P); assumption|].
    apply (rsy_adj _ _ _ _ S); [apply (rconnected_on n P p q Hp Hc)|exact Hl|exact Ha].
  Qed.
End Sym.

Section Sym2.
  Context (n : size_t) (σ τ : coord -> coord) (γ : color -> color).
  Hypothesis S : rboard_sym n σ τ γ.
  Let T : rboard_sym n τ σ γ := rboard_sym_sym _ _ _ _ S.

  Lemma rconnected_iff P Q p q : rimage n σ γ P Q -> ron n p -> ron n q -> rconnected n P p q <-> rconnected n Q (σ p) (σ q).
  Proof.
    intros H Hp Hq. split; [apply (rimage_connected n σ τ γ S P Q p q H Hp)|]. intros Hc.
    pose proof (rimage_connected n τ σ γ T Q P _ _ (rimage_back n σ τ γ S P Q H) (rsy_on _ _ _ _ S p Hp) Hc) as K.
    rewrite !(rsy_left _ _ _ _ S) in K by assumption. exact K.
  Qed.

  Lemma rliberty_iff P Q p l : rimage n σ γ P Q -> ron n p -> ron n l -> rliberty n P p l <-> rliberty n Q (σ p) (σ l).
  Proof.
    intros H Hp Hl. split; [apply (rimage_liberty n σ τ γ S P Q p l H Hp)|]. intros Hc.
    pose proof (rimage_liberty n τ σ γ T Q P _ _ (rimage_back n σ τ γ S P Q H) (rsy_on _ _ _ _ S p Hp) Hc) as K.
    rewrite !(rsy_left _ _ _ _ S) in K by assumption. exact K.
  Qed.

  Lemma radj_iff p q : ron n p -> ron n q -> adj p q <-> adj (σ p) (σ q).
  Proof.
    intros Hp Hq. split; [apply (rsy_adj _ _ _ _ S); assumption|]. intros H.
    pose proof (rsy_adj' _ _ _ _ S (σ p) (σ q) (rsy_on _ _ _ _ S p Hp) (rsy_on _ _ _ _ S q Hq) H) as K.
    rewrite !(rsy_left _ _ _ _ S) in K by assumption. exact K.
  Qed.

  (** every point is an image *)
  Lemma ronto q : ron n q -> exists p, ron n p /\ q = σ p.
  Proof. intros Hq. exists (τ q). split; [apply (rsy_on' _ _ _ _ S), Hq|symmetry; apply (rsy_right _ _ _ _ S), Hq]. Qed.

  Lemma rbreathes_iff P Q p : rimage n σ γ P Q -> ron n p -> rbreathes n P p <-> rbreathes n Q (σ p).
  Proof.
    intros H Hp. split.
    - intros [l Hl]. exists (σ l). apply (rimage_liberty n σ τ γ S P Q p l H Hp Hl).
    - intros [l Hl]. destruct (ronto l (proj1 Hl)) as (l0 & Hl0 & ->). exists l0. apply (rliberty_iff P Q p l0 H Hp Hl0), Hl.
  Qed.

  Lemma rimage_same P P' Q Q' : rimage n σ γ P Q -> rsame_pos n P P' -> rsame_pos n Q Q' -> rimage n σ γ P' Q'.
  Proof. intros H E F p Hp. rewrite <- (E p Hp), <- (F _ (rsy_on _ _ _ _ S p Hp)). apply H, Hp. Qed.

  Lemma rimage_det P Q Q' : rimage n σ γ P Q -> rimage n σ γ P Q' -> rsame_pos n Q Q'.
  Proof. intros H H' q Hq. destruct (ronto q Hq) as (p & Hp & ->). rewrite (H p Hp), (H' p Hp). reflexivity. Qed.

  Lemma rsame_pos_iff P Q P' Q' : rimage n σ γ P Q -> rimage n σ γ P' Q' -> rsame_pos n P P' <-> rsame_pos n Q Q'.
  Proof.
    intros H H'. split; intros E.
    - intros q Hq. destruct (ronto q Hq) as (p & Hp & ->). rewrite (H p Hp), (H' p Hp), (E p Hp). reflexivity.
    - intros p Hp. apply (romap_inj n σ τ γ S). rewrite <- (H p Hp), <- (H' p Hp). apply E, (rsy_on _ _ _ _ S), Hp.
  Qed.

  Lemma rimage_put P Q p c : rimage n σ γ P Q -> ron n p -> rimage n σ γ (put P p c) (put Q (σ p) (γ c)).
  Proof.
    intros H Hp q Hq. unfold put. destruct (decide (q = p)) as [->|N]; [rewrite decide_True by reflexivity; reflexivity|].
    rewrite decide_False; [apply H, Hq|]. intros E. apply N, (rsigma_inj n σ τ γ S); assumption.
  Qed.

  Lemma rcolor_iff P Q p c : rimage n σ γ P Q -> ron n p -> P p = Some c <-> Q (σ p) = Some (γ c).
  Proof. intros H Hp. rewrite (H p Hp). symmetry. apply (romap_some n σ τ γ S). Qed.
  Lemma rnone_iff P Q p : rimage n σ γ P Q -> ron n p -> P p = None <-> Q (σ p) = None.
  Proof. intros H Hp. rewrite (H p Hp). symmetry. apply omap_none. Qed.

  Lemma rtaken_iff P Q p c q : rimage n σ γ P Q -> ron n p -> ron n q ->
    rtaken n P p c q <-> rtaken n Q (σ p) (γ c) (σ q).
  Proof.
    intros H Hp Hq. split.
    - intros (t & Ht & Ha & Hc & Hcon & Hb). exists (σ t). split; [apply (rsy_on _ _ _ _ S), Ht|].
      split; [first [apply (rsy_adj _ _ _ _ S); assumption|apply radj_iff; assumption]|]. split; [rewrite <- (rgamma_opp n σ τ γ S); apply (rcolor_iff P Q t); assumption|].
      split; [apply (rconnected_iff P Q); assumption|]. intros K. apply Hb, (rbreathes_iff P Q t H Ht), K.
    - intros (t & Ht & Ha & Hc & Hcon & Hb). destruct (ronto t Ht) as (t0 & Ht0 & ->). exists t0. split; [exact Ht0|].
      split; [first [apply (rsy_adj _ _ _ _ S); assumption|apply radj_iff; assumption]|]. split; [apply (rcolor_iff P Q t0); [assumption..|rewrite (rgamma_opp n σ τ γ S); exact Hc]|].
      split; [apply (rconnected_iff P Q); assumption|]. intros K. apply Hb, (rbreathes_iff P Q t0 H Ht0), K.
  Qed.

  Lemma rcleared_image D E P Q P' Q' : rimage n σ γ P Q -> (forall q, ron n q -> D q <-> E (σ q)) ->
    (forall q, ron n q -> D q \/ ~ D q) ->
    rcleared n D P P' -> rcleared n E Q Q' -> rimage n σ γ P' Q'.
  Proof.
    intros H HD Dec C1 C2 p Hp. destruct (C1 p Hp) as [A B], (C2 (σ p) (rsy_on _ _ _ _ S p Hp)) as [A' B'].
    destruct (Dec p Hp) as [d|d].
    - rewrite (A d), (A' (proj1 (HD p Hp) d)). reflexivity.
    - rewrite (B d), B'; [apply H, Hp|]. intros e. apply d, (HD p Hp), e.
  Qed.

  Lemma rgo_move_image s P Q p c R R' : fits n -> rimage n σ γ P Q -> ron n p ->
    rgo_move s n P p c R -> rgo_move s n Q (σ p) (γ c) R' -> rimage n σ γ R R'.
  Proof.
    intros Hn H Hp (P1 & C1 & C2) (Q1 & C1' & C2').
    pose proof (rimage_put P Q p c H Hp) as HP.
    assert (H1 : rimage n σ γ P1 Q1).
    { apply (rcleared_image (rtaken n (put P p c) p c) (rtaken n (put Q (σ p) (γ c)) (σ p) (γ c)) _ _ P1 Q1 HP); [..|exact C1|exact C1'].
      - intros q Hq. apply (rtaken_iff _ _ p c q HP Hp Hq).
      - intros q Hq. apply rtaken_dec; assumption. }
    assert (Hne : P1 p <> None).
    { rewrite (proj2 (C1 p Hp)); [rewrite put_at; discriminate|]. apply rnot_taken_own, put_at. }
    apply (rcleared_image (fun q => s = true /\ ~ rbreathes n P1 p /\ rconnected n P1 p q) (fun q => s = true /\ ~ rbreathes n Q1 (σ p) /\ rconnected n Q1 (σ p) q) _ _ R R' H1); [..|exact C2|exact C2'].
    - intros q Hq. rewrite (rbreathes_iff P1 Q1 p H1 Hp), (rconnected_iff P1 Q1 p q H1 Hp Hq). reflexivity.
    - intros q Hq. destruct s; [|right; intros [? _]; discriminate].
      destruct (rbreathes_dec n P1 p Hn Hp Hne) as [b|b]; [right; tauto|].
      destruct (rconnected_dec n P1 p q Hn Hp Hne) as [d|d]; [left|right]; tauto.
  Qed.

  Lemma rsuicidal_iff P Q p c : fits n -> rimage n σ γ P Q -> ron n p ->
    rsuicidal n P p c <-> rsuicidal n Q (σ p) (γ c).
  Proof.
    intros Hn H Hp. pose proof (rimage_put P Q p c H Hp) as HP.
    destruct (rcleared_ex n (rtaken n (put P p c) p c) (put P p c)) as [P1 C1]; [intros q Hq; apply rtaken_dec; assumption|].
    destruct (rcleared_ex n (rtaken n (put Q (σ p) (γ c)) (σ p) (γ c)) (put Q (σ p) (γ c))) as [Q1 C2]; [intros q Hq; apply rtaken_dec; assumption|].
    assert (H1 : rimage n σ γ P1 Q1).
    { apply (rcleared_image (rtaken n (put P p c) p c) (rtaken n (put Q (σ p) (γ c)) (σ p) (γ c)) _ _ P1 Q1 HP); [..|exact C1|exact C2].
      - intros q Hq. apply (rtaken_iff _ _ p c q HP Hp Hq).
      - intros q Hq. apply rtaken_dec; assumption. }
    split.
    - intros (P2 & C & Hd). exists Q1. split; [exact C2|]. intros K. apply Hd. apply (rbreathes_iff P1 Q1 p H1 Hp) in K.
      eapply rbreathes_ext; [|exact K]. eapply rcleared_det; [reflexivity|apply rsame_pos_refl|exact C|exact C1].
    - intros (Q2 & C & Hd). exists P1. split; [exact C1|]. intros K. apply Hd. apply (rbreathes_iff P1 Q1 p H1 Hp) in K.
      eapply rbreathes_ext; [|exact K]. eapply rcleared_det; [reflexivity|apply rsame_pos_refl|exact C|exact C2].
  Qed.

  Lemma rone_friend_iff P Q p c : rimage n σ γ P Q -> ron n p -> rone_friend n P p c <-> rone_friend n Q (σ p) (γ c).
  Proof.
    intros H Hp. split.
    - intros (q & Hq & Ha & Hc & Hu). exists (σ q). split; [apply (rsy_on _ _ _ _ S), Hq|]. split; [first [apply (rsy_adj _ _ _ _ S); assumption|apply radj_iff; assumption]|].
      split; [apply (rcolor_iff P Q q c H Hq), Hc|]. intros t Ht Hta Htc. destruct (ronto t Ht) as (t0 & Ht0 & ->).
      apply (rconnected_iff P Q q t0 H Hq Ht0), Hu; [exact Ht0|first [apply (rsy_adj _ _ _ _ S); assumption|apply radj_iff; assumption]|apply (rcolor_iff P Q t0 c H Ht0), Htc].
    - intros (q & Hq & Ha & Hc & Hu). destruct (ronto q Hq) as (q0 & Hq0 & ->). exists q0. split; [exact Hq0|]. split; [first [apply (rsy_adj _ _ _ _ S); assumption|apply radj_iff; assumption]|].
      split; [apply (rcolor_iff P Q q0 c H Hq0), Hc|]. intros t Ht Hta Htc.
      apply (rconnected_iff P Q q0 t H Hq0 Ht), Hu; [apply (rsy_on _ _ _ _ S), Ht|first [apply (rsy_adj _ _ _ _ S); assumption|apply radj_iff; assumption]|apply (rcolor_iff P Q t c H Ht), Htc].
  Qed.

  Lemma rcaptures_iff P Q p c : rimage n σ γ P Q -> ron n p -> rcaptures n P p c <-> rcaptures n Q (σ p) (γ c).
  Proof.
    intros H Hp. pose proof (rimage_put P Q p c H Hp) as HP. split.
    - intros (q & Hq & Ht). exists (σ q). split; [apply (rsy_on _ _ _ _ S), Hq|]. apply (rtaken_iff _ _ _ _ _ HP Hp Hq), Ht.
    - intros (q & Hq & Ht). destruct (ronto q Hq) as (q0 & Hq0 & ->). exists q0. split; [exact Hq0|]. apply (rtaken_iff _ _ _ _ _ HP Hp Hq0), Ht.
  Qed.

  Lemma rcaptures_only_iff P Q p c q : rimage n σ γ P Q -> ron n p -> ron n q ->
    rcaptures_only n P p c q <-> rcaptures_only n Q (σ p) (γ c) (σ q).
  Proof.
    intros H Hp Hq. pose proof (rimage_put P Q p c H Hp) as HP. split.
    - intros (_ & Ht & Hu). split; [apply (rsy_on _ _ _ _ S), Hq|]. split; [apply (rtaken_iff _ _ _ _ _ HP Hp Hq), Ht|].
      intros x Hx Hxt. destruct (ronto x Hx) as (x0 & Hx0 & ->). f_equal. apply (Hu x0 Hx0), (rtaken_iff _ _ _ _ _ HP Hp Hx0), Hxt.
    - intros (_ & Ht & Hu). split; [exact Hq|]. split; [apply (rtaken_iff _ _ _ _ _ HP Hp Hq), Ht|].
      intros x Hx Hxt. apply (rsigma_inj n σ τ γ S); [assumption..|]. apply Hu; [apply (rsy_on _ _ _ _ S), Hx|]. apply (rtaken_iff _ _ _ _ _ HP Hp Hx), Hxt.
  Qed.

  Lemma rko_shape_half P Q p : rimage n σ γ P Q -> ron n p -> rko_shape n P p -> rko_shape n Q (σ p).
  Proof.
    intros H Hp K t Ht Ha Hne Hl t' Hc. destruct (ronto t Ht) as (t0 & Ht0 & ->).
    pose proof (rconnected_on n Q _ _ Ht Hc) as Ht'. destruct (ronto t' Ht') as (t1 & Ht1 & ->). f_equal.
    apply (K t0 Ht0); [first [apply (rsy_adj _ _ _ _ S); assumption|apply radj_iff; assumption]|intros E; apply Hne, (rnone_iff P Q t0 H Ht0), E| |apply (rconnected_iff P Q); assumption].
    intros l Hll. pose proof (proj1 Hll) as Hlo. apply (rsigma_inj n σ τ γ S); [assumption..|]. apply Hl, (rliberty_iff P Q); assumption.
  Qed.

  Lemma rcount_image P Q c : rimage n σ γ P Q -> rcount n Q (γ c) = rcount n P c.
  Proof.
    intros H. unfold rcount.
    assert (Perm : rpoints n ≡ₚ σ <$> rpoints n).
    { apply NoDup_Permutation; [apply NoDup_rpoints| |].
      - apply NoDup_fmap_in; [|apply NoDup_rpoints]. intros x y Hx Hy. apply elem_of_rpoints in Hx, Hy. apply (rsigma_inj n σ τ γ S); assumption.
      - intros x. rewrite elem_of_list_fmap. split.
        + intros Hx. apply elem_of_rpoints in Hx. destruct (ronto x Hx) as (y & Hy & ->). exists y. split; [reflexivity|apply elem_of_rpoints, Hy].
        + intros (y & -> & Hy). apply elem_of_rpoints. apply elem_of_rpoints in Hy. apply (rsy_on _ _ _ _ S), Hy. }
    rewrite Perm at 1.
    assert (K : forall l, (forall p, p ∈ l -> ron n p) ->
      length (filter (fun p => Q p = Some (γ c)) (σ <$> l)) = length (filter (fun p => P p = Some c) l)).
    { induction l as [|p l IH]; intros Hl; [reflexivity|]. cbn [fmap list_fmap]. rewrite !filter_cons.
      assert (Hp : ron n p) by (apply Hl; left). assert (IH' := IH (fun q Hq => Hl q (elem_of_list_further _ _ _ Hq))).
      pose proof (rcolor_iff P Q p c H Hp) as E. destruct (decide (P p = Some c)) as [d|d], (decide (Q (σ p) = Some (γ c))) as [e|e]; try tauto; cbn [length]; f_equal; exact IH'. }
    apply K. intros p Hp. apply elem_of_rpoints, Hp.
  Qed.
End Sym2.

Lemma rko_shape_iff n σ τ γ P Q p : rboard_sym n σ τ γ -> rimage n σ γ P Q -> ron n p -> rko_shape n P p <-> rko_shape n Q (σ p).
Proof.
  intros S H Hp. split; [apply (rko_shape_half n σ τ γ S); assumption|]. intros K.
  pose proof (rko_shape_half n τ σ γ (rboard_sym_sym _ _ _ _ S) Q P (σ p) (rimage_back n σ τ γ S P Q H) (rsy_on _ _ _ _ S p Hp) K) as K'.
  rewrite (rsy_left _ _ _ _ S p Hp) in K'. exact K'.
Qed.
