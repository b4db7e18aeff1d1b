(** Equivariance of the rules under symmetries. *)
From stdpp Require Import relations.
From Verif Require Import SymSpec Struct Push Remove Capture Inv Bridge MonadFacts GameFacts RulesFacts KoFacts BoardFacts CheckFacts EyeFacts LegalFacts LegalsFacts.
From Coq Require Import Lia.

Local Notation length := Datatypes.length.

Lemma board_sym_sym n σ τ γ : board_sym n σ τ γ -> board_sym n τ σ γ.
Proof. intros [A B C D E F G]. constructor; assumption. Qed.

Lemma square_ok n k γ : (k < 8)%nat -> (forall c, γ (γ c) = c) ->
  board_sym n (square_symmetry n k) (square_symmetry n (match k with 5 => 6 | 6 => 5 | _ => k end)) γ.
Proof.
  intros Hk Hγ.
  do 8 (destruct k as [|k]; [constructor; [..|exact Hγ]; unfold on, adj; intros;
    repeat match goal with p : coord |- _ => destruct p end; cbn [fst snd square_symmetry] in *; try (f_equal; lia); lia|]). lia.
Qed.

Section Sym.
  Context (n : nat) (σ τ : coord -> coord) (γ : color -> color).
  Hypothesis S : board_sym n σ τ γ.

  Lemma gamma_inj a b : γ a = γ b -> a = b.
  Proof. intros H. rewrite <- (sy_color _ _ _ _ S a), H. apply (sy_color _ _ _ _ S). Qed.
  Lemma gamma_opp c : γ (opp c) = opp (γ c).
  Proof.
    pose proof (fun H => opp_ne c (gamma_inj _ _ H)) as H. destruct (γ (opp c)) eqn:E, (γ c) eqn:E'; try reflexivity; exfalso; apply H; rewrite ?E, ?E'; reflexivity.
  Qed.
  Lemma omap_inj (a b : option color) : option_map γ a = option_map γ b -> a = b.
  Proof. destruct a, b; cbn; intros H; try discriminate; [|reflexivity]. injection H as H. f_equal. apply gamma_inj, H. Qed.
  Lemma omap_some a c : option_map γ a = Some (γ c) <-> a = Some c.
  Proof. split; [|intros ->; reflexivity]. apply (omap_inj a (Some c)). Qed.
  Lemma omap_none a : option_map γ a = None <-> a = None.
  Proof. destruct a; split; intros; try discriminate; reflexivity. Qed.
  Lemma omap_invol a : option_map γ (option_map γ a) = a.
  Proof. destruct a; cbn; [|reflexivity]. rewrite (sy_color _ _ _ _ S). reflexivity. Qed.
  Lemma sigma_inj p q : on n p -> on n q -> σ p = σ q -> p = q.
  Proof. intros Hp Hq E. rewrite <- (sy_left _ _ _ _ S p Hp), E. apply (sy_left _ _ _ _ S q Hq). Qed.

  Lemma image_back P Q : image n σ γ P Q -> image n τ γ Q P.
  Proof.
    intros H p Hp. pose proof (sy_on' _ _ _ _ S p Hp) as Ht. pose proof (H _ Ht) as E.
    rewrite (sy_right _ _ _ _ S p Hp) in E. rewrite E, omap_invol. reflexivity.
  Qed.

  Lemma image_connected P Q p q : image n σ γ P Q -> on n p -> connected n P p q -> connected n Q (σ p) (σ q).
  Proof.
    intros H Hp Hc. induction Hc as [|x y z (Hx & Hy & Ha & E) _ IH]; [apply rtc_refl|].
    eapply rtc_l; [|apply IH, Hy]. split; [apply (sy_on _ _ _ _ S), Hx|]. split; [apply (sy_on _ _ _ _ S), Hy|].
    split; [apply (sy_adj _ _ _ _ S); assumption|]. rewrite (H x Hx), (H y Hy), E. reflexivity.
  Qed.

  Lemma image_liberty P Q p l : image n σ γ P Q -> on n p -> liberty n P p l -> liberty n Q (σ p) (σ l).
  Proof.
    intros H Hp (Hl & E & q & Hc & Ha). split; [apply (sy_on _ _ _ _ S), Hl|]. split; [rewrite (H l Hl), E; reflexivity|].
    exists (σ q). split; [apply (image_connected P); assumption|].
    apply (sy_adj _ _ _ _ S); [apply (connected_on n P p q Hp Hc)|exact Hl|exact Ha].
  Qed.
End Sym.

Section Sym2.
  Context (n : nat) (σ τ : coord -> coord) (γ : color -> color).
  Hypothesis S : board_sym n σ τ γ.
  Let T : board_sym n τ σ γ := board_sym_sym _ _ _ _ S.

  Lemma connected_iff P Q p q : image n σ γ P Q -> on n p -> on n q -> connected n P p q <-> connected n Q (σ p) (σ q).
  Proof.
    intros H Hp Hq. split; [apply (image_connected n σ τ γ S P Q p q H Hp)|]. intros Hc.
    pose proof (image_connected n τ σ γ T Q P _ _ (image_back n σ τ γ S P Q H) (sy_on _ _ _ _ S p Hp) Hc) as K.
    rewrite !(sy_left _ _ _ _ S) in K by assumption. exact K.
  Qed.

  Lemma liberty_iff P Q p l : image n σ γ P Q -> on n p -> on n l -> liberty n P p l <-> liberty n Q (σ p) (σ l).
  Proof.
    intros H Hp Hl. split; [apply (image_liberty n σ τ γ S P Q p l H Hp)|]. intros Hc.
    pose proof (image_liberty n τ σ γ T Q P _ _ (image_back n σ τ γ S P Q H) (sy_on _ _ _ _ S p Hp) Hc) as K.
    rewrite !(sy_left _ _ _ _ S) in K by assumption. exact K.
  Qed.

  Lemma adj_iff p q : on n p -> on n q -> adj p q <-> adj (σ p) (σ q).
  Proof.
    intros Hp Hq. split; [apply (sy_adj _ _ _ _ S); assumption|]. intros H.
    pose proof (sy_adj' _ _ _ _ S (σ p) (σ q) (sy_on _ _ _ _ S p Hp) (sy_on _ _ _ _ S q Hq) H) as K.
    rewrite !(sy_left _ _ _ _ S) in K by assumption. exact K.
  Qed.

  (** every point is an image *)
  Lemma onto q : on n q -> exists p, on n p /\ q = σ p.
  Proof. intros Hq. exists (τ q). split; [apply (sy_on' _ _ _ _ S), Hq|symmetry; apply (sy_right _ _ _ _ S), Hq]. Qed.

  Lemma breathes_iff P Q p : image n σ γ P Q -> on n p -> breathes n P p <-> breathes n Q (σ p).
  Proof.
    intros H Hp. split.
    - intros [l Hl]. exists (σ l). apply (image_liberty n σ τ γ S P Q p l H Hp Hl).
    - intros [l Hl]. destruct (onto l (proj1 Hl)) as (l0 & Hl0 & ->). exists l0. apply (liberty_iff P Q p l0 H Hp Hl0), Hl.
  Qed.

  Lemma image_same P P' Q Q' : image n σ γ P Q -> same_pos n P P' -> same_pos n Q Q' -> image n σ γ P' Q'.
  Proof. intros H E F p Hp. rewrite <- (E p Hp), <- (F _ (sy_on _ _ _ _ S p Hp)). apply H, Hp. Qed.

  Lemma image_det P Q Q' : image n σ γ P Q -> image n σ γ P Q' -> same_pos n Q Q'.
  Proof. intros H H' q Hq. destruct (onto q Hq) as (p & Hp & ->). rewrite (H p Hp), (H' p Hp). reflexivity. Qed.

  Lemma same_pos_iff P Q P' Q' : image n σ γ P Q -> image n σ γ P' Q' -> same_pos n P P' <-> same_pos n Q Q'.
  Proof.
    intros H H'. split; intros E.
    - intros q Hq. destruct (onto q Hq) as (p & Hp & ->). rewrite (H p Hp), (H' p Hp), (E p Hp). reflexivity.
    - intros p Hp. apply (omap_inj n σ τ γ S). rewrite <- (H p Hp), <- (H' p Hp). apply E, (sy_on _ _ _ _ S), Hp.
  Qed.

  Lemma image_put P Q p c : image n σ γ P Q -> on n p -> image n σ γ (put P p c) (put Q (σ p) (γ c)).
  Proof.
    intros H Hp q Hq. unfold put. destruct (decide (q = p)) as [->|N]; [rewrite decide_True by reflexivity; reflexivity|].
    rewrite decide_False; [apply H, Hq|]. intros E. apply N, (sigma_inj n σ τ γ S); assumption.
  Qed.

  Lemma color_iff P Q p c : image n σ γ P Q -> on n p -> P p = Some c <-> Q (σ p) = Some (γ c).
  Proof. intros H Hp. rewrite (H p Hp). symmetry. apply (omap_some n σ τ γ S). Qed.
  Lemma none_iff P Q p : image n σ γ P Q -> on n p -> P p = None <-> Q (σ p) = None.
  Proof. intros H Hp. rewrite (H p Hp). symmetry. apply omap_none. Qed.

  Lemma taken_iff P Q p c q : image n σ γ P Q -> on n p -> on n q ->
    taken n P p c q <-> taken n Q (σ p) (γ c) (σ q).
  Proof.
    intros H Hp Hq. split.
    - intros (t & Ht & Ha & Hc & Hcon & Hb). exists (σ t). split; [apply (sy_on _ _ _ _ S), Ht|].
      split; [first [apply (sy_adj _ _ _ _ S); assumption|apply adj_iff; assumption]|]. split; [rewrite <- (gamma_opp n σ τ γ S); apply (color_iff P Q t); assumption|].
      split; [apply (connected_iff P Q); assumption|]. intros K. apply Hb, (breathes_iff P Q t H Ht), K.
    - intros (t & Ht & Ha & Hc & Hcon & Hb). destruct (onto t Ht) as (t0 & Ht0 & ->). exists t0. split; [exact Ht0|].
      split; [first [apply (sy_adj _ _ _ _ S); assumption|apply adj_iff; assumption]|]. split; [apply (color_iff P Q t0); [assumption..|rewrite (gamma_opp n σ τ γ S); exact Hc]|].
      split; [apply (connected_iff P Q); assumption|]. intros K. apply Hb, (breathes_iff P Q t0 H Ht0), K.
  Qed.

  Lemma cleared_image D E P Q P' Q' : image n σ γ P Q -> (forall q, on n q -> D q <-> E (σ q)) ->
    (forall q, on n q -> D q \/ ~ D q) ->
    cleared n D P P' -> cleared n E Q Q' -> image n σ γ P' Q'.
  Proof.
    intros H HD Dec C1 C2 p Hp. destruct (C1 p Hp) as [A B], (C2 (σ p) (sy_on _ _ _ _ S p Hp)) as [A' B'].
    destruct (Dec p Hp) as [d|d].
    - rewrite (A d), (A' (proj1 (HD p Hp) d)). reflexivity.
    - rewrite (B d), B'; [apply H, Hp|]. intros e. apply d, (HD p Hp), e.
  Qed.

  Lemma go_move_image s P Q p c R R' : (n <= 19)%nat -> image n σ γ P Q -> on n p ->
    go_move s n P p c R -> go_move s n Q (σ p) (γ c) R' -> image n σ γ R R'.
  Proof.
    intros Hn H Hp (P1 & C1 & C2) (Q1 & C1' & C2').
    pose proof (image_put P Q p c H Hp) as HP.
    assert (H1 : image n σ γ P1 Q1).
    { apply (cleared_image (taken n (put P p c) p c) (taken n (put Q (σ p) (γ c)) (σ p) (γ c)) _ _ P1 Q1 HP); [..|exact C1|exact C1'].
      - intros q Hq. apply (taken_iff _ _ p c q HP Hp Hq).
      - intros q Hq. apply taken_dec; assumption. }
    assert (Hne : P1 p <> None).
    { rewrite (proj2 (C1 p Hp)); [rewrite put_at; discriminate|]. apply not_taken_own, put_at. }
    apply (cleared_image (fun q => s = true /\ ~ breathes n P1 p /\ connected n P1 p q) (fun q => s = true /\ ~ breathes n Q1 (σ p) /\ connected n Q1 (σ p) q) _ _ R R' H1); [..|exact C2|exact C2'].
    - intros q Hq. rewrite (breathes_iff P1 Q1 p H1 Hp), (connected_iff P1 Q1 p q H1 Hp Hq). reflexivity.
    - intros q Hq. destruct s; [|right; intros [? _]; discriminate].
      destruct (breathes_dec n P1 p Hn Hp Hne) as [b|b]; [right; tauto|].
      destruct (connected_dec n P1 p q Hn Hp Hne) as [d|d]; [left|right]; tauto.
  Qed.

  Lemma suicidal_iff P Q p c : (n <= 19)%nat -> image n σ γ P Q -> on n p ->
    suicidal n P p c <-> suicidal n Q (σ p) (γ c).
  Proof.
    intros Hn H Hp. pose proof (image_put P Q p c H Hp) as HP.
    destruct (cleared_ex n (taken n (put P p c) p c) (put P p c)) as [P1 C1]; [intros q Hq; apply taken_dec; assumption|].
    destruct (cleared_ex n (taken n (put Q (σ p) (γ c)) (σ p) (γ c)) (put Q (σ p) (γ c))) as [Q1 C2]; [intros q Hq; apply taken_dec; assumption|].
    assert (H1 : image n σ γ P1 Q1).
    { apply (cleared_image (taken n (put P p c) p c) (taken n (put Q (σ p) (γ c)) (σ p) (γ c)) _ _ P1 Q1 HP); [..|exact C1|exact C2].
      - intros q Hq. apply (taken_iff _ _ p c q HP Hp Hq).
      - intros q Hq. apply taken_dec; assumption. }
    split.
    - intros (P2 & C & Hd). exists Q1. split; [exact C2|]. intros K. apply Hd. apply (breathes_iff P1 Q1 p H1 Hp) in K.
      eapply breathes_ext; [|exact K]. eapply cleared_det; [reflexivity|apply same_pos_refl|exact C|exact C1].
    - intros (Q2 & C & Hd). exists P1. split; [exact C1|]. intros K. apply Hd. apply (breathes_iff P1 Q1 p H1 Hp) in K.
      eapply breathes_ext; [|exact K]. eapply cleared_det; [reflexivity|apply same_pos_refl|exact C|exact C2].
  Qed.

  Lemma one_friend_iff P Q p c : image n σ γ P Q -> on n p -> one_friend n P p c <-> one_friend n Q (σ p) (γ c).
  Proof.
    intros H Hp. split.
    - intros (q & Hq & Ha & Hc & Hu). exists (σ q). split; [apply (sy_on _ _ _ _ S), Hq|]. split; [first [apply (sy_adj _ _ _ _ S); assumption|apply adj_iff; assumption]|].
      split; [apply (color_iff P Q q c H Hq), Hc|]. intros t Ht Hta Htc. destruct (onto t Ht) as (t0 & Ht0 & ->).
      apply (connected_iff P Q q t0 H Hq Ht0), Hu; [exact Ht0|first [apply (sy_adj _ _ _ _ S); assumption|apply adj_iff; assumption]|apply (color_iff P Q t0 c H Ht0), Htc].
    - intros (q & Hq & Ha & Hc & Hu). destruct (onto q Hq) as (q0 & Hq0 & ->). exists q0. split; [exact Hq0|]. split; [first [apply (sy_adj _ _ _ _ S); assumption|apply adj_iff; assumption]|].
      split; [apply (color_iff P Q q0 c H Hq0), Hc|]. intros t Ht Hta Htc.
      apply (connected_iff P Q q0 t H Hq0 Ht), Hu; [apply (sy_on _ _ _ _ S), Ht|first [apply (sy_adj _ _ _ _ S); assumption|apply adj_iff; assumption]|apply (color_iff P Q t c H Ht), Htc].
  Qed.

  Lemma captures_iff P Q p c : image n σ γ P Q -> on n p -> captures n P p c <-> captures n Q (σ p) (γ c).
  Proof.
    intros H Hp. pose proof (image_put P Q p c H Hp) as HP. split.
    - intros (q & Hq & Ht). exists (σ q). split; [apply (sy_on _ _ _ _ S), Hq|]. apply (taken_iff _ _ _ _ _ HP Hp Hq), Ht.
    - intros (q & Hq & Ht). destruct (onto q Hq) as (q0 & Hq0 & ->). exists q0. split; [exact Hq0|]. apply (taken_iff _ _ _ _ _ HP Hp Hq0), Ht.
  Qed.

  Lemma captures_only_iff P Q p c q : image n σ γ P Q -> on n p -> on n q ->
    captures_only n P p c q <-> captures_only n Q (σ p) (γ c) (σ q).
  Proof.
    intros H Hp Hq. pose proof (image_put P Q p c H Hp) as HP. split.
    - intros (_ & Ht & Hu). split; [apply (sy_on _ _ _ _ S), Hq|]. split; [apply (taken_iff _ _ _ _ _ HP Hp Hq), Ht|].
      intros x Hx Hxt. destruct (onto x Hx) as (x0 & Hx0 & ->). f_equal. apply (Hu x0 Hx0), (taken_iff _ _ _ _ _ HP Hp Hx0), Hxt.
    - intros (_ & Ht & Hu). split; [exact Hq|]. split; [apply (taken_iff _ _ _ _ _ HP Hp Hq), Ht|].
      intros x Hx Hxt. apply (sigma_inj n σ τ γ S); [assumption..|]. apply Hu; [apply (sy_on _ _ _ _ S), Hx|]. apply (taken_iff _ _ _ _ _ HP Hp Hx), Hxt.
  Qed.

  Lemma ko_shape_half P Q p : image n σ γ P Q -> on n p -> ko_shape n P p -> ko_shape n Q (σ p).
  Proof.
    intros H Hp K t Ht Ha Hne Hl t' Hc. destruct (onto t Ht) as (t0 & Ht0 & ->).
    pose proof (connected_on n Q _ _ Ht Hc) as Ht'. destruct (onto t' Ht') as (t1 & Ht1 & ->). f_equal.
    apply (K t0 Ht0); [first [apply (sy_adj _ _ _ _ S); assumption|apply adj_iff; assumption]|intros E; apply Hne, (none_iff P Q t0 H Ht0), E| |apply (connected_iff P Q); assumption].
    intros l Hll. pose proof (proj1 Hll) as Hlo. apply (sigma_inj n σ τ γ S); [assumption..|]. apply Hl, (liberty_iff P Q); assumption.
  Qed.

  Lemma count_image P Q c : image n σ γ P Q -> count n Q (γ c) = count n P c.
  Proof.
    intros H. unfold count.
    assert (Perm : points n ≡ₚ σ <$> points n).
    { apply NoDup_Permutation; [apply NoDup_points| |].
      - apply NoDup_fmap_in; [|apply NoDup_points]. intros x y Hx Hy. apply elem_of_points in Hx, Hy. apply (sigma_inj n σ τ γ S); assumption.
      - intros x. rewrite elem_of_list_fmap. split.
        + intros Hx. apply elem_of_points in Hx. destruct (onto x Hx) as (y & Hy & ->). exists y. split; [reflexivity|apply elem_of_points, Hy].
        + intros (y & -> & Hy). apply elem_of_points. apply elem_of_points in Hy. apply (sy_on _ _ _ _ S), Hy. }
    rewrite Perm at 1.
    assert (K : forall l, (forall p, p ∈ l -> on n p) ->
      length (filter (fun p => Q p = Some (γ c)) (σ <$> l)) = length (filter (fun p => P p = Some c) l)).
    { induction l as [|p l IH]; intros Hl; [reflexivity|]. cbn [fmap list_fmap]. rewrite !filter_cons.
      assert (Hp : on n p) by (apply Hl; left). assert (IH' := IH (fun q Hq => Hl q (elem_of_list_further _ _ _ Hq))).
      pose proof (color_iff P Q p c H Hp) as E. destruct (decide (P p = Some c)) as [d|d], (decide (Q (σ p) = Some (γ c))) as [e|e]; try tauto; cbn [length]; f_equal; exact IH'. }
    apply K. intros p Hp. apply elem_of_points, Hp.
  Qed.
End Sym2.

Lemma ko_shape_iff n σ τ γ P Q p : board_sym n σ τ γ -> image n σ γ P Q -> on n p -> ko_shape n P p <-> ko_shape n Q (σ p).
Proof.
  intros S H Hp. split; [apply (ko_shape_half n σ τ γ S); assumption|]. intros K.
  pose proof (ko_shape_half n τ σ γ (board_sym_sym _ _ _ _ S) Q P (σ p) (image_back n σ τ γ S P Q H) (sy_on _ _ _ _ S p Hp) K) as K'.
  rewrite (sy_left _ _ _ _ S p Hp) in K'. exact K'.
Qed.
