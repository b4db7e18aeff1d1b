(** The bans of a rule act independently of each other. *)
From stdpp Require Import list.
From Verif Require Import BansSpec Spec Observe Game MonadFacts ScoreFacts.
From Coq Require Import Lia.
Local Notation length := Datatypes.length.

Lemma ban_bits F : flag_contains F KO = N.testbit F 0 /\ flag_contains F SUPERKO = N.testbit F 1 /\ flag_contains F SUICIDE = N.testbit F 2 /\ flag_contains F FILLEYE = N.testbit F 3.
Proof. rewrite (flag_bit F 0 KO), (flag_bit F 1 SUPERKO), (flag_bit F 2 SUICIDE), (flag_bit F 3 FILLEYE) by reflexivity. auto. Qed.

(** what the four checks say, one after the other *)
Definition step (b : bool) (m : res bool) (e : play_error) (k : res (option play_error)) : res (option play_error) :=
  let! x := (if b then m else Ok false) in if x then Ok (Some e) else k.

Lemma check_steps dbg g p F : check_point_by dbg g p F =
  let! c := get_color (gm_goban g) p in
  match c with
  | Some _ => Ok (Some EPointNotEmpty)
  | None => step (N.testbit F 2) (check_suicide dbg g (p, gm_turn g)) ESuicide
             (step (N.testbit F 0) (check_ko dbg g (p, gm_turn g)) EKo
              (step (N.testbit F 3) (check_eye dbg g (p, gm_turn g)) EFillEye
               (step (N.testbit F 1) (check_super_ko dbg g (p, gm_turn g)) EKo (Ok None))))
  end.
Proof.
  unfold check_point_by. destruct (ban_bits F) as (-> & -> & -> & ->). unfold step. destruct (get_color _ _) as [[?|]| |]; reflexivity.
Qed.

Lemma same_bans dbg g p F F' : same_flags F F' -> check_point_by dbg g p F = check_point_by dbg g p F'.
Proof. intros S. rewrite !check_steps, (S 0%N), (S 1%N), (S 2%N), (S 3%N) by lia. reflexivity. Qed.

(** the first refusal of both together *)
Lemma both_bans dbg g p F F' e e' : check_point_by dbg g p F = Ok e -> check_point_by dbg g p F' = Ok e' ->
  exists e'', check_point_by dbg g p (N.lor F F') = Ok e'' /\ (e'' = e \/ e'' = e') /\ (e'' = None <-> e = None /\ e' = None).
Proof.
  rewrite !check_steps, !N.lor_spec. destruct (get_color _ _) as [[?|]| |]; cbn [bind]; [|unfold step|discriminate..].
  { intros [= <-] [= <-]. eexists. split; [reflexivity|]. split; [auto|]. split; [discriminate|intros [? _]; discriminate]. }
  destruct (N.testbit F 2), (N.testbit F' 2), (N.testbit F 0), (N.testbit F' 0), (N.testbit F 3), (N.testbit F' 3), (N.testbit F 1), (N.testbit F' 1); cbn [orb bind];
    repeat (match goal with |- context [match ?m with Ok _ => _ | Panic => _ | Diverge => _ end] => destruct m as [[|]| |] | |- context [bind ?m _] => destruct m as [[|]| |] end; cbn [bind]);
    intros E E'; try discriminate; injection E as <-; injection E' as <-; eexists; (split; [reflexivity|]); split; intuition congruence.
Qed.

Lemma step_none b m e k : step b m e k = Ok None <-> (b = true -> m = Ok false) /\ k = Ok None.
Proof.
  unfold step. destruct b; [|cbn; intuition congruence]. destruct m as [[|]| |]; cbn; split.
  all: try (intros H; discriminate H). all: try (intros [H _]; discriminate (H eq_refl)). all: intuition congruence.
Qed.

(** a point passes with bans [F'] only if it passes with fewer of them *)
Lemma more_bans dbg g p F F' : fewer_bans F F' -> check_point_by dbg g p F' = Ok None -> check_point_by dbg g p F = Ok None.
Proof.
  intros S. rewrite !check_steps. destruct (get_color _ _) as [[?|]| |]; cbn [bind]; try discriminate. rewrite !step_none.
  pose proof (S 0%N ltac:(lia)). pose proof (S 1%N ltac:(lia)). pose proof (S 2%N ltac:(lia)). pose proof (S 3%N ltac:(lia)). intuition.
Qed.

Theorem bans_together dbg g p F F' :
  check_point_by dbg g p (N.lor F F') = Ok None <-> check_point_by dbg g p F = Ok None /\ check_point_by dbg g p F' = Ok None.
Proof.
  split.
  - intros E. split; (apply (more_bans dbg g p _ (N.lor F F')); [|exact E]); intros k _ Hk; rewrite N.lor_spec, Hk, ?orb_true_r; reflexivity.
  - intros [E E']. destruct (both_bans dbg g p F F' None None E E') as (e & -> & _ & N). destruct e; [destruct N as [_ N]; discriminate (N (conj eq_refl eq_refl))|reflexivity].
Qed.

Lemma filterM_inv {A} (f : A -> res bool) l l' : filterM f l = Ok l' -> exists h, (forall x, x ∈ l -> f x = Ok (h x)) /\ l' = List.filter h l.
Proof.
  intros E. exists (fun x => match f x with Ok true => true | _ => false end).
  assert (Q : forall x, x ∈ l -> f x = Ok (match f x with Ok true => true | _ => false end)).
  { revert l' E. induction l as [|a l IH]; intros l' E x Hx; [apply elem_of_nil in Hx; contradiction|]. cbn in E.
    apply bind_ok in E as (b & Eb & E). apply bind_ok in E as (ys & Ey & E). apply elem_of_cons in Hx as [->|Hx]; [rewrite Eb; destruct b; reflexivity|exact (IH ys Ey x Hx)]. }
  split; [exact Q|]. rewrite (filterM_ok f _ l Q) in E. injection E as <-. reflexivity.
Qed.

Lemma legals_inv dbg g F l : legals_by dbg g F = Ok l -> exists q h, pseudo_legals g = Ok q /\ l = List.filter h q /\
  forall p, p ∈ q -> exists e, check_point_by dbg g p F = Ok e /\ (h p = true <-> e = None).
Proof.
  unfold legals_by. intros E. apply bind_ok in E as (q & Eq & E). destruct (filterM_inv _ _ _ E) as (h & H & ->). exists q, h. split; [exact Eq|]. split; [reflexivity|].
  intros p Hp. specialize (H p Hp). apply bind_ok in H as (e & Ee & H). exists e. split; [exact Ee|]. injection H as H. rewrite <- H. destruct e; split; congruence.
Qed.

Lemma filter_filter' (h h' : coord -> bool) q : List.filter (fun p => h p && h' p) q = List.filter (fun p => bool_decide (p ∈ List.filter h' q)) (List.filter h q).
Proof.
  assert (G : forall r, (forall p, p ∈ r -> p ∈ q) -> List.filter (fun p => h p && h' p) r = List.filter (fun p => bool_decide (p ∈ List.filter h' q)) (List.filter h r)).
  { induction r as [|a r IH]; intros S; [reflexivity|]. cbn. rewrite IH by (intros p Hp; apply S; right; exact Hp).
    destruct (h a); cbn; [|reflexivity]. destruct (bool_decide (a ∈ List.filter h' q)) eqn:D.
    - apply bool_decide_eq_true in D. apply elem_of_list_In, List.filter_In in D as [_ ->]. reflexivity.
    - apply bool_decide_eq_false in D. destruct (h' a) eqn:Ha; [|reflexivity]. destruct D. apply elem_of_list_In, List.filter_In. split; [apply elem_of_list_In, S; left|exact Ha]. }
  apply G. auto.
Qed.

(** the list for both masks together is the common part of the two lists *)
Theorem legals_together dbg g F F' l l' : legals_by dbg g F = Ok l -> legals_by dbg g F' = Ok l' ->
  legals_by dbg g (N.lor F F') = Ok (List.filter (fun p => bool_decide (p ∈ l')) l).
Proof.
  intros E E'. destruct (legals_inv _ _ _ _ E) as (q & h & Eq & -> & H). destruct (legals_inv _ _ _ _ E') as (q' & h' & Eq' & -> & H').
  rewrite Eq in Eq'. injection Eq' as <-. unfold legals_by. rewrite Eq. cbn [bind]. rewrite (filterM_ok _ (fun p => h p && h' p)).
  - f_equal. rewrite filter_filter'. reflexivity.
  - intros p Hp. destruct (H p Hp) as (e & Ee & He). destruct (H' p Hp) as (e' & Ee' & He'). destruct (both_bans dbg g p F F' e e' Ee Ee') as (e'' & -> & _ & N). cbn [bind]. f_equal.
    destruct e''; symmetry.
    + apply andb_false_iff. destruct (h p); [|auto]. destruct (h' p); [|auto]. destruct N as [_ N]. discriminate (N (conj (proj1 He eq_refl) (proj1 He' eq_refl))).
    + destruct (proj1 N eq_refl) as [-> ->]. rewrite (proj2 He eq_refl), (proj2 He' eq_refl). reflexivity.
Qed.

(** with more bans the list gets shorter, in the same order *)
Theorem legals_shrink dbg g F F' l l' : fewer_bans F F' -> legals_by dbg g F = Ok l -> legals_by dbg g F' = Ok l' -> sublist l' l.
Proof.
  intros S E E'. destruct (legals_inv _ _ _ _ E) as (q & h & Eq & -> & H). destruct (legals_inv _ _ _ _ E') as (q' & h' & Eq' & -> & H').
  rewrite Eq in Eq'. injection Eq' as <-. clear E E' Eq. induction q as [|p q IH]; [constructor|]. cbn.
  assert (I : sublist (List.filter h' q) (List.filter h q)) by (apply IH; intros; [apply H|apply H']; right; assumption).
  destruct (H p ltac:(left)) as (e & Ee & He). destruct (H' p ltac:(left)) as (e' & Ee' & He').
  destruct (h' p) eqn:Hp'.
  - assert (e' = None) as -> by (apply He'; reflexivity). pose proof (more_bans dbg g p F F' S Ee') as Q. rewrite Ee in Q. injection Q as ->. rewrite (proj2 He eq_refl). constructor. exact I.
  - destruct (h p); [constructor|]; exact I.
Qed.
