(** Effectful list functions whose body never fails are the pure ones. *)
From Verif Require Import Base.
From Coq Require Import Lia.

Lemma bind_ok {A B} (m : res A) (k : A -> res B) b :
  bind m k = Ok b <-> exists a, m = Ok a /\ k a = Ok b.
Proof.
  destruct m; cbn; split; try discriminate.
  - intros H. eauto.
  - intros (x & E & H). injection E as ->. exact H.
  - intros (x & E & _). discriminate.
  - intros (x & E & _). discriminate.
Qed.

Lemma mapM_ok {A B} (f : A -> res B) (h : A -> B) l :
  (forall x, x ∈ l -> f x = Ok (h x)) -> mapM f l = Ok (List.map h l).
Proof.
  induction l as [|a l IH]; intros H; [reflexivity|]. cbn.
  rewrite (H a) by left. cbn [bind]. rewrite IH by (intros x Hx; apply H; right; exact Hx). reflexivity.
Qed.

Lemma filterM_ok {A} (f : A -> res bool) (h : A -> bool) l :
  (forall x, x ∈ l -> f x = Ok (h x)) -> filterM f l = Ok (List.filter h l).
Proof.
  induction l as [|a l IH]; intros H; [reflexivity|]. cbn.
  rewrite (H a) by left. cbn [bind]. rewrite IH by (intros x Hx; apply H; right; exact Hx). reflexivity.
Qed.

Lemma anyM_ok {A} (f : A -> res bool) (h : A -> bool) l :
  (forall x, x ∈ l -> f x = Ok (h x)) -> anyM f l = Ok (existsb h l).
Proof.
  induction l as [|a l IH]; intros H; [reflexivity|]. cbn.
  rewrite (H a) by left. cbn [bind]. rewrite IH by (intros x Hx; apply H; right; exact Hx).
  destruct (h a); reflexivity.
Qed.

Lemma foldM_app {A S} (f : S -> A -> res S) l1 l2 s :
  foldM f (l1 ++ l2) s = let! s' := foldM f l1 s in foldM f l2 s'.
Proof.
  revert s. induction l1 as [|a l1 IH]; intros s; [reflexivity|]. cbn. destruct (f s a); cbn; [apply IH|reflexivity..].
Qed.

Lemma elem_of_lfilter {A} (h : A -> bool) l x : x ∈ List.filter h l <-> x ∈ l /\ h x = true.
Proof. rewrite !elem_of_list_In, List.filter_In. tauto. Qed.

Lemma elem_of_lmap {A B} (h : A -> B) l y : y ∈ List.map h l <-> exists x, y = h x /\ x ∈ l.
Proof. exact (elem_of_list_fmap h l y). Qed.

Lemma NoDup_lfilter {A} (h : A -> bool) (l : list A) : NoDup l -> NoDup (List.filter h l).
Proof. intros H. apply NoDup_ListNoDup, List.NoDup_filter, NoDup_ListNoDup, H. Qed.

Lemma existsb_spec {A} (h : A -> bool) l : existsb h l = true <-> exists x, x ∈ l /\ h x = true.
Proof.
  rewrite existsb_exists. split; intros (x & H1 & H2); exists x; [rewrite elem_of_list_In|rewrite <- elem_of_list_In]; tauto.
Qed.

Lemma existsb_false {A} (h : A -> bool) l : existsb h l = false <-> forall x, x ∈ l -> h x = false.
Proof.
  split.
  - intros H x Hx. destruct (h x) eqn:E; [|reflexivity]. assert (existsb h l = true) by (apply existsb_spec; eauto). congruence.
  - intros H. destruct (existsb h l) eqn:E; [|reflexivity]. apply existsb_spec in E as (x & H1 & H2). rewrite H in H2; congruence.
Qed.
