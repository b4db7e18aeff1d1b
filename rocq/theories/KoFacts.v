(** The ko rule in terms of positions. *)
From stdpp Require Import relations.
From Verif Require Import MonadFacts Spec Goban Push Bridge RulesFacts.
From Coq Require Import Lia.

(** [q] is the only stone taken by the move [p] of [c] *)
Definition only_taken (n : nat) (P : pos) (p : coord) (c : color) (q : coord) : Prop :=
  on n q /\ taken n (put P p c) p c q /\
  forall q', on n q' -> taken n (put P p c) p c q' -> q' = q.

(** every chain next to the empty point [q] whose only liberty is [q] is a single stone *)
Definition ko_shape (n : nat) (P : pos) (q : coord) : Prop :=
  forall t, on n t -> adj q t -> P t <> None -> (forall l, liberty n P t l -> l = q) ->
    forall t', connected n P t t' -> t' = t.

Lemma adj_irrefl p : ~ adj p p.
Proof. unfold adj. lia. Qed.

Lemma go_move_capture s n P p c R q :
  on n q -> taken n (put P p c) p c q -> go_move s n P p c R ->
  cleared n (taken n (put P p c) p c) (put P p c) R.
Proof.
  intros Hq Ht (Q & HQ & HR). eapply cleared_ext; [reflexivity|apply same_pos_refl| |exact HQ].
  intros x Hx. symmetry. apply (HR x Hx). intros (_ & Hb & _). apply Hb. eapply capture_breathes; eassumption.
Qed.

Lemma go_move_forbidden n P p c R : go_move false n P p c R ->
  cleared n (taken n (put P p c) p c) (put P p c) R.
Proof.
  intros (Q & HQ & HR). eapply cleared_ext; [reflexivity|apply same_pos_refl| |exact HQ].
  intros x Hx. symmetry. apply (HR x Hx). intros [H _]. discriminate.
Qed.

Section Ko.
  Context (n : nat) (P0 P1 : pos) (p q : coord) (c : color).
  Hypothesis Hn : (n <= 19)%nat.
  Hypothesis Hp : on n p.
  Hypothesis He : P0 p = None.
  Hypothesis H1 : cleared n (taken n (put P0 p c) p c) (put P0 p c) P1.

  Lemma ko_p : P1 p = Some c.
  Proof. rewrite (proj2 (H1 p Hp)); [apply put_at|]. apply not_taken_own, put_at. Qed.

  Theorem ko_forward s R :
    all_breathe n P0 -> only_taken n P0 p c q -> ~ suicidal n P1 q (opp c) -> ko_shape n P1 q ->
    go_move s n P1 q (opp c) R -> same_pos n R P0.
  Proof.
    intros HA (Hq & Ht & Hu) Hs HK HM.
    assert (Hqp : q <> p).
    { intros ->. apply taken_color in Ht. rewrite put_at in Ht. injection Ht as Ht. apply (opp_ne c). congruence. }
    assert (Q0 : P0 q = Some (opp c)) by (apply (put_opp P0 p c He), (taken_color _ _ _ _ _ Ht)).
    assert (Q1 : P1 q = None) by (apply (H1 q Hq), Ht).
    assert (Oth : forall x, on n x -> x <> p -> x <> q -> P1 x = P0 x).
    { intros x Hx Hxp Hxq. rewrite (proj2 (H1 x Hx)); [apply put_other, Hxp|]. intros H. apply Hxq, Hu; assumption. }
    assert (Hnb : ~ breathes n (put P0 p c) q).
    { destruct Ht as (t & T1 & T2 & T3 & T4 & T5). intros H. apply T5.
      apply (breathes_connected _ _ q t (connected_sym _ _ _ _ T4) H). }
    assert (F2 : forall t, on n t -> adj q t -> P1 t = Some c).
    { intros t Ht' Ha. destruct (put P0 p c t) as [x|] eqn:Ex.
      - destruct (color_eqb_spec x c) as [->|Hx].
        + rewrite (proj2 (H1 t Ht')); [exact Ex|]. apply not_taken_own, Ex.
        + apply ne_opp in Hx. subst x. exfalso.
          assert (Hc : connected n (put P0 p c) q t).
          { apply rtc_once. split; [exact Hq|]. split; [exact Ht'|]. split; [exact Ha|].
            rewrite Ex. apply (taken_color _ _ _ _ _ Ht). }
          assert (t = q).
          { apply Hu; [exact Ht'|]. destruct Ht as (t0 & T1 & T2 & T3 & T4 & T5). exists t0.
            split; [exact T1|]. split; [exact T2|]. split; [exact T3|]. split; [|exact T5]. etransitivity; eassumption. }
          subst t. apply (adj_irrefl q Ha).
      - exfalso. apply Hnb. exists t. split; [exact Ht'|]. split; [exact Ex|]. exists q. split; [apply rtc_refl|exact Ha]. }
    assert (F3 : forall t, on n t -> P1 t = Some c -> (forall l, liberty n P1 t l -> l = q) ->
                   (forall t', connected n P1 t t' -> t' = t) -> t = p).
    { intros t Ht' Hc Hl Hsingle. destruct (decide (t = p)) as [|Htp]; [assumption|]. exfalso.
      assert (Htq : t <> q) by (intros ->; congruence).
      assert (P0t : P0 t = Some c) by (rewrite <- (Oth t Ht' Htp Htq); exact Hc).
      destruct (HA t Ht' ltac:(congruence)) as (l & L1 & L2 & t' & L3 & L4).
      assert (Hcon : connected n P1 t t').
      { clear -L3 P0t He Q0 Oth. revert P0t. induction L3 as [|a b d (A1 & A2 & A3 & A4) _ IH]; intros P0t; [apply rtc_refl|].
        assert (P0 b = Some c) by congruence.
        assert (forall x, P0 x = Some c -> x <> p /\ x <> q) as Hx.
        { intros x Hx. split; intros ->; [congruence|]. rewrite Q0 in Hx. injection Hx as Hx. apply (opp_ne c). congruence. }
        eapply rtc_l; [|apply IH; assumption]. split; [exact A1|]. split; [exact A2|]. split; [exact A3|].
        rewrite (Oth a), (Oth b); try assumption; apply Hx; assumption. }
      apply Hsingle in Hcon. subst t'.
      destruct (decide (l = p)) as [->|Hlp].
      - apply Htp. symmetry. apply Hsingle. apply rtc_once. split; [exact Ht'|]. split; [exact Hp|]. split; [exact L4|].
        rewrite ko_p. exact Hc.
      - assert (Hlq : l <> q) by (intros ->; congruence). apply Hlq, Hl.
        split; [exact L1|]. split; [rewrite Oth; assumption|]. exists t. split; [apply rtc_refl|exact L4]. }
    assert (F5 : forall x, on n x -> taken n (put P1 q (opp c)) q (opp c) x -> x = p).
    { intros x Hx (t & T1 & T2 & T3 & T4 & T5).
      apply (put_opp P1 q (opp c) Q1) in T3.
      assert (Hl : forall l, liberty n P1 t l -> l = q).
      { intros l Hl. destruct (decide (l = q)) as [|Hne]; [assumption|]. exfalso. apply T5.
        apply (breathes_put_opp n P1 q (opp c) Q1 t T3). eauto. }
      pose proof (HK t T1 T2 ltac:(congruence) Hl) as Hsingle.
      apply (conn_put_opp n P1 q (opp c) Q1 t x T3), Hsingle in T4. subst x.
      apply F3; try assumption. rewrite T3, opp_invol. reflexivity. }
    assert (F4 : taken n (put P1 q (opp c)) q (opp c) p).
    { destruct (points_ex_dec n (fun x => taken n (put P1 q (opp c)) q (opp c) x)) as [(x & X1 & X2)|HN].
      - intros x Hx. apply taken_dec; assumption.
      - rewrite (F5 x X1 X2) in X2. exact X2.
      - exfalso. apply Hs. apply suicidal_iff. split; [exact HN|].
        rewrite (breathes_put_own n P1 q (opp c) Hn Hq Q1). intros [(l & B1 & B2 & B3)|(t & l & B1 & B2 & B3 & _)].
        + rewrite (F2 l B1 B2) in B3. discriminate.
        + rewrite (F2 t B1 B2) in B3. injection B3 as B3. apply (opp_ne c). congruence. }
    pose proof (go_move_capture s n P1 q (opp c) R p Hp F4 HM) as HR.
    intros x Hx. destruct (decide (x = p)) as [->|Hxp].
    - rewrite He. apply (HR p Hp), F4.
    - rewrite (proj2 (HR x Hx)); [|intros Hxt; apply Hxp, F5; assumption].
      destruct (decide (x = q)) as [->|Hxq]; [rewrite put_at, Q0; reflexivity|].
      rewrite put_other by exact Hxq. apply Oth; assumption.
  Qed.

  Theorem ko_backward R :
    on n q -> P1 q = None -> go_move false n P1 q (opp c) R -> same_pos n R P0 ->
    only_taken n P0 p c q /\ ~ suicidal n P1 q (opp c) /\ ko_shape n P1 q.
  Proof.
    intros Hq Q1 HM HE. apply go_move_forbidden in HM as HR.
    assert (Hqp : q <> p) by (intros ->; rewrite ko_p in Q1; discriminate).
    assert (Rq : R q = Some (opp c)).
    { rewrite (proj2 (HR q Hq)); [apply put_at|]. apply not_taken_own, put_at. }
    assert (Q0 : P0 q = Some (opp c)) by (rewrite <- (HE q Hq); exact Rq).
    assert (Tp : taken n (put P1 q (opp c)) q (opp c) p).
    { destruct (taken_dec n (put P1 q (opp c)) q (opp c) p Hn Hp) as [|N]; [assumption|]. exfalso.
      pose proof (HE p Hp) as E. rewrite (proj2 (HR p Hp) N), put_other, ko_p, He in E by congruence. discriminate. }
    assert (Tq : taken n (put P0 p c) p c q).
    { destruct (taken_dec n (put P0 p c) p c q Hn Hq) as [|N]; [assumption|]. exfalso.
      rewrite (proj2 (H1 q Hq) N), put_other, Q0 in Q1 by exact Hqp. discriminate. }
    assert (Uq : forall x, on n x -> taken n (put P0 p c) p c x -> x = q).
    { intros x Hx Hxt. destruct (decide (x = q)) as [|Hne]; [assumption|]. exfalso.
      pose proof (taken_color _ _ _ _ _ Hxt) as Hc. apply (put_opp P0 p c He) in Hc.
      pose proof (HE x Hx) as E. rewrite Hc in E.
      assert (P1x : P1 x = None) by (apply (H1 x Hx), Hxt).
      rewrite (cleared_empty _ _ _ _ x HR Hx) in E; [discriminate|]. rewrite put_other by exact Hne. exact P1x. }
    assert (Up : forall x, on n x -> taken n (put P1 q (opp c)) q (opp c) x -> x = p).
    { intros x Hx Hxt. destruct (decide (x = p)) as [|Hne]; [assumption|]. exfalso.
      pose proof (taken_color _ _ _ _ _ Hxt) as Hc. apply (put_opp P1 q (opp c) Q1) in Hc. rewrite opp_invol in Hc.
      destruct (cleared_stone _ _ _ _ x H1 Hx ltac:(congruence)) as [_ E]. rewrite put_other in E by exact Hne.
      pose proof (HE x Hx) as E'. rewrite (proj1 (HR x Hx) Hxt) in E'. congruence. }
    split; [split; [exact Hq|split; [exact Tq|exact Uq]]|]. split.
    - intros Hs. apply suicidal_iff in Hs as [Hs _]. apply (Hs p Hp Tp).
    - intros t Ht Ha Hne Hl t' Hc.
      destruct (P1 t) as [x|] eqn:Ex; [|contradiction]. destruct (color_eqb_spec x c) as [->|Hx].
      + assert (Hall : forall z, connected n P1 t z -> z = p).
        { intros z Hz. apply Up; [exact (connected_on n P1 t z Ht Hz)|]. exists t.
          assert (Ec : P1 t = Some (opp (opp c))) by (rewrite opp_invol; exact Ex).
          split; [exact Ht|]. split; [exact Ha|]. split; [apply put_opp; assumption|].
          split; [apply conn_put; [exact Q1|congruence|exact Hz]|].
          intros Hb. apply (breathes_put_opp n P1 q (opp c) Q1 t Ec) in Hb as (l & L1 & L2). apply L1, Hl, L2. }
        rewrite (Hall t' Hc). symmetry. apply Hall, rtc_refl.
      + apply ne_opp in Hx. subst x. exfalso.
        destruct (cleared_stone _ _ _ _ t H1 Ht ltac:(congruence)) as [_ E].
        assert (Htq : t = q).
        { apply Uq; [exact Ht|]. destruct Tq as (t0 & T1 & T2 & T3 & T4 & T5). exists t0.
          split; [exact T1|]. split; [exact T2|]. split; [exact T3|]. split; [|exact T5].
          eapply rtc_r; [exact T4|]. split; [exact Hq|]. split; [exact Ht|]. split; [exact Ha|].
          rewrite put_other by exact Hqp. congruence. }
        subst t. apply (adj_irrefl q Ha).
  Qed.
End Ko.
