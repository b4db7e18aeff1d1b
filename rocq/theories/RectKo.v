(** The ko rule in terms of positions, on boards whose width divides their height. *)
From stdpp Require Import relations sorting.
From Verif Require Import MonadFacts Spec Game Builder BitsetFacts CoordFacts Struct Push Inv Remove Capture Bridge GameFacts RulesFacts KoFacts BoardFacts CheckFacts LegalFacts.
From Verif Require Import RectSpec RectReach RectCoord RectInv RectRemove RectCapture RectBridge RectGame RectReachFacts RectRules RectBoard RectCheck RectEye RectVerdict RectMoves.
From Coq Require Import Lia.

(** [q] is the only stone taken by the move [p] of [c] *)
Definition ronly_taken (n : size_t) (P : pos) (p : coord) (c : color) (q : coord) : Prop :=
  ron n q /\ rtaken n (put P p c) p c q /\
  forall q', ron n q' -> rtaken n (put P p c) p c q' -> q' = q.

Lemma rgo_move_forbidden n P p c R : rgo_move false n P p c R ->
  rcleared n (rtaken n (put P p c) p c) (put P p c) R.
Proof.
  intros (Q & HQ & HR). eapply rcleared_ext; [reflexivity|apply rsame_pos_refl| |exact HQ].
  intros x Hx. symmetry. apply (HR x Hx). intros [H _]. discriminate.
Qed.

Section Ko.
  Context (n : size_t) (P0 P1 : pos) (p q : coord) (c : color).
  Hypothesis Hn : fits n.
  Hypothesis Hp : ron n p.
  Hypothesis He : P0 p = None.
  Hypothesis H1 : rcleared n (rtaken n (put P0 p c) p c) (put P0 p c) P1.

  Lemma rko_p : P1 p = Some c.
  Proof. rewrite (proj2 (H1 p Hp)); [apply put_at|]. apply rnot_taken_own, put_at. Qed.

  Theorem rko_forward s R :
    rall_breathe n P0 -> ronly_taken n P0 p c q -> ~ rsuicidal n P1 q (opp c) -> rko_shape n P1 q ->
    rgo_move s n P1 q (opp c) R -> rsame_pos n R P0.
  Proof.
    intros HA (Hq & Ht & Hu) Hs HK HM.
    assert (Hqp : q <> p).
    { intros ->. apply rtaken_color in Ht. rewrite put_at in Ht. injection Ht as Ht. apply (opp_ne c). congruence. }
    assert (Q0 : P0 q = Some (opp c)) by (apply (put_opp P0 p c He), (rtaken_color _ _ _ _ _ Ht)).
    assert (Q1 : P1 q = None) by (apply (H1 q Hq), Ht).
    assert (Oth : forall x, ron n x -> x <> p -> x <> q -> P1 x = P0 x).
    { intros x Hx Hxp Hxq. rewrite (proj2 (H1 x Hx)); [apply put_other, Hxp|]. intros H. apply Hxq, Hu; assumption. }
    assert (Hnb : ~ rbreathes n (put P0 p c) q).
    { destruct Ht as (t & T1 & T2 & T3 & T4 & T5). intros H. apply T5.
      apply (rbreathes_connected _ _ q t (rconnected_sym _ _ _ _ T4) H). }
    assert (F2 : forall t, ron n t -> adj q t -> P1 t = Some c).
    { intros t Ht' Ha. destruct (put P0 p c t) as [x|] eqn:Ex.
      - destruct (color_eqb_spec x c) as [->|Hx].
        + rewrite (proj2 (H1 t Ht')); [exact Ex|]. apply rnot_taken_own, Ex.
        + apply ne_opp in Hx. subst x. exfalso.
          assert (Hc : rconnected n (put P0 p c) q t).
          { apply rtc_once. split; [exact Hq|]. split; [exact Ht'|]. split; [exact Ha|].
            rewrite Ex. apply (rtaken_color _ _ _ _ _ Ht). }
          assert (t = q).
          { apply Hu; [exact Ht'|]. destruct Ht as (t0 & T1 & T2 & T3 & T4 & T5). exists t0.
            split; [exact T1|]. split; [exact T2|]. split; [exact T3|]. split; [|exact T5]. etransitivity; eassumption. }
          subst t. apply (adj_irrefl q Ha).
      - exfalso. apply Hnb. exists t. split; [exact Ht'|]. split; [exact Ex|]. exists q. split; [apply rtc_refl|exact Ha]. }
    assert (F3 : forall t, ron n t -> P1 t = Some c -> (forall l, rliberty n P1 t l -> l = q) ->
                   (forall t', rconnected n P1 t t' -> t' = t) -> t = p).
    { intros t Ht' Hc Hl Hsingle. destruct (decide (t = p)) as [|Htp]; [assumption|]. exfalso.
      assert (Htq : t <> q) by (intros ->; congruence).
      assert (P0t : P0 t = Some c) by (rewrite <- (Oth t Ht' Htp Htq); exact Hc).
      destruct (HA t Ht' ltac:(congruence)) as (l & L1 & L2 & t' & L3 & L4).
      assert (Hcon : rconnected n P1 t t').
      { clear -L3 P0t He Q0 Oth. revert P0t. induction L3 as [|a b d (A1 & A2 & A3 & A4) _ IH]; intros P0t; [apply rtc_refl|].
        assert (P0 b = Some c) by congruence.
        assert (forall x, P0 x = Some c -> x <> p /\ x <> q) as Hx.
        { intros x Hx. split; intros ->; [congruence|]. rewrite Q0 in Hx. injection Hx as Hx. apply (opp_ne c). congruence. }
        eapply rtc_l; [|apply IH; assumption]. split; [exact A1|]. split; [exact A2|]. split; [exact A3|].
        rewrite (Oth a), (Oth b); try assumption; apply Hx; assumption. }
      apply Hsingle in Hcon. subst t'.
      destruct (decide (l = p)) as [->|Hlp].
      - apply Htp. symmetry. apply Hsingle. apply rtc_once. split; [exact Ht'|]. split; [exact Hp|]. split; [exact L4|].
        rewrite rko_p. exact Hc.
      - assert (Hlq : l <> q) by (intros ->; congruence). apply Hlq, Hl.
        split; [exact L1|]. split; [rewrite Oth; assumption|]. exists t. split; [apply rtc_refl|exact L4]. }
    assert (F5 : forall x, ron n x -> rtaken n (put P1 q (opp c)) q (opp c) x -> x = p).
    { intros x Hx (t & T1 & T2 & T3 & T4 & T5).
      apply (put_opp P1 q (opp c) Q1) in T3.
      assert (Hl : forall l, rliberty n P1 t l -> l = q).
      { intros l Hl. destruct (decide (l = q)) as [|Hne]; [assumption|]. exfalso. apply T5.
        apply (rbreathes_put_opp n P1 q (opp c) Q1 t T3). eauto. }
      pose proof (HK t T1 T2 ltac:(congruence) Hl) as Hsingle.
      apply (rconn_put_opp n P1 q (opp c) Q1 t x T3), Hsingle in T4. subst x.
      apply F3; try assumption. rewrite T3, opp_invol. reflexivity. }
    assert (F4 : rtaken n (put P1 q (opp c)) q (opp c) p).
    { destruct (rpoints_ex_dec n (fun x => rtaken n (put P1 q (opp c)) q (opp c) x)) as [(x & X1 & X2)|HN].
      - intros x Hx. apply rtaken_dec; assumption.
      - rewrite (F5 x X1 X2) in X2. exact X2.
      - exfalso. apply Hs. apply rsuicidal_iff. split; [exact HN|].
        rewrite (rbreathes_put_own n P1 q (opp c) Hq Q1). intros [(l & B1 & B2 & B3)|(t & l & B1 & B2 & B3 & _)].
        + rewrite (F2 l B1 B2) in B3. discriminate.
        + rewrite (F2 t B1 B2) in B3. injection B3 as B3. apply (opp_ne c). congruence. }
    pose proof (rgo_move_capture s n P1 q (opp c) R p Hp F4 HM) as HR.
    intros x Hx. destruct (decide (x = p)) as [->|Hxp].
    - rewrite He. apply (HR p Hp), F4.
    - rewrite (proj2 (HR x Hx)); [|intros Hxt; apply Hxp, F5; assumption].
      destruct (decide (x = q)) as [->|Hxq]; [rewrite put_at, Q0; reflexivity|].
      rewrite put_other by exact Hxq. apply Oth; assumption.
  Qed.

  Theorem rko_backward R :
    ron n q -> P1 q = None -> rgo_move false n P1 q (opp c) R -> rsame_pos n R P0 ->
    ronly_taken n P0 p c q /\ ~ rsuicidal n P1 q (opp c) /\ rko_shape n P1 q.
  Proof.
    intros Hq Q1 HM HE. apply rgo_move_forbidden in HM as HR.
    assert (Hqp : q <> p) by (intros ->; rewrite rko_p in Q1; discriminate).
    assert (Rq : R q = Some (opp c)).
    { rewrite (proj2 (HR q Hq)); [apply put_at|]. apply rnot_taken_own, put_at. }
    assert (Q0 : P0 q = Some (opp c)) by (rewrite <- (HE q Hq); exact Rq).
    assert (Tp : rtaken n (put P1 q (opp c)) q (opp c) p).
    { destruct (rtaken_dec n (put P1 q (opp c)) q (opp c) p Hn Hp) as [|N]; [assumption|]. exfalso.
      pose proof (HE p Hp) as E. rewrite (proj2 (HR p Hp) N), put_other, rko_p, He in E by congruence. discriminate. }
    assert (Tq : rtaken n (put P0 p c) p c q).
    { destruct (rtaken_dec n (put P0 p c) p c q Hn Hq) as [|N]; [assumption|]. exfalso.
      rewrite (proj2 (H1 q Hq) N), put_other, Q0 in Q1 by exact Hqp. discriminate. }
    assert (Uq : forall x, ron n x -> rtaken n (put P0 p c) p c x -> x = q).
    { intros x Hx Hxt. destruct (decide (x = q)) as [|Hne]; [assumption|]. exfalso.
      pose proof (rtaken_color _ _ _ _ _ Hxt) as Hc. apply (put_opp P0 p c He) in Hc.
      pose proof (HE x Hx) as E. rewrite Hc in E.
      assert (P1x : P1 x = None) by (apply (H1 x Hx), Hxt).
      rewrite (rcleared_empty _ _ _ _ x HR Hx) in E; [discriminate|]. rewrite put_other by exact Hne. exact P1x. }
    assert (Up : forall x, ron n x -> rtaken n (put P1 q (opp c)) q (opp c) x -> x = p).
    { intros x Hx Hxt. destruct (decide (x = p)) as [|Hne]; [assumption|]. exfalso.
      pose proof (rtaken_color _ _ _ _ _ Hxt) as Hc. apply (put_opp P1 q (opp c) Q1) in Hc. rewrite opp_invol in Hc.
      destruct (rcleared_stone _ _ _ _ x H1 Hx ltac:(congruence)) as [_ E]. rewrite put_other in E by exact Hne.
      pose proof (HE x Hx) as E'. rewrite (proj1 (HR x Hx) Hxt) in E'. congruence. }
    split; [split; [exact Hq|split; [exact Tq|exact Uq]]|]. split.
    - intros Hs. apply rsuicidal_iff in Hs as [Hs _]. apply (Hs p Hp Tp).
    - intros t Ht Ha Hne Hl t' Hc.
      destruct (P1 t) as [x|] eqn:Ex; [|contradiction]. destruct (color_eqb_spec x c) as [->|Hx].
      + assert (Hall : forall z, rconnected n P1 t z -> z = p).
        { intros z Hz. apply Up; [exact (rconnected_on n P1 t z Ht Hz)|]. exists t.
          assert (Ec : P1 t = Some (opp (opp c))) by (rewrite opp_invol; exact Ex).
          split; [exact Ht|]. split; [exact Ha|]. split; [apply put_opp; assumption|].
          split; [apply rconn_put; [exact Q1|congruence|exact Hz]|].
          intros Hb. apply (rbreathes_put_opp n P1 q (opp c) Q1 t Ec) in Hb as (l & L1 & L2). apply L1, Hl, L2. }
        rewrite (Hall t' Hc). symmetry. apply Hall, rtc_refl.
      + apply ne_opp in Hx. subst x. exfalso.
        destruct (rcleared_stone _ _ _ _ t H1 Ht ltac:(congruence)) as [_ E].
        assert (Htq : t = q).
        { apply Uq; [exact Ht|]. destruct Tq as (t0 & T1 & T2 & T3 & T4 & T5). exists t0.
          split; [exact T1|]. split; [exact T2|]. split; [exact T3|]. split; [|exact T5].
          eapply rtc_r; [exact T4|]. split; [exact Hq|]. split; [exact Ht|]. split; [exact Ha|].
          rewrite put_other by exact Hqp. congruence. }
        subst t. apply (adj_irrefl q Ha).
  Qed.
End Ko.
