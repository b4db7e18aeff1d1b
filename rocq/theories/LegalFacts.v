(** Legal games: every move goes through [try_play]. *)
From stdpp Require Import relations sorting.
From Verif Require Import MonadFacts Spec Game Builder BitsetFacts CoordFacts Struct Push Inv Remove Capture Bridge GameFacts RulesFacts KoFacts BoardFacts CheckFacts EyeFacts.
From Coq Require Import Lia.

Lemma try_play_inv dbg g m g' v : try_play dbg g m = Ok (g', v) ->
  (exists e, v = Refused e /\ g' = g) \/ (v = Accepted /\ gm_passes g <> 2%nat /\ play dbg g m = Ok g').
Proof.
  unfold try_play. destruct (Nat.eqb_spec (gm_passes g) 2) as [E|E]; [intros [= <- <-]; left; eauto|].
  assert (Hplain : (let! g' := play dbg g m in Ok (g', Accepted)) = Ok (g', v) -> v = Accepted /\ gm_passes g <> 2%nat /\ play dbg g m = Ok g').
  { intros H. apply bind_ok in H as (g1 & E1 & H). injection H as <- <-. tauto. }
  destruct m as [|c|x y].
  - intros H. right. apply Hplain, H.
  - intros H. right. apply Hplain, H.
  - intros H. apply bind_ok in H as (c & E1 & H). destruct (negb (mcolor_eqb c None)); [injection H as <- <-; left; eauto|].
    apply bind_ok in H as (e & E2 & H). destruct e as [e|]; [injection H as <- <-; left; eauto|]. right. apply Hplain, H.
Qed.

(** [try_play] on a point of the board *)
Lemma try_play_point dbg n g x y : wf n (gm_goban g) -> on n (x, y) -> gm_passes g <> 2%nat ->
  try_play dbg g (MPlay x y) =
  let! e := check_point dbg g (x, y) in
  match e with
  | Some e => Ok (g, Refused e)
  | None => let! g' := play dbg g (MPlay x y) in Ok (g', Accepted)
  end.
Proof.
  intros W Hp Hps. unfold try_play. destruct (Nat.eqb_spec (gm_passes g) 2) as [|_]; [contradiction|].
  rewrite (get_color_pos n _ _ W Hp). cbn [bind]. destruct (pos_of (gm_goban g) (x, y)) as [c|] eqn:E; cbn [mcolor_eqb negb]; [|reflexivity].
  unfold check_point, check_point_by. rewrite (get_color_pos n _ _ W Hp), E. reflexivity.
Qed.

Lemma accepted_empty dbg n g x y g' : wf n (gm_goban g) -> Forall (wf n) (gm_history g) -> on n (x, y) ->
  try_play dbg g (MPlay x y) = Ok (g', Accepted) ->
  pos_of (gm_goban g) (x, y) = None /\ gm_passes g <> 2%nat /\
  check_point dbg g (x, y) = Ok None /\ play dbg g (MPlay x y) = Ok g'.
Proof.
  intros W Wh Hp H. destruct (try_play_inv dbg g _ g' _ H) as [(e & E & _)|(_ & Hps & Hpl)]; [discriminate|].
  rewrite (try_play_point dbg n g x y W Hp Hps) in H. apply bind_ok in H as (e & E & H).
  destruct e as [e|]; [discriminate|]. split; [|tauto].
  unfold check_point in E. destruct (check_point_by_ok dbg n g (x, y) (flag_illegal (gm_rule g)) W Wh Hp) as [[E' _]|(e & E' & HT)]; [congruence|].
  rewrite E in E'. injection E' as <-. tauto.
Qed.

Lemma lreach_greach dbg n g : lreach dbg n g -> exists b w, greach dbg n b w g.
Proof.
  induction 1 as [s r g Hn Hs E|bl g Hn Hs Hm Nd Hon E HA|g pts g' _ (b & w & IH) Hh Nd Hp E HA|g x y g' _ (b & w & IH) Hp E|g g' _ (b & w & IH) E
                 |g c g' _ (b & w & IH) E|g _ (b & w & IH)|g k _ (b & w & IH)].
  - exists 0%nat, 0%nat. eapply gr_new; eassumption.
  - eexists _, _. eapply gr_build; eassumption.
  - eexists _, _. eapply gr_handicap; eassumption.
  - pose proof (greach_inv _ _ _ _ _ IH) as G.
    destruct (accepted_empty dbg n g x y g' (gi_wf _ _ _ _ G) (gi_hist _ _ _ _ G) Hp E) as (He & _ & _ & Ep).
    eexists _, _. eapply gr_play; eassumption.
  - destruct (try_play_inv dbg g _ g' _ E) as [(e & E' & _)|(_ & _ & Hpl)]; [discriminate|]. eexists _, _. eapply gr_pass; eassumption.
  - destruct (try_play_inv dbg g _ g' _ E) as [(e & E' & _)|(_ & _ & Hpl)]; [discriminate|]. eexists _, _. eapply gr_resign; eassumption.
  - eexists _, _. apply gr_resume, IH.
  - eexists _, _. apply gr_komi, IH.
Qed.

(** What the ko point remembers: [y] is the position before the last stone move,
    which took exactly the stone on [q]. *)
Definition ko_memory (n : nat) (g : game) (q : coord) : Prop :=
  exists P0 p y,
    y ∈ gm_history g /\ same_pos n P0 (pos_of y) /\ on n p /\ P0 p = None /\ all_breathe n P0 /\
    cleared n (taken n (put P0 p (opp (gm_turn g))) p (opp (gm_turn g))) (put P0 p (opp (gm_turn g))) (pos_of (gm_goban g)) /\
    only_taken n P0 p (opp (gm_turn g)) q.

Lemma history_in n h x h' : Forall (wf n) h -> wf n x -> history_insert h x = Ok h' ->
  (exists y, y ∈ h' /\ same_pos n (pos_of x) (pos_of y)) /\ forall y, y ∈ h -> y ∈ h'.
Proof.
  intros Wh Wx E. destruct (history_insert_spec n h x Wh Wx) as (h2 & E2 & _ & H). rewrite E in E2. injection E2 as <-.
  destruct H as [[H ->]|[_ ->]]; [split; [exact H|tauto]|]. split.
  - exists x. split; [apply elem_of_app; right; left|apply same_pos_refl].
  - intros y Hy. apply elem_of_app. tauto.
Qed.

(** one accepted stone move *)
Lemma accepted_step dbg n b w g x y g' : ginv n b w g -> on n (x, y) ->
  try_play dbg g (MPlay x y) = Ok (g', Accepted) ->
  let s := negb (flag_contains (flag_illegal (gm_rule g)) SUICIDE) in
  let P := pos_of (gm_goban g) in
  P (x, y) = None /\ (s = true \/ ~ suicidal n P (x, y) (gm_turn g)) /\
  play dbg g (MPlay x y) = Ok g' /\
  go_move s n P (x, y) (gm_turn g) (pos_of (gm_goban g')).
Proof.
  intros G Hp E s P. pose proof (gi_wf _ _ _ _ G) as W. pose proof (gi_hist _ _ _ _ G) as Wh.
  destruct (accepted_empty dbg n g x y g' W Wh Hp E) as (He & Hps & Hc & Hpl).
  split; [exact He|]. split.
  - subst s. destruct (flag_contains (flag_illegal (gm_rule g)) SUICIDE) eqn:Ef; [right|left; reflexivity].
    destruct (check_point_by_ok dbg n g (x, y) (flag_illegal (gm_rule g)) W Wh Hp) as [[E' _]|(e & E' & HT)]; [unfold check_point in Hc; congruence|].
    unfold check_point in Hc. rewrite Hc in E'. injection E' as <-. destruct HT as (_ & HS & _). specialize (HS Ef).
    destruct (check_suicide_ok dbg n g (x, y) (gm_turn g) W Hp He) as (v & Ev & Hv). rewrite HS in Ev. injection Ev as <-.
    intros H. apply Hv in H. discriminate.
  - split; [exact Hpl|]. destruct (play_spec dbg n b w g x y G Hp He) as [[E' _]|(g2 & E' & _ & HM & _)]; [congruence|].
    rewrite Hpl in E'. injection E' as <-. exact HM.
Qed.

Theorem lreach_inv dbg n g : lreach dbg n g ->
  all_breathe n (pos_of (gm_goban g)) /\ forall q, gm_ko_point g = Some q -> ko_memory n g q.
Proof.
  intros H. induction H as [s r g Hn Hs E|bl g Hn Hs Hm Nd Hon E HA|g pts g' H [IA IK] Hh Nd Hp E HA|g x y g' H [IA IK] Hp E|g g' H [IA IK] E
                 |g c g' H [IA IK] E|g H [IA IK]|g k H [IA IK]].
  - unfold game_new in E. rewrite Hs in E. apply bind_ok in E as (gb & E & E2). injection E2 as <-. cbn [gm_goban gm_ko_point].
    split; [|discriminate]. pose proof (new_le n gb E). destruct (new_wf n ltac:(lia)) as (gb' & E' & W & _ & Hc).
    rewrite E in E'. injection E' as <-. intros p Hp Hne. destruct Hne. apply (pos_new n); assumption.
  - split; [exact HA|]. rewrite build_inner_eq, Hm in E. apply bind_ok in E as (gb0 & _ & E). apply bind_ok in E as (gb & _ & E).
    injection E as <-. discriminate.
  - split; [exact HA|]. unfold put_handicap in E. apply bind_ok in E as (gb & _ & E). injection E as <-. cbn [gm_ko_point].
    intros q Hq. destruct (IK q Hq) as (P0 & p & z & Hz & _). rewrite Hh in Hz. apply elem_of_nil in Hz. destruct Hz.
  - destruct (lreach_greach dbg n g H) as (b & w & HG). pose proof (greach_inv _ _ _ _ _ HG) as G.
    destruct (accepted_step dbg n b w g x y g' G Hp E) as (He & Hs & Hpl & HM).
    pose proof (wf_n n _ (gi_wf _ _ _ _ G)) as Hn. split.
    + exact (go_move_all_breathe n _ (x, y) (gm_turn g) ltac:(lia) Hp He IA _ _ Hs HM).
    + destruct (play_spec dbg n b w g x y G Hp He) as [[E' _]|(g2 & E' & G' & _ & _ & _ & _ & ET & _ & _ & EH & HK)]; [congruence|].
      rewrite Hpl in E'. injection E' as <-. intros q Hq. apply HK in Hq.
      destruct (history_in n _ _ _ (gi_hist _ _ _ _ G) (gi_wf _ _ _ _ G) EH) as [(z & Hz & Hsz) _].
      unfold ko_memory. rewrite ET, opp_invol. exists (pos_of (gm_goban g)), (x, y), z.
      split; [exact Hz|]. split; [exact Hsz|]. split; [exact Hp|]. split; [exact He|]. split; [exact IA|]. split.
      * destruct Hq as (Hqo & Hqt & _). eapply go_move_capture; eassumption.
      * exact Hq.
  - destruct (try_play_inv dbg g _ g' _ E) as [(e & E' & _)|(_ & _ & Hpl)]; [discriminate|].
    cbn [play] in Hpl. apply bind_ok in Hpl as (u & _ & Hpl). injection Hpl as <-. split; [exact IA|discriminate].
  - destruct (try_play_inv dbg g _ g' _ E) as [(e & E' & _)|(_ & _ & Hpl)]; [discriminate|].
    cbn [play] in Hpl. injection Hpl as <-. split; [exact IA|exact IK].
  - split; [exact IA|exact IK].
  - split; [exact IA|exact IK].
Qed.

Lemma contains_check {dbg n g p flags e} :
  check_point_by dbg g p flags = Ok e -> wf n (gm_goban g) -> Forall (wf n) (gm_history g) -> on n p ->
  match e with
  | Some EPointNotEmpty => pos_of (gm_goban g) p <> None
  | Some ESuicide => pos_of (gm_goban g) p = None /\ flag_contains flags SUICIDE = true /\ check_suicide dbg g (p, gm_turn g) = Ok true
  | Some EKo => pos_of (gm_goban g) p = None /\
      (flag_contains flags SUICIDE = true -> check_suicide dbg g (p, gm_turn g) = Ok false) /\
      (flag_contains flags KO = true /\ check_ko dbg g (p, gm_turn g) = Ok true \/
       flag_contains flags SUPERKO = true /\ check_super_ko dbg g (p, gm_turn g) = Ok true)
  | Some EFillEye => pos_of (gm_goban g) p = None /\
      (flag_contains flags SUICIDE = true -> check_suicide dbg g (p, gm_turn g) = Ok false) /\
      (flag_contains flags KO = true -> check_ko dbg g (p, gm_turn g) = Ok false) /\
      flag_contains flags FILLEYE = true /\ check_eye dbg g (p, gm_turn g) = Ok true
  | Some EGamePaused => False
  | None => pos_of (gm_goban g) p = None /\
      (flag_contains flags SUICIDE = true -> check_suicide dbg g (p, gm_turn g) = Ok false) /\
      (flag_contains flags KO = true -> check_ko dbg g (p, gm_turn g) = Ok false) /\
      (flag_contains flags FILLEYE = true -> check_eye dbg g (p, gm_turn g) = Ok false) /\
      (flag_contains flags SUPERKO = true -> check_super_ko dbg g (p, gm_turn g) = Ok false)
  end.
Proof.
  intros E W Wh Hp. destruct (check_point_by_ok dbg n g p flags W Wh Hp) as [[E' _]|(e' & E' & HT)]; [congruence|].
  rewrite E in E'. injection E' as <-. exact HT.
Qed.

Lemma not_suicidal dbg n g p : wf n (gm_goban g) -> on n p -> pos_of (gm_goban g) p = None ->
  check_suicide dbg g (p, gm_turn g) = Ok false -> ~ suicidal n (pos_of (gm_goban g)) p (gm_turn g).
Proof.
  intros W Hp He E. destruct (check_suicide_ok dbg n g p (gm_turn g) W Hp He) as (v & Ev & Hv). rewrite E in Ev. injection Ev as <-.
  intros H. apply Hv in H. discriminate.
Qed.

(** C15 *)
Theorem simple_ko dbg n g0 x y g1 a b :
  lreach dbg n g0 ->
  flag_contains (flag_illegal (gm_rule g0)) KO = true ->
  flag_contains (flag_illegal (gm_rule g0)) SUICIDE = true ->
  flag_contains (flag_illegal (gm_rule g0)) SUPERKO = false ->
  on n (x, y) -> try_play dbg g0 (MPlay x y) = Ok (g1, Accepted) ->
  on n (a, b) ->
  try_play dbg g1 (MPlay a b) = Ok (g1, Refused EKo) <->
  pos_of (gm_goban g1) (a, b) = None /\
  exists R, go_move false n (pos_of (gm_goban g1)) (a, b) (gm_turn g1) R /\ same_pos n R (pos_of (gm_goban g0)).
Proof.
  intros HL FK FS FSK Hp E Hq. destruct (lreach_inv dbg n g0 HL) as [HA _].
  destruct (lreach_greach dbg n g0 HL) as (bb & ww & HG). pose proof (greach_inv _ _ _ _ _ HG) as G.
  destruct (accepted_step dbg n bb ww g0 x y g1 G Hp E) as (He & Hs & Hpl & HM).
  destruct (play_spec dbg n bb ww g0 x y G Hp He) as [[E' _]|(g2 & E' & G1 & _ & _ & EPs & _ & ET & ER & _ & _ & HK)]; [congruence|].
  rewrite Hpl in E'. injection E' as <-. rewrite FS in HM, Hs. cbn [negb] in HM, Hs.
  pose proof (gi_wf _ _ _ _ G1) as W1. pose proof (gi_hist _ _ _ _ G1) as Wh1. pose proof (wf_n n _ W1) as Hn.
  pose proof (go_move_forbidden n _ _ _ _ HM) as HC.
  assert (Hps : gm_passes g1 <> 2%nat) by lia.
  rewrite (try_play_point dbg n g1 a b W1 Hq Hps).
  destruct (check_point_by_ok dbg n g1 (a, b) (flag_illegal (gm_rule g1)) W1 Wh1 Hq) as [(_ & _ & F & _)|(e & Ec & HT)]; [rewrite ER in F; congruence|].
  unfold check_point. rewrite Ec. cbn [bind]. rewrite ER in HT. rewrite ET.
  set (P0 := pos_of (gm_goban g0)) in *. set (P1 := pos_of (gm_goban g1)) in *. set (c := gm_turn g0) in *.
  split.
  - intros H. destruct e as [[]|]; try discriminate.
    2:{ apply bind_ok in H as (g' & _ & H). discriminate. }
    destruct HT as (He1 & HS & HKO). specialize (HS FS). split; [exact He1|].
    destruct HKO as [[_ HKO]|[F _]]; [|congruence].
    destruct (check_ko_ok dbg n g1 (a, b) (gm_turn g1) W1 Hq He1) as (v & Ev & Hv). rewrite HKO in Ev. injection Ev as <-.
    destruct (proj1 Hv eq_refl) as [Hkp Hsh]. apply HK in Hkp.
    destruct (go_move_exists false n P1 (a, b) (opp c) ltac:(lia) Hq) as [R HR]. exists R. split; [exact HR|].
    apply (ko_forward n P0 P1 (x, y) (a, b) c ltac:(lia) Hp He HC false R HA Hkp); try assumption.
    rewrite <- ET. apply (not_suicidal dbg); assumption.
  - intros (He1 & R & HR & Hsame).
    destruct (ko_backward n P0 P1 (x, y) (a, b) c ltac:(lia) Hp He HC R Hq He1 HR Hsame) as (Hot & Hns & Hsh).
    assert (HKO : check_ko dbg g1 ((a, b), gm_turn g1) = Ok true).
    { destruct (check_ko_ok dbg n g1 (a, b) (gm_turn g1) W1 Hq He1) as (v & Ev & Hv). etransitivity; [exact Ev|]. f_equal. apply Hv.
      split; [apply HK, Hot|exact Hsh]. }
    destruct e as [[]|]; try reflexivity; exfalso.
    + destruct HT as (_ & _ & HT). destruct (check_suicide_ok dbg n g1 (a, b) (gm_turn g1) W1 Hq He1) as (v & Ev & Hv).
      rewrite HT in Ev. injection Ev as <-. apply Hns. rewrite <- ET. apply Hv. reflexivity.
    + exact HT.
    + destruct HT as (_ & _ & HT & _). specialize (HT FK). pose proof (eq_trans (eq_sym HT) HKO). discriminate.
    + contradiction.
    + destruct HT as (_ & _ & HT & _). specialize (HT FK). pose proof (eq_trans (eq_sym HT) HKO). discriminate.
Qed.

(** C16 *)
Theorem ko_only_repetitions dbg n g a b :
  lreach dbg n g -> flag_contains (flag_illegal (gm_rule g)) SUICIDE = true ->
  on n (a, b) -> try_play dbg g (MPlay a b) = Ok (g, Refused EKo) ->
  pos_of (gm_goban g) (a, b) = None /\ ~ suicidal n (pos_of (gm_goban g)) (a, b) (gm_turn g) /\
  exists R y, go_move false n (pos_of (gm_goban g)) (a, b) (gm_turn g) R /\ y ∈ gm_history g /\ same_pos n R (pos_of y).
Proof.
  intros HL FS Hq H. destruct (lreach_inv dbg n g HL) as [HA HKM].
  destruct (lreach_greach dbg n g HL) as (bb & ww & HG). pose proof (greach_inv _ _ _ _ _ HG) as G.
  pose proof (gi_wf _ _ _ _ G) as W. pose proof (gi_hist _ _ _ _ G) as Wh. pose proof (wf_n n _ W) as Hn.
  assert (Hps : gm_passes g <> 2%nat).
  { intros E. unfold try_play in H. rewrite E in H. discriminate. }
  rewrite (try_play_point dbg n g a b W Hq Hps) in H. apply bind_ok in H as (e & Ec & H).
  destruct e as [e|]; [|apply bind_ok in H as (g' & _ & H); discriminate]. injection H as ->.
  unfold check_point in Ec. pose proof (contains_check Ec W Wh Hq) as (He & HS & HKO). specialize (HS FS).
  pose proof (not_suicidal dbg n g (a, b) W Hq He HS) as Hns.
  split; [exact He|]. split; [exact Hns|].
  assert (Hmem : gm_ko_point g = Some (a, b) -> ko_shape n (pos_of (gm_goban g)) (a, b) ->
    exists R y, go_move false n (pos_of (gm_goban g)) (a, b) (gm_turn g) R /\ y ∈ gm_history g /\ same_pos n R (pos_of y)).
  { intros Hkp Hsh. destruct (HKM _ Hkp) as (P0 & p & z & Hz & Hsz & Hp & He0 & HA0 & HC & Hot).
    destruct (go_move_exists false n (pos_of (gm_goban g)) (a, b) (gm_turn g) ltac:(lia) Hq) as [R HR]. exists R, z.
    split; [exact HR|]. split; [exact Hz|]. eapply same_pos_trans; [|exact Hsz].
    rewrite <- (opp_invol (gm_turn g)) in HR, Hns.
    apply (ko_forward n P0 _ p (a, b) (opp (gm_turn g)) ltac:(lia) Hp He0 HC false R HA0 Hot Hns Hsh HR). }
  destruct HKO as [[_ HKO]|[_ HKO]].
  - destruct (check_ko_ok dbg n g (a, b) (gm_turn g) W Hq He) as (v & Ev & Hv). rewrite HKO in Ev. injection Ev as <-.
    destruct (proj1 Hv eq_refl) as [Hkp Hsh]. apply Hmem; assumption.
  - destruct (check_super_ko_ok dbg n g (a, b) W Wh Hq He) as [[E _]|(v & Ev & Hv)]; [congruence|].
    rewrite HKO in Ev. injection Ev as <-. destruct (proj1 Hv eq_refl) as (_ & _ & [[H1 H2]|(z & R & H1 & H2 & H3)]).
    + apply Hmem; assumption.
    + exists R, z. tauto.
Qed.

(** C17, the part that holds *)
Theorem superko_capturing dbg n g a b g' :
  lreach dbg n g -> flag_contains (flag_illegal (gm_rule g)) SUPERKO = true ->
  on n (a, b) -> try_play dbg g (MPlay a b) = Ok (g', Accepted) ->
  (2 < length (gm_history g))%nat ->
  (exists q, on n q /\ taken n (put (pos_of (gm_goban g)) (a, b) (gm_turn g)) (a, b) (gm_turn g) q) ->
  forall y, y ∈ gm_history g -> ~ same_pos n (pos_of (gm_goban g')) (pos_of y).
Proof.
  intros HL FSK Hq E Hlen (q & Hqo & Ht) y Hy Hsame.
  destruct (lreach_greach dbg n g HL) as (bb & ww & HG). pose proof (greach_inv _ _ _ _ _ HG) as G.
  pose proof (gi_wf _ _ _ _ G) as W. pose proof (gi_hist _ _ _ _ G) as Wh.
  destruct (accepted_empty dbg n g a b g' W Wh Hq E) as (He & _ & Ec & _).
  destruct (accepted_step dbg n bb ww g a b g' G Hq E) as (_ & _ & _ & HM).
  unfold check_point in Ec. pose proof (contains_check Ec W Wh Hq) as (_ & _ & _ & _ & HS). specialize (HS FSK).
  destruct (check_super_ko_ok dbg n g (a, b) W Wh Hq He) as [[E' _]|(v & Ev & Hv)]; [congruence|].
  rewrite HS in Ev. injection Ev as <-. enough (false = true) by discriminate. apply Hv.
  split; [exact Hlen|]. split; [eauto|]. right. exists y, (pos_of (gm_goban g')).
  split; [exact Hy|]. split; [|exact Hsame]. eapply go_move_any; eassumption.
Qed.
