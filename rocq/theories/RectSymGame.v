(** Games that correspond under a symmetry of a rectangle stay so; [SymGame.v] for boards of any size. *)
From stdpp Require Import relations.
From Verif Require Import RectSymSpec RectReach RectVerdictSpec RectTableSpec.
From Verif Require Import Struct Push Bridge MonadFacts GameFacts RulesFacts BoardFacts CheckFacts EyeFacts LegalFacts LegalsFacts SymFacts SymGame.
From Verif Require Import RectCoord RectInv RectBridge RectGame RectRules RectKo RectBoard RectCheck RectEye RectMoves RectVerdict RectLegal.
From Verif Require Export RectSymFacts.
From Coq Require Import Lia.

Local Notation length := Datatypes.length.

Section Eye.
  Context (n : size_t) (γ : color -> color) (P Q : pos).
  Hypothesis Hγ : forall c, γ (γ c) = c.
  Hypothesis H : forall p, ron n p -> Q p = option_map γ (P p).

  Let inj a b : γ a = γ b -> a = b.
  Proof using Hγ. intros E. rewrite <- (Hγ a), E. apply Hγ. Qed.
  Let gopp c : γ (opp c) = opp (γ c).
  Proof using Hγ inj.
    pose proof (fun H => opp_ne c (inj _ _ H)) as K. destruct (γ (opp c)) eqn:E, (γ c) eqn:E'; try reflexivity; exfalso; apply K; rewrite ?E, ?E'; reflexivity.
  Qed.

  Lemma reqb_image p c : ron n p -> mcolor_eqb (Q p) (Some (γ c)) = mcolor_eqb (P p) (Some c).
  Proof using All.
    intros Hp. rewrite (H p Hp). destruct (mcolor_eqb_spec (P p) (Some c)) as [E|E].
    - rewrite E. cbn [option_map]. destruct (mcolor_eqb_spec (Some (γ c)) (Some (γ c))); congruence.
    - destruct (mcolor_eqb_spec (option_map γ (P p)) (Some (γ c))) as [E'|]; [|reflexivity]. exfalso. apply E.
      destruct (P p) as [d|]; [|discriminate]. injection E' as E'. f_equal. apply inj, E'.
  Qed.
  Lemma rnone_image p : ron n p -> is_none (Q p) = is_none (P p).
  Proof using H. intros Hp. rewrite (H p Hp). destruct (P p); reflexivity. Qed.

  Lemma rally_image c q : ris_ally n Q (γ c) q = ris_ally n P c q.
  Proof using All.
    unfold ris_ally. destruct (is_coord_valid n q) eqn:E; [|reflexivity]. cbn [andb]. apply reqb_image, rvalid_on, E.
  Qed.
  Lemma remp_image q : ris_emp n Q q = ris_emp n P q.
  Proof using H.
    unfold ris_emp. destruct (is_coord_valid n q) eqn:E; [|reflexivity]. cbn [andb]. apply rnone_image, rvalid_on, E.
  Qed.
  Lemma rgood_image c p : rgood_corners n Q (γ c) p = rgood_corners n P c p.
  Proof using All. unfold rgood_corners. rewrite (filter_ext _ _ (rally_image c)). reflexivity. Qed.
  Lemma renemy_image c q : ron n q -> renemy_near n Q (γ c) q = renemy_near n P c q.
  Proof using All.
    intros Hq. unfold renemy_near.
    assert (K : forall l, (forall x, x ∈ l -> ron n x) ->
      existsb (fun t => mcolor_eqb (Q t) (Some (opp (γ c)))) l = existsb (fun t => mcolor_eqb (P t) (Some (opp c))) l).
    { induction l as [|x l IH]; intros Hl; cbn [existsb]; [reflexivity|].
      rewrite <- gopp, reqb_image by (apply Hl; left). rewrite gopp, IH; [reflexivity|]. intros; apply Hl; right; assumption. }
    apply K. intros x Hx. apply (relem_of_nbrs n q x Hq) in Hx. tauto.
  Qed.
  Lemma rscan_image c l : (forall x, x ∈ l -> ron n x) -> rcorner_scan n Q (γ c) l = rcorner_scan n P c l.
  Proof using All.
    induction l as [|x l IH]; intros Hl; cbn [rcorner_scan]; [reflexivity|].
    rewrite renemy_image by (apply Hl; left). rewrite rgood_image, IH; [reflexivity|]. intros; apply Hl; right; assumption.
  Qed.
  Lemma reye_image c p : ron n p -> reye n Q (γ c) p = reye n P c p.
  Proof using All.
    intros Hp. unfold reye. rewrite (rnone_image p Hp), rgood_image, (filter_ext _ _ remp_image), rscan_image.
    - f_equal. f_equal.
      assert (K : forall l, (forall x, x ∈ l -> ron n x) ->
        forallb (fun t => mcolor_eqb (Q t) (Some (γ c))) l = forallb (fun t => mcolor_eqb (P t) (Some c)) l).
      { induction l as [|x l IH]; intros Hl; cbn [forallb]; [reflexivity|].
        rewrite reqb_image by (apply Hl; left). rewrite IH; [reflexivity|]. intros; apply Hl; right; assumption. }
      apply K. intros x Hx. apply (relem_of_nbrs n p x Hp) in Hx. tauto.
    - intros x Hx. apply elem_of_lfilter in Hx as [_ Hx]. unfold ris_emp in Hx. apply andb_true_iff in Hx as [Hx _]. apply rvalid_on, Hx.
  Qed.
End Eye.

Lemma rcheck_point_by_total dbg n g p flags : rwf n (gm_goban g) -> Forall (rwf n) (gm_history g) -> ron n p ->
  (N.of_nat (length (chains (gm_goban g))) < 65535)%N -> exists e, check_point_by dbg g p flags = Ok e.
Proof.
  intros W Wh Hp L. destruct (rcheck_point_by_ok dbg n g p flags W Wh Hp) as [(_ & F & _)|(e & E & _)]; [lia|eauto].
Qed.

(** the superko check needs a group number only for a stone without friends *)
Lemma rcheck_super_ko_friend dbg n g p : rwf n (gm_goban g) -> Forall (rwf n) (gm_history g) ->
  ron n p -> pos_of (gm_goban g) p = None ->
  (check_super_ko dbg g (p, gm_turn g) = Panic /\ (N.of_nat (length (chains (gm_goban g))) = 65535)%N /\
   ~ rone_friend n (pos_of (gm_goban g)) p (gm_turn g)) \/
  check_super_ko dbg g (p, gm_turn g) <> Panic.
Proof.
  intros W Wh Hp He. unfold check_super_ko. cbn [fst].
  destruct (Nat.leb_spec (length (gm_history g)) 2) as [Hl|Hl]; [right; discriminate|].
  destruct (rwill_capture_ok dbg n g p W Hp He) as (wc & -> & Hwc). cbn [bind]. destruct wc; cbn [negb]; [|right; discriminate].
  destruct (rverification_ok dbg n g p W Hp He) as [[E F]|(x & E & Wx & HM)]; rewrite E; [left; split; [reflexivity|exact F]|]. right. cbn [bind].
  destruct (rcheck_ko_ok dbg n g p (gm_turn g) W Hp He) as (k & -> & Hk). cbn [bind]. destruct k; [discriminate|].
  destruct (rhistory_contains_spec n (gm_history g) x Wh Wx) as (v & -> & Hv). discriminate.
Qed.

Section Game.
  Context (n : size_t) (σ τ : coord -> coord) (γ : color -> color).
  Hypothesis S : rboard_sym n σ τ γ.

  Lemma rgamma_turn c : γ (opp c) = opp (γ c).
  Proof. apply (rgamma_opp n σ τ γ S). Qed.

  Section Pair.
    Context (dbg dbg' : bool) (b w b' w' : nat) (g h : game).
    Hypothesis G : rginv n b w g.
    Hypothesis G' : rginv n b' w' h.
    Hypothesis I : rimage_game n σ γ g h.
    Let W := rgi_wf _ _ _ _ G.
    Let W' := rgi_wf _ _ _ _ G'.
    Let Hn : fits n.
    Proof using G. exact (rwf_n n _ (rgi_wf _ _ _ _ G)). Qed.
    Let IP : rimage n σ γ (pos_of (gm_goban g)) (pos_of (gm_goban h)) := rim_pos _ _ _ _ _ I.

    Section At.
      Context (p : coord).
      Hypothesis Hp : ron n p.
      Hypothesis He : pos_of (gm_goban g) p = None.
      Let Hp' : ron n (σ p) := rsy_on _ _ _ _ S p Hp.
      Let He' : pos_of (gm_goban h) (σ p) = None := proj1 (rnone_iff n σ γ _ _ p IP Hp) He.

      Lemma rimage_suicide c : check_suicide dbg' h (σ p, γ c) = check_suicide dbg g (p, c).
      Proof using All.
        destruct (rcheck_suicide_ok dbg n g p c W Hp He) as (v & E & Hv).
        destruct (rcheck_suicide_ok dbg' n h (σ p) (γ c) W' Hp' He') as (v' & E' & Hv'). rewrite E, E'. f_equal.
        apply (bool_iff _ _ _ _ Hv' Hv). symmetry. apply (rsuicidal_iff n σ τ γ S); assumption.
      Qed.

      Lemma rimage_ko_point : gm_ko_point h = Some (σ p) <-> gm_ko_point g = Some p.
      Proof using S G I Hp.
        rewrite (rim_ko _ _ _ _ _ I). destruct (gm_ko_point g) as [q|] eqn:E; cbn [option_map].
        - pose proof (rgi_ko _ _ _ _ G q E) as Hq. split; [|intros K; injection K as ->; reflexivity].
          intros K. injection K as K. f_equal. apply (rsigma_inj n σ τ γ S); assumption.
        - split; discriminate.
      Qed.

      Lemma rimage_ko c : check_ko dbg' h (σ p, γ c) = check_ko dbg g (p, c).
      Proof using All.
        destruct (rcheck_ko_ok dbg n g p c W Hp He) as (v & E & Hv).
        destruct (rcheck_ko_ok dbg' n h (σ p) (γ c) W' Hp' He') as (v' & E' & Hv'). rewrite E, E'. f_equal.
        apply (bool_iff _ _ _ _ Hv' Hv). rewrite rimage_ko_point, (rko_shape_iff n σ τ γ _ _ p S IP Hp). reflexivity.
      Qed.

      Lemma rimage_eye c : (forall q, ron n q -> σ q = q) -> check_eye dbg' h (σ p, γ c) = check_eye dbg g (p, c).
      Proof using All.
        intros Id. rewrite (rcheck_eye_ok dbg n g p c W Hp), (rcheck_eye_ok dbg' n h (σ p) (γ c) W' Hp'), (Id p Hp). f_equal.
        apply reye_image; [apply (rsy_color _ _ _ _ S)| |exact Hp]. intros q Hq. pose proof (IP q Hq) as K. rewrite (Id q Hq) in K. exact K.
      Qed.

      Lemma rhistory_repeats R R' : rimage_history n σ γ g h -> rimage n σ γ R R' ->
        (exists y, y ∈ gm_history h /\ rsame_pos n R' (pos_of y)) <-> (exists y, y ∈ gm_history g /\ rsame_pos n R (pos_of y)).
      Proof using S.
        unfold rimage_history. intros Hh HR. induction Hh as [|x y l l' Hxy _ IH].
        - split; intros (y & Hy & _); inversion Hy.
        - pose proof (rsame_pos_iff n σ τ γ S R R' (pos_of x) (pos_of y) HR Hxy) as K. split.
          + intros (z & Hz & Hs). apply elem_of_cons in Hz as [->|Hz]; [exists x; split; [left|apply K, Hs]|].
            destruct (proj1 IH) as (u & Hu & Hus); [eauto|]. exists u. split; [right; exact Hu|exact Hus].
          + intros (z & Hz & Hs). apply elem_of_cons in Hz as [->|Hz]; [exists y; split; [left|apply K, Hs]|].
            destruct (proj2 IH) as (u & Hu & Hus); [eauto|]. exists u. split; [right; exact Hu|exact Hus].
      Qed.

      Lemma rimage_superko v : rimage_history n σ γ g h -> check_super_ko dbg g (p, gm_turn g) = Ok v ->
        check_super_ko dbg' h (σ p, gm_turn h) <> Panic ->
        check_super_ko dbg' h (σ p, gm_turn h) = Ok v.
      Proof using All.
        intros Hh E L.
        destruct (rcheck_super_ko_ok dbg n g p W (rgi_hist _ _ _ _ G) Hp He) as [[K _]|(v1 & E1 & Hv)]; [congruence|].
        rewrite E in E1. injection E1 as <-.
        destruct (rcheck_super_ko_ok dbg' n h (σ p) W' (rgi_hist _ _ _ _ G') Hp' He') as [[F _]|(v' & E' & Hv')]; [contradiction|].
        rewrite E'. f_equal. apply (bool_iff _ _ _ _ Hv' Hv). rewrite rimage_ko_point, (rko_shape_iff n σ τ γ _ _ p S IP Hp).
        unfold rimage_history in Hh. rewrite <- (Forall2_length _ _ _ Hh), (rim_turn _ _ _ _ _ I).
        pose proof (rcaptures_iff n σ τ γ S _ _ p (gm_turn g) IP Hp) as HC. unfold rcaptures in HC.
        destruct (rgo_move_exists false n (pos_of (gm_goban g)) p (gm_turn g) Hn Hp) as [R HR].
        destruct (rgo_move_exists false n (pos_of (gm_goban h)) (σ p) (γ (gm_turn g)) Hn Hp') as [R' HR'].
        pose proof (rgo_move_image n σ τ γ S false _ _ p _ R R' Hn IP Hp HR HR') as HI.
        pose proof (rhistory_repeats R R' Hh HI) as HH.
        assert (K1 : (exists y R0, y ∈ gm_history g /\ rgo_move false n (pos_of (gm_goban g)) p (gm_turn g) R0 /\ rsame_pos n R0 (pos_of y)) <->
                     (exists y, y ∈ gm_history g /\ rsame_pos n R (pos_of y))).
        { split; [intros (y & R0 & A & B & C)|intros (y & A & B)]; [exists y|exists y, R; auto]. split; [exact A|].
          eapply rsame_pos_trans; [|exact C]. apply (rgo_move_det _ n _ _ _ _ _ _ (rsame_pos_refl n _) HR B). }
        assert (K2 : (exists y R0, y ∈ gm_history h /\ rgo_move false n (pos_of (gm_goban h)) (σ p) (γ (gm_turn g)) R0 /\ rsame_pos n R0 (pos_of y)) <->
                     (exists y, y ∈ gm_history h /\ rsame_pos n R' (pos_of y))).
        { split; [intros (y & R0 & A & B & C)|intros (y & A & B)]; [exists y|exists y, R'; auto]. split; [exact A|].
          eapply rsame_pos_trans; [|exact C]. apply (rgo_move_det _ n _ _ _ _ _ _ (rsame_pos_refl n _) HR' B). }
        rewrite K1, K2, HH, HC. tauto.
      Qed.
    End At.

    Lemma rimage_check p flags e : ron n p ->
      (flag_contains flags FILLEYE = false \/ forall q, ron n q -> σ q = q) ->
      (flag_contains flags SUPERKO = false \/ rimage_history n σ γ g h /\ (pos_of (gm_goban g) p = None -> check_super_ko dbg' h (σ p, gm_turn h) <> Panic)) ->
      check_point_by dbg g p flags = Ok e -> check_point_by dbg' h (σ p) flags = Ok e.
    Proof using All.
      intros Hp HF HS E. unfold check_point_by in *.
      rewrite (rget_color_pos n _ _ W Hp) in E. rewrite (rget_color_pos n _ _ W' (rsy_on _ _ _ _ S p Hp)), (IP p Hp). cbn [bind] in *.
      destruct (pos_of (gm_goban g) p) eqn:He; [exact E|]. cbn [option_map].
      apply bind_ok in E as (b1 & E1 & E). rewrite (rim_turn _ _ _ _ _ I).
      assert (K1 : (if flag_contains flags SUICIDE then check_suicide dbg' h (σ p, γ (gm_turn g)) else Ok false) = Ok b1)
        by (rewrite (rimage_suicide p Hp He); exact E1).
      rewrite K1. cbn [bind]. destruct b1; [exact E|]. apply bind_ok in E as (b2 & E2 & E).
      rewrite (rimage_ko p Hp He), E2. cbn [bind]. destruct b2; [exact E|]. apply bind_ok in E as (b3 & E3 & E).
      assert (K3 : (if flag_contains flags FILLEYE then check_eye dbg' h (σ p, γ (gm_turn g)) else Ok false) = Ok b3).
      { destruct HF as [HF|HF]; [rewrite HF in *; exact E3|]. rewrite (rimage_eye p Hp He (gm_turn g) HF); exact E3. }
      rewrite K3. cbn [bind]. destruct b3; [exact E|]. apply bind_ok in E as (b4 & E4 & E).
      assert (K4 : (if flag_contains flags SUPERKO then check_super_ko dbg' h (σ p, γ (gm_turn g)) else Ok false) = Ok b4).
      { destruct (flag_contains flags SUPERKO) eqn:F; [|exact E4]. destruct HS as [HS|[HS L]]; [discriminate|].
        rewrite <- (rim_turn _ _ _ _ _ I). apply rimage_superko; auto. }
      rewrite K4. exact E.
    Qed.

    Lemma rimage_play x y g' : ron n (x, y) -> pos_of (gm_goban g) (x, y) = None -> play dbg g (MPlay x y) = Ok g' ->
      (play dbg' h (image_move σ γ (MPlay x y)) = Panic /\ (N.of_nat (length (chains (gm_goban h))) = 65535)%N) \/
      exists h', play dbg' h (image_move σ γ (MPlay x y)) = Ok h' /\ rimage_game n σ γ g' h' /\
        (rimage_history n σ γ g h -> rimage_history n σ γ g' h') /\ (image_caught γ g h -> image_caught γ g' h') /\
        (length (chains (gm_goban h')) + length (chains (gm_goban g)) = length (chains (gm_goban h)) + length (chains (gm_goban g')))%nat.
    Proof using All.
      intros Hp He E. cbn [image_move]. pose proof (rsy_on _ _ _ _ S _ Hp) as Hp'. pose proof (proj1 (rnone_iff n σ γ _ _ _ IP Hp) He) as He'.
      destruct (rplay_spec dbg n b w g x y G Hp He) as [[F _]|(g1 & E1 & G1 & M & L & A1 & A2 & A3 & A4 & A5 & A6 & K)]; [congruence|].
      rewrite E in E1. injection E1 as <-. rewrite (surjective_pairing (σ (x, y))) in Hp', He'.
      destruct (rplay_spec dbg' n b' w' h _ _ G' Hp' He') as [[F1 [F2 _]]|(h' & E1 & G1' & M' & L' & B1 & B2 & B3 & B4 & B5 & B6 & K')]; [left; auto|].
      right. exists h'. split; [exact E1|]. rewrite <- surjective_pairing in *.
      pose proof (rim_turn _ _ _ _ _ I) as IT. pose proof (rim_rule _ _ _ _ _ I) as IR. rewrite IT in *. rewrite IR in M'.
      assert (HI : rimage n σ γ (pos_of (gm_goban g')) (pos_of (gm_goban h'))).
      { eapply (rgo_move_image n σ τ γ S); [exact Hn|exact IP|exact Hp|exact M|exact M']. }
      split; [constructor|split; [|split]].
      - exact HI.
      - rewrite B3, A3. symmetry. apply rgamma_turn.
      - rewrite A1, B1. reflexivity.
      - rewrite A2, B2. apply (rim_outcome _ _ _ _ _ I).
      - destruct (gm_ko_point g') as [q|] eqn:Ek; cbn [option_map].
        + apply K'. apply (rcaptures_only_iff n σ τ γ S _ _ (x, y) (gm_turn g) q IP Hp); [apply (rgi_ko _ _ _ _ G1 q Ek)|apply K; reflexivity].
        + destruct (gm_ko_point h') as [q'|] eqn:Ek'; [|reflexivity]. exfalso. pose proof (rgi_ko _ _ _ _ G1' q' Ek') as Hq'.
          destruct (ronto n σ τ γ S q' Hq') as (q & Hq & ->). pose proof (proj1 (K' (σ q)) eq_refl) as KK.
          apply (rcaptures_only_iff n σ τ γ S _ _ (x, y) (gm_turn g) q IP Hp Hq) in KK. apply K in KK. discriminate.
      - rewrite A4, B4. exact IR.
      - unfold rimage_history. intros Hh.
        destruct (rhistory_insert_spec n (gm_history g) (gm_goban g) (rgi_hist _ _ _ _ G) W) as (l & El & _ & Hl). rewrite A6 in El. injection El as <-.
        destruct (rhistory_insert_spec n (gm_history h) (gm_goban h) (rgi_hist _ _ _ _ G') W') as (l' & El' & _ & Hl'). rewrite B6 in El'. injection El' as <-.
        pose proof (rhistory_repeats _ _ Hh IP) as HR.
        destruct Hl as [[X ->]|[X ->]], Hl' as [[Y ->]|[Y ->]]; try tauto.
        apply Forall2_app; [exact Hh|]. constructor; [exact IP|constructor].
      - intros IC0 c. pose proof (IC0 c) as IC.
        pose proof (rcount_image n σ τ γ S _ _ c IP) as C1. pose proof (rcount_image n σ τ γ S _ _ c HI) as C2.
        pose proof (rgi_black _ _ _ _ G). pose proof (rgi_white _ _ _ _ G). pose proof (rgi_black _ _ _ _ G'). pose proof (rgi_white _ _ _ _ G').
        pose proof (rgi_black _ _ _ _ G1). pose proof (rgi_white _ _ _ _ G1). pose proof (rgi_black _ _ _ _ G1'). pose proof (rgi_white _ _ _ _ G1').
        pose proof (rgamma_turn Black) as GT. cbn [opp] in GT.
        destruct c, (γ Black) eqn:EB, (γ White) eqn:EW; try discriminate; destruct (gm_turn g); rewrite ?EB, ?EW in *; cbn [caught bump_count fst snd] in *; lia.
      - pose proof (rone_friend_iff n σ τ γ S _ _ (x, y) (gm_turn g) IP Hp). destruct L as [[L0 L]|[L0 L]], L' as [[L0' L']|[L0' L']]; try tauto; rewrite L, L'; lia.
    Qed.

    Lemma rimage_pass_resign m g' : (m = MPass \/ exists c, m = MResign c) -> play dbg g m = Ok g' ->
      exists h', play dbg' h (image_move σ γ m) = Ok h' /\ rimage_game n σ γ g' h' /\
        (rimage_history n σ γ g h -> rimage_history n σ γ g' h') /\ (image_caught γ g h -> image_caught γ g' h') /\ chains (gm_goban h') = chains (gm_goban h) /\ chains (gm_goban g') = chains (gm_goban g).
    Proof using S I.
      destruct I as [J1 J2 J3 J4 J5 J6]. intros [->|[c ->]] E; cbn [image_move].
      - unfold play in *. rewrite J3. destruct (gm_passes g <? 2)%nat; [|discriminate]. cbn [assert_ bind] in *. injection E as <-.
        eexists. split; [reflexivity|]. split; [|auto]. constructor; cbn; try assumption; [|congruence|reflexivity]. rewrite J2. symmetry. apply rgamma_turn.
      - cbn [play] in *. injection E as <-. eexists. split; [reflexivity|]. split; [|auto]. constructor; cbn; try assumption. reflexivity.
    Qed.

    (** the same for one accepted move, whatever the number of groups *)
    Lemma rimage_accepted m g' : (forall x y, m = MPlay x y -> ron n (x, y)) ->
      length (chains (gm_goban h)) = length (chains (gm_goban g)) ->
      (flag_contains (flag_illegal (gm_rule g)) FILLEYE = false \/ forall q, ron n q -> σ q = q) ->
      rimage_history n σ γ g h -> try_play dbg g m = Ok (g', Accepted) ->
      exists h', try_play dbg' h (image_move σ γ m) = Ok (h', Accepted) /\ rimage_game n σ γ g' h' /\ rimage_history n σ γ g' h' /\
        (image_caught γ g h -> image_caught γ g' h') /\ length (chains (gm_goban h')) = length (chains (gm_goban g')).
    Proof using All.
      intros Hm L HF Hh E. destruct (decide (gm_passes g = 2%nat)) as [P2|P2].
      { rewrite (paused_refuses _ _ _ P2) in E. discriminate. }
      assert (P2' : gm_passes h <> 2%nat) by (rewrite (rim_passes _ _ _ _ _ I); exact P2).
      destruct (decide (exists x y, m = MPlay x y)) as [(x & y & ->)|Hno].
      - specialize (Hm x y eq_refl). cbn [image_move]. pose proof (rsy_on _ _ _ _ S _ Hm) as Hm'.
        rewrite (rtry_play_point dbg n g x y W Hm P2) in E. rewrite (rtry_play_point dbg' n h) by (rewrite <- ?surjective_pairing; assumption).
        unfold check_point in *. apply bind_ok in E as (e & Ec & E). destruct e as [e|]; [discriminate|]. apply bind_ok in E as (g1 & Ep & E). injection E as ->.
        pose proof (rcontains_check Ec W (rgi_hist _ _ _ _ G) Hm) as (He & _). pose proof (proj1 (rnone_iff n σ γ _ _ _ IP Hm) He) as He'.
        assert (FR : (N.of_nat (length (chains (gm_goban h))) = 65535)%N -> rone_friend n (pos_of (gm_goban h)) (σ (x, y)) (gm_turn h)).
        { intros L2. destruct (rplay_spec dbg n b w g x y G Hm He) as [[F _]|(g1 & E1 & G1 & _ & [[O _]|[_ O]] & _)]; [congruence| |].
          - rewrite (rim_turn _ _ _ _ _ I). apply (rone_friend_iff n σ τ γ S _ _ (x, y) (gm_turn g) IP Hm). exact O.
          - exfalso. pose proof (wf0_len _ (rwf_0 n _ (rgi_wf _ _ _ _ G1))). lia. }
        assert (NP : check_super_ko dbg' h (σ (x, y), gm_turn h) <> Panic).
        { intros F. destruct (rcheck_super_ko_friend dbg' n h (σ (x, y)) W' (rgi_hist _ _ _ _ G') Hm' He') as [[_ O]|F']; [|congruence].
          destruct O as [O1 O2]. apply O2, FR, O1. }
        pose proof (rimage_check (x, y) _ None Hm HF (or_intror (conj Hh (fun _ => NP))) Ec) as Ec'.
        rewrite <- surjective_pairing, (rim_rule _ _ _ _ _ I), Ec'. cbn [bind].
        destruct (rimage_play x y g' Hm He Ep) as [[F O]|(h' & E' & I' & H' & H2 & H3)].
        + exfalso. cbn [image_move] in F. rewrite (surjective_pairing (σ (x, y))) in Hm', He'.
          destruct (rplay_spec dbg' n b' w' h _ _ G' Hm' He') as [[_ [_ O2]]|(g1 & E1 & _)]; [|congruence].
          apply O2. rewrite <- surjective_pairing. apply FR, O.
        + cbn [image_move] in E'. exists h'. rewrite E'. cbn [bind]. split; [reflexivity|]. repeat split; auto; try apply I'. lia.
      - assert (Hm' : m = MPass \/ exists c, m = MResign c) by (destruct m; [left|right|exfalso]; eauto).
        assert (Ep : play dbg g m = Ok g') by (destruct (try_play_inv _ _ _ _ _ E) as [(e & F & _)|(_ & _ & Ep)]; [discriminate|exact Ep]).
        destruct (rimage_pass_resign m g' Hm' Ep) as (h' & E' & I' & H' & H2 & C1 & C2).
        exists h'. split; [|rewrite C1, C2; auto]. unfold try_play. destruct (Nat.eqb_spec (gm_passes h) 2); [contradiction|].
        destruct Hm' as [->|[c ->]]; cbn [image_move] in *; rewrite E'; reflexivity.
    Qed.

    Lemma rimage_try m : (forall x y, m = MPlay x y -> ron n (x, y)) ->
      (N.of_nat (length (chains (gm_goban g))) < 65535)%N -> (N.of_nat (length (chains (gm_goban h))) < 65535)%N ->
      (flag_contains (flag_illegal (gm_rule g)) FILLEYE = false \/ forall q, ron n q -> σ q = q) ->
      (flag_contains (flag_illegal (gm_rule g)) SUPERKO = false \/ rimage_history n σ γ g h) ->
      exists g' h' v, try_play dbg g m = Ok (g', v) /\ try_play dbg' h (image_move σ γ m) = Ok (h', v) /\
        rimage_game n σ γ g' h' /\ (rimage_history n σ γ g h -> rimage_history n σ γ g' h') /\ (image_caught γ g h -> image_caught γ g' h').
    Proof using All.
      intros Hm L L' HF HS. destruct (decide (gm_passes g = 2%nat)) as [P2|P2].
      { exists g, h, (Refused EGamePaused). rewrite (paused_refuses _ _ _ P2), paused_refuses by (rewrite (rim_passes _ _ _ _ _ I); exact P2). auto. }
      assert (P2' : gm_passes h <> 2%nat) by (rewrite (rim_passes _ _ _ _ _ I); exact P2).
      destruct (decide (exists x y, m = MPlay x y)) as [(x & y & ->)|Hno].
      - specialize (Hm x y eq_refl). cbn [image_move]. pose proof (rsy_on _ _ _ _ S _ Hm) as Hm'.
        destruct (rcheck_point_by_total dbg n g (x, y) (flag_illegal (gm_rule g)) W (rgi_hist _ _ _ _ G) Hm L) as (e & Ec).
        assert (NP : pos_of (gm_goban g) (x, y) = None -> check_super_ko dbg' h (σ (x, y), gm_turn h) <> Panic).
        { intros He F. pose proof (proj1 (rnone_iff n σ γ _ _ _ IP Hm) He) as He'.
          destruct (rcheck_super_ko_ok dbg' n h (σ (x, y)) W' (rgi_hist _ _ _ _ G') Hm' He') as [[_ F']|(v' & E' & _)]; [lia|congruence]. }
        pose proof (rimage_check (x, y) _ e Hm HF (or_impl_right _ _ _ HS NP) Ec) as Ec'.
        rewrite (rtry_play_point dbg n g x y W Hm P2). rewrite (rtry_play_point dbg' n h) by (rewrite <- ?surjective_pairing; assumption).
        unfold check_point. rewrite <- surjective_pairing, (rim_rule _ _ _ _ _ I), Ec, Ec'. cbn [bind].
        destruct e as [e|]; [exists g, h, (Refused e); auto|].
        pose proof (rcontains_check Ec W (rgi_hist _ _ _ _ G) Hm) as (He & _).
        destruct (rplay_spec dbg n b w g x y G Hm He) as [[_ [F _]]|(g' & E & _)]; [lia|].
        destruct (rimage_play x y g' Hm He E) as [[_ F]|(h' & E' & I' & H' & H2 & _)]; [lia|]. cbn [image_move] in E'.
        exists g', h', Accepted. rewrite E, E'. auto.
      - assert (Hm' : m = MPass \/ exists c, m = MResign c) by (destruct m; [left|right|exfalso]; eauto).
        assert (E : exists g', play dbg g m = Ok g').
        { destruct Hm' as [->|[c ->]]; [|eexists; reflexivity]. pose proof (rgi_passes _ _ _ _ G) as K. unfold play, assert_.
          destruct (Nat.ltb_spec (gm_passes g) 2); [eexists; reflexivity|lia]. }
        destruct E as [g' E]. destruct (rimage_pass_resign m g' Hm' E) as (h' & E' & I' & H' & H2 & _).
        exists g', h', Accepted. unfold try_play. destruct (Nat.eqb_spec (gm_passes g) 2), (Nat.eqb_spec (gm_passes h) 2); try contradiction.
        destruct Hm' as [->|[c ->]]; cbn [image_move] in *; rewrite E, E'; auto.
    Qed.
  End Pair.
End Game.
