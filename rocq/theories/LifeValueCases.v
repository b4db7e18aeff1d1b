(** A concrete case for the theorem about living stones. *)
From stdpp Require Import relations.
From Verif Require Import LifeSpec LifeValueSpec StrategySpec Spec Observe Ops ScoreSpec.
From Verif Require Import Bridge MonadFacts GameFacts LegalFacts RefuteFacts LifeFacts LifeClaims LifeValue.
From Coq Require Import Lia.

Local Notation length := Datatypes.length.
Local Open Scope nat_scope.

Definition big_wall : list coord := [(1, 1); (0, 1); (1, 0); (1, 2); (1, 3); (1, 4); (0, 3); (0, 4); (2, 0); (2, 1); (2, 2); (2, 3); (2, 4); (3, 0); (3, 1)].
Definition big_wall_moves : list move :=
  [MPlay 1 1; MPlay 4 2; MPlay 0 1; MPlay 3 3; MPlay 1 0; MPlay 4 4; MPlay 1 2; MPass; MPlay 1 3; MPass; MPlay 1 4; MPass; MPlay 0 3; MPass; MPlay 0 4; MPass;
   MPlay 2 0; MPass; MPlay 2 1; MPass; MPlay 2 2; MPass; MPlay 2 3; MPass; MPlay 2 4; MPass; MPlay 3 0; MPass; MPlay 3 1].

Lemma big_wall_alive g : (forall z, z ∈ big_wall -> position g z = Some Black) -> position g (0, 0) = None -> position g (0, 2) = None ->
  alive 5 (position g) Black big_wall [[(0, 0)]; [(0, 2)]].
Proof.
  intros HB E1 E2.
  assert (K : forall a, a ∈ big_wall -> connected 5 (position g) (1, 1) a).
  { intros a Ha. unfold big_wall in Ha. apply elem_of_cons in Ha. destruct Ha as [->|Ha]; [apply rtc_refl|].
    eapply (grown_connected 5 (position g) (1, 1) Black (tail big_wall) [(1, 1)]); [vm_compute; reflexivity| | |exact Ha].
    - intros z Hz. apply elem_of_list_singleton in Hz. subst z. split; [on_|]. split; [apply HB; apply elem_of_cons; auto|apply rtc_refl].
    - intros z Hz. apply HB. apply elem_of_cons. right. exact Hz. }
  assert (L : forall x e q, x ∈ big_wall -> q ∈ big_wall -> on 5 e -> position g e = None -> adj q e -> liberty 5 (position g) x e).
  { intros x e q Hx Hq Oe Ee A. split; [exact Oe|]. split; [exact Ee|]. exists q. split; [|exact A].
    eapply rtc_transitive; [apply connected_sym, K, Hx|apply K, Hq]. }
  split; [|split].
  - intros x Hx. split; [|apply HB, Hx]. unfold big_wall in Hx. elems Hx; on_.
  - intros R HR. elems HR.
    + split; [|split].
      * intros p Hp. elems Hp. split; [on_|congruence].
      * exists (0, 0). split; [apply elem_of_list_here|exact E1].
      * intros p q Hp Hq A. elems Hp. right. destruct q as [x y]. unfold adj in A. cbn in A. destruct Hq as [Q1 Q2]. cbn in Q1, Q2.
        assert (x = 0 /\ y = 1 \/ x = 1 /\ y = 0) as [[-> ->]|[-> ->]] by lia; unfold big_wall; elem_.
    + split; [|split].
      * intros p Hp. elems Hp. split; [on_|congruence].
      * exists (0, 2). split; [apply elem_of_list_here|exact E2].
      * intros p q Hp Hq A. elems Hp. right. destruct q as [x y]. unfold adj in A. cbn in A. destruct Hq as [Q1 Q2]. cbn in Q1, Q2.
        assert (x = 0 /\ y = 1 \/ x = 0 /\ y = 3 \/ x = 1 /\ y = 2) as [[-> ->]|[[-> ->]|[-> ->]]] by lia; unfold big_wall; elem_.
  - intros x Hx. exists [(0, 0)], [(0, 2)]. split; [apply elem_of_list_here|]. split; [apply elem_of_list_further, elem_of_list_here|].
    split; [|split].
    + intros p Hp Hq. elems Hp. apply elem_of_list_singleton in Hq. discriminate.
    + intros p Hp Ep. elems Hp. apply (L x (0, 0) (0, 1)); [exact Hx|unfold big_wall; elem_|on_|exact E1|unfold adj; cbn; lia].
    + intros p Hp Ep. elems Hp. apply (L x (0, 2) (1, 2)); [exact Hx|unfold big_wall; elem_|on_|exact E2|unfold adj; cbn; lia].
Qed.

(** plays [ms] as long as they are accepted, on the board, and no black stone goes into an eye *)
Fixpoint carefully (dbg : bool) (g : game) (ms : list move) : option game :=
  match ms with
  | [] => Some g
  | m :: ms =>
    if match m with
       | MPlay x y => (x <? 5) && (y <? 5) && negb (bool_decide ((x, y) = (0, 0)) || bool_decide ((x, y) = (0, 2)))
       | MPass => true
       | MResign _ => false
       end
    then match try_play dbg g m with Ok (g', Accepted) => carefully dbg g' ms | _ => None end
    else None
  end.

Lemma carefully_careful dbg ms : forall g g', carefully dbg g ms = Some g' -> rtc (careful dbg 5 Black [[(0, 0)]; [(0, 2)]]) g g'.
Proof.
  induction ms as [|m ms IH]; intros g g' E; [cbn in E; injection E as <-; apply rtc_refl|]. cbn [carefully] in E.
  destruct (match m with MPlay x y => _ | MPass => true | MResign _ => false end) eqn:B; [|discriminate].
  destruct (try_play dbg g m) as [[g1 []]| |] eqn:Et; try discriminate. apply (rtc_l _ _ g1); [|apply IH; exact E].
  exists m. split.
  - split; [|exact Et]. destruct m as [|x|x y]; [exact I|discriminate|]. rewrite !andb_true_iff, !Nat.ltb_lt in B. cbn. split; cbn; tauto.
  - intros _ x y -> R HR Hp. rewrite !andb_true_iff, negb_true_iff, orb_false_iff, !bool_decide_eq_false in B. destruct B as [_ [B1 B2]].
    elems HR; apply elem_of_list_singleton in Hp; congruence.
Qed.

(** fifteen black stones with two eyes on the 5 x 5 board, White has three stones below and is to move; komi 7.5;
    White adds two stones, Black one, and both pass *)
Lemma case_living dbg : exists g b w g', 2 <= 5 /\ greach dbg 5 b w g /\ forbids_suicide (gm_rule g) = true /\ gm_outcome g = None /\
  alive 5 (position g) Black big_wall [[(0, 0)]; [(0, 2)]] /\ NoDup big_wall /\ NoDup [(0, 0); (0, 2)] /\ (forall e, e ∈ [(0, 0); (0, 2)] -> [e] ∈ [[(0, 0)]; [(0, 2)]]) /\
  is_f32 (komi g) /\ halves (komi g) 15 /\ (Z.abs 15 <= 200000)%Z /\ N.testbit (flag_score (gm_rule g)) 0 = true /\ N.testbit (flag_score (gm_rule g)) 2 = false /\
  lead 5 Black big_wall [(0, 0); (0, 2)] (flag_score (gm_rule g)) 15 = 3%Z /\
  gm_turn g = White /\ is_over g = false /\ position g (4, 2) = Some White /\ position g (3, 3) = Some White /\ position g (4, 4) = Some White /\
  rtc (careful dbg 5 Black [[(0, 0)]; [(0, 2)]]) g g' /\ is_over g' = true /\ position g' (3, 2) = Some White /\ position g' (4, 1) = Some Black.
Proof.
  destruct (sampleb dbg 5 CHINESE big_wall_moves (fun g =>
     forbids_suicide (gm_rule g) && all_have g big_wall (Some Black) && has g (0, 0) None && has g (0, 2) None && bool_decide (gm_turn g = White) &&
     match gm_outcome g with None => true | _ => false end && bool_decide (flag_score (gm_rule g) = 3%N) && bool_decide (komi g = f32_make 15 (-1)) &&
     has g (4, 2) (Some White) && has g (3, 3) (Some White) && has g (4, 4) (Some White) && negb (is_over g) &&
     match carefully dbg g [MPlay 3 2; MPlay 4 1; MPlay 3 4; MPass; MPass] with Some g' => is_over g' && has g' (3, 2) (Some White) && has g' (4, 1) (Some Black) | None => false end) ltac:(lia)) as (g & b & w & HG & _ & F); [destruct dbg; vm_compute; reflexivity|].
  repeat match goal with H : (_ && _) = true |- _ => apply andb_true_iff in H as [? ?] end.
  match goal with H : all_have _ _ _ = true |- _ => pose proof (all_have_spec _ _ _ H) as HB end.
  match goal with H : match carefully _ _ _ with _ => _ end = true |- _ => rename H into HC end.
  destruct (carefully _ _ _) as [g'|] eqn:EC in HC; [|discriminate]. apply andb_true_iff in HC as [HC ?]. apply andb_true_iff in HC as [? ?].
  unfold has in *. repeat match goal with H : bool_decide _ = true |- _ => apply bool_decide_eq_true in H end.
  assert (E1 : position g (0, 0) = None) by assumption. assert (E2 : position g (0, 2) = None) by assumption.
  exists g, b, w, g'. split; [lia|]. split; [exact HG|]. split; [assumption|]. split; [destruct (gm_outcome g); [discriminate|reflexivity]|].
  split; [exact (big_wall_alive g HB E1 E2)|].
  split; [apply (bool_decide_eq_true_1 (NoDup big_wall)); vm_compute; reflexivity|]. split; [apply (bool_decide_eq_true_1 (NoDup [(0, 0); (0, 2)])); vm_compute; reflexivity|].
  split; [intros e He; elems He; elem_|].
  match goal with H : komi g = _ |- _ => rewrite H end. match goal with H : flag_score (gm_rule g) = _ |- _ => rewrite H end.
  split; [vm_compute; reflexivity|]. split; [vm_compute; reflexivity|]. split; [vm_compute; discriminate|]. do 2 (split; [reflexivity|]). split; [reflexivity|].
  split; [assumption|]. split; [destruct (is_over g); [discriminate|reflexivity]|]. do 3 (split; [assumption|]).
  split; [exact (carefully_careful _ _ _ _ EC)|]. auto.
Qed.

(** the same position under the Japanese rule, after two more passes: stones on the board do not count there *)
Lemma territory_differs dbg : exists g b w, 2 <= 5 /\ greach dbg 5 b w g /\ forbids_suicide (gm_rule g) = true /\ gm_outcome g = None /\
  alive 5 (position g) Black big_wall [[(0, 0)]; [(0, 2)]] /\ is_f32 (komi g) /\ halves (komi g) 13 /\
  lead 5 Black big_wall [(0, 0); (0, 2)] (flag_score (gm_rule g)) 13 = 5%Z /\
  ~ forces dbg (5, 5) Black (not_lost dbg Black) g.
Proof.
  destruct (sampleb dbg 5 JAPANESE (big_wall_moves ++ [MPass; MPass]) (fun g =>
     forbids_suicide (gm_rule g) && all_have g big_wall (Some Black) && has g (0, 0) None && has g (0, 2) None &&
     match gm_outcome g with None => true | _ => false end && bool_decide (flag_score (gm_rule g) = 6%N) && bool_decide (komi g = f32_make 13 (-1)) && is_over g &&
     match outcome id dbg g with Ok (Some e) => match endgame_winner e with Some White => true | _ => false end | _ => false end) ltac:(lia)) as (g & b & w & HG & _ & F); [destruct dbg; vm_compute; reflexivity|].
  repeat match goal with H : (_ && _) = true |- _ => apply andb_true_iff in H as [? ?] end.
  match goal with H : all_have _ _ _ = true |- _ => pose proof (all_have_spec _ _ _ H) as HB end.
  match goal with H : match outcome _ _ _ with _ => _ end = true |- _ => rename H into HO end.
  unfold has in *. repeat match goal with H : bool_decide _ = true |- _ => apply bool_decide_eq_true in H end.
  exists g, b, w. split; [lia|]. split; [exact HG|]. split; [assumption|]. split; [destruct (gm_outcome g); [discriminate|reflexivity]|].
  split; [apply big_wall_alive; assumption|].
  match goal with H : komi g = _ |- _ => rewrite H end. match goal with H : flag_score (gm_rule g) = _ |- _ => rewrite H end.
  split; [vm_compute; reflexivity|]. split; [vm_compute; reflexivity|]. split; [reflexivity|].
  intros Fo. assert (Ov : is_over g = true) by assumption. destruct Fo as [g Ov' N|g m g' Ov' ? ? ?|g Ov' ? ?]; [|congruence..].
  destruct (N id (fun l => reflexivity l)) as (e & Ee & Ne). rewrite Ee in HO. cbn [opp] in Ne. destruct (endgame_winner e) as [[|]|]; congruence.
Qed.
