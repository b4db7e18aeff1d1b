(** A board plays Go if and only if its width divides its height. *)
From stdpp Require Import relations.
From Verif Require Import Spec Observe RectSpec RectReach.
From Verif Require Import MonadFacts Push GameFacts ClaimFacts RulesFacts SampleFacts CaseFacts RectCoord RectInv RectBridge RectGame RectReachFacts.
From Coq Require Import Lia.

Local Notation length := Datatypes.length.
Open Scope nat_scope.

(** ** Consequences of the rules *)

Lemma rgo_no_new s n P p c R q : rgo_move s n P p c R -> ron n q -> q <> p -> P q = None -> R q = None.
Proof.
  intros (Q & H1 & H2) Hq Hne He. destruct (R q) as [x|] eqn:Er; [|reflexivity]. exfalso.
  destruct (H2 q Hq) as [A B]. destruct (H1 q Hq) as [C D].
  assert (K : ~ (s = true /\ ~ rbreathes n Q p /\ rconnected n Q p q)) by (intros F; apply A in F; congruence).
  apply B in K. assert (K' : ~ rtaken n (put P p c) p c q) by (intros F; apply C in F; congruence).
  apply D in K'. unfold put in K'. destruct (decide (q = p)); [contradiction|congruence].
Qed.

(** a stone with stones of the other colour on all neighbouring points is taken *)
Lemma rgo_surrounded s n P p c R t : rgo_move s n P p c R -> ron n t -> adj p t -> t <> p -> P t = Some (opp c) ->
  (forall q, ron n q -> adj t q -> put P p c q = Some c) -> R t = None.
Proof.
  intros (Q & H1 & H2) Ht Ha Hne Hc Hs.
  assert (Ht' : put P p c t = Some (opp c)) by (unfold put; destruct (decide (t = p)); [contradiction|exact Hc]).
  assert (Hconn : forall q, rconnected n (put P p c) t q -> q = t).
  { intros q H. destruct H as [|x y z (K1 & K2 & K3 & K4) _]; [reflexivity|]. exfalso.
    rewrite Ht' in *. rewrite (Hs y K2 K3) in K4. injection K4 as K4. destruct (opp_ne c). congruence. }
  assert (HT : rtaken n (put P p c) p c t).
  { exists t. do 3 (split; [assumption|]). split; [apply rtc_refl|]. intros (l & L1 & L2 & q & L3 & L4).
    apply Hconn in L3 as ->. rewrite (Hs l L1 L4) in L2. discriminate. }
  destruct (H2 t Ht) as [A B]. destruct (H1 t Ht) as [C D]. apply C in HT.
  destruct (R t) as [x|] eqn:Er; [|reflexivity]. exfalso.
  assert (K : ~ (s = true /\ ~ rbreathes n Q p /\ rconnected n Q p t)) by (intros F; apply A in F; congruence).
  apply B in K. congruence.
Qed.

(** ** Sample games *)

Fixpoint rrun (dbg : bool) (s : size_t) (g : game) (l : list move) : option game :=
  match l with
  | [] => Some g
  | m :: l =>
      if match m with
         | MPlay x y => (x <? fst s) && (y <? snd s) && has g (x, y) None
         | _ => true
         end
      then match play dbg g m with Ok g' => rrun dbg s g' l | _ => None end
      else None
  end.

Lemma rrun_reach dbg s l : forall b w g g', rgreach dbg s b w g -> rrun dbg s g l = Some g' ->
  exists b' w', rgreach dbg s b' w' g' /\ b' + w' <= b + w + length l.
Proof.
  induction l as [|m l IH]; intros b w g g' HG; cbn [rrun Datatypes.length].
  { intros [= <-]. exists b, w. split; [exact HG|lia]. }
  destruct (match m with MPlay x y => _ | _ => _ end) eqn:Em; [|discriminate].
  destruct (play dbg g m) as [g1| |] eqn:Ep; [|discriminate..]. intros E.
  destruct m as [|c|x y].
  - destruct (IH b w g1 g' (rg_pass _ _ _ _ _ _ HG Ep) E) as (b' & w' & H1 & H2). exists b', w'. split; [exact H1|lia].
  - destruct (IH b w g1 g' (rg_resign _ _ _ _ _ _ _ HG Ep) E) as (b' & w' & H1 & H2). exists b', w'. split; [exact H1|lia].
  - bools Em. apply Nat.ltb_lt in Em, Em1. apply bool_decide_eq_true in Em0.
    destruct (IH _ _ g1 g' (rg_play _ _ _ _ _ x y _ HG (conj Em Em1) Em0 Ep) E) as (b' & w' & H1 & H2). exists b', w'. split; [exact H1|].
    destruct (gm_turn g); cbn [bump_count fst snd] in H2; lia.
Qed.

Definition rstart (h w : nat) (r : rule) : res game := game_new (Custom (N.of_nat h) (N.of_nat w)) r.

Lemma rstart_size h w : h < 256 -> w < 256 -> size_of (Custom (N.of_nat h) (N.of_nat w)) = (h, w).
Proof. intros Hh Hw. cbn [size_of]. rewrite !N.mod_small by lia. rewrite !Nat2N.id. reflexivity. Qed.

Definition rsample (dbg : bool) (h w : nat) (r : rule) (l : list move) : option game :=
  match rstart h w r with Ok g => rrun dbg (h, w) g l | _ => None end.

Lemma rsample_reach dbg h w r l g : 1 <= h < 256 -> 1 <= w < 256 -> rsample dbg h w r l = Some g ->
  exists b w', rgreach dbg (h, w) b w' g /\ b + w' <= length l.
Proof.
  intros Hh Hw. unfold rsample, rstart. destruct (game_new _ r) as [g0| |] eqn:E; [|discriminate..]. intros Hr.
  apply (rrun_reach dbg (h, w) l 0 0 g0 g); [|exact Hr].
  eapply rg_new; [cbn; lia|cbn; lia| |exact E]. apply rstart_size; lia.
Qed.

(** ** Boards that do not play Go *)

Definition refutes (dbg : bool) (h w : nat) : bool :=
  if h =? 1 then
    match rsample dbg h w JAPANESE [MPlay 0 0] with
    | Some g => has g (0, 0) (Some Black) && has g (0, 1) None && bool_decide (gm_turn g = White) &&
        match play dbg g (MPlay 0 1) with Ok g' => negb (has g' (0, 0) None) | _ => true end
    | None => false
    end
  else if h <? w then
    match rsample dbg h w JAPANESE [] with
    | Some g => has g (0, h) None && has g (1, 0) None &&
        match play dbg g (MPlay 0 h) with Ok g' => negb (has g' (1, 0) None) | _ => true end
    | None => false
    end
  else
    match rsample dbg h w JAPANESE [MPlay 0 0; MPlay 0 1; MPass] with
    | Some g => has g (0, 0) (Some Black) && has g (0, 1) (Some White) && has g (1, 0) None && bool_decide (gm_turn g = White) &&
        match play dbg g (MPlay 1 0) with Ok g' => negb (has g' (0, 0) None) | _ => true end
    | None => false
    end.

Lemma refutes_all dbg : forallb (fun h => forallb (fun w => (h mod w =? 0) || refutes dbg h w) (seq 1 19)) (seq 1 19) = true.
Proof. destruct dbg; vm_compute; reflexivity. Qed.

Lemma refutes_go dbg h w : 1 <= h <= 19 -> 1 <= w <= 19 -> refutes dbg h w = true -> h mod w <> 0 -> ~ plays_go dbg (h, w).
Proof.
  intros Hh Hw HR Hm HP. assert (Hw2 : 2 <= w) by (destruct w as [|[|w]]; [lia|rewrite Nat.mod_1_r in Hm; contradiction|lia]).
  unfold refutes in HR. destruct (Nat.eqb_spec h 1) as [->|H1]; [|destruct (Nat.ltb_spec h w) as [Hlt|Hge]].
  - destruct (rsample dbg 1 w JAPANESE [MPlay 0 0]) as [g|] eqn:E; [|discriminate]. bools HR.
    apply bool_decide_eq_true in HR, HR2, HR1.
    destruct (rsample_reach dbg 1 w JAPANESE _ g ltac:(lia) ltac:(lia) E) as (b & b' & HG & L). cbn in L.
    destruct (HP b b' g 0 1 HG ltac:(lia) ltac:(split; cbn; lia) HR2) as (g' & Eg & HM). rewrite Eg in HR0.
    apply negb_true_iff in HR0. apply bool_decide_eq_false in HR0. apply HR0.
    apply (rgo_surrounded _ _ _ _ _ _ (0, 0) HM); [split; cbn; lia|unfold adj; cbn; lia|discriminate|rewrite HR1; exact HR|].
    intros [a c] [Ha Hc] Hd. cbn [fst snd] in *. unfold adj in Hd. cbn [fst snd] in Hd.
    assert (a = 0) as -> by lia. assert (c = 1) as -> by lia. rewrite HR1. unfold put. destruct (decide _); [reflexivity|contradiction].
  - destruct (rsample dbg h w JAPANESE []) as [g|] eqn:E; [|discriminate]. bools HR.
    apply bool_decide_eq_true in HR, HR1.
    destruct (rsample_reach dbg h w JAPANESE _ g ltac:(lia) ltac:(lia) E) as (b & b' & HG & L). cbn in L.
    destruct (HP b b' g 0 h HG ltac:(lia) ltac:(split; cbn; lia) HR) as (g' & Eg & HM). rewrite Eg in HR0.
    apply negb_true_iff in HR0. apply bool_decide_eq_false in HR0. apply HR0.
    apply (rgo_no_new _ _ _ _ _ _ (1, 0) HM); [split; cbn; lia|intros [=]|exact HR1].
  - assert (w <> h) by (intros ->; rewrite Nat.mod_same in Hm; lia).
    destruct (rsample dbg h w JAPANESE _) as [g|] eqn:E; [|discriminate]. bools HR.
    apply bool_decide_eq_true in HR, HR3, HR2, HR1.
    destruct (rsample_reach dbg h w JAPANESE _ g ltac:(lia) ltac:(lia) E) as (b & b' & HG & L). cbn in L.
    destruct (HP b b' g 1 0 HG ltac:(lia) ltac:(split; cbn; lia) HR2) as (g' & Eg & HM). rewrite Eg in HR0.
    apply negb_true_iff in HR0. apply bool_decide_eq_false in HR0. apply HR0.
    apply (rgo_surrounded _ _ _ _ _ _ (0, 0) HM); [split; cbn; lia|unfold adj; cbn; lia|discriminate|rewrite HR1; exact HR|].
    intros [a c] [Ha Hc] Hd. unfold adj in Hd. cbn [fst snd] in *. rewrite HR1. unfold put. destruct (decide _) as [|D]; [reflexivity|].
    assert (a = 0 /\ c = 1 \/ a = 1 /\ c = 0) as [[-> ->]|[-> ->]] by lia; [exact HR3|contradiction].
Qed.

Theorem plays_go_iff dbg h w : 1 <= h <= 19 -> 1 <= w <= 19 -> plays_go dbg (h, w) <-> Nat.divide w h.
Proof.
  intros Hh Hw. split.
  - intros HP. apply Nat.mod_divide; [lia|]. destruct (decide (h mod w = 0)) as [|Hm]; [assumption|]. exfalso.
    pose proof (refutes_all dbg) as F. rewrite forallb_forall in F. specialize (F h). rewrite in_seq in F. specialize (F ltac:(lia)).
    rewrite forallb_forall in F. specialize (F w). rewrite in_seq in F. specialize (F ltac:(lia)).
    apply orb_true_iff in F as [F|F]; [apply Nat.eqb_eq in F; contradiction|]. exact (refutes_go dbg h w Hh Hw F Hm HP).
  - intros Hd b w' g x y HG L Hp He. pose proof (rgreach_inv dbg (h, w) b w' g Hd HG) as G.
    destruct (rplay_spec dbg (h, w) b w' g x y G Hp He) as [(_ & F & _)|(g' & E & _ & HM & _)].
    + pose proof (rgi_chains _ _ _ _ G). lia.
    + exists g'. split; [exact E|]. change (N.testbit (flag_illegal (gm_rule g)) 2) with (forbids_suicide (gm_rule g)). rewrite <- suicide_bit. exact HM.
Qed.
