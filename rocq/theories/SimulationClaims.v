(** Concrete cases for the simulations of the tree search. *)
From stdpp Require Import relations sorting.
From Verif Require Import Spec Observe ScoreSpec SimulationSpec.
From Verif Require Import MonadFacts GameFacts RulesFacts DeadFacts RefuteFacts CaseFacts PlayClaims SolidClaims SimulationFacts.
From Coq Require Import Lia.

Local Notation length := Datatypes.length.
Open Scope nat_scope.

(** simulations that go one or two moves down and shuffle in their own ways; the best
    moves are those of [hunter] *)
Definition place (m : move) (ms : list move) : nat :=
  match list_find (fun x => x = m) ms with Some (j, _) => j | None => 0 end.
Definition hunting (i : nat) : choices :=
  mkChoices (fun j => if j =? 0 then [i] else [i; j]) (fun j k => wheel (3 * k + j)) (fun j => if j =? 0 then Black else White)
    (fun rewards ms => match hunt !! i with Some m => place m ms | None => length ms - 1 end).

Lemma hunting_fair nb i : fair nb (hunting i).
Proof.
  split; [intros j k l; apply wheel_perm|]. intros rs ms _ H. cbn [hunting ch_best]. destruct ms as [|m0 ms]; [contradiction|].
  destruct (hunt !! i) as [m|]; [|cbn; lia]. unfold place. destruct (list_find _ _) as [[j x]|] eqn:E; [|cbn; lia].
  apply list_find_Some in E as (E & _). apply lookup_lt_Some in E. exact E.
Qed.

Definition simulated_eval (dbg : bool) (g : game) : list (res nat) := List.map (simulation (fun l => l) 600 dbg (hunting 3) g) [0; 1].

(** the game of [case_reported], with a simulation before every move *)
Lemma case_simulated dbg : exists g b w, greach dbg 7 b w g /\ gm_outcome g = None /\ is_over g = false /\ (forall i, fair 1 (hunting i)) /\
  N.testbit (flag_score (gm_rule g)) 1 = true /\ is_f32 (komi g) /\ halves (komi g) 13 /\ Z.odd 13 = true /\ (Z.abs 13 <= 200000)%Z /\
  (47316994 < N.of_nat (N.to_nat 47316995))%N /\ simulated_eval dbg g = [Ok 1; Ok 1] /\
  dead_stones_wth_simulations (fun l => l) 600 1 hunting dbg g = Ok [0; 2].
Proof.
  destruct (sampleb dbg 7 JAPANESE net_moves (fun g => negb (is_over g) && match gm_outcome g with None => true | _ => false end &&
     N.testbit (flag_score (gm_rule g)) 1 && bool_decide (komi g = f32_make 13 (-1)) &&
     match simulated_eval dbg g with [Ok 1; Ok 1] => true | _ => false end &&
     match dead_stones_wth_simulations (fun l => l) 600 1 hunting dbg g with Ok [0; 2] => true | _ => false end) ltac:(lia)) as (g & b & w & HG & _ & F).
  { destruct dbg; vm_compute; reflexivity. }
  bools F. apply negb_true_iff in F. apply bool_decide_eq_true in F2.
  exists g, b, w. split; [exact HG|]. split; [destruct (gm_outcome g); congruence|]. split; [exact F|]. split; [intros i; apply hunting_fair|].
  split; [exact F3|]. rewrite F2. do 4 (split; [vm_compute; reflexivity || discriminate|]). split; [rewrite N2Nat.id; lia|]. split.
  - destruct (simulated_eval dbg g) as [|[[|[|]]| |] [|[[|[|]]| |] [|]]]; try discriminate. reflexivity.
  - destruct (dead_stones_wth_simulations (fun l => l) 600 1 hunting dbg g) as [[|[|] [|[|[|[|]]] [|]]]| |]; try discriminate. reflexivity.
Qed.

(** a simulation that ends in a draw *)
Definition drawing (i : nat) : choices :=
  mkChoices (fun j => [j; 8]) (fun j k => wheel ((8 + j) * k + 8 + j)) (fun _ => Black) (fun _ _ => 0).

Lemma drawing_fair nb i : fair nb (drawing i).
Proof. split; [intros j k l; apply wheel_perm|]. intros rs ms _ H. cbn. destruct ms; [contradiction|cbn; lia]. Qed.

Lemma simulation_draw dbg : exists g, lreach dbg 5 g /\ is_over g = false /\ (forall i, fair 1 (drawing i)) /\
  N.testbit (flag_score (gm_rule g)) 1 = true /\ komi g = f32_of_N 5 /\
  (exists leaf final, descend dbg [0; 8] g = Ok leaf /\ playout 300 0 (ch_shuffles (drawing 0) 0) dbg leaf = Ok final /\ outcome (fun l => l) dbg final = Ok (Some Draw)) /\
  dead_stones_wth_simulations (fun l => l) 300 1 drawing dbg g = Panic.
Proof.
  assert (E : exists g0, game_new (Custom 5 5) CHINESE = Ok g0) by (eexists; vm_compute; reflexivity). destruct E as [g0 E].
  exists (set_komi g0 (f32_of_N 5)). split; [apply lr_komi, (lr_new dbg 5 (Custom 5 5) CHINESE); [lia|reflexivity|exact E]|].
  vm_compute in E. injection E as <-. split; [reflexivity|]. split; [intros i; apply drawing_fair|]. split; [reflexivity|]. split; [reflexivity|].
  destruct dbg; (split; [eexists _, _; split; [vm_compute; reflexivity|]; split; [vm_compute; reflexivity|vm_compute; reflexivity]|vm_compute; reflexivity]).
Qed.
