(** Unusual komi: concrete cases. *)
From stdpp Require Import relations sorting strings.
From Verif Require Import ScoreSpec RoundSpec GameFacts.
From Verif Require Export CaseFacts.
From Coq Require Import Lia.

Local Notation length := Datatypes.length.
Open Scope nat_scope.

(** 6.3 is not representable; the nearest [f32] is 13212058 / 2^21 *)
Definition ODD_KOMI : rule := mkRule (f32_make 13212058 (-21)) (flag_illegal JAPANESE) (flag_score JAPANESE).
Definition MINUS_INFINITY : rule := mkRule (S754_infinity true) (flag_illegal JAPANESE) (flag_score JAPANESE).

Lemma case_odd_komi dbg : exists g b w,
  greach dbg 3 b w g /\ gm_passes g = 2 /\ gm_outcome g = None /\ is_f32 (komi g) /\
  N.testbit (flag_score (gm_rule g)) 1 = true /\
  (if N.testbit (flag_score (gm_rule g)) 1 then units (komi g) else Some 0%Z) = Some (13212058 * 2 ^ 128)%Z /\
  (fst (gm_prisoners g) < 1000000)%N /\ (snd (gm_prisoners g) < 1000000)%N /\
  outcome (fun l => l) dbg g = Ok (Some (WinnerByScore Black (f32_make 3565158 (-21)))).
Proof.
  destruct (sampleb dbg 3 ODD_KOMI (corner_moves ++ [MPass; MPass]) (fun g => bool_decide (gm_passes g = 2) &&
    bool_decide (komi g = f32_make 13212058 (-21)) && N.testbit (flag_score (gm_rule g)) 1 && bool_decide (gm_prisoners g = (1%N, 0%N)) && match gm_outcome g with None => true | _ => false end &&
    match outcome (fun l => l) dbg g with Ok (Some (WinnerByScore Black m)) => bool_decide (m = f32_make 3565158 (-21)) | _ => false end) ltac:(lia)) as (g & b & w & HG & _ & F).
  { destruct dbg; vm_compute; reflexivity. }
  bools F. apply bool_decide_eq_true in F, F4, F2. exists g, b, w. split; [exact HG|]. split; [exact F|].
  split; [destruct (gm_outcome g); congruence|]. rewrite F4, F3, F2. repeat (split; [vm_compute; reflexivity || discriminate|]).
  destruct (outcome _ dbg g) as [[[[] m| | | |]|]| |]; try discriminate. apply bool_decide_eq_true in F0 as ->. reflexivity.
Qed.

Lemma case_infinite_komi dbg : exists g b w,
  greach dbg 3 b w g /\ gm_passes g = 2 /\ gm_outcome g = None /\ is_f32 (komi g) /\ units (komi g) = None /\
  N.testbit (flag_score (gm_rule g)) 1 = true /\
  (fst (gm_prisoners g) < 1000000)%N /\ (snd (gm_prisoners g) < 1000000)%N /\
  outcome (fun l => l) dbg g = Ok (Some (WinnerByScore Black (S754_infinity false))).
Proof.
  destruct (sampleb dbg 3 MINUS_INFINITY (corner_moves ++ [MPass; MPass]) (fun g => bool_decide (gm_passes g = 2) &&
    bool_decide (komi g = S754_infinity true) && N.testbit (flag_score (gm_rule g)) 1 && bool_decide (gm_prisoners g = (1%N, 0%N)) && match gm_outcome g with None => true | _ => false end &&
    match outcome (fun l => l) dbg g with Ok (Some (WinnerByScore Black m)) => bool_decide (m = S754_infinity false) | _ => false end) ltac:(lia)) as (g & b & w & HG & _ & F).
  { destruct dbg; vm_compute; reflexivity. }
  bools F. apply bool_decide_eq_true in F, F4, F2. exists g, b, w. split; [exact HG|]. split; [exact F|].
  split; [destruct (gm_outcome g); congruence|]. rewrite F4, F3, F2. repeat (split; [vm_compute; reflexivity || discriminate|]).
  destruct (outcome _ dbg g) as [[[[] m| | | |]|]| |]; try discriminate. apply bool_decide_eq_true in F0 as ->. reflexivity.
Qed.
