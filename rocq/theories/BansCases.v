(** A concrete case for the theorems about bans. *)
From stdpp Require Import list.
From Verif Require Import BansSpec Spec Observe Reach Samples Game MonadFacts GameFacts RefuteFacts CaseFacts BansFacts TableClaims.
From Coq Require Import Lia.
Local Notation length := Datatypes.length.
Local Open Scope nat_scope.

(** White is to move; the ko forbids (1, 1), suicide (0, 0) *)
Lemma case_bans dbg : exists g b w l l' q, greach dbg 9 b w g /\ legals_by dbg g KO = Ok l /\ legals_by dbg g (N.lor SUICIDE FILLEYE) = Ok l' /\ legals_by dbg g 0 = Ok q /\
  fewer_bans 0 KO /\ same_flags KO 17 /\
  check_point_by dbg g (1, 1) KO = Ok (Some EKo) /\ check_point_by dbg g (1, 1) (N.lor SUICIDE FILLEYE) = Ok None /\
  check_point_by dbg g (0, 0) KO = Ok None /\ check_point_by dbg g (0, 0) (N.lor SUICIDE FILLEYE) = Ok (Some ESuicide) /\
  length q = 73 /\ length l = 72 /\ length l' = 71 /\ (1, 1) ∉ l /\ (1, 1) ∈ l' /\ (0, 0) ∈ l /\ (0, 0) ∉ l'.
Proof.
  destruct (sampleb dbg 9 JAPANESE ko_moves (fun g =>
     match legals_by dbg g KO, legals_by dbg g (N.lor SUICIDE FILLEYE), legals_by dbg g 0 with
     | Ok l, Ok l', Ok q => (length q =? 73) && (length l =? 72) && (length l' =? 71) && negb (bool_decide ((1, 1) ∈ l)) && bool_decide ((1, 1) ∈ l') && bool_decide ((0, 0) ∈ l) && negb (bool_decide ((0, 0) ∈ l'))
     | _, _, _ => false end &&
     match check_point_by dbg g (1, 1) KO with Ok (Some EKo) => true | _ => false end && match check_point_by dbg g (1, 1) (N.lor SUICIDE FILLEYE) with Ok None => true | _ => false end &&
     match check_point_by dbg g (0, 0) KO with Ok None => true | _ => false end && match check_point_by dbg g (0, 0) (N.lor SUICIDE FILLEYE) with Ok (Some ESuicide) => true | _ => false end) ltac:(lia))
    as (g & b & w & HG & _ & F); [destruct dbg; vm_compute; reflexivity|].
  apply andb_true_iff in F as [F F4]. apply andb_true_iff in F as [F F3]. apply andb_true_iff in F as [F F2]. apply andb_true_iff in F as [F F1].
  destruct (legals_by dbg g KO) as [l| |] eqn:E1; try discriminate F. destruct (legals_by dbg g (N.lor SUICIDE FILLEYE)) as [l'| |] eqn:E2; try discriminate F. destruct (legals_by dbg g 0) as [q| |] eqn:E3; try discriminate F.
  rewrite !andb_true_iff, !negb_true_iff, !bool_decide_eq_true, !bool_decide_eq_false, !Nat.eqb_eq in F.
  exists g, b, w, l, l', q. split; [exact HG|]. do 3 (split; [first [exact E1|exact E2|exact E3|reflexivity]|]). split; [intros k _ H; rewrite N.bits_0 in H; discriminate|].
  split; [intros k Hk; assert (k = 0 \/ k = 1 \/ k = 2 \/ k = 3)%N as [->|[->|[->| ->]]] by lia; reflexivity|].
  destruct (check_point_by dbg g (1, 1) KO) as [[[]|]| |]; try discriminate F1. destruct (check_point_by dbg g (1, 1) (N.lor SUICIDE FILLEYE)) as [[|]| |]; try discriminate F2.
  destruct (check_point_by dbg g (0, 0) KO) as [[|]| |]; try discriminate F3. destruct (check_point_by dbg g (0, 0) (N.lor SUICIDE FILLEYE)) as [[[]|]| |]; try discriminate F4.
  intuition.
Qed.
