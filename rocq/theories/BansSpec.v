(** Comparing masks of [IllegalRules]: only the four bits of the flags matter. *)
From Coq Require Import NArith.

Definition same_flags (F F' : N) : Prop := forall k, (k < 4)%N -> N.testbit F k = N.testbit F' k.

(** every ban of [F] is one of [F'] *)
Definition fewer_bans (F F' : N) : Prop := forall k, (k < 4)%N -> N.testbit F k = true -> N.testbit F' k = true.
