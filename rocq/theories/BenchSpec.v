(** What the functions of the benchmarks compute. *)
From Verif Require Export TableSpec Bench.

(** [ms] can be played from the table [t]: stones in turn, each accepted by the rules *)
Definition playable_line (n : nat) (f : N) (t : table) (ms : list coord) : Prop :=
  exists t', table_run n f t (List.map (fun p : coord => OTry (MPlay (fst p) (snd p))) ms)
                             (replicate (length ms) (Some Accepted)) t'.

(** the number [k] as the result of u64 additions *)
Definition as_u64 (dbg : bool) (k : N) : res N :=
  if (k <? 2 ^ 64)%N then Ok k else if dbg then Panic else Ok (k mod 2 ^ 64)%N.

(** [k] is the number of the lists that satisfy [D] *)
Definition number_of {A} (D : list A -> Prop) (k : N) : Prop :=
  exists ls, NoDup ls /\ (forall ms, ms ∈ ls <-> D ms) /\ N.of_nat (length ls) = k.
