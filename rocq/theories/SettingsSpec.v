(** What calls do to the settings of a game. *)
From Verif Require Export TableSpec.

(** the komi after the calls, [k] before them *)
Fixpoint last_komi (k : f32) (ops : list op) : f32 :=
  match ops with
  | [] => k
  | OKomi x :: t => last_komi x t
  | _ :: t => last_komi k t
  end.

(** the number of handicap stones after the calls, [h] before them; it is kept
    in 32 bits *)
Fixpoint last_handicap (h : N) (ops : list op) : N :=
  match ops with
  | [] => h
  | OHandicap pts :: t => last_handicap (N.of_nat (length pts) mod 4294967296)%N t
  | _ :: t => last_handicap h t
  end.

(** the calls without the changes of komi, and their answers *)
Definition sets_komi (o : op) : bool := match o with OKomi _ => true | _ => false end.
Definition without_komi (ops : list op) : list op := List.filter (fun o => negb (sets_komi o)) ops.
Fixpoint answers_without_komi (ops : list op) (l : list (option verdict)) : list (option verdict) :=
  match ops, l with
  | o :: t, a :: l => if sets_komi o then answers_without_komi t l else a :: answers_without_komi t l
  | _, _ => []
  end.
