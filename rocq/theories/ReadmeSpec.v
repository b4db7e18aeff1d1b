(** What the claims about the README example need. *)
From Verif Require Export AreaSpec Reach.

(** a random choice: an element of the list, none only if the list is empty *)
Definition chooses (choose : nat -> list coord -> option coord) : Prop :=
  forall i l, match choose i l with Some p => p ∈ l | None => l = [] end.

(** neither the point nor a point next to it is occupied *)
Definition open_point (n : nat) (P : pos) (p : coord) : Prop :=
  on n p /\ P p = None /\ forall q, on n q -> adj p q -> P q = None.

(** stones put on these points, one after the other, are accepted *)
Definition stones_accepted (dbg : bool) (n : nat) (g : game) (ps : list coord) (g' : game) : Prop :=
  Forall (on n) ps /\ all_accepted dbg g (List.map (fun p => MPlay (fst p) (snd p)) ps) g'.
