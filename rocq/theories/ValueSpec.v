(** Games that are worth the same. *)
From Verif Require Export StrategySpec SymSpec.

(** what [c] can force from [g] in the build [dbg], [γ c] can force from [h] in the
    build [dbg'], and the other way round: a win, and a win or a draw *)
Definition same_value (dbg dbg' : bool) (s : nat * nat) (γ : color -> color) (g h : game) : Prop :=
  forall c,
    (forces dbg s c (won dbg c) g <-> forces dbg' s (γ c) (won dbg' (γ c)) h) /\
    (forces dbg s c (not_lost dbg c) g <-> forces dbg' s (γ c) (not_lost dbg' (γ c)) h).
