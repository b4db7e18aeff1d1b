(** Model of the example program in README.md, which src/lib.rs:1 includes as the
    documentation of the crate (and so as a documentation test). *)
From Verif Require Export Glue.

(** README.md:40-56, the loop.  [i] is the counter; [choose i l] is what the random
    choice among the legal moves [l] returns, [None] only if there are none, and
    [unwrap] panics on it.  The printing is left out, but what is printed is
    computed.  [order] is the iteration order of the hash sets in [outcome]. *)
Fixpoint readme_loop (i : nat) (choose : nat -> list coord -> option coord) (order : list point -> list point) (dbg : bool) (g : game) : res game :=
  if is_over g then Ok g
  else
    match i with
    | O => Ok g
    | S j =>
        let! l := legals dbg g in
        match choose i l with
        | None => Panic
        | Some p =>
            let! g := play dbg g (MPlay (fst p) (snd p)) in
            let! _ := goban_display (gm_goban g) in
            let! _ := outcome order dbg g in
            let! _ := to_vec (gm_goban g) in
            readme_loop j choose order dbg g
        end
    end.

(** README.md:34-56 with [i] in place of 35.  The block README.md:57-62 for the feature
    [history] is not modelled: it calls [iter] on the iterator that [history]
    (src/rules/game.rs:97) returns, which has no such method. *)
Definition readme (i : nat) (choose : nat -> list coord -> option coord) (order : list point -> list point) (dbg : bool) : res game :=
  let! g := snd (build dbg (set_rule (set_size game_builder (19, 19)%nat) CHINESE)) in
  readme_loop i choose order dbg g.
