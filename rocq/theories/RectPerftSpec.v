(** Lines of play in the upper square of a tall board. *)
From Verif Require Export RectTableSpec RectPlayoutSpec BenchSpec.

Local Notation length := Datatypes.length.

(** the points can be played one after the other *)
Definition rplayable_line (s : nat * nat) (f : N) (t : table) (ms : list coord) : Prop :=
  exists t', rtable_run s f t (List.map (fun p : coord => OTry (MPlay (fst p) (snd p))) ms)
                              (replicate (length ms) (Some Accepted)) t'.
