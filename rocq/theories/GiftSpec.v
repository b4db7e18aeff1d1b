(** Black stones with passes of White in between. *)
From Verif Require Export PastSpec AreaSpec.

(** Black plays on the points one after the other, White passes in between *)
Fixpoint with_passes (pts : list coord) : list move :=
  match pts with
  | [] => []
  | [p] => [MPlay (fst p) (snd p)]
  | p :: pts => MPlay (fst p) (snd p) :: MPass :: with_passes pts
  end.
