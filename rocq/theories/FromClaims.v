(** Claims about [From<&[MaybeColor]>] for lists of every length. *)
From stdpp Require Import relations.
From Verif Require Import Goban Game Spec Observe AnySpec FromFacts.
From Coq Require Import Lia.

Local Notation length := Datatypes.length.

(** two rows of two, and a stone for a third row *)
Definition third_row : list (option color) := [None; Some Black; Some White; None; Some Black].

Lemma from_past_board : exists g g', goban_from false third_row = Ok g /\ goban_from false (take 4 third_row) = Ok g' /\
  goban_from true third_row = Panic /\ gsize g = (2, 2)%nat /\ gsize g' = (2, 2)%nat /\
  get_stones g = Ok [((0, 1)%nat, Black); ((1, 0)%nat, White); ((2, 0)%nat, Black)] /\
  get_stones g' = Ok [((0, 1)%nat, Black); ((1, 0)%nat, White)] /\
  (forall p, on 2 p -> pos_of g p = pos_of g' p) /\ goban_eq g g' = Ok false.
Proof.
  destruct (goban_from false third_row) as [g| |] eqn:E; [|exfalso; vm_compute in E; discriminate E..].
  destruct (goban_from false (take 4 third_row)) as [g'| |] eqn:E'; [|exfalso; vm_compute in E'; discriminate E'..].
  exists g, g'. split; [reflexivity|]. split; [reflexivity|].
  apply (f_equal (fun r => match r with Ok v => v | _ => g end)) in E. cbv beta iota in E. rewrite <- E. clear E.
  apply (f_equal (fun r => match r with Ok v => v | _ => g' end)) in E'. cbv beta iota in E'. rewrite <- E'. clear E'.
  split; [vm_compute; reflexivity|]. split; [vm_compute; reflexivity|]. split; [vm_compute; reflexivity|].
  split; [vm_compute; reflexivity|]. split; [vm_compute; reflexivity|]. split; [|vm_compute; reflexivity].
  intros [x y] [Hx Hy]. cbn [fst snd] in *. destruct x as [|[|x]]; [| |lia]; (destruct y as [|[|y]]; [| |lia]); vm_compute; reflexivity.
Qed.

Lemma case_from_any : goban_from true third_row = Panic /\ (exists g, goban_from false third_row = Ok g) /\
  (exists g, goban_from true (take 4 third_row ++ [None; None; None]) = Ok g /\ gsize g = (2, 2)%nat) /\
  (exists g, goban_from true [] = Ok g) /\
  goban_from false (replicate 361 None ++ [Some White]) = Panic /\
  (exists g, goban_from false (replicate 399 None) = Ok g) /\ length (replicate 400 (@None color)) = 400%nat.
Proof.
  split; [vm_compute; reflexivity|]. split; [eexists; vm_compute; reflexivity|].
  split; [eexists; split; vm_compute; reflexivity|]. split; [eexists; vm_compute; reflexivity|].
  split; [|split; [|apply replicate_length]].
  - apply (from_any false). { rewrite app_length, replicate_length. cbn [length]. lia. }
    exists 361%nat, White. split; [|lia]. rewrite lookup_app_r; rewrite replicate_length; [reflexivity|lia].
  - destruct (from_any false (replicate 399 None)) as [_ H]. destruct H as [HP [HQ|HQ]]; [rewrite replicate_length; lia| |exact HQ].
    apply HP in HQ as (i & c & Hi & _). apply lookup_replicate in Hi as [Hi _]. discriminate Hi.
Qed.

Lemma case_from_shows : exists g, goban_from false third_row = Ok g /\ number_of_stones g = (2, 1)%nat /\
  to_vec g = Ok (third_row ++ replicate 356 None).
Proof.
  destruct (goban_from false third_row) as [g| |] eqn:E; [|exfalso; vm_compute in E; discriminate E..].
  exists g. split; [reflexivity|]. destruct (from_shows false third_row g E) as (_ & T & N & _). rewrite N, T.
  split; vm_compute; reflexivity.
Qed.
