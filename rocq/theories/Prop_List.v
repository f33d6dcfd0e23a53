(** C21, C47: the list of wetting fronts as a sequence. *)

From Coq Require Import Reals Lra ZArith List Lia.
From Verif Require Import Outcome Dbl Types ListOps Fronts Lib Spec_List Spec_ListRun Pf_List.
Import ListNotations.

(** Any history of insertions at the top, insertions at the end and deletions by number keeps the numbers 1..n and performs exactly
    the expected changes on the sequence of contents; it can only stop by abort(). *)
Theorem C21_history_keeps_numbering :
  forall g_psi g_K ops l, numbered l ->
    match run_ops g_psi g_K ops l with
    | Ok l' => numbered l' /\ contents l' = fold_left (fun c op => expected g_psi g_K op c) ops (contents l)
    | Stop r => r = Abort
    end.
Proof. exact run_ops_ok. Qed.
Print Assumptions C21_history_keeps_numbering.

(** One deletion: removes exactly the requested front, the others keep their contents, and the result is the front below (NULL for the last). *)
Theorem C21_delete_removes_exactly_one :
  forall l k, numbered l -> (1 <= k <= Z.of_nat (length l))%Z ->
    exists l', listDeleteFront k l = Ok (l', if (k =? Z.of_nat (length l))%Z then None else Some (Z.to_nat (k - 1)))
      /\ numbered l' /\ contents l' = without (Z.to_nat (k - 1)) (contents l).
Proof. exact numbered_delete. Qed.
Print Assumptions C21_delete_removes_exactly_one.

(** Deleting a number that does not occur stops the program, for any list. *)
Theorem C21_delete_absent_aborts :
  forall l k, (forall f, In f l -> f_num f <> k) -> listDeleteFront k l = Stop Abort.
Proof. exact delete_absent. Qed.
Print Assumptions C21_delete_absent_aborts.

(** C47: the smallest index with a companion below in the same layer, or the number of fronts. *)
Theorem C47_free_drainage_front :
  forall l, l <> [] ->
    (exists i, first_companion l i /\ wetting_front_free_drainage l = Z.of_nat (S i)) \/
    ((forall i, ~ first_companion l i) /\ wetting_front_free_drainage l = Z.of_nat (length l)).
Proof. exact free_drainage_index. Qed.
Print Assumptions C47_free_drainage_front.

(** Non-vacuity: three fronts in layers 1, 2, 2; the second is deleted; the free-drainage front is number 2. *)
Example C21_concrete :
  let f d lay n := mkF (Fin d) (Fin 0) (Fin 0) (Fin 0) lay n false (Fin 0) in
  let l := [f 1%R 1 1; f 2%R 2 2; f 3%R 2 3]%Z in
  numbered l /\ wetting_front_free_drainage l = 2%Z /\
  listDeleteFront 2 l = Ok ([f 1%R 1 1; f 3%R 2 2]%Z, Some 1%nat).
Proof.
  cbv zeta. split; [|split; reflexivity].
  intros [|[|[|i]]] f E; simpl in E; try (injection E as <-; reflexivity). destruct i; discriminate.
Qed.
