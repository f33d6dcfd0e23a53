(** Running a history of list operations on the model. *)

From Coq Require Import Reals ZArith List.
From Verif Require Import Outcome Dbl Types ListOps Spec_List.
Import ListNotations.

Definition run_op (g_psi g_K : dbl) (op : list_op) (l : list front) : outcome (list front) :=
  match op with
  | OpTop d t lay b => Ok (listInsertFirst g_psi g_K d t 1 lay b l)
  | OpEnd d t lay b => '(l', _) <- listInsertFront g_psi g_K d t (listLength l + 1) lay b l ;; Ok l'
  | OpDelete k => '(l', _) <- listDeleteFront k l ;; Ok l'
  end.
Fixpoint run_ops (g_psi g_K : dbl) (ops : list list_op) (l : list front) : outcome (list front) :=
  match ops with
  | [] => Ok l
  | op :: r => l' <- run_op g_psi g_K op l ;; run_ops g_psi g_K r l'
  end.
