(** Small specification vocabulary over the reals, independent of the model. *)

From Coq Require Import Reals List.
Import ListNotations.
Open Scope R_scope.

(** Sum of a list. *)
Fixpoint Rsum (l : list R) : R := match l with [] => 0 | x :: r => x + Rsum r end.

From Verif Require Import Outcome Dbl.

(** The C comparison [d < 0] is false (in particular for NaN). *)
Definition not_negative (d : dbl) : Prop := dltb d (Fin 0) = false.

(** A real number, no infinity and no NaN. *)
Definition finite (d : dbl) : Prop := exists r, d = Fin r.
