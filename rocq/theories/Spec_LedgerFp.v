(** Vocabulary for the water ledger in rounded arithmetic. *)

From Coq Require Import Reals ZArith List.
From Verif Require Import Outcome Dbl Types Fronts State Update Spec_Common Spec_Update.
Import ListNotations.
Open Scope R_scope.

(** Accuracy of the arithmetic: up to the size [L] a result is a number and off by at most [eta], and a result that is a number
    up to the size [L] is off by at most [eta]. *)
Definition accurate (fp : Fp) (L eta : R) : Prop :=
  (forall x, Rabs x <= L -> exists r, rnd x = Fin r /\ Rabs (r - x) <= eta) /\
  (forall x r, rnd x = Fin r -> Rabs r <= L -> Rabs (r - x) <= eta).

(** A number of size at most [M]. *)
Definition within (M : R) (d : dbl) : Prop := exists x, d = Fin x /\ Rabs x <= M.

Section Spec.
Context {fp : Fp} {cfg : Cfg} (M : R).

(** The profile holds at most [M] cm of water. *)
Definition holds (s : state) : Prop := exists v, lgar_calc_mass_bal (p_cum (st_p s)) (st_head s) = Ok v /\ within M v.

(** Totals of the running Update, and the water on the surface. *)
Definition low_totals (a : acc) : Prop :=
  within M (a_precip a) /\ within M (a_runoff a) /\ within M (a_aet a) /\ within M (a_rech a) /\ within M (a_on a).
Definition low_step (x : step) : Prop := holds (x_s x) /\ holds (x_s' x) /\ low_totals (x_a x) /\ low_totals (x_a' x).

(** Totals of the simulation. *)
Definition low_books (s : state) : Prop :=
  holds s /\ within M (mb_start (st_mb s)) /\ within M (mb_precip (st_mb s)) /\ within M (mb_runoff (st_mb s)) /\ within M (mb_aet (st_mb s)) /\
  within M (mb_rech (st_mb s)) /\ within M (mb_calib (st_mb s)) /\ within M (mb_on (st_mb s)).

(** A simulation of [m] Updates and [n] sub-steps in which no storage and no total exceeds [M] cm. *)
Inductive tracked (s0 : state) : nat -> nat -> state -> Prop :=
| tr_start : low_books s0 -> tracked s0 0 0 s0
| tr_edit : forall m n s s', tracked s0 m n s -> user_edit s s' -> not_negative (c_pmax (st_cal s')) -> tracked s0 m n s'
| tr_update : forall m n s u ys s', tracked s0 m n s -> executed s u ys s' -> Forall low_step ys -> low_books s' ->
    tracked s0 (S m) (n + length ys) s'.
End Spec.
