(** Specification of the unit hydrograph. *)

From Coq Require Import Reals List ZArith.
From Verif Require Import Outcome Dbl Giuh Spec_Common.
Import ListNotations.
Open Scope R_scope.

(** Discrete convolution of the ordinates with a runoff series, at step [t]: sum over i <= t of ord_i * runoff_(t-i). *)
Definition convolution (ord runoff : list R) (t : nat) : R :=
  sum_f_R0 (fun i => nth i ord 0 * nth (t - i) runoff 0) t.

(** Successive calls, one per runoff depth; the outputs in order and the final queue. *)
Fixpoint giuh_calls {fp : Fp} (N : Z) (ord queue rs : list dbl) : outcome (list dbl * list dbl) :=
  match rs with
  | [] => Ok ([], queue)
  | r :: rs' =>
      '(o, q) <- giuh_convolution_integral r N ord queue ;;
      '(os, q') <- giuh_calls N ord q rs' ;;
      Ok (o :: os, q')
  end.
