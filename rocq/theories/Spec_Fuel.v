(** What a result that does not depend on the bound of the loops means. *)

From Coq Require Import Arith.
From Verif Require Import Outcome Types.

(** The same program with at most n passes of each of its two unbounded loops (soil_funcs.cxx 92-123, lgar.cxx 2537-2645). *)
Definition bounded (b : bool) (n : nat) : Cfg := Build_Cfg n b.

(** A run that is not cut off by the bound n gives the same result, or stops for the same reason, with every larger bound. *)
Definition kept_by_more {A} (run : nat -> outcome A) : Prop := forall n m, n <= m -> run n <> Stop OutOfFuel -> run m = run n.

(** No two bounds give different results, apart from cutting the run off. *)
Definition one_answer {A} (run : nat -> outcome A) : Prop := forall n m, run n <> Stop OutOfFuel -> run m <> Stop OutOfFuel -> run n = run m.

(** From some bound on the run is not cut off. *)
Definition settles {A} (run : nat -> outcome A) : Prop := exists N, forall n, N <= n -> run n <> Stop OutOfFuel.
