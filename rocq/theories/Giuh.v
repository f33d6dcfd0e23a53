(** giuh/giuh.c *)

From Coq Require Import Reals ZArith List Bool.
From Verif Require Import Outcome Dbl.
Import ListNotations.
Open Scope dbl_scope.

Section Giuh.
Context {fp : Fp}.

(** giuh_convolution_integral, giuh.c:12-39.  Returns the discharge and the queue after the call. *)
Definition giuh_convolution_integral (runoff : dbl) (N : Z) (ord queue : list dbl) : outcome (dbl * list dbl) :=
  q <- aset queue N (Fin 0) ;;
  q <- zfor 0 (Z.to_nat N) (fun i q =>
         x <- aget q i ;; o <- aget ord i ;; aset q i (x + o * runoff)) q ;;
  now <- aget q 0 ;;
  q <- zfor 1 (Z.to_nat (N - 1)) (fun i q => x <- aget q i ;; aset q (i - 1)%Z x) q ;;
  q <- aset q (N - 1)%Z (Fin 0) ;;
  Ok (now, q).

End Giuh.
