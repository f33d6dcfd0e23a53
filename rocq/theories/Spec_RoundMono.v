(** The order of doubles and the soils for which rounding cannot turn it round. *)

From Coq Require Import Reals.
From Verif Require Import Outcome Dbl Types Soil.
Open Scope R_scope.

Section Spec.
Context {fp : Fp}.

(** [a <= b], both not NaN. *)
Definition below (a b : dbl) : Prop := dleb a b = true.

(** A soil with water contents 0 <= [r] < [e] <= 1, where [r] is a double, alpha > 0, n > 1 and 0 < m < 1. *)
Definition rounded_soil (s : soil) (r e : R) : Prop :=
  s_theta_r s = Fin r /\ s_theta_e s = Fin e /\ 0 <= r < e /\ e <= 1 /\ rnd r = Fin r /\
  (exists a, s_alpha s = Fin a /\ 0 < a) /\ (exists n, s_n s = Fin n /\ 1 < n) /\ (exists m, s_m s = Fin m /\ 0 < m < 1).

(** The head at which half of the demand is met: that of the mean of the water contents at the heads [fc] and [wp]. *)
Definition half_point (s : soil) (wp fc : dbl) : dbl :=
  h_of_Se s (Se_of_theta s ((theta_of_h s fc - theta_of_h s wp) * lit 1 / lit 2 + theta_of_h s wp)%d).
End Spec.
