(** The fronts of a first state in double precision. *)

From Coq Require Import Reals ZArith List.
From Verif Require Import Outcome Dbl Types Soil Spec_Soil Spec_RoundMono.
Open Scope R_scope.

Section Spec.
Context {fp : Fp}.

(** The soil of a layer, with doubles as parameters. *)
Definition double_soil (s : soil) : Prop :=
  exists r e k, rounded_soil s r e /\ rnd e = Fin e /\ s_Ksat s = Fin k /\ rnd k = Fin k /\ 0 <= k.

(** No value of the front is NaN: a content with a saturation between 0 and 1, a head that is not negative, a conductivity up to Ksat. *)
Definition sane_front (s : soil) (f : front) : Prop :=
  (exists t, f_theta f = Fin t) /\ below (s_theta_r s) (f_theta f) /\ unit_range (Se_of_theta s (f_theta f)) /\
  below (Fin 0) (f_psi f) /\ (exists K, f_K f = Fin K) /\ below (Fin 0) (f_K f) /\ below (f_K f) (s_Ksat s).
End Spec.
