(** Water contents that a front can be given. *)

From Coq Require Import Reals.
From Verif Require Import Outcome Dbl Types Soil Spec_RoundMono.
Open Scope R_scope.

Section Spec.
Context {fp : Fp}.

(** A content from [r] up to [e], or up to what the retention curve gives for some head: it may exceed [e] (C99). *)
Definition holds (s : soil) (r e t : R) : Prop := r <= t /\ (t <= e \/ exists h, below (Fin 0) h /\ below (Fin t) (theta_of_h s h)).
End Spec.
