(** Two first states of the same column. *)

From Coq Require Import Reals ZArith List.
From Verif Require Import Outcome Dbl Types Spec_RoundMono.
Open Scope R_scope.

Section Spec.
Context {fp : Fp}.

(** The same front, with at most as much water in [f'] as in [f]. *)
Definition drier (f f' : front) : Prop := f_layer f' = f_layer f /\ f_num f' = f_num f /\ f_depth f' = f_depth f /\ f_bottom f' = f_bottom f /\ below (f_theta f') (f_theta f).

(** Every layer has a positive thickness, as a double, and a soil with a retention curve. *)
Definition rounded_column (e : env) : Prop :=
  forall k, (1 <= k <= e_nlayers e)%Z ->
    (exists b c x, aget (e_cum e) (k - 1) = Ok (Fin b) /\ aget (e_cum e) k = Ok (Fin c) /\ (Fin c - Fin b)%d = Fin x /\ 0 < x) /\
    (exists s r t, soil_of e k = Ok s /\ rounded_soil s r t).
End Spec.
