(** What one pass of the main loop does to the fronts. *)

From Coq Require Import Reals ZArith List Bool.
From Verif Require Import Outcome Dbl Types ListOps Soil Spec_Common Spec_List.
Import ListNotations.
Open Scope R_scope.

Section Any.
Context {fp : Fp}.

(** A front at the lower boundary of its layer keeps its depth.  Every other front goes down by its velocity times the length of the step, in the first
    layer no deeper than the column. *)
Definition travelled (e : env) (dt : dbl) (c c' : front) : Prop :=
  f_layer c' = f_layer c /\ f_num c' = f_num c /\ f_bottom c' = f_bottom c /\ f_dzdt c' = f_dzdt c /\ f_K c' = f_K c /\
  (if f_bottom c then f_depth c' = f_depth c
   else if (f_layer c =? 1)%Z then exists column, aget (e_cum e) (e_nlayers e) = Ok column /\ f_depth c' = dfmin (f_depth c + f_dzdt c * dt) column
   else f_depth c' = (f_depth c + f_dzdt c * dt)%d).

(** The capillary head is the same on both sides of a boundary between two layers. *)
Definition heads_meet (e : env) (l : list front) : Prop :=
  forall i c n s, nth_error l i = Some c -> nth_error l (S i) = Some n -> f_bottom c = true -> soil_of e (f_layer c) = Ok s ->
  f_psi c = f_psi n /\ f_theta c = theta_of_h s (f_psi n).

End Any.
