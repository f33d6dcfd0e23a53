(** The soil column a user configures: layers from top to bottom, each with a thickness and a soil. *)

From Coq Require Import Reals ZArith List.
From Verif Require Import Outcome Dbl Types Spec_Common.
Import ListNotations.
Open Scope R_scope.

(** Depths of the layer boundaries, starting with the surface. *)
Fixpoint boundaries (z : R) (ts : list R) : list R :=
  z :: match ts with [] => [] | t :: r => boundaries (z + t) r end.

(** [e] describes layers of thickness [ts] (cm) filled with soils [ss]. *)
Record column (e : env) (ts : list R) (ss : list soil) : Prop := {
  col_n : e_nlayers e = Z.of_nat (length ts);
  col_ss : length ss = length ts;
  col_cum : e_cum e = map Fin (boundaries 0 ts);
  col_soil : forall k s, nth_error ss k = Some s -> soil_of e (Z.of_nat (S k)) = Ok s;
  col_frozen : length (e_frozen e) = S (length ts)
}.

(** Water that the column holds at saturation, for layers with saturated water contents [tes]. *)
Definition column_capacity (ts tes : list R) : R :=
  Rsum (map (fun k => nth k tes 0 * nth k ts 0) (seq 0 (length ts))).
