(** The depth of a front that rain creates at the surface. *)

From Coq Require Import Reals.
From Verif Require Import Outcome Dbl.
Open Scope R_scope.

(** The depth that a sharp front reaches in time [t] if it moves all that time with the velocity it has at that depth: conductivity [K], drive [G], difference [D] of the water contents above and below. *)
Definition dry_depth_eq (K D t G z : R) : Prop := 0 < z /\ z = t * (K / D * (1 + G / z)).

(** Drive towards saturation after Brooks and Corey. *)
Definition bc_drive (psib lam : R) : R := psib * (2 + 3 * lam) / (1 + 3 * lam).
