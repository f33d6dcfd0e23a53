(** What the closed form of the capillary drive falls back to: the drive of Brooks and Corey for a dry soil. *)

From Coq Require Import Reals.
From Verif Require Import Dbl Types.
Open Scope R_scope.

(** psi_b * (2 + 3 lambda) / (1 + 3 lambda), in the arithmetic of [fp]. *)
Definition dry_drive {fp : Fp} (s : soil) : dbl := (s_psib s * ((lit 2 + lit 3 * s_lambda s) / (lit 1 + lit 3 * s_lambda s)))%d.
