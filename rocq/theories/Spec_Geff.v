(** Specification of the capillary drive: the integral of the relative conductivity over the head. *)

From Coq Require Import Reals.
From Coquelicot Require Import Coquelicot.
From Verif Require Import Spec_Soil.
Open Scope R_scope.

(** Conductivity relative to saturation at head [h]. *)
Definition relative_K (a n m h : R) : R := vg_K 1 m (vg_Se a n m h).
(** [I] is the integral between the heads [hf] and [hi]. *)
Definition drive (a n m hf hi I : R) : Prop := is_RInt (relative_K a n m) hf hi I.

(** Brooks and Corey's closed form between the saturations [S1] (below the front) and [S2], with bubbling pressure [pb] and index [lam] (Ogden and Saghafian 1997). *)
Definition bc_suction (lam pb : R) : R := pb * (2 + 3 * lam) / (1 + 3 * lam).
Definition bc_drive (lam pb S1 S2 : R) : R := bc_suction lam pb * (pw S2 (3 + 1 / lam) - pw S1 (3 + 1 / lam)) / (1 - pw S1 (3 + 1 / lam)).

(** Evapotranspiration demand at head [psi]: half of the potential rate at head [h50], with the exponent 3 of van Genuchten's S-shaped reduction. *)
Definition reduced_demand (pet dt psi h50 : R) : R := pet * dt / (1 + (psi / h50) ^ 3).
