(** Conditions under which the infiltration capacity has a sign, in any arithmetic. *)

From Coq Require Import Reals ZArith List.
From Verif Require Import Outcome Dbl Types ListOps Spec_Common.
Import ListNotations.
Open Scope R_scope.

(** Conductivities and frozen factors are not negative, the layer bottoms are in order. *)
Definition sound_column (e : env) : Prop :=
  (forall k s, soil_of e k = Ok s -> not_negative (s_Ksat s)) /\ (forall k x, aget (e_frozen e) k = Ok x -> not_negative x) /\
  (forall k c1 c0, aget (e_cum e) k = Ok c1 -> aget (e_cum e) (k - 1)%Z = Ok c0 -> dltb c1 c0 = false).

(** A front is not above the surface nor above the top of its layer. *)
Definition sound_front (e : env) (c : front) : Prop := not_negative (f_depth c) /\ forall c0, aget (e_cum e) (f_layer c - 1)%Z = Ok c0 -> dltb (f_depth c) c0 = false.

(** The content [t] is one the soil can hold, and the constants of the closed form of the drive are in their range. *)
Definition closed_range {fp : Fp} (s : soil) (t : dbl) : Prop :=
  exists r te x lam, s_theta_r s = Fin r /\ s_theta_e s = Fin te /\ s_lambda s = Fin lam /\ t = Fin x /\ 0 < lam /\ not_negative (s_psib s) /\ r < te /\
    dltb (Fin 0) (rnd (te - r)) = true /\ finite (rnd (te - r)) /\ r <= x <= te.
