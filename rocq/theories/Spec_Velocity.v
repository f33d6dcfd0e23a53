(** What is expected of the velocities of the wetting fronts, over the reals and independent of the model's helpers. *)

From Coq Require Import Reals ZArith List Bool.
From Verif Require Import Outcome Dbl Types Spec_Common Spec_Soil Spec_Column Spec_Update.
Import ListNotations.
Open Scope R_scope.

(** A front with a conductivity and a head that are not negative, below the top of its layer. *)
Record flowing (e : env) (f : front) : Prop := {
  fl_K : exists k, f_K f = Fin k /\ 0 <= k;
  fl_psi : exists h, f_psi f = Fin h /\ 0 <= h;
  fl_depth : 0 < val (f_depth f);
  fl_top : exists z, aget (e_cum e) (f_layer f - 1)%Z = Ok (Fin z) /\ z < val (f_depth f)
}.

(** Every layer conducts water, however frozen it is. *)
Definition conducting (e : env) : Prop := forall k, (1 <= k <= e_nlayers e)%Z -> exists x, aget (e_frozen e) k = Ok (Fin x) /\ 0 < x.

(** Parameters of the capillary drive: the Brooks-Corey values of every layer for the closed form, the number of integration steps otherwise. *)
Definition capillary (closed : bool) (nint : Z) (e : env) : Prop :=
  if closed then
    forall k s, (1 <= k <= e_nlayers e)%Z -> soil_of e k = Ok s -> exists lam pb, s_lambda s = Fin lam /\ s_psib s = Fin pb /\ 0 < lam /\ 0 <= pb
  else (1 <= nint)%Z.

(** No front that is free to move is drier than the front below it; one is. *)
Definition wet_over_dry (l : list front) : Prop :=
  forall i f g, nth_error l i = Some f -> nth_error l (S i) = Some g -> f_bottom f = false -> val (f_theta g) <= val (f_theta f).
Definition somewhere_dry_over_wet (l : list front) : Prop :=
  exists i f g, nth_error l i = Some f /\ nth_error l (S i) = Some g /\ f_bottom f = false /\ val (f_theta f) < val (f_theta g).

(** [l'] is [l] with new velocities; [V] says which ones a front that is free to move may get. *)
Definition velocities (V : dbl -> Prop) (l l' : list front) : Prop :=
  length l' = length l /\
  forall i f g, nth_error l i = Some f -> nth_error l' i = Some g ->
    g = set_dzdt f (f_dzdt g) /\
    (S i = length l -> g = f) /\
    ((S i < length l)%nat -> f_bottom f = true -> f_dzdt g = Fin 0) /\
    ((S i < length l)%nat -> f_bottom f = false -> V (f_dzdt g)).

(** ** Flow through several layers *)

(** Resistance of layers of thickness [ts] and conductivity [ks], as many as there are conductivities. *)
Definition resistance (ts ks : list R) : R := Rsum (map (fun j => nth j ts 0 / nth j ks 0) (seq 0 (length ks))).

(** [ks] are the conductivities at head [psi] of the layers above layer [lay]. *)
Definition conductivities (e : env) (psi : R) (lay : Z) (ks : list R) : Prop :=
  Z.of_nat (length ks) = (lay - 1)%Z /\
  forall j kj, nth_error ks j = Some kj ->
    exists s r es a n m k x, soil_of e (Z.of_nat (S j)) = Ok s /\ vg_soil s r es a n m k /\ aget (e_frozen e) (Z.of_nat (S j)) = Ok (Fin x) /\ 0 < x /\
      kj = vg_K (k * x) m (vg_Se a n m psi).
(** [ks] are their saturated conductivities. *)
Definition saturated_conductivities (e : env) (lay : Z) (ks : list R) : Prop :=
  Z.of_nat (length ks) = (lay - 1)%Z /\
  forall j kj, nth_error ks j = Some kj ->
    exists s k x, soil_of e (Z.of_nat (S j)) = Ok s /\ s_Ksat s = Fin k /\ aget (e_frozen e) (Z.of_nat (S j)) = Ok (Fin x) /\ kj = k * x /\ kj <> 0.

(** Velocity of a front at depth [z] with conductivity [K] in a layer with upper end [top], below layers of resistance [rs]: gravity flow through the layers in
    series plus capillary drive [G] and ponded depth [h], over the difference [dth] of the water contents. *)
Definition layered_velocity (z top K rs Ks G h dth : R) : R := / dth * (z / ((z - top) / K + rs) + Ks * (G + h) / z).

(** Whatever the rounding: at most 10^4 cm/h, and zero only if the smallest velocity 10^-9 rounds to zero. *)
Definition limited {fp : Fp} (v : dbl) : Prop := dgtb v (lit 10000) = false /\ (deqb v (Fin 0) = true -> v = lit (1 / 1000000000)).
(** In exact arithmetic. *)
Definition limited_exactly (v : dbl) : Prop := exists x, v = Fin x /\ 0 < x <= 10000.
