(** What water on the surface does to the velocities. *)

From Coq Require Import Reals ZArith List.
From Verif Require Import Outcome Dbl Types.
Open Scope R_scope.

(** The saturated conductivity of the layer of a front, with its frost. *)
Definition conducts (e : env) (f : front) (k : R) : Prop :=
  exists s ks x, soil_of e (f_layer f) = Ok s /\ s_Ksat s = Fin ks /\ aget (e_frozen e) (f_layer f) = Ok (Fin x) /\ k = ks * x.

(** [l1] and [l2] are [l] with velocities at ponded depths [h] and [h'].  A front that is free to move and has the velocity [x] in [l1] has in [l2] the velocity that is larger by [k (h' - h) / (z (t - t'))], at most 10^4;
    unless [x] is the velocity 10^-9 that stands for zero. *)
Definition speeded (e : env) (h h' : R) (l l1 l2 : list front) : Prop :=
  forall i f n f1 f2 z t t' k x y, nth_error l i = Some f -> nth_error l (S i) = Some n -> f_bottom f = false -> nth_error l1 i = Some f1 -> nth_error l2 i = Some f2 ->
    f_depth f = Fin z -> 0 < z -> f_theta f = Fin t -> f_theta n = Fin t' -> conducts e f k -> 0 <= k -> f_dzdt f1 = Fin x -> f_dzdt f2 = Fin y -> 0 < x ->
    x = 1 / 1000000000 \/ (t' < t /\ y = Rmin 10000 (x + k * (h' - h) / (z * (t - t')))).
