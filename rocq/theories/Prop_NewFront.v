(** C96: how deep a new front reaches. *)

From Coq Require Import Reals Lra ZArith List.
From Verif Require Import Outcome Dbl Exact Types Soil Fronts Infil Spec_Common Spec_Soil Spec_NewFront Pf_NewFront Ex_Saturated Ex_Unsaturated Ex_NewFront.
Import ListNotations.
Open Scope R_scope.
Local Existing Instance exact.

(** C96, the depth of a new front: with conductivity [k * x], drive [g] and deficit [te - t1] there is exactly one depth that a sharp front reaches in the sub-step if it moves with the velocity
    it has at that depth; lgar_calc_dry_depth returns this depth, or the bottom of the layer if that is higher up, and the deficit. *)
Theorem C96_depth :
  forall (cfg : Cfg) e closed nint dt c l s r te a n m k x t1 ck g, soil_of e (f_layer c) = Ok s -> vg_soil s r te a n m k -> aget (e_frozen e) (f_layer c) = Ok (Fin x) -> 0 < x ->
  f_theta c = Fin t1 -> t1 < te -> 0 < dt -> aget (e_cum e) (f_layer c) = Ok (Fin ck) -> calc_Geff closed (Fin t1) (Fin te) s (Fin (k * x)) nint = Ok (Fin g) -> 0 <= g ->
  exists z, dry_depth_eq (k * x) (te - t1) dt g z /\ (forall z', dry_depth_eq (k * x) (te - t1) dt g z' -> z' = z) /\
    lgar_calc_dry_depth e closed nint (Fin dt) (c :: l) = Ok (Fin (Rmin ck z), Fin (te - t1)).
Proof. exact @depth_is. Qed.
Print Assumptions C96_depth.

(** C96, the closed form of the drive towards saturation is a constant of the soil: neither the water content from which it starts, be it a number or not, nor the conductivity has an influence. *)
Theorem C96_closed_drive :
  forall (cfg : Cfg) s r te a n m k lam pb t1 ks nint, vg_soil s r te a n m k -> s_lambda s = Fin lam -> s_psib s = Fin pb -> 0 < lam -> 0 <= pb ->
  calc_Geff true t1 (Fin te) s ks nint = Ok (Fin (bc_drive pb lam)).
Proof. exact @closed_drive. Qed.
Print Assumptions C96_closed_drive.

(** C96, a longer sub-step makes a deeper front, but at most in proportion to its length. *)
Theorem C96_longer_step :
  forall (cfg : Cfg) e closed nint dt dt' c l s r te a n m k x t1 ck g d d' y y', soil_of e (f_layer c) = Ok s -> vg_soil s r te a n m k -> aget (e_frozen e) (f_layer c) = Ok (Fin x) -> 0 < x ->
  f_theta c = Fin t1 -> t1 < te -> 0 < dt <= dt' -> aget (e_cum e) (f_layer c) = Ok (Fin ck) -> 0 <= ck -> calc_Geff closed (Fin t1) (Fin te) s (Fin (k * x)) nint = Ok (Fin g) -> 0 <= g ->
  lgar_calc_dry_depth e closed nint (Fin dt) (c :: l) = Ok (Fin d, y) -> lgar_calc_dry_depth e closed nint (Fin dt') (c :: l) = Ok (Fin d', y') -> d <= d' <= dt' / dt * d.
Proof. exact @longer. Qed.
Print Assumptions C96_longer_step.

(** C96, with the closed form: of the same water on the surface, a drier soil takes in at least as much through a new front as a wetter one. *)
Theorem C96_drier_takes_more :
  forall (cfg : Cfg) e nint dt c c' l l' s r te a n m k x t1 t2 ck lam pb w i i' m1 m2 p p' d d' y y', soil_of e 1 = Ok s -> vg_soil s r te a n m k -> aget (e_frozen e) 1 = Ok (Fin x) -> 0 < x ->
  s_lambda s = Fin lam -> s_psib s = Fin pb -> 0 < lam -> 0 <= pb -> aget (e_cum e) 1 = Ok (Fin ck) -> 0 < ck -> 0 < dt ->
  f_layer c = 1%Z -> f_layer c' = 1%Z -> f_theta c = Fin t1 -> f_theta c' = Fin t2 -> t1 <= t2 < te ->
  lgar_calc_dry_depth e true nint (Fin dt) (c :: l) = Ok (d, y) -> lgar_calc_dry_depth e true nint (Fin dt) (c' :: l') = Ok (d', y') ->
  lgar_create_surficial_front e (Fin w) d (f_theta c) (c :: l) = Ok (m1, p, Fin i) -> lgar_create_surficial_front e (Fin w) d' (f_theta c') (c' :: l') = Ok (m2, p', Fin i') -> i' <= i.
Proof. exact @drier_takes_more. Qed.
Print Assumptions C96_drier_takes_more.

(** The column of Ex_Unsaturated, conductivity 1 cm/h, drive 12.5 cm: with a deficit of 0.06 the new front is 25 cm deep after an hour and 12.5 cm after three eighths of an hour; with a deficit of 0.16
    it is 12.5 cm deep after an hour.  Of 5 cm on the surface the wetter soil takes in 1.5 cm, the drier one 2 cm. *)
Example C96_concrete : forall cfg : Cfg,
  lgar_calc_dry_depth ex_env true 120 (Fin 1) [un_front] = Ok (Fin 25, Fin (2 / 5 - 17 / 50)) /\ dry_depth_eq (1 * 1) (2 / 5 - 17 / 50) 1 (25 / 2) 25 /\
  lgar_calc_dry_depth ex_env true 120 (Fin (3 / 8)) [un_front] = Ok (Fin (25 / 2), Fin (2 / 5 - 17 / 50)) /\
  lgar_calc_dry_depth ex_env true 120 (Fin 1) [nf_dry] = Ok (Fin (25 / 2), Fin (2 / 5 - 6 / 25)) /\
  (exists l p i, lgar_create_surficial_front ex_env (Fin 5) (Fin 25) (f_theta un_front) [un_front] = Ok (l, p, Fin i) /\ i = 3 / 2) /\
  (exists l p i, lgar_create_surficial_front ex_env (Fin 5) (Fin (25 / 2)) (f_theta nf_dry) [nf_dry] = Ok (l, p, Fin i) /\ i = 2).
Proof. exact @nf_concrete. Qed.
