(** Motions whose pass leaves the fronts of each layer drier downwards. *)

From Coq Require Import Reals ZArith List Bool.
From Verif Require Import Outcome Dbl Types ListOps Soil Fronts Infil Move State Update Spec_Common Spec_Update Spec_Profile Spec_Storage Spec_Motion.
Import ListNotations.
Open Scope R_scope.

Section Upright.
Context {fp : Fp} {cfg : Cfg}.

(** After the pass over the fronts no front is followed by one of its layer that is as wet or wetter. *)
Definition pass_upright (e : env) (dt volin : dbl) (wfd : Z) (aet : dbl) (head prev : list front) : Prop :=
  forall l a, move_loop (length head) e dt volin wfd prev (listLength head) head aet = Ok (l, a) -> ~ inverted l.

(** The same for the motion of a sub-step; and a front that is created at the surface is wetter than the first front of the motion. *)
Definition hydro_upright (u : upar) (precip_prev precip_rate pet_rate precip volon ponded volend : dbl) (head prev : list front) : Prop :=
  let wfd := wetting_front_free_drainage head in
  (forall vin aet, hydro_motion u precip_prev precip_rate pet_rate precip volon ponded head prev vin aet -> pass_upright (u_env u) (u_dt u) vin wfd aet head prev) /\
  (forall aet l aet' pd dry d h s ff,
    (if dgtb pet_rate (Fin 0) then calc_aet (u_env u) pet_rate (u_dt u) (u_wilting u) (u_fc u) head else Ok (Fin 0)) = Ok aet ->
    create_decision (u_env u) head precip_prev precip volon = Ok true ->
    lgar_move_wetting_fronts (u_env u) (u_dt u) (Fin 0) wfd volend aet head prev = Ok (l, aet', pd) ->
    lgar_calc_dry_depth (u_env u) (u_closed u) (u_nint u) (u_dt u) l = Ok (dry, d) -> lget l 0 = Ok h ->
    soil_of (u_env u) 1 = Ok s -> aget (e_frozen (u_env u)) 1 = Ok ff -> val (f_theta h) < val (f_theta (surficial s ff ponded dry (f_theta h)))).
Definition step_upright (u : upar) (s : state) (a : acc) : Prop := at_step hydro_upright u s a.

End Upright.
