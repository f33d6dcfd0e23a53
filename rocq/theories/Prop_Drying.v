(** C67, C68: the head iteration of a wetting front. *)

From Coq Require Import Reals Lra ZArith List Bool.
From Verif Require Import Outcome Dbl Exact Types Soil Fronts Infil Spec_Common Spec_Soil Spec_Balance Pf_HeadEnds Ex_Saturated Ex_Safety Ex_Velocity Ex_Drying.
Import ListNotations.
Open Scope R_scope.

(** ** C67 *)

(** C67: a front that has to lose water is never wetted.  The head that the iteration leaves is at least the one it started from.  The water held is the prescribed one up to 1e-12, or
    what is off beyond 1e-12 is taken from AET. *)
Theorem C67_drying_never_wets :
  forall (cfg : Cfg) (e : env) (lay : Z) (s : soil) (dth dz : list (option dbl)) (ps : list part) (p : part) (psi0 prior aet : R) (t a : dbl),
    layer_parts e dth dz lay ps p -> soil_of e lay = Ok s -> Forall (fun q => 0 <= pt_z q) (p :: ps) -> 0 <= psi0 -> prior <= held (p :: ps) psi0 ->
    @lgar_theta_mass_balance exact cfg e lay s (Fin psi0) (Fin (held (p :: ps) psi0)) (Fin prior) (Fin aet) dth dz = Ok (t, a) ->
    exists psi, psi0 <= psi /\ t = Fin (pt_theta p psi) /\ pt_theta p psi <= pt_theta p psi0 /\
      (Rabs (held (p :: ps) psi - prior) <= tol /\ a = Fin aet \/
       tol < Rabs (held (p :: ps) psi - prior) /\ a = Fin (aet - (Rabs (held (p :: ps) psi - prior) - tol))).
Proof. exact drying_never_wets. Qed.
Print Assumptions C67_drying_never_wets.

(** Example: a saturated metre of soil loses at least 1e-5 cm; the head goes from 0 to 1 mm. *)
Example C67_concrete : forall cfg : Cfg, (2 <= @fuel cfg)%nat ->
  layer_parts ex_env [None; Some (Fin 0)] [None; Some (Fin 100)] 1 [] dr_part /\ 1 / 100000 < held [dr_part] 0 - dg_target /\
  @lgar_theta_mass_balance exact cfg ex_env 1 ex_soil (Fin 0) (Fin (held [dr_part] 0)) (Fin dg_target) (Fin (1 / 50)) [None; Some (Fin 0)] [None; Some (Fin 100)]
  = Ok (Fin (pt_theta dr_part (1 / 10)), Fin (1 / 50)).
Proof. intros cfg H. split; [exact dr_parts|]. split; [exact dg_loss|exact (dg_dries H)]. Qed.

(** ** C68 *)

(** C68: the iteration ends, whatever the number of layers, the thicknesses (which may be negative), the head it starts from and the mass it is to reach: with enough fuel the result is always the same. *)
Theorem C68_head_iteration_ends :
  forall (e : env) (lay : Z) (s : soil) (dth dz : list (option dbl)) (ps : list part) (p : part) (psi0 new prior aet : R),
    layer_parts e dth dz lay ps p -> soil_of e lay = Ok s -> 0 <= psi0 ->
    exists N t a, forall cfg : Cfg, (N <= @fuel cfg)%nat ->
      @lgar_theta_mass_balance exact cfg e lay s (Fin psi0) (Fin new) (Fin prior) (Fin aet) dth dz = Ok (t, a).
Proof. exact head_ends. Qed.
Print Assumptions C68_head_iteration_ends.

(** Example: two layers of 60 cm in all that are to hold 500 cm of water. *)
Example C68_concrete :
  layer_parts ti_env [None; Some (Fin 0); Some (Fin (17 / 50))] [None; Some (Fin 25); Some (Fin 35)] 2 ve_parts ve_part /\ soil_of ti_env 2 = Ok ex_soil /\
  held (ve_part :: ve_parts) 0 = 121 / 10 /\
  exists N t a, forall cfg : Cfg, (N <= @fuel cfg)%nat ->
    @lgar_theta_mass_balance exact cfg ti_env 2 ex_soil (Fin 75) (Fin 10) (Fin 500) (Fin 0) [None; Some (Fin 0); Some (Fin (17 / 50))] [None; Some (Fin 25); Some (Fin 35)] = Ok (t, a).
Proof.
  split; [exact ve_layer_parts|]. split; [reflexivity|]. split; [exact (proj2 (ve_at_once (Build_Cfg 0 false)))|].
  exact (head_ends _ _ _ _ _ _ _ 75 10 500 0 ve_layer_parts eq_refl ltac:(lra)).
Qed.
