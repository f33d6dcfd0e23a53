(** The stages of one motion of the wetting fronts. *)

From Coq Require Import Reals ZArith List Bool.
From Verif Require Import Outcome Dbl Types ListOps Soil Fronts Infil Move State Update Spec_Common Spec_Update Spec_Profile Spec_Storage.
Import ListNotations.
Open Scope R_scope.

Section Stages.
Context {fp : Fp} {cfg : Cfg}.
Variables (e : env) (dt volin : dbl) (wfd : Z) (old_mass aet : dbl) (head prev : list front).

(** What the routines called after one another in a motion return: the pass over the fronts with the demand [a1], the closure of the balance with the
    demand [a2] and the flux [q2], the first repair, merging and layer crossing, the second repair and merging, and the crossing of the bottom with the flux [q]. *)
Record stages := {
  sg_pass : list front; sg_a1 : dbl; sg_closed : list front; sg_a2 : dbl; sg_q2 : dbl;
  sg_fixed : list front; sg_mc1 : dbl; sg_merged : list front; sg_crossed : list front;
  sg_fixed2 : list front; sg_mc2 : dbl; sg_merged2 : list front; sg_bed : dbl; sg_left : list front; sg_q : dbl;
  sg_1 : move_loop (length head) e dt volin wfd prev (listLength head) head aet = Ok (sg_pass, sg_a1);
  sg_2 : closure e old_mass volin sg_pass sg_a1 = Ok (sg_closed, sg_a2, sg_q2);
  sg_3 : check_and_fix e sg_closed (Fin 0) = Ok (sg_fixed, sg_mc1);
  sg_4 : lgar_merge_wetting_fronts e sg_fixed = Ok sg_merged;
  sg_5 : lgar_wetting_fronts_cross_layer_boundary e sg_merged = Ok sg_crossed;
  sg_6 : check_and_fix e sg_crossed sg_mc1 = Ok (sg_fixed2, sg_mc2);
  sg_7 : lgar_merge_wetting_fronts e sg_fixed2 = Ok sg_merged2;
  sg_8 : aget (e_cum e) (e_nlayers e) = Ok sg_bed;
  sg_9 : lgar_wetting_front_cross_domain_boundary e sg_bed sg_merged2 = Ok (sg_q, sg_left)
}.

(** A stage divides by zero: a layer crossing meets the water content it would take, or a merged or shifted front gets no finite depth. *)
Definition stages_degenerate (g : stages) : Prop :=
  cross_blocked e (sg_pass g) \/ ~ measured (sg_closed g) \/ ~ measured (sg_merged g) \/
  cross_blocked e (sg_merged g) \/ ~ measured (sg_merged2 g).

(** A stage leaves a front no wetter than the one below it, for the repair that follows. *)
Definition stages_inverted (g : stages) : Prop :=
  inverted (sg_closed g) \/ inverted (sg_crossed g) \/ inverted (sg_left g).

Definition move_degenerate : Prop := exists g : stages, stages_degenerate g.
Definition move_inverted : Prop := exists g : stages, stages_inverted g.

End Stages.

(** A front with a finite depth and speed. *)
Definition moving (f : front) : Prop := finite (f_depth f) /\ finite (f_dzdt f).

(** The storage [s1] after the pass is to become [T].  The closure leaves it alone, or brings it to [s2] up to its tolerance, or books what is missing as
    evapotranspiration and the rest as a flux [q2] through the bottom; [a1] and [a2] are the demands before and after. *)
Definition balance_closed (T s1 a1 s2 a2 q2 : R) : Prop :=
  (s2 = s1 /\ a2 = a1 /\ q2 = 0) \/ (Rabs (s2 - T) <= 2 / 10000000000 /\ a2 = a1 /\ q2 = 0) \/ (a2 = a1 + Rabs (s2 - T) /\ q2 = T - Rabs (s2 - T) - s2).

Section SubStep.
Context {fp : Fp} {cfg : Cfg}.
Variables (u : upar) (precip_prev precip_rate pet_rate precip volon ponded volend : dbl) (head prev : list front).
Let wfd := wetting_front_free_drainage head.

(** The motion of a sub-step starts with the infiltrated water [vin], none if a front is to be created, and the demand [aet]. *)
Definition hydro_motion (vin aet : dbl) : Prop :=
  exists aet0 create,
    (if dgtb pet_rate (Fin 0) then calc_aet (u_env u) pet_rate (u_dt u) (u_wilting u) (u_fc u) head else Ok (Fin 0)) = Ok aet0 /\
    create_decision (u_env u) head precip_prev precip volon = Ok create /\
    if create : bool then vin = Fin 0 /\ aet = aet0
    else
      exists b, (if dgtb ponded (Fin 0) then sub_insert u wfd precip_rate (mkSub head prev aet0 ponded (Fin 0) (Fin 0) (Fin 0) (Fin 0))
                 else Ok (sub_no_insert u (mkSub head prev aet0 ponded (Fin 0) (Fin 0) (Fin 0) (Fin 0)))) = Ok b /\ vin = b_volin b /\ aet = b_aet b.

(** The creation of a front divides by zero, as above. *)
Definition create_degenerate (e : env) (ponded dry theta1 : dbl) (head : list front) : Prop :=
  exists s ff n r l1, soil_of e 1 = Ok s /\ aget (e_frozen e) 1 = Ok ff /\ head = n :: r /\ dgtb dry (f_depth n) = true /\
    lgar_merge_wetting_fronts e (surficial s ff ponded dry theta1 :: bump 1 head) = Ok l1 /\ (~ measured l1 \/ cross_blocked e l1).
Definition hydro_degenerate : Prop :=
  (exists vin aet, hydro_motion vin aet /\ move_degenerate (u_env u) (u_dt u) vin wfd volend aet head prev) \/
  exists aet l aet' pd dry d h,
    (if dgtb pet_rate (Fin 0) then calc_aet (u_env u) pet_rate (u_dt u) (u_wilting u) (u_fc u) head else Ok (Fin 0)) = Ok aet /\
    create_decision (u_env u) head precip_prev precip volon = Ok true /\
    lgar_move_wetting_fronts (u_env u) (u_dt u) (Fin 0) wfd volend aet head prev = Ok (l, aet', pd) /\
    lgar_calc_dry_depth (u_env u) (u_closed u) (u_nint u) (u_dt u) l = Ok (dry, d) /\ lget l 0 = Ok h /\
    create_degenerate (u_env u) ponded dry (f_theta h) l.
Definition hydro_inverted : Prop := exists vin aet, hydro_motion vin aet /\ move_inverted (u_env u) (u_dt u) vin wfd volend aet head prev.

(** The pass over the fronts leaves [r] more water than it should. *)
Definition hydro_gap (r : R) : Prop :=
  exists vin aet l1 a1, hydro_motion (Fin vin) aet /\
    move_loop (length head) (u_env u) (u_dt u) (Fin vin) wfd prev (listLength head) head aet = Ok (l1, Fin a1) /\ r = storage l1 - (val volend + vin - a1).

End SubStep.

(** The same for the sub-step that starts in state [s]. *)
Section Step.
Context {fp : Fp} {cfg : Cfg}.
Definition at_step {A : Type} (P : upar -> dbl -> dbl -> dbl -> dbl -> dbl -> dbl -> dbl -> list front -> list front -> A) (u : upar) (s : state) (a : acc) : A :=
  let prate := (dfmax (st_precip s) (Fin 0) * mm_to_cm)%d in
  let petr := (dfmax (st_pet s) (Fin 0) * mm_to_cm)%d in
  let precip := (prate * u_dt u)%d in
  P u (p_precip_prev (st_p s)) prate petr precip (clean_volon (a_on a)) (precip + a_on a)%d (a_end a) (st_head s) (st_head s).
Definition step_degenerate (u : upar) (s : state) (a : acc) : Prop := at_step hydro_degenerate u s a.
Definition step_inverted (u : upar) (s : state) (a : acc) : Prop := at_step hydro_inverted u s a.
Definition step_gap (u : upar) (s : state) (a : acc) (r : R) : Prop := at_step hydro_gap u s a r.
End Step.

(** The first front lies inside a layer and is saturated. *)
Definition saturated_top (e : env) (l : list front) : Prop :=
  exists f r s, l = f :: r /\ f_bottom f = false /\ soil_of e (f_layer f) = Ok s /\ f_theta f = s_theta_e s.
