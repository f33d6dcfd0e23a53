(** The structure of a profile of wetting fronts, and what a run may do. *)

From Coq Require Import Reals ZArith List Bool.
From RecordUpdate Require Import RecordSet.
From Verif Require Import Outcome Dbl Types ListOps Soil Giuh Fronts Infil Move State Update Spec_Common Spec_List Spec_Update.
Import ListNotations.
Open Scope R_scope.

(** ** Structure *)

(** A profile of [nl] layers with lower boundaries [cum]: fronts are numbered from 1, ordered by layer, and every layer has exactly one bottom front,
    which is the last of its layer and lies exactly on the lower boundary. *)
Record profile (nl : Z) (cum : list dbl) (l : list front) : Prop := {
  prof_num : numbered l;
  prof_range : forall i f, nth_error l i = Some f -> (1 <= f_layer f <= nl)%Z;
  prof_sorted : forall i j f g, (i <= j)%nat -> nth_error l i = Some f -> nth_error l j = Some g -> (f_layer f <= f_layer g)%Z;
  prof_bottom : forall k, (1 <= k <= nl)%Z -> exists i f, nth_error l i = Some f /\ f_layer f = k /\ f_bottom f = true /\
    aget cum k = Ok (f_depth f) /\
    (forall j g, nth_error l j = Some g -> f_layer g = k -> (j <= i)%nat /\ (f_bottom g = true -> j = i))
}.

(** The deepest front does not move. *)
Definition deepest_rests (l : list front) : Prop :=
  forall f, nth_error l (length l - 1) = Some f -> f_dzdt f = Fin 0.

(** Arrays that describe a column: boundaries are increasing representable numbers, every layer has a soil and a conductivity factor. *)
Record sound_env {fp : Fp} (e : env) : Prop := {
  se_n : (1 <= e_nlayers e)%Z;
  se_cum : forall k, (0 <= k <= e_nlayers e)%Z -> exists z, aget (e_cum e) k = Ok (Fin z) /\ rnd z = Fin z;
  se_incr : forall k z z', (0 <= k < e_nlayers e)%Z -> aget (e_cum e) k = Ok (Fin z) -> aget (e_cum e) (k + 1)%Z = Ok (Fin z') -> z < z';
  se_soil : forall k, (1 <= k <= e_nlayers e)%Z -> exists s, soil_of e k = Ok s;
  se_frozen : forall k, (1 <= k <= e_nlayers e)%Z -> exists x, aget (e_frozen e) k = Ok x
}.

(** ** Outcomes *)

(** The run returns a value with property [P] or stops for one of the reasons [R]. *)
Definition ends {A : Type} (R : reason -> Prop) (P : A -> Prop) (m : outcome A) : Prop :=
  match m with Ok a => P a | Stop r => R r end.

(** No undefined behaviour, except for the known use of a deleted front. *)
Definition memory_safe (r : reason) : Prop := forall u, r = UB u -> u = UseAfterFree.
(** What can end the motion of the fronts early: an assertion, the known use after free, or an iteration that does not end. *)
Definition move_stops (r : reason) : Prop := r = AssertFail \/ r = OutOfFuel \/ r = UB UseAfterFree.

(** ** Ties: a front passes another one that lies exactly on the layer boundary without being its bottom front *)

Section Ties.
Context {fp : Fp} {cfg : Cfg}.

Definition tie_at (e : env) (p : nat) (l : list front) : Prop :=
  exists c n ck, nth_error l p = Some c /\ nth_error l (S p) = Some n /\ aget (e_cum e) (f_layer c) = Ok ck /\
    f_layer n = f_layer c /\ f_layer c <> e_nlayers e /\ f_bottom n = false /\
    dgtb (f_depth c) ck = true /\ deqb (f_depth n) ck = true.

(** The first [p] iterations of the layer crossing. *)
Fixpoint cross_prefix (e : env) (p : nat) (l : list front) : outcome (list front) :=
  match p with O => Ok l | S p' => l' <- cross_prefix e p' l ;; cross_step e p' l' end.
Definition cross_tie (e : env) (l : list front) : Prop :=
  exists p l', (S p < length l)%nat /\ cross_prefix e p l = Ok l' /\ tie_at e p l'.

(** A tie in one of the two layer crossings of the motion of the fronts. *)
Definition move_tie (e : env) (dt volin : dbl) (wfd : Z) (old_mass aet : dbl) (head prev : list front) : Prop :=
  exists l a, move_loop (length head) e dt volin wfd prev (listLength head) head aet = Ok (l, a) /\
    (cross_tie e l \/
     exists l1 a1 fl l2 mc l3, closure e old_mass volin l a = Ok (l1, a1, fl) /\ check_and_fix e l1 (Fin 0) = Ok (l2, mc) /\
       lgar_merge_wetting_fronts e l2 = Ok l3 /\ cross_tie e l3).

(** The front that is created at the surface. *)
Definition surficial (s : soil) (ff ponded dry theta1 : dbl) : front :=
  let delta := (s_theta_e s - theta1)%d in
  let th := if dgtb (dry * delta)%d ponded then dfmin (theta1 + ponded / dry)%d (s_theta_e s) else s_theta_e s in
  let Se := Se_of_theta s th in
  mkF dry th (h_of_Se s Se) (K_of_Se s Se (s_Ksat s * ff) * ff)%d 1 1 false (Fin 0).
Definition create_tie (e : env) (ponded dry theta1 : dbl) (head : list front) : Prop :=
  exists s ff n r l1, soil_of e 1 = Ok s /\ aget (e_frozen e) 1 = Ok ff /\ head = n :: r /\ dgtb dry (f_depth n) = true /\
    lgar_merge_wetting_fronts e (surficial s ff ponded dry theta1 :: bump 1 head) = Ok l1 /\ cross_tie e l1.

(** A tie in the hydrological part of a sub-step. *)
Definition hydro_tie (u : upar) (precip_prev precip_rate pet_rate precip volon ponded volend : dbl) (head prev : list front) : Prop :=
  let e := u_env u in
  let wfd := wetting_front_free_drainage head in
  exists aet create,
    (if dgtb pet_rate (Fin 0) then calc_aet e pet_rate (u_dt u) (u_wilting u) (u_fc u) head else Ok (Fin 0)) = Ok aet /\
    create_decision e head precip_prev precip volon = Ok create /\
    if create : bool then
      move_tie e (u_dt u) (Fin 0) wfd volend aet head prev \/
      exists l aet' pd dry d h, lgar_move_wetting_fronts e (u_dt u) (Fin 0) wfd volend aet head prev = Ok (l, aet', pd) /\
        lgar_calc_dry_depth e (u_closed u) (u_nint u) (u_dt u) l = Ok (dry, d) /\ lget l 0 = Ok h /\
        create_tie e ponded dry (f_theta h) l
    else
      exists b, (if dgtb ponded (Fin 0) then sub_insert u wfd precip_rate (mkSub head prev aet ponded (Fin 0) (Fin 0) (Fin 0) (Fin 0))
                 else Ok (sub_no_insert u (mkSub head prev aet ponded (Fin 0) (Fin 0) (Fin 0) (Fin 0)))) = Ok b /\
        move_tie e (u_dt u) (b_volin b) wfd volend (b_aet b) head prev.

Definition step_tie (u : upar) (s : state) (a : acc) : Prop :=
  let prate := (dfmax (st_precip s) (Fin 0) * mm_to_cm)%d in
  let petr := (dfmax (st_pet s) (Fin 0) * mm_to_cm)%d in
  let precip := (prate * u_dt u)%d in
  hydro_tie u (p_precip_prev (st_p s)) prate petr precip (clean_volon (a_on a)) (precip + a_on a)%d (a_end a) (st_head s) (st_head s).

(** ** Whole simulations *)

(** A model instance as a valid configuration leaves it. *)
Record sound_state (s : state) : Prop := {
  ss_env : sound_env (env_of s);
  ss_profile : profile (p_nlayers (st_p s)) (p_cum (st_p s)) (st_head s);
  ss_rest : deepest_rests (st_head s);
  ss_times : finite (p_timestep (st_p s)) /\ finite (p_mints (st_p s)) /\ not_negative (p_mints (st_p s)) /\ finite (p_fres (st_p s));
  ss_giuh : (1 <= g_N s)%Z /\ (g_N s <= Z.of_nat (length (g_ord s)))%Z /\ (g_N s < Z.of_nat (length (g_queue s)))%Z
}.

(** Updates without ties, and user edits in between. *)
Inductive calm (s0 : state) : state -> Prop :=
| calm_start : calm s0 s0
| calm_edit : forall s s', calm s0 s -> user_edit s s' -> calm s0 s'
| calm_update : forall s u xs s', calm s0 s -> executed s u xs s' ->
    Forall (fun x => ~ step_tie u (x_s x) (x_a x)) xs -> calm s0 s'.

(** Everything else an Update reads is there: the calibration values when they are to be applied, the temperatures when they are
    coupled, and the number of sub-steps is a positive int. *)
Record ready (s : state) : Prop := {
  rd_steps : exists s2 dt n, update_steps s = Ok (s2, dt, n) /\ (1 <= n)%Z;
  rd_calib : p_calib (st_p s) = true -> (p_nfronts (st_p s) <= listLength (st_head s))%Z /\
    Forall (fun c => (p_nlayers (st_p s) <= Z.of_nat (length c))%Z)
      [c_theta_e (st_cal s); c_theta_r (st_cal s); c_n (st_cal s); c_alpha (st_cal s); c_Ksat (st_cal s)];
  rd_frozen : p_sft (st_p s) = true -> forall u,
    frozen_factor (p_nlayers (st_p s)) (p_cum (st_p s)) (p_soilTz (st_p s)) (p_soilT (st_p s)) (p_ncells (st_p s)) (p_frozen (st_p s)) <> Stop (UB u)
}.
(** An Update during which a sub-step meets a tie, all earlier ones being executed. *)
Definition update_tie (s : state) : Prop :=
  exists s1 vcal volend s2 dt n xs s3 a, update_prologue s = Ok (s1, vcal) /\
    lgar_calc_mass_bal (p_cum (st_p s1)) (st_head s1) = Ok volend /\ update_steps s1 = Ok (s2, dt, n) /\
    let u := mkU (env_of s2) dt (p_nint (st_p s2)) (p_closed (st_p s2)) (p_wilting (st_p s2)) (p_fc (st_p s2)) (p_pmax (st_p s2)) in
    runs u s2 (acc0 volend (mb_on_ts (st_mb s2))) xs s3 a /\ (length xs < Z.to_nat n)%nat /\ step_tie u s3 a.
End Ties.
