(** Repairs that set the layers above to the head of a front that does not touch them. *)

From Coq Require Import Reals ZArith List Bool.
From Verif Require Import Outcome Dbl Types ListOps Soil Fronts Infil Move State Update Spec_Common Spec_Update Spec_Profile.
Import ListNotations.
Open Scope R_scope.

Section Buried.
Context {fp : Fp} {cfg : Cfg}.

(** In a layer below the first, front [c] is no wetter than front [n] below it, and a front [b] of the same layer with another head than [n] lies above them. *)
Definition buried_inversion (l : list front) : Prop :=
  exists i j b c n, (j < i)%nat /\ nth_error l j = Some b /\ nth_error l i = Some c /\ nth_error l (S i) = Some n /\
    f_layer b = f_layer c /\ f_layer c = f_layer n /\ (1 < f_layer c)%Z /\ val (f_theta c) <= val (f_theta n) /\ f_psi b <> f_psi n.

(** One of the three repairs of the motion meets such fronts. *)
Definition phases_buried (e : env) (l : list front) : Prop :=
  buried_inversion l \/
  exists l1 mc l2 l3, check_and_fix e l (Fin 0) = Ok (l1, mc) /\ lgar_merge_wetting_fronts e l1 = Ok l2 /\ lgar_wetting_fronts_cross_layer_boundary e l2 = Ok l3 /\
    (buried_inversion l3 \/
     exists l4 mc' l5 D fl l6, check_and_fix e l3 mc = Ok (l4, mc') /\ lgar_merge_wetting_fronts e l4 = Ok l5 /\ aget (e_cum e) (e_nlayers e) = Ok D /\
       lgar_wetting_front_cross_domain_boundary e D l5 = Ok (fl, l6) /\ buried_inversion l6).
Definition move_buried (e : env) (dt volin : dbl) (wfd : Z) (old_mass aet : dbl) (head prev : list front) : Prop :=
  exists l a l1 a1 fl, move_loop (length head) e dt volin wfd prev (listLength head) head aet = Ok (l, a) /\ closure e old_mass volin l a = Ok (l1, a1, fl) /\
    phases_buried e l1.

(** The same in a sub-step. *)
Definition hydro_buried (u : upar) (precip_prev precip_rate pet_rate precip volon ponded volend : dbl) (head prev : list front) : Prop :=
  let e := u_env u in
  let wfd := wetting_front_free_drainage head in
  exists aet create,
    (if dgtb pet_rate (Fin 0) then calc_aet e pet_rate (u_dt u) (u_wilting u) (u_fc u) head else Ok (Fin 0)) = Ok aet /\
    create_decision e head precip_prev precip volon = Ok create /\
    if create : bool then move_buried e (u_dt u) (Fin 0) wfd volend aet head prev
    else
      exists b, (if dgtb ponded (Fin 0) then sub_insert u wfd precip_rate (mkSub head prev aet ponded (Fin 0) (Fin 0) (Fin 0) (Fin 0))
                 else Ok (sub_no_insert u (mkSub head prev aet ponded (Fin 0) (Fin 0) (Fin 0) (Fin 0)))) = Ok b /\
        move_buried e (u_dt u) (b_volin b) wfd volend (b_aet b) head prev.
Definition step_buried (u : upar) (s : state) (a : acc) : Prop :=
  let prate := (dfmax (st_precip s) (Fin 0) * mm_to_cm)%d in
  let petr := (dfmax (st_pet s) (Fin 0) * mm_to_cm)%d in
  let precip := (prate * u_dt u)%d in
  hydro_buried u (p_precip_prev (st_p s)) prate petr precip (clean_volon (a_on a)) (precip + a_on a)%d (a_end a) (st_head s) (st_head s).

(** The sub-steps of a simulation that meet neither ties nor such repairs. *)
Definition smooth (u : upar) (xs : list step) : Prop := Forall (fun x => ~ step_tie u (x_s x) (x_a x) /\ ~ step_buried u (x_s x) (x_a x)) xs.
Inductive smooth_history (s0 : state) : state -> Prop :=
| smooth_start : smooth_history s0 s0
| smooth_edit : forall s s', smooth_history s0 s -> user_edit s s' -> smooth_history s0 s'
| smooth_update : forall s u xs s', smooth_history s0 s -> executed s u xs s' -> smooth u xs -> smooth_history s0 s'.
End Buried.
