(** C95: what frost does to a step, and what it does not. *)

From Coq Require Import Reals Lra ZArith List Lia.
From RecordUpdate Require Import RecordSet.
From Verif Require Import Outcome Dbl Exact Types ListOps Soil Fronts Infil Move State Update Spec_Common Spec_Soil Spec_Update Spec_Split Spec_Profile Spec_Storage Spec_Physical Spec_Velocity Spec_Frozen Spec_Frost
  Pf_Frost Pf_Frost2 Pf_Frost3 Pf_Frost4 Pf_Frost5 Ex_Saturated Ex_Unsaturated Ex_Safety Ex_Velocity Ex_Frost.
Import ListNotations.
Import RecordSetNotations.
Open Scope R_scope.

(** C95, the motion of the fronts, for any rounding: two columns differ in the frozen factors only, the fronts in their conductivities only.  Then lgar_move_wetting_fronts stops in both for the same reason, or returns
    the same fronts up to their conductivities, the same evapotranspiration and the same flux through the bottom: frost has no effect on a step except through the velocities and through what enters at the surface. *)
Theorem C95_frost_moves_nothing :
  forall (fp : Fp) (cfg : Cfg) e e' dt volin wfd om aet head head' prev prev', other_frost e e' -> same_but_K head head' -> same_but_K prev prev' ->
  alike (fun x y => same_but_K (fst (fst x)) (fst (fst y)) /\ snd (fst x) = snd (fst y) /\ snd x = snd y)
    (lgar_move_wetting_fronts e dt volin wfd om aet head prev) (lgar_move_wetting_fronts e' dt volin wfd om aet head' prev').
Proof. exact @move_frost. Qed.
Print Assumptions C95_frost_moves_nothing.

Local Existing Instance exact.

(** C95, the capillary drive does not depend on the conductivity at saturation, be it integrated or in closed form. *)
Theorem C95_drive : forall (cfg : Cfg) closed t1 t2 s k k' n, 0 < k -> 0 < k' -> calc_Geff closed t1 t2 s (Fin k) n = calc_Geff closed t1 t2 s (Fin k') n.
Proof. exact @geff_indep. Qed.
Print Assumptions C95_drive.

(** C95, the infiltration capacity of a colder soil is at most that of a warmer one. *)
Theorem C95_capacity :
  forall (cfg : Cfg) e e' closed nint dt aet w r wfd head f1 f2,
  other_frost e e' -> colder_factors (e_frozen e) (e_frozen e') -> sound_env e -> vg_column e -> capillary closed nint e -> Forall (lies (e_cum e)) head -> Forall (fun f => 1 <= f_layer f <= e_nlayers e)%Z head ->
  infiltration_capacity e closed nint (Fin dt) aet (Fin w) (Fin r) wfd head = Ok f1 -> infiltration_capacity e' closed nint (Fin dt) aet (Fin w) (Fin r) wfd head = Ok f2 -> less f1 f2.
Proof. exact @capacity_frost. Qed.
Print Assumptions C95_capacity.

(** C95, so is the depth of a new front. *)
Theorem C95_dry_depth :
  forall (cfg : Cfg) e e' closed nint dt c l s te t1 d1 d2 x1 x2,
  other_frost e e' -> colder_factors (e_frozen e) (e_frozen e') -> vg_column e -> capillary closed nint e -> 0 < dt -> (1 <= f_layer c <= e_nlayers e)%Z -> soil_of e (f_layer c) = Ok s ->
  s_theta_e s = Fin te -> f_theta c = Fin t1 -> t1 <= te ->
  lgar_calc_dry_depth e closed nint (Fin dt) (c :: l) = Ok (d1, x1) -> lgar_calc_dry_depth e' closed nint (Fin dt) (c :: l) = Ok (d2, x2) -> less d1 d2.
Proof. exact @dry_frost. Qed.
Print Assumptions C95_dry_depth.

(** C95, lower temperatures make lower factors, all of them positive. *)
Theorem C95_temperatures :
  forall lims gs gs' rest rest' fs f f', layered lims gs rest -> colder_cells gs gs' -> Forall2 (fun c d : R * R => fst c = fst d) rest rest' -> length fs = length lims ->
  let n := Z.of_nat (length lims) in let cum := Fin 0 :: map Fin lims in let k := Z.of_nat (length (concat gs ++ rest)) in let z := zs (concat gs ++ rest) in
  frozen_factor n cum z (Ts (concat gs ++ rest)) k (Fin 1 :: fs) = Ok f -> frozen_factor n cum z (Ts (concat gs' ++ rest')) k (Fin 1 :: fs) = Ok f' -> colder_factors f f'.
Proof. exact @temperatures_frost. Qed.
Print Assumptions C95_temperatures.

(** C95, one sub-step: from the same fronts, with the same forcing, a colder soil takes in at most as much water as a warmer one, at least as much runs off, at least as much stays on the surface, and the three add up to
    the same.  Excluded are ties of fronts at a layer boundary, negative infiltration and ponded water above its maximum (findings 11 and 5). *)
Theorem C95_substep :
  forall (cfg : Cfg) M e e' dt nint closed wp fc pm s s' a t t' a1 a2 r w i0 q0 i1 i2 q1 q2 o1 o2,
  let u := mkU e (Fin dt) nint closed wp fc (Fin pm) in let u' := mkU e' (Fin dt) nint closed wp fc (Fin pm) in
  other_frost e e' -> colder_factors (e_frozen e) (e_frozen e') -> sound_env e -> vg_column e -> conducts_at_most M e -> frozen_in_range e -> capillary closed nint e ->
  profile (e_nlayers e) (e_cum e) (st_head s) -> deepest_rests (st_head s) -> Forall (physical_front M e) (st_head s) -> Forall (lies (e_cum e)) (st_head s) ->
  st_head s' = st_head s -> st_precip s' = st_precip s -> st_pet s' = st_pet s -> p_precip_prev (st_p s') = p_precip_prev (st_p s) ->
  0 < dt -> 0 <= pm -> st_precip s = Fin r -> a_on a = Fin w -> 0 <= w -> a_in a = Fin i0 -> a_runoff a = Fin q0 -> ~ step_tie u s a ->
  substep u s a = Ok (t, a1) -> a_in a1 = Fin i1 -> a_runoff a1 = Fin q1 -> a_on a1 = Fin o1 -> i0 <= i1 -> o1 <= pm ->
  substep u' s' a = Ok (t', a2) -> a_in a2 = Fin i2 -> a_runoff a2 = Fin q2 -> a_on a2 = Fin o2 -> i0 <= i2 -> o2 <= pm ->
  (i1 <= i2 /\ q2 <= q1 /\ o2 <= o1) /\ i1 + q1 + o1 = i2 + q2 + o2.
Proof. exact @substep_less. Qed.
Print Assumptions C95_substep.

(** C95, a call of Update whose forcing interval is one sub-step, with soil temperatures coupled: [cold] and [warm] differ in the temperatures of the cells only, none of those in the column higher in [cold].
    The published infiltration is at most that of [warm], the published runoff and the water left on the surface are at least those, and the sums are equal. *)
Theorem C95_update :
  forall (cfg : Cfg) M s lims gs gs' rest rest' fs t1 t2 b1 b2 dt pm r w i1 i2 q1 q2 o1 o2,
  let cold := s <| st_p := (st_p s) <| p_soilT := Ts (concat gs ++ rest) |> |> in let warm := s <| st_p := (st_p s) <| p_soilT := Ts (concat gs' ++ rest') |> |> in
  p_invalid (st_p s) = false -> p_calib (st_p s) = false -> p_sft (st_p s) = true -> p_adaptive (st_p s) = false -> substeps_of s 1 ->
  p_nlayers (st_p s) = Z.of_nat (length lims) -> p_cum (st_p s) = Fin 0 :: map Fin lims -> p_frozen (st_p s) = Fin 1 :: fs -> length fs = length lims ->
  p_ncells (st_p s) = Z.of_nat (length (concat gs ++ rest)) -> p_soilTz (st_p s) = zs (concat gs ++ rest) -> layered lims gs rest ->
  colder_cells gs gs' -> Forall2 (fun c d : R * R => fst c = fst d) rest rest' ->
  sound_env (env_of s) -> vg_column (env_of s) -> conducts_at_most M (env_of s) -> capillary (p_closed (st_p s)) (p_nint (st_p s)) (env_of s) ->
  profile (p_nlayers (st_p s)) (p_cum (st_p s)) (st_head s) -> deepest_rests (st_head s) -> Forall (physical_front M (env_of s)) (st_head s) -> Forall (lies (p_cum (st_p s))) (st_head s) ->
  p_timestep (st_p s) = Fin dt -> 0 < dt -> p_pmax (st_p s) = Fin pm -> 0 <= pm -> st_precip s = Fin r -> mb_on_ts (st_mb s) = Fin w -> 0 <= w -> ~ update_tie cold ->
  Update cold = Ok t1 -> st_out t1 = Some b1 -> o_in b1 = Fin i1 -> o_runoff b1 = Fin q1 -> mb_on_ts (st_mb t1) = Fin o1 -> 0 <= i1 -> o1 <= pm ->
  Update warm = Ok t2 -> st_out t2 = Some b2 -> o_in b2 = Fin i2 -> o_runoff b2 = Fin q2 -> mb_on_ts (st_mb t2) = Fin o2 -> 0 <= i2 -> o2 <= pm ->
  (i1 <= i2 /\ q2 <= q1 /\ o2 <= o1) /\ i1 + q1 + o1 / 100 = i2 + q2 + o2 / 100.
Proof. exact @update_less. Qed.
Print Assumptions C95_update.

(** 2 cm of rain in an hour on a column with one unsaturated front, at most 1 cm staying on the surface: at 274 K 1.5 cm go into the soil and 0.5 cm stay; at a temperature at which the soil conducts three eighths
    of that, 0.75 cm go in, 1 cm stays and 0.25 cm runs off. *)
Example C95_concrete : forall cfg : Cfg,
  (exists t b, Update (fo_start <| st_p := (st_p fo_start) <| p_soilT := Ts [(50, fo_cold)] |> |>) = Ok t /\ st_out t = Some b /\ o_in b = Fin (3 / 400) /\ o_runoff b = Fin (1 / 400) /\ mb_on_ts (st_mb t) = Fin 1) /\
  (exists t b, Update (fo_start <| st_p := (st_p fo_start) <| p_soilT := Ts [(50, fo_warm)] |> |>) = Ok t /\ st_out t = Some b /\ o_in b = Fin (3 / 200) /\ o_runoff b = Fin 0 /\ mb_on_ts (st_mb t) = Fin (1 / 2)).
Proof. exact @fo_runs. Qed.

(** That column meets the hypotheses of C95_update. *)
Example C95_concrete_meets : forall cfg : Cfg,
  let cold := fo_start <| st_p := (st_p fo_start) <| p_soilT := Ts [(50, fo_cold)] |> |> in
  p_invalid (st_p fo_start) = false /\ p_calib (st_p fo_start) = false /\ p_sft (st_p fo_start) = true /\ p_adaptive (st_p fo_start) = false /\ substeps_of fo_start 1 /\
  p_cum (st_p fo_start) = Fin 0 :: map Fin [100] /\ layered [100] [[(50, fo_cold)]] [] /\ colder_cells [[(50, fo_cold)]] [[(50, fo_warm)]] /\
  sound_env (env_of fo_start) /\ vg_column (env_of fo_start) /\ conducts_at_most 1 (env_of fo_start) /\ capillary (p_closed (st_p fo_start)) (p_nint (st_p fo_start)) (env_of fo_start) /\
  profile (p_nlayers (st_p fo_start)) (p_cum (st_p fo_start)) (st_head fo_start) /\ deepest_rests (st_head fo_start) /\ Forall (physical_front 1 (env_of fo_start)) (st_head fo_start) /\ Forall (lies (p_cum (st_p fo_start))) (st_head fo_start) /\
  ~ update_tie cold.
Proof. exact @fo_meets. Qed.

(** In numbers: the drive towards saturation is 12.5 cm whatever the conductivity, the new front is 12.5 or 25 cm deep, the capacity is 1.01 cm/h or three eighths of it. *)
Example C95_concrete_parts : forall cfg : Cfg,
  (forall ks, calc_Geff true (Fin (17 / 50)) (Fin (2 / 5)) ex_soil ks 120 = Ok (Fin (25 / 2))) /\
  lgar_calc_dry_depth (fo_env (3 / 8)) true 120 (Fin 1) [un_front] = Ok (Fin (25 / 2), Fin (2 / 5 - 17 / 50)) /\ lgar_calc_dry_depth (fo_env 1) true 120 (Fin 1) [un_front] = Ok (Fin 25, Fin (2 / 5 - 17 / 50)) /\
  (forall a, 0 < a <= 1 -> infiltration_capacity (fo_env a) true 120 (Fin 1) (Fin 0) (Fin (301 / 100)) (Fin (201 / 100)) 1 [un_front] = Ok (Fin (101 / 100 * a))).
Proof.
  intro cfg. split; [exact fo_drive|]. split; [|split; [|exact fo_capacity]]; apply fo_dry; lra.
Qed.

(** C95 without the restriction to ponded water within its maximum is false: of 3.01 cm of water on the surface the warmer soil takes in nothing, for what it would leave is exactly the maximum of 2 cm;
    with half the conductivity 0.505 cm go in. *)
Theorem C95_colder_takes_less_refuted : forall cfg : Cfg, exists q1 o1 i1 q2 o2 i2,
  lgar_insert_water (fo_env (1 / 2)) true 120 (Fin 1) (Fin 0) (Fin (301 / 100)) (Fin 0) (Fin (201 / 100)) 1 (Fin 2) [un_front] = Ok (Fin q1, Fin o1, Fin i1) /\
  lgar_insert_water (fo_env 1) true 120 (Fin 1) (Fin 0) (Fin (301 / 100)) (Fin 0) (Fin (201 / 100)) 1 (Fin 2) [un_front] = Ok (Fin q2, Fin o2, Fin i2) /\
  i1 = 101 / 200 /\ i2 = 0 /\ o1 = 2 /\ o2 = 301 / 100.
Proof. exact @fo_tie. Qed.
Print Assumptions C95_colder_takes_less_refuted.

(** C95, frost in the lower layer is overlooked: if the front that supplies the free drainage lies in the second layer or deeper, the infiltration capacity is the same whatever the frozen factors of its own layer
    and of the layers below are, for any rounding.  The code takes the factor of the first layer for the layer of that front. *)
Theorem C95_frost_of_the_lower_layer_is_ignored :
  forall (fp : Fp) (cfg : Cfg) e e' closed nint dt aet w r wfd head c fd, other_frost e e' -> lget head 0 = Ok c -> f_layer c = 1%Z -> pget head (findFront wfd head) = Ok fd -> (2 <= f_layer fd)%Z ->
  (forall k, (1 <= k < f_layer fd)%Z -> aget (e_frozen e) k = aget (e_frozen e') k) ->
  infiltration_capacity e closed nint dt aet w r wfd head = infiltration_capacity e' closed nint dt aet w r wfd head.
Proof. exact @capacity_blind. Qed.
Print Assumptions C95_frost_of_the_lower_layer_is_ignored.

(** Two layers of 25 and 75 cm, a saturated front at 60 cm: the capacity is 1 + G / 60 cm/h without frost and with a second layer that conducts a thousandth. *)
Example C95_concrete_lower_layer : forall cfg : Cfg, let e := mkEnv 2 [Fin 0; Fin 25; Fin 100] [None; Some 1%Z; Some 1%Z] [None; Some ex_soil] [Fin 1; Fin 1; Fin (1 / 1000)] in
  exists G, infiltration_capacity ti_env true 120 (Fin (1 / 12)) (Fin 0) (Fin 1) (Fin 12) 2 ve_two = Ok (Fin (1 + G / 60)) /\
    infiltration_capacity e true 120 (Fin (1 / 12)) (Fin 0) (Fin 1) (Fin 12) 2 ve_two = Ok (Fin (1 + G / 60)).
Proof.
  intros cfg e. destruct (ve_two_capacity cfg) as (G & _ & _ & C). exists G. split; [exact C|]. rewrite <- C. symmetry.
  refine (capacity_blind ti_env e true 120 (Fin (1 / 12)) (Fin 0) (Fin 1) (Fin 12) 2 ve_two (ve_front 25 (2 / 5) 0 1 1 1 true) (ve_front 60 (2 / 5) 0 1 2 2 false) _ eq_refl eq_refl eq_refl _ _); [repeat split|cbn; lia|].
  intros k Hk. change (f_layer (ve_front 60 (2 / 5) 0 1 2 2 false)) with 2%Z in Hk. assert (X : k = 1%Z) by lia. rewrite X. reflexivity.
Qed.
