(** C24-C29: the storage of a profile and the routines that restructure it.  The arithmetic is exact. *)

From Coq Require Import Reals ZArith List Bool.
From Coquelicot Require Import Coquelicot.
From Verif Require Import Outcome Dbl Exact Types ListOps Soil Fronts Infil Spec_Common Spec_List Spec_Soil Spec_Column Spec_Update Spec_Profile Spec_Storage
  Pf_Storage Pf_Merge Pf_Cross Pf_Repair Ex_Saturated Ex_Safety Ex_Storage.
Import ListNotations.
Open Scope R_scope.
Local Existing Instance exact.

(** C24: the storage is the integral of the water content from the surface to the bottom of the column. *)
Theorem C24_storage_is_the_integral :
  forall (nl : Z) (cum : list dbl) (l : list front) (D : R), (1 <= nl)%Z -> profile nl cum l -> measured l -> ordered 0 l ->
    aget cum 0 = Ok (Fin 0) -> aget cum nl = Ok (Fin D) ->
    exists v, lgar_calc_mass_bal cum l = Ok (Fin v) /\ is_RInt (theta_at l) 0 D v.
Proof. exact storage_is_integral. Qed.
Print Assumptions C24_storage_is_the_integral.

(** C24: without an order of the depths it is the sum of the slabs between consecutive fronts. *)
Theorem C24_storage_is_the_sum_of_slabs :
  forall (nl : Z) (cum : list dbl) (l : list front), (1 <= nl)%Z -> profile nl cum l -> measured l -> aget cum 0 = Ok (Fin 0) ->
    lgar_calc_mass_bal cum l = Ok (Fin (storage l)).
Proof. exact mass_is_storage. Qed.
Print Assumptions C24_storage_is_the_sum_of_slabs.

(** C24: it is linear in the water contents. *)
Theorem C24_storage_is_linear :
  forall (nl : Z) (cum : list dbl) (l : list front) (w1 w2 : nat -> R) (a b : R), (1 <= nl)%Z -> profile nl cum l -> measured l ->
    aget cum 0 = Ok (Fin 0) ->
    exists v1 v2, lgar_calc_mass_bal cum (with_thetas l w1) = Ok (Fin v1) /\ lgar_calc_mass_bal cum (with_thetas l w2) = Ok (Fin v2) /\
      lgar_calc_mass_bal cum (with_thetas l (fun i => a * w1 i + b * w2 i)) = Ok (Fin (a * v1 + b * v2)).
Proof. exact storage_linear. Qed.
Print Assumptions C24_storage_is_linear.

(** C24: it lies between the residual and the saturated content of the column. *)
Theorem C24_storage_within_the_column :
  forall (e : env) (ts : list R) (ss : list soil) (trs tes : list R) (l : list front), column e ts ss -> (1 <= length ts)%nat ->
    Forall2 (fun s x => s_theta_r s = Fin x) ss trs -> Forall2 (fun s x => s_theta_e s = Fin x) ss tes ->
    profile (e_nlayers e) (e_cum e) l -> measured l -> ordered 0 l -> within_soils e l ->
    exists v, lgar_calc_mass_bal (e_cum e) l = Ok (Fin v) /\ column_capacity ts trs <= v <= column_capacity ts tes.
Proof. exact storage_bounds. Qed.
Print Assumptions C24_storage_within_the_column.

Example C24_concrete :
  profile 2 [Fin 0; Fin 25; Fin 100] so_plain /\ measured so_plain /\ ordered 0 so_plain /\ within_soils ti_env so_plain /\
    lgar_calc_mass_bal [Fin 0; Fin 25; Fin 100] so_plain = Ok (Fin (173 / 5)).
Proof. exact so_plain_ok. Qed.
Example C24_concrete_column : column ti_env [25; 75] [ex_soil; ex_soil].
Proof. exact so_column. Qed.

(** C25: merging always succeeds, keeps the storage, every front at a layer bottom and the structure of the profile. *)
Theorem C25_merging_conserves_water :
  forall (e : env) (l : list front), sound_env e -> profile (e_nlayers e) (e_cum e) l -> deepest_rests l -> measured l ->
    drier_downwards l -> below_surface l ->
    exists l', lgar_merge_wetting_fronts e l = Ok l' /\ storage l' = storage l /\ bottom_fronts l' = bottom_fronts l /\ (length l' <= length l)%nat /\
      profile (e_nlayers e) (e_cum e) l' /\ measured l' /\ drier_downwards l' /\ below_surface l'.
Proof. exact merge_spec. Qed.
Print Assumptions C25_merging_conserves_water.

Example C25_concrete :
  sound_env ti_env /\ profile 2 [Fin 0; Fin 25; Fin 100] so_overtaken /\ deepest_rests so_overtaken /\ measured so_overtaken /\
    drier_downwards so_overtaken /\ below_surface so_overtaken /\
    exists l', lgar_merge_wetting_fronts ti_env so_overtaken = Ok l' /\ length l' = 3%nat /\ option_map f_depth (hd_error l') = Some (Fin (35 / 2)).
Proof. exact (conj so_env so_merge_ok). Qed.

(** C26: passing into the next layer keeps the storage, unless the front would take exactly the water content of the front below the boundary
    or is about to pass a front that lies on the boundary of another layer. *)
Theorem C26_crossing_conserves_water :
  forall (e : env) (l : list front), sound_env e -> vg_column e -> profile (e_nlayers e) (e_cum e) l -> deepest_rests l -> measured l ->
    within_soils e l -> ~ cross_tie e l -> ~ cross_blocked e l ->
    exists l', lgar_wetting_fronts_cross_layer_boundary e l = Ok l' /\ storage l' = storage l /\
      profile (e_nlayers e) (e_cum e) l' /\ measured l' /\ within_soils e l' /\ length l' = length l.
Proof. exact cross_spec. Qed.
Print Assumptions C26_crossing_conserves_water.

Example C26_concrete :
  sound_env ti_env /\ vg_column ti_env /\ profile 2 [Fin 0; Fin 25; Fin 100] so_deep /\ deepest_rests so_deep /\ measured so_deep /\
    within_soils ti_env so_deep /\ ~ cross_tie ti_env so_deep /\ ~ cross_blocked ti_env so_deep /\
    exists l', cross_step ti_env 0 so_deep = Ok l' /\ map f_layer l' = [1; 2; 2]%Z.
Proof. exact (conj so_env (conj so_vg so_cross_ok)). Qed.

(** C26: with equal water contents 0.3 of 40.3 cm disappear. *)
Theorem C26_equal_water_contents_lose_water_refuted :
  exists (e : env) (l l' : list front), sound_env e /\ vg_column e /\ profile (e_nlayers e) (e_cum e) l /\ deepest_rests l /\ measured l /\ within_soils e l /\
    lgar_wetting_fronts_cross_layer_boundary e l = Ok l' /\ storage l = 403 / 10 /\ storage l' = 40.
Proof. exact so_blocked_refuted. Qed.
Print Assumptions C26_equal_water_contents_lose_water_refuted.

(** C27: what leaves the column through its bottom is what the storage loses.  Either nothing happens, or the last but one front, which lies in the
    lowest layer at or below the bottom, is removed and hands its water content to the bottom front. *)
Theorem C27_percolation_is_the_loss_of_storage :
  forall (e : env) (D : R) (l : list front), sound_env e -> aget (e_cum e) (e_nlayers e) = Ok (Fin D) -> profile (e_nlayers e) (e_cum e) l ->
    deepest_rests l -> measured l ->
    exists fl l', lgar_wetting_front_cross_domain_boundary e (Fin D) l = Ok (Fin fl, l') /\ storage l = storage l' + fl /\
      profile (e_nlayers e) (e_cum e) l' /\ measured l' /\
      (l' = l /\ fl = 0 \/
       exists a c n n', l = a ++ [c; n] /\ l' = a ++ [n'] /\ f_theta n' = f_theta c /\ f_depth n' = f_depth n /\ D <= val (f_depth c) /\
         f_layer c = e_nlayers e /\ fl = (val (f_theta c) - val (f_theta n)) * (val (f_depth c) - D)).
Proof. exact domain_spec. Qed.
Print Assumptions C27_percolation_is_the_loss_of_storage.

Example C27_concrete :
  profile 2 [Fin 0; Fin 25; Fin 100] so_leaving /\ deepest_rests so_leaving /\ measured so_leaving /\
    exists l', lgar_wetting_front_cross_domain_boundary ti_env (Fin 100) so_leaving = Ok (Fin (3 / 10), l') /\ length l' = 2%nat.
Proof. exact so_domain_ok. Qed.

(** C28: the repair removes fronts one at a time and reports the sum of the absolute changes of storage. *)
Theorem C28_repair_reports_its_change_of_storage :
  forall (e : env) (mc : R) (l : list front), sound_env e -> vg_column e -> aget (e_cum e) 0 = Ok (Fin 0) -> profile (e_nlayers e) (e_cum e) l ->
    deepest_rests l -> measured l -> within_soils e l ->
    exists l' x, lgar_fix_dry_over_wet_wetting_fronts e (Fin mc) l = Ok (l', Fin (mc + x)) /\ repaired e l l' x /\
      profile (e_nlayers e) (e_cum e) l' /\ measured l' /\ within_soils e l'.
Proof. exact repair_spec. Qed.
Print Assumptions C28_repair_reports_its_change_of_storage.

(** C28: a profile with an inversion loses at least one front; one without is left alone. *)
Theorem C28_repair_makes_progress :
  forall (e : env) (mc : dbl) (l : list front), sound_env e -> profile (e_nlayers e) (e_cum e) l -> deepest_rests l -> inverted l ->
    exists l' mc', lgar_fix_dry_over_wet_wetting_fronts e mc l = Ok (l', mc') /\ (length l' < length l)%nat.
Proof. exact repair_progress. Qed.
Print Assumptions C28_repair_makes_progress.

Theorem C28_nothing_to_repair :
  forall (e : env) (mc : dbl) (l : list front), l <> [] -> ~ inverted l -> lgar_fix_dry_over_wet_wetting_fronts e mc l = Ok (l, mc).
Proof. exact repair_idle. Qed.
Print Assumptions C28_nothing_to_repair.

Example C28_concrete :
  profile 2 [Fin 0; Fin 25; Fin 100] so_inverted /\ deepest_rests so_inverted /\ measured so_inverted /\ within_soils ti_env so_inverted /\
    inverted so_inverted.
Proof. exact so_repair_ok. Qed.

(** C28: one pass is not enough: the front that follows a removed one is skipped. *)
Theorem C28_one_pass_removes_all_inversions_refuted :
  exists (e : env) (l l' : list front) (mc : dbl), sound_env e /\ vg_column e /\ profile (e_nlayers e) (e_cum e) l /\ deepest_rests l /\ measured l /\
    within_soils e l /\ lgar_fix_dry_over_wet_wetting_fronts e (Fin 0) l = Ok (l', mc) /\ inverted l'.
Proof. exact so_repair_refuted. Qed.
Print Assumptions C28_one_pass_removes_all_inversions_refuted.

(** C29: a new front at the surface of an unsaturated profile takes from the ponded water what the storage gains.  Its water content lies above that of
    the former surface and at most at saturation, and water stays ponded only when it is saturated. *)
Theorem C29_creating_a_front_conserves_water :
  forall (e : env) (n : front) (r : list front) (dry pond : R), sound_env e -> vg_column e -> profile (e_nlayers e) (e_cum e) (n :: r) -> deepest_rests (n :: r) ->
    measured (n :: r) -> within_soils e (n :: r) -> drier_downwards (n :: r) -> below_surface (n :: r) -> in_layers e (n :: r) ->
    forall (s : soil) (te z1 : R), soil_of e 1 = Ok s -> s_theta_e s = Fin te -> val (f_theta n) < te -> aget (e_cum e) 1 = Ok (Fin z1) -> 0 < dry <= z1 -> 0 < pond ->
    exists l' pond' vin t, lgar_create_surficial_front e (Fin pond) (Fin dry) (f_theta n) (n :: r) = Ok (l', Fin pond', Fin vin) /\
      storage l' = storage (n :: r) + vin /\ pond = vin + pond' /\ 0 < vin /\ 0 <= pond' /\
      surface_theta l' = Some (Fin t) /\ val (f_theta n) < t <= te /\ (0 < pond' -> t = te) /\
      profile (e_nlayers e) (e_cum e) l'.
Proof. exact create_spec. Qed.
Print Assumptions C29_creating_a_front_conserves_water.

Example C29_concrete :
  profile 2 [Fin 0; Fin 25; Fin 100] so_dry /\ deepest_rests so_dry /\ measured so_dry /\ within_soils ti_env so_dry /\
    drier_downwards so_dry /\ below_surface so_dry /\ in_layers ti_env so_dry /\
    exists l', lgar_create_surficial_front ti_env (Fin (3 / 10)) (Fin 10) (Fin (17 / 50)) so_dry = Ok (l', Fin 0, Fin (3 / 10)) /\
      surface_theta l' = Some (Fin (37 / 100)).
Proof. exact so_create_ok. Qed.
