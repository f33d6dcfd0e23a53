(** C37, C38, C48: velocities of the wetting fronts, flow through layers, and the head iteration. *)

From Coq Require Import Reals ZArith List Bool.
From Verif Require Import Outcome Dbl Exact Types ListOps Soil Fronts Infil Spec_Common Spec_List Spec_Soil Spec_Column Spec_Update Spec_Profile Spec_Storage Spec_Velocity Spec_Balance
  Pf_Velocity Pf_Layers Pf_Balance Ex_Saturated Ex_Safety Ex_Storage Ex_Dry Ex_Velocity.
Import ListNotations.
Open Scope R_scope.

(** C37, whatever the rounding: only velocities change, the deepest front keeps its own, bottom fronts get zero and the others at most 10^4 cm/h. *)
Theorem C37_velocities_limited :
  forall (fp : Fp) (cfg : Cfg) (e : env) (closed : bool) (nint : Z) (h : dbl) (l l' : list front),
    lgar_dzdt_calc e closed nint h l = Ok l' -> velocities limited l l'.
Proof. exact @velocities_any. Qed.
Print Assumptions C37_velocities_limited.

Local Existing Instance exact.

(** C37: in exact arithmetic the computation succeeds and the velocities are positive. *)
Theorem C37_velocities_positive :
  forall (e : env) (closed : bool) (nint : Z) (h : R) (l : list front), sound_env e -> vg_column e -> conducting e -> capillary closed nint e -> 0 <= h ->
    profile (e_nlayers e) (e_cum e) l -> measured l -> within_soils e l -> Forall (flowing e) l -> wet_over_dry l ->
    exists N, forall cfg : Cfg, (N <= @fuel cfg)%nat -> exists l', @lgar_dzdt_calc exact cfg e closed nint (Fin h) l = Ok l' /\ velocities limited_exactly l l'.
Proof. exact velocities_exact. Qed.
Print Assumptions C37_velocities_positive.

(** C37: a front that is drier than the one below ends the program with exit status 0. *)
Theorem C37_dry_over_wet_exits :
  forall (e : env) (closed : bool) (nint : Z) (h : R) (l : list front), sound_env e -> vg_column e -> conducting e -> capillary closed nint e -> 0 <= h ->
    profile (e_nlayers e) (e_cum e) l -> measured l -> within_soils e l -> Forall (flowing e) l -> somewhere_dry_over_wet l ->
    exists N, forall cfg : Cfg, (N <= @fuel cfg)%nat -> @lgar_dzdt_calc exact cfg e closed nint (Fin h) l = Stop (ExitCode 0).
Proof. exact dry_over_wet_exits. Qed.
Print Assumptions C37_dry_over_wet_exits.

Example C37_case : sound_env ti_env /\ vg_column ti_env /\ conducting ti_env /\ capillary true 120 ti_env /\ capillary false 120 ti_env /\
  profile 2 [Fin 0; Fin 25; Fin 100] so_plain /\ measured so_plain /\ within_soils ti_env so_plain /\ Forall (flowing ti_env) so_plain /\ wet_over_dry so_plain.
Proof. exact ve_plain_ok. Qed.
Example C37_case_inverted : profile 2 [Fin 0; Fin 25; Fin 100] so_inverted /\ measured so_inverted /\ within_soils ti_env so_inverted /\
  Forall (flowing ti_env) so_inverted /\ somewhere_dry_over_wet so_inverted.
Proof. exact ve_inverted_ok. Qed.

(** C38: in the first two layers, and where the layers above conduct alike, the velocity is the one of layers in series. *)
Theorem C38_velocity_through_layers :
  forall (cfg : Cfg) (e : env) (ts : list R) (ss : list soil) (c n : front) (closed : bool) (nint : Z) (s : soil) (lay : Z) (psi : R) (ks : list R)
    (z top K k x G h t t' : R),
  column e ts ss -> Forall (fun w => 0 < w) ts -> (1 <= lay <= e_nlayers e)%Z -> f_layer c = lay -> f_bottom c = false ->
  f_depth c = Fin z -> f_K c = Fin K -> f_psi c = Fin psi -> f_theta c = Fin t -> f_theta n = Fin t' -> 0 < K -> 0 <= psi -> t' < t -> 0 <= h ->
  aget (e_cum e) (lay - 1)%Z = Ok (Fin top) -> top < z -> 0 < z ->
  soil_of e lay = Ok s -> s_Ksat s = Fin k -> aget (e_frozen e) lay = Ok (Fin x) -> 0 < k * x ->
  @calc_Geff exact cfg closed (Fin t') (Fin t) s (Fin (k * x)) nint = Ok (Fin G) -> 0 <= G -> conductivities e psi lay ks ->
  (lay <= 2)%Z \/ (exists k0, Forall (eq k0) ks) ->
  @dzdt_front exact cfg e closed nint (Fin h) c n = Ok (Fin (Rmin 10000 (layered_velocity z top K (resistance ts ks) (k * x) G h (t - t')))).
Proof. exact velocity_two_layers. Qed.
Print Assumptions C38_velocity_through_layers.

Example C38_case : forall cfg : Cfg, exists G, @calc_Geff exact cfg true (Fin (17 / 50)) (Fin (2 / 5)) ex_soil (Fin (1 * 1)) 120 = Ok (Fin G) /\
  @dzdt_front exact cfg ti_env true 120 (Fin 0) (ve_front 60 (2 / 5) 0 1 2 2 false) (ve_front 100 (17 / 50) 75 (1 / 10) 2 3 true) = Ok (Fin (50 / 3 * (60 / (35 + 25) + G / 60))).
Proof. exact ve_two_velocity. Qed.

(** C38, refuted from the third layer on: thickness 1 is divided by conductivity 2 and thickness 2 by conductivity 1. *)
Theorem C38_third_layer_refuted : forall cfg : Cfg, exists e ts ss c n s ks z top K k x G t t' v,
  column e ts ss /\ f_layer c = 3%Z /\ e_nlayers e = 3%Z /\ f_bottom c = false /\ f_depth c = Fin z /\ f_K c = Fin K /\ f_psi c = Fin 0 /\
  f_theta c = Fin t /\ f_theta n = Fin t' /\ t' < t /\ aget (e_cum e) 2 = Ok (Fin top) /\ soil_of e 3 = Ok s /\ s_Ksat s = Fin k /\ aget (e_frozen e) 3 = Ok (Fin x) /\
  @calc_Geff exact cfg true (Fin t') (Fin t) s (Fin (k * x)) 120 = Ok (Fin G) /\ conductivities e 0 3 ks /\
  @dzdt_front exact cfg e true 120 (Fin 0) c n = Ok (Fin v) /\ v <> Rmin 10000 (layered_velocity z top K (resistance ts ks) (k * x) G 0 (t - t')) /\
  v = layered_velocity z top K (nth 0 ts 0 / nth 1 ks 0 + nth 1 ts 0 / nth 0 ks 0) (k * x) G 0 (t - t').
Proof. exact ve_refutes. Qed.
Print Assumptions C38_third_layer_refuted.

(** C38: the infiltration capacity divides the thickness of every layer by its own conductivity. *)
Theorem C38_capacity_through_layers :
  forall (cfg : Cfg) (e : env) (ts : list R) (ss : list soil) (tes : list R) (closed : bool) (nint : Z) (dt aet pond rain : R) (wfd : Z) (head : list front)
    (fd nx cur : front) (s : soil) (lay : Z) (ks : list R) (z top k x G m q : R),
  column e ts ss -> Forall2 (fun s x => s_theta_e s = Fin x) ss tes -> (2 <= lay <= e_nlayers e)%Z -> listLength head <> e_nlayers e ->
  pget head (findFront wfd head) = Ok fd -> pget head (findFront (wfd + 1)%Z head) = Ok nx -> nth_error head 0 = Some cur ->
  f_layer fd = lay -> f_depth fd = Fin z -> aget (e_cum e) (lay - 1)%Z = Ok (Fin top) -> top < z -> 0 < z ->
  soil_of e lay = Ok s -> s_Ksat s = Fin k -> aget (e_frozen e) (f_layer cur) = Ok (Fin x) -> 0 < k * x ->
  @calc_Geff exact cfg closed (f_theta nx) (s_theta_e s) s (Fin (k * x)) nint = Ok (Fin G) -> saturated_conductivities e lay ks ->
  (z - top) / (k * x) + resistance ts ks <> 0 -> @lgar_calc_mass_bal exact (e_cum e) head = Ok (Fin m) -> 0 < dt ->
  @infiltration_capacity exact cfg e closed nint (Fin dt) (Fin aet) (Fin pond) (Fin rain) wfd head = Ok (Fin q) ->
  q = Rmin (z / ((z - top) / (k * x) + resistance ts ks) + (G + Rmax (pond - rain * dt) 0) * (k * x) / z) ((column_capacity ts tes - m) / dt).
Proof. exact capacity_layers. Qed.
Print Assumptions C38_capacity_through_layers.

Example C38_case_capacity : forall cfg : Cfg, exists G, @calc_Geff exact cfg true (Fin (17 / 50)) (Fin (2 / 5)) ex_soil (Fin (1 * 1)) 120 = Ok (Fin G) /\
  @lgar_calc_mass_bal exact (e_cum ti_env) ve_two = Ok (Fin (188 / 5)) /\
  @infiltration_capacity exact cfg ti_env true 120 (Fin (1 / 12)) (Fin 0) (Fin 1) (Fin 12) 2 ve_two = Ok (Fin (1 + G / 60)).
Proof. exact ve_two_capacity. Qed.

(** C48: when the head iteration ends, the water held by the layers is within 10^-12 cm of the prescribed mass; or the rest of the difference is taken from AET; or
    saturation was attempted. *)
Theorem C48_head_iteration :
  forall (cfg : Cfg) (e : env) (lay : Z) (s : soil) (dth dz : list (option dbl)) (ps : list part) (p : part) (psi0 new prior aet : R) (t a : dbl),
    layer_parts e dth dz lay ps p -> soil_of e lay = Ok s -> 0 <= psi0 ->
    @lgar_theta_mass_balance exact cfg e lay s (Fin psi0) (Fin new) (Fin prior) (Fin aet) dth dz = Ok (t, a) -> balanced ps p psi0 new prior aet t a.
Proof. exact balance_spec. Qed.
Print Assumptions C48_head_iteration.

(** C48: the water content lies in the range of the soil, unless even the saturated layers hold less than the prescribed mass. *)
Theorem C48_water_content_in_range :
  forall (ps : list part) (p : part) (psi0 new prior aet : R) (t a : dbl), pt_r p < pt_e p -> 0 < pt_a p -> 1 < pt_n p -> 0 < pt_m p < 1 -> 0 <= psi0 ->
    balanced ps p psi0 new prior aet t a -> (held (p :: ps) 0 <= prior \/ psi0 = 0 /\ new <= prior) \/ exists x, t = Fin x /\ pt_r p < x <= pt_e p.
Proof. exact balance_range. Qed.
Print Assumptions C48_water_content_in_range.

Example C48_case : layer_parts ti_env [None; Some (Fin 0); Some (Fin (17 / 50))] [None; Some (Fin 25); Some (Fin 35)] 2 ve_parts ve_part.
Proof. exact ve_layer_parts. Qed.
Example C48_case_at_once : forall cfg : Cfg,
  @lgar_theta_mass_balance exact cfg ti_env 2 ex_soil (Fin 0) (Fin (121 / 10)) (Fin (121 / 10)) (Fin (1 / 50)) [None; Some (Fin 0); Some (Fin (17 / 50))] [None; Some (Fin 25); Some (Fin 35)]
  = Ok (Fin (2 / 5), Fin (1 / 50)) /\ held (ve_part :: ve_parts) 0 = 121 / 10.
Proof. exact ve_at_once. Qed.
Example C48_case_booked : forall cfg : Cfg, (0 < @fuel cfg)%nat ->
  @lgar_theta_mass_balance exact cfg ex_env 1 ex_soil (Fin 10000000000) (Fin (100 * dr_th0)) (Fin (100 * dr_th0 + dr_q)) (Fin 0) [None; Some (Fin 0)] [None; Some (Fin 100)]
  = Ok (Fin dr_th1, Fin dr_aet) /\ dr_aet < 0.
Proof. exact dr_booked. Qed.
