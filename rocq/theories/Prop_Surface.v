(** C03, C05, C45: water on the surface. *)

From Coq Require Import Reals Lra ZArith List Bool.
From Verif Require Import Outcome Dbl Exact Types Fronts Infil State Update Spec_Common Spec_Column Spec_Update
  Pf_Surface Pf_SurfaceAny Pf_Ledger Pf_Infil Ex_Saturated Ex_Unsaturated Ex_Surface.
Import ListNotations.
Open Scope R_scope.

(** C03: water ponded before + rain = infiltration + runoff + water ponded after (metres; ponded water is kept in cm).  All outputs are
    those of the same Update; nothing is assumed about the soil routines. *)
Theorem C03_surface_water_partitioned :
  forall (cfg : Cfg) (s s' : state) (o : bout) (w0 p i r : R),
    p_invalid (st_p s) = false -> @Update exact cfg s = Ok s' -> mb_on_ts (st_mb s) = Fin w0 ->
    st_out s' = Some o -> o_precip o = Fin p -> o_in o = Fin i -> o_runoff o = Fin r ->
    exists w1, mb_on_ts (st_mb s') = Fin w1 /\ w0 / 100 + p = i + r + w1 / 100.
Proof. exact @update_surface. Qed.
Print Assumptions C03_surface_water_partitioned.

(** The same for a single infiltration step, whatever the capacity. *)
Theorem C03_insertion_partitions :
  forall (dt : dbl) (w : R) (pmax f_p : dbl) (r : R) (on : dbl) (i : R),
    @surface_partition exact dt (Fin w) (Fin 0) pmax f_p = (Fin r, on, Fin i) ->
    exists o, on = Fin o /\ w = i + r + o.
Proof. exact partition_conserves. Qed.
Print Assumptions C03_insertion_partitions.

(** Example: 2 cm of rain on a saturated column; 1.5 cm stay on the surface, 0.5 cm run off. *)
Example C03_concrete : forall cfg : Cfg, exists o,
  p_invalid (st_p ex_start) = false /\ @Update exact cfg ex_start = Ok ex_end /\ mb_on_ts (st_mb ex_start) = Fin 0 /\
  st_out ex_end = Some o /\ o_precip o = Fin (2 / 100) /\ o_in o = Fin 0 /\ o_runoff o = Fin (1 / 200) /\ mb_on_ts (st_mb ex_end) = Fin (3 / 2).
Proof. exact ex_surface. Qed.

(** C05, whatever the rounding: after an Update the ponded water is not above ponded_depth_max, unless no sub-step was executed or some sub-step
    would leave exactly the maximum on the surface. *)
Theorem C05_ponded_water_bounded :
  forall (fp : Fp) (cfg : Cfg) (s : state) (u : upar) (xs : list step) (s' : state),
    p_invalid (st_p s) = false -> executed s u xs s' -> not_negative (p_pmax (st_p s')) ->
    (xs = [] /\ mb_on_ts (st_mb s') = mb_on_ts (st_mb s)) \/
    dltb (p_pmax (st_p s')) (mb_on_ts (st_mb s')) = false \/
    exists x aet f_p, In x xs /\
      infiltration_capacity (u_env u) (u_closed u) (u_nint u) (u_dt u) aet (surface_water u x) (rain_rate x)
        (wetting_front_free_drainage (st_head (x_s x))) (st_head (x_s x)) = Ok f_p /\
      deqb (dfmax (surface_water u x - f_p * u_dt u)%d (Fin 0)) (p_pmax (st_p s')) = true.
Proof. exact @update_max. Qed.
Print Assumptions C05_ponded_water_bounded.

Example C05_concrete : forall cfg : Cfg,
  @executed exact cfg ex_start (ex_upar (1 / 2) (3 / 2)) ex_xs ex_end /\ length ex_xs = 2%nat /\
  not_negative (p_pmax (st_p ex_end)) /\ p_pmax (st_p ex_end) = Fin (3 / 2) /\ mb_on_ts (st_mb ex_end) = Fin (3 / 2).
Proof. exact ex_ponding. Qed.

(** C05 without the exception is false: with 1 cm ponded, 2.01 cm of rain, a capacity of 1.01 cm and a maximum of 2 cm, Update
    leaves 3.01 cm on the surface. *)
Theorem C05_ponded_water_bounded_refuted :
  forall cfg : Cfg, exists s s' : state,
    p_invalid (st_p s) = false /\ @Update exact cfg s = Ok s' /\
    mb_on_ts (st_mb s) = Fin 1 /\ p_pmax (st_p s') = Fin 2 /\ mb_on_ts (st_mb s') = Fin (301 / 100).
Proof. exact un_refutes. Qed.
Print Assumptions C05_ponded_water_bounded_refuted.

(** C45: water that lgar_insert_water lets in is at most the water on the surface, and at most the free storage of the column (unless the
    capacity computation returned NaN). *)
Theorem C45_infiltration_bounded :
  forall (cfg : Cfg) (e : env) (ts : list R) (ss : list soil) (tes : list R) (closed : bool) (nint : Z) (dt : R) (aet : dbl) (w : R)
         (precip : dbl) (wfd : Z) (pmax : dbl) (head : list front) (r on : dbl) (i m : R),
    column e ts ss -> Forall2 (fun s x => s_theta_e s = Fin x) ss tes ->
    0 <= w -> 0 < dt -> @lgar_calc_mass_bal exact (e_cum e) head = Ok (Fin m) ->
    @lgar_insert_water exact cfg e closed nint (Fin dt) aet (Fin w) (Fin 0) precip wfd pmax head = Ok (r, on, Fin i) ->
    i <= w /\ (i <= Rmax 0 (column_capacity ts tes - m) \/
               @infiltration_capacity exact cfg e closed nint (Fin dt) aet (Fin w) precip wfd head = Ok NaN).
Proof. exact @insert_bounds. Qed.
Print Assumptions C45_infiltration_bounded.

(** C45: when the capacity is not the limit, everything infiltrates. *)
Theorem C45_supply_limited_infiltrates_all :
  forall (cfg : Cfg) (e : env) (closed : bool) (nint : Z) (dt : R) (aet : dbl) (w : R) (precip : dbl) (wfd : Z) (pmax : dbl)
         (head : list front) (q : R),
    0 <= w -> 0 < dt -> @infiltration_capacity exact cfg e closed nint (Fin dt) aet (Fin w) precip wfd head = Ok (Fin q) -> w <= q * dt ->
    @lgar_insert_water exact cfg e closed nint (Fin dt) aet (Fin w) (Fin 0) precip wfd pmax head = Ok (Fin 0, Fin 0, Fin w).
Proof. exact @insert_all. Qed.
Print Assumptions C45_supply_limited_infiltrates_all.

(** C45 for a whole Update, with or without new fronts: infiltration is at most the water ponded before plus the rain. *)
Theorem C45_update_infiltration_bounded :
  forall (cfg : Cfg) (s : state) (u : upar) (xs : list step) (s' : state) (o : bout) (w0 p i r : R),
    p_invalid (st_p s) = false -> signs s -> @executed exact cfg s u xs s' ->
    mb_on_ts (st_mb s) = Fin w0 -> st_out s' = Some o -> o_precip o = Fin p -> o_in o = Fin i -> o_runoff o = Fin r -> i <= w0 / 100 + p.
Proof. exact @update_supply. Qed.
Print Assumptions C45_update_infiltration_bounded.

(** Example: an unsaturated column, 34 of 40 cm filled.  With 1/2 cm on the surface everything infiltrates, with 3.01 cm and no ponding allowed 1.01 cm. *)
Example C45_concrete : forall cfg : Cfg,
  column ex_env [100] [ex_soil] /\ Forall2 (fun s x => s_theta_e s = Fin x) [ex_soil] [2 / 5] /\
  @lgar_calc_mass_bal exact (e_cum ex_env) [un_front] = Ok (Fin 34) /\ column_capacity [100] [2 / 5] = 40 /\
  @lgar_insert_water exact cfg ex_env true 120 (Fin 1) (Fin 0) (Fin (1 / 2)) (Fin 0) (Fin (1 / 2)) 1 (Fin 0) [un_front] = Ok (Fin 0, Fin 0, Fin (1 / 2)) /\
  @lgar_insert_water exact cfg ex_env true 120 (Fin 1) (Fin 0) (Fin (301 / 100)) (Fin 0) (Fin (201 / 100)) 1 (Fin 0) [un_front] = Ok (Fin 2, Fin 0, Fin (101 / 100)).
Proof. exact un_insert. Qed.
