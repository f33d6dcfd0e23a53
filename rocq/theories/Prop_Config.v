(** C08, C41, C42, C43, C44, C50: configuration files, the soil table and the state that Initialize creates. *)

From Coq Require Import String Ascii Reals ZArith List Bool Permutation.
From Verif Require Import Outcome Dbl Exact Types ListOps Soil Fronts State Update Bmi Config Spec_Common Spec_List Spec_Profile Spec_Update Spec_Soil Spec_Column Spec_Storage
  Spec_Bmi Spec_Config Pf_Config Pf_Scan Pf_Table Pf_ConfigThm Pf_ConfigMore Pf_InitTotal Ex_Config.
Import ListNotations.
Open Scope string_scope.
Open Scope list_scope.

(** C41, whatever the rounding: Initialize succeeds only if every required key is set by some line, and with sft_coupled also soil_z. *)
Theorem C41_required_keys :
  forall (fp : Fp) (files : string -> option (list row)) (junk : dbl) (ls : list string) (s : state), Initialize files junk ls = Ok s ->
    (forall k, In k required_keys -> exists l, In l ls /\ line_sets k l) /\
    (p_sft (st_p s) = true -> exists l, In l ls /\ line_sets "soil_z" l).
Proof. exact @need_all. Qed.
Print Assumptions C41_required_keys.

(** C41: a line with another key may be left out, *)
Theorem C41_other_keys_are_ignored :
  forall (fp : Fp) (files : string -> option (list row)) (junk : dbl) (a : list string) (l : string) (b : list string), comment_line l ->
    Initialize files junk (a ++ l :: b) = Initialize files junk (a ++ b).
Proof. exact @comment_irrelevant. Qed.
Print Assumptions C41_other_keys_are_ignored.

(** and the order of the lines does not matter if no key is set twice. *)
Theorem C41_order_is_irrelevant :
  forall (fp : Fp) (files : string -> option (list row)) (junk : dbl) (ls ls' : list string) (s : state), Permutation ls ls' -> once ls ->
    Initialize files junk ls = Ok s -> Initialize files junk ls' = Ok s.
Proof. exact @order_irrelevant. Qed.
Print Assumptions C41_order_is_irrelevant.

(** C41: the soil types of an accepted configuration are in the table. *)
Theorem C41_accepted_soil_types :
  forall (fp : Fp) (files : string -> option (list row)) (junk : dbl) (ls : list string) (s : state), Initialize files junk ls = Ok s ->
    p_invalid (st_p s) = false /\ forall k, (1 <= k <= p_nlayers (st_p s))%Z -> exists t, uget (p_stype (st_p s)) k = Ok t /\ (0 <= t <= 15)%Z.
Proof. exact @types_in_range. Qed.
Print Assumptions C41_accepted_soil_types.

(** C43, whatever the rounding: the numbers of layer_thickness, in order; the depths are running sums. *)
Theorem C43_layers_read_in_order :
  forall (fp : Fp) (files : string -> option (list row)) (junk : dbl) (ls : list string) (s : state) (l : string) (n : numeral) (ns : list numeral),
    last_line "layer_thickness" l ls -> assigns "layer_thickness" (numbers (n :: ns)) l -> Forall good_numeral (n :: ns) ->
    Initialize files junk ls = Ok s ->
    p_nlayers (st_p s) = Z.of_nat (length (n :: ns)) /\ p_thick (st_p s) = Fin 0 :: map (fun n => rnd (value n)) (n :: ns) /\
    length (p_cum (st_p s)) = S (length (n :: ns)) /\ aget (p_cum (st_p s)) 0 = Ok (Fin 0) /\
    (forall k z t, (0 <= k)%Z -> aget (p_cum (st_p s)) k = Ok z -> aget (p_thick (st_p s)) (k + 1) = Ok t -> aget (p_cum (st_p s)) (k + 1) = Ok (z + t)%d).
Proof. exact @read_thickness. Qed.
Print Assumptions C43_layers_read_in_order.

(** C43: the soil types, *)
Theorem C43_soil_types_read_in_order :
  forall (fp : Fp) (files : string -> option (list row)) (junk : dbl) (ls : list string) (s : state) (l : string) (n : numeral) (ns : list numeral),
    last_line "layer_soil_type" l ls -> assigns "layer_soil_type" (numbers (n :: ns)) l -> Forall good_numeral (n :: ns) ->
    Initialize files junk ls = Ok s ->
    exists zs, p_stype (st_p s) = None :: map Some zs /\ each d2i (map (fun n => rnd (value n)) (n :: ns)) = Ok zs.
Proof. exact @read_types. Qed.
Print Assumptions C43_soil_types_read_in_order.

(** and the depths of the soil temperature cells. *)
Theorem C43_cells_read_in_order :
  forall (fp : Fp) (files : string -> option (list row)) (junk : dbl) (ls : list string) (s : state) (l : string) (n : numeral) (ns : list numeral),
    last_line "soil_z" l ls -> assigns "soil_z" (numbers (n :: ns)) l -> Forall good_numeral (n :: ns) ->
    Initialize files junk ls = Ok s -> p_sft (st_p s) = true ->
    p_ncells (st_p s) = Z.of_nat (length (n :: ns)) /\ p_soilTz (st_p s) = map (fun n => rnd (value n)) (n :: ns) /\ p_soilT (st_p s) = repeat (Fin 0) (length (n :: ns)).
Proof. exact @read_cells. Qed.
Print Assumptions C43_cells_read_in_order.

(** C08, whatever the rounding: every ordinate is divided by int(1 / resolution) and repeated as often. *)
Theorem C08_ordinates :
  forall (fp : Fp) (files : string -> option (list row)) (junk : dbl) (ls : list string) (s : state) (l : string) (n : numeral) (ns : list numeral),
    last_line "giuh_ordinates" l ls -> assigns "giuh_ordinates" (numbers (n :: ns)) l -> Forall good_numeral (n :: ns) ->
    Initialize files junk ls = Ok s ->
    exists factor, d2i (lit 1 / p_fres (st_p s))%d = Ok factor /\ (0 <= factor)%Z /\ g_N s = (factor * Z.of_nat (length (n :: ns)))%Z /\
      g_ord s = spread (Z.to_nat factor) (dofZ factor) (map (fun n => rnd (value n)) (n :: ns)).
Proof. exact @read_giuh. Qed.
Print Assumptions C08_ordinates.

(** C44, whatever the rounding: one front for each layer, at its bottom, with the configured head and the water content of the soil at this head. *)
Theorem C44_one_front_for_each_layer :
  forall (fp : Fp) (files : string -> option (list row)) (junk : dbl) (ls : list string) (s : state) (l : string) (np : numeral),
    last_line "initial_psi" l ls -> assigns "initial_psi" (text np) l -> good_numeral np ->
    Initialize files junk ls = Ok s ->
    profile (p_nlayers (st_p s)) (p_cum (st_p s)) (st_head s) /\ listLength (st_head s) = p_nlayers (st_p s) /\
    forall i g, nth_error (st_head s) i = Some g -> f_num g = Z.of_nat (S i) /\ f_layer g = Z.of_nat (S i) /\ f_bottom g = true /\
      f_psi g = rnd (value np) /\ aget (p_cum (st_p s)) (Z.of_nat (S i)) = Ok (f_depth g) /\
      exists sl, soil_of (env_of s) (Z.of_nat (S i)) = Ok sl /\ f_theta g = theta_of_h sl (rnd (value np)).
Proof. exact @start_structure. Qed.
Print Assumptions C44_one_front_for_each_layer.

(** C50, whatever the rounding: a line of the soil table with a name and five numbers is read as these; with fewer, as what it has. *)
Theorem C50_line_of_the_table :
  forall (fp : Fp) (b nm : string) (cs : list (string * numeral)) (t : string), blanks b -> nm <> "" -> no_space nm -> good_columns cs ->
    (length cs <= 5)%nat -> (length cs < 5 -> no_number t)%nat -> blank_next t ->
    sscanf_row (b ++ nm ++ columns cs ++ t) = mkRow (Some nm) (map (fun c => rnd (value (snd c))) cs).
Proof. exact @scan_row. Qed.
Print Assumptions C50_line_of_the_table.

(** C50: with a table of complete rows, soil number t has the numbers of row t. *)
Theorem C50_soil_of_the_row :
  forall (fp : Fp) (files : string -> option (list row)) (junk : dbl) (ls : list string) (s : state) (l f : string) (rows : list row),
    last_line "soil_params_file" l ls -> assigns "soil_params_file" f l -> free_of "[" f -> files f = Some rows ->
    (forall r, In r rows -> exists nm tr te al n k, r = full_row nm tr te al n k) ->
    Initialize files junk ls = Ok s ->
    forall t sl, uget (st_soils s) t = Ok sl -> exists nm tr te al n k, (1 <= t)%Z /\ nth_error rows (Z.to_nat (t - 1)) = Some (full_row nm tr te al n k) /\
      s_theta_r sl = tr /\ s_theta_e sl = te /\ s_alpha sl = al /\ s_n sl = n /\ s_m sl = (lit 1 - lit 1 / n)%d /\ s_Ksat sl = k /\
      dgtb n (lit 1) = true /\ dgtb (s_psib sl) (Fin 0) = true.
Proof. exact @soil_rows. Qed.
Print Assumptions C50_soil_of_the_row.

(** C50, refuted for incomplete rows: what a row lacks is silently taken from the row before. *)
Theorem C50_incomplete_rows_refuted :
  forall (fp : Fp) (files files' : string -> option (list row)) (junk : dbl) (ls : list string),
    (forall f, files f = files' f \/ exists r rs, files f = Some (r :: rs) /\ complete r /\ Forall (fun r => length (r_vals r) <= 5)%nat rs /\ files' f = Some (completed (r :: rs))) ->
    Initialize files junk ls = Initialize files' junk ls.
Proof. exact @Initialize_completed. Qed.
Print Assumptions C50_incomplete_rows_refuted.

(** C50: with n <= 1 the Brooks-Corey parameters are not set and then used. *)
Theorem C50_small_n_refuted :
  forall (fp : Fp) (wp junk tr te al n k : dbl) (nm : string), dltb (lit 1) n = false -> derive wp junk tr te al n k nm = Stop (UB Uninit).
Proof. exact @derive_stops. Qed.
Print Assumptions C50_small_n_refuted.

Local Existing Instance exact.

(** C41: a complete configuration with readable values, with soil types that are valid and in the table, is accepted. *)
Theorem C41_accepts :
  forall (files : string -> option (list row)) (junk : dbl) (ls : list string) (ts types gs : list numeral) (psi : numeral) (dt fres : R) (max : nat) (rows : list row),
    usable_config files ls ts types gs psi dt fres max rows -> exists s, Initialize files junk ls = Ok s /\
      p_timestep (st_p s) = Fin dt /\ p_fres (st_p s) = Fin fres /\
      forall k, (1 <= k <= max)%nat -> (k <= length rows)%nat -> exists sl, uget (st_soils s) (Z.of_nat k) = Ok sl.
Proof. exact init_total. Qed.
Print Assumptions C41_accepts.

(** The shipped Phillipsburg configuration with the shipped soil table. *)
Example C41_accepts_phillipsburg : forall junk, exists s, Initialize repository junk phillipsburg = Ok s /\
  p_nlayers (st_p s) = 3%Z /\ p_timestep (st_p s) = Fin (1 / 12) /\ p_fres (st_p s) = Fin 1.
Proof. exact phillipsburg_starts. Qed.

(** C41, refuted: without layer_thickness, Initialize does not report the error but first uses the number of layers, which is not set. *)
Theorem C41_missing_layer_thickness_refuted :
  forall (files : string -> option (list row)) (junk : dbl) (a : list string) (l : string) (b : list string) (ts types gs : list numeral) (psi : numeral) (dt fres : R) (max : nat) (rows : list row),
    basic_config files (a ++ l :: b) ts types gs psi dt fres max rows ->
    line_sets "layer_thickness" l -> (forall x, In x (a ++ b) -> ~ line_sets "layer_thickness" x) -> Initialize files junk (a ++ b) = Stop (UB Uninit).
Proof. exact missing_thickness. Qed.
Print Assumptions C41_missing_layer_thickness_refuted.

Example C41_missing_layer_thickness_concrete : forall junk, Initialize repository junk no_thickness = Stop (UB Uninit).
Proof. exact no_thickness_undefined. Qed.

(** C41, refuted: a soil type above the number of valid types is not reported but read past the end of the table. *)
Theorem C41_invalid_soil_type_refuted :
  forall (files : string -> option (list row)) (junk : dbl) (ls : list string) (ts types gs : list numeral) (psi : numeral) (dt fres : R) (max : nat) (rows : list row) (i : nat),
    basic_config files ls ts types gs psi dt fres max rows ->
    (forall j, (j < length ts)%nat -> exists m k, nth_error types j = Some m /\ natural m k /\ (k <= 1000)%nat) -> (i < length ts)%nat -> bad_type types max rows i ->
    Initialize files junk ls = Stop (UB OutOfBounds).
Proof. exact invalid_type. Qed.
Print Assumptions C41_invalid_soil_type_refuted.

(** The shipped Bushland configuration does this. *)
Example C41_invalid_soil_type_bushland : forall junk, Initialize repository junk bushland = Stop (UB OutOfBounds).
Proof. exact bushland_stops. Qed.

(** C42: the time step and the forcing resolution, in hours, *)
Theorem C42_timestep :
  forall (files : string -> option (list row)) (junk : dbl) (ls : list string) (s : state) (n : numeral) (u : string) (sec : R),
    good_numeral n -> In (u, sec) unit_seconds -> last_line "timestep" ("timestep=" ++ text n ++ u)%string ls ->
    Initialize files junk ls = Ok s -> p_timestep (st_p s) = Fin (value n * sec / 3600).
Proof. exact timestep_units. Qed.
Print Assumptions C42_timestep.

Theorem C42_forcing_resolution :
  forall (files : string -> option (list row)) (junk : dbl) (ls : list string) (s : state) (n : numeral) (u : string) (sec : R),
    good_numeral n -> In (u, sec) unit_seconds -> last_line "forcing_resolution" ("forcing_resolution=" ++ text n ++ u)%string ls ->
    Initialize files junk ls = Ok s -> p_fres (st_p s) = Fin (value n * sec / 3600).
Proof. exact fres_units. Qed.
Print Assumptions C42_forcing_resolution.

(** and the end time, in seconds. *)
Theorem C42_endtime :
  forall (files : string -> option (list row)) (junk : dbl) (ls : list string) (s : state) (n : numeral) (u : string) (sec : R),
    good_numeral n -> In (u, sec) (unit_seconds ++ [("[d]", 86400%R); ("[day]", 86400%R)]) -> last_line "endtime" ("endtime=" ++ text n ++ u)%string ls ->
    Initialize files junk ls = Ok s -> p_endtime (st_p s) = Fin (value n * sec).
Proof. exact endtime_units. Qed.
Print Assumptions C42_endtime.

(** C42, refuted: an unknown unit, or any text after the closing bracket, means hours. *)
Theorem C42_unknown_unit_refuted :
  forall (files : string -> option (list row)) (junk : dbl) (a b : list string) (k : string) (n : numeral) (w r : string),
    In k ["timestep"; "forcing_resolution"] -> good_numeral n -> free_of "]" w -> ~ In ("[" ++ w ++ "]")%string (map fst unit_seconds) \/ r <> "" ->
    Initialize files junk (a ++ (k ++ "=" ++ text n ++ "[" ++ w ++ "]" ++ r)%string :: b) = Initialize files junk (a ++ (k ++ "=" ++ text n ++ "[h]")%string :: b).
Proof. exact time_as_hours. Qed.
Print Assumptions C42_unknown_unit_refuted.

(** timestep=5[mins], and timestep=5[min] with a blank at the end, are five hours. *)
Example C42_unknown_unit_concrete : forall junk, exists s, Initialize repository junk five_mins = Ok s /\ p_timestep (st_p s) = Fin 5.
Proof. exact five_mins_is_hours. Qed.
Example C42_text_after_unit_concrete : forall junk, exists s, Initialize repository junk five_min_blank = Ok s /\ p_timestep (st_p s) = Fin 5.
Proof. exact blank_is_hours. Qed.

(** C42, refuted: a unit without closing bracket is ignored. *)
Theorem C42_unclosed_unit_refuted :
  forall (files : string -> option (list row)) (junk : dbl) (a b : list string) (k : string) (n : numeral) (w : string),
    In k ["timestep"; "endtime"; "forcing_resolution"] -> good_numeral n -> free_of "]" w ->
    Initialize files junk (a ++ (k ++ "=" ++ text n ++ "[" ++ w)%string :: b) = Initialize files junk (a ++ (k ++ "=" ++ text n)%string :: b).
Proof. exact time_unclosed. Qed.
Print Assumptions C42_unclosed_unit_refuted.

(** C42, refuted: an end time with an unknown unit is never set. *)
Theorem C42_endtime_unknown_unit_refuted :
  forall (files : string -> option (list row)) (junk : dbl) (ls : list string) (s : state) (n : numeral) (w r : string) (a b : list string),
    good_numeral n -> free_of "]" w -> ~ In ("[" ++ w ++ "]")%string ["[s]"; "[sec]"; "[min]"; "[minute]"; "[h]"; "[hr]"; "[d]"; "[day]"] ->
    r = "" -> ls = a ++ ("endtime=" ++ text n ++ "[" ++ w ++ "]" ++ r)%string :: b -> (forall x, In x a -> ~ line_sets "endtime" x) -> Initialize files junk ls <> Ok s.
Proof. exact endtime_unknown. Qed.
Print Assumptions C42_endtime_unknown_unit_refuted.

Example C42_endtime_unknown_unit_concrete : forall junk s, Initialize repository junk days <> Ok s.
Proof. exact days_stops. Qed.

(** C43: the depths start at 0 and end at the depth of the column. *)
Theorem C43_depths :
  forall (files : string -> option (list row)) (junk : dbl) (ls : list string) (s : state) (l : string) (n : numeral) (ns : list numeral),
    last_line "layer_thickness" l ls -> assigns "layer_thickness" (numbers (n :: ns)) l -> Forall good_numeral (n :: ns) ->
    Initialize files junk ls = Ok s -> p_thick (st_p s) = Fin 0 :: map Fin (map value (n :: ns)) /\ p_cum (st_p s) = map Fin (boundaries 0 (map value (n :: ns))) /\
    aget (p_cum (st_p s)) (p_nlayers (st_p s)) = Ok (Fin (Rsum (map value (n :: ns)))).
Proof. exact depths. Qed.
Print Assumptions C43_depths.

(** C08: up to one hour, the total of the ordinates is kept. *)
Theorem C08_total :
  forall (files : string -> option (list row)) (junk : dbl) (ls : list string) (s : state) (l : string) (n : numeral) (ns : list numeral) (x : R),
    last_line "giuh_ordinates" l ls -> assigns "giuh_ordinates" (numbers (n :: ns)) l -> Forall good_numeral (n :: ns) ->
    Initialize files junk ls = Ok s -> p_fres (st_p s) = Fin x -> (x <= 1)%R ->
    (1 <= g_N s)%Z /\ Z.of_nat (length (g_ord s)) = g_N s /\ Forall finite (g_ord s) /\ Rsum (map val (g_ord s)) = Rsum (map value (n :: ns)).
Proof. exact giuh_total. Qed.
Print Assumptions C08_total.

(** C08, refuted for coarser resolutions: nothing is left of the hydrograph, and no Update succeeds. *)
Theorem C08_coarse_resolution_refuted :
  forall (files : string -> option (list row)) (junk : dbl) (ls : list string) (s : state) (x : R),
    Initialize files junk ls = Ok s -> p_fres (st_p s) = Fin x -> (1 < x)%R -> g_N s = 0%Z /\ g_ord s = [] /\
    forall (cfg : Cfg) (s' s'' : state), user_edit s s' -> Update s' <> Ok s''.
Proof. exact giuh_coarse. Qed.
Print Assumptions C08_coarse_resolution_refuted.

Example C08_coarse_resolution_concrete : forall junk, exists s, Initialize repository junk two_hours = Ok s /\ p_fres (st_p s) = Fin 2 /\ g_N s = 0%Z /\
  forall (cfg : Cfg) (s' s'' : state), user_edit s s' -> Update s' <> Ok s''.
Proof. exact two_hours_starts. Qed.

(** C44: the initial column is hydrostatic, with water contents and conductivities inside the range of each soil; the initial storage is the sum over the
    layers of thickness times water content. *)
Theorem C44_hydrostatic :
  forall (files : string -> option (list row)) (junk : dbl) (ls : list string) (s : state) (l : string) (n : numeral) (ns : list numeral) (lp : string) (np : numeral) (lf f : string) (rows : list row),
    last_line "layer_thickness" l ls -> assigns "layer_thickness" (numbers (n :: ns)) l -> Forall good_numeral (n :: ns) ->
    last_line "initial_psi" lp ls -> assigns "initial_psi" (text np) lp -> good_numeral np -> (0 <= value np)%R ->
    last_line "soil_params_file" lf ls -> assigns "soil_params_file" f lf -> free_of "[" f -> files f = Some rows -> Forall physical_row rows ->
    Initialize files junk ls = Ok s ->
    exists ss ths, column (env_of s) (map value (n :: ns)) ss /\ hydrostatic (map value (n :: ns)) (value np) ss ths (st_head s) /\
      mb_start (st_mb s) = Fin (layer_storage (map value (n :: ns)) ths).
Proof. exact first_state. Qed.
Print Assumptions C44_hydrostatic.

(** C44: a good configuration gives a state that meets the hypotheses of the theorems about Update. *)
Theorem C44_first_state_is_sound :
  forall (files : string -> option (list row)) (junk : dbl) (ls : list string) (ts types gs : list numeral) (psi : numeral) (dt fres : R) (max : nat) (rows : list row),
    good_config files ls ts types gs psi dt fres max rows -> exists s, Initialize files junk ls = Ok s /\
      sound_state s /\ fresh s /\ signs s /\ p_invalid (st_p s) = false /\ within_soils (env_of s) (st_head s) /\ arrays_ok (mkObj s (repeat None 11)) /\
      p_nlayers (st_p s) = Z.of_nat (length ts) /\ p_timestep (st_p s) = Fin dt /\ p_fres (st_p s) = Fin fres.
Proof. exact configured. Qed.
Print Assumptions C44_first_state_is_sound.

(** The shipped configurations for Phillipsburg, alone and coupled to soil freeze-thaw. *)
Example C44_phillipsburg : good_config repository' phillipsburg (map num ["44.0"; "131.0"; "25.0"]) (map num ["13"; "14"; "15"])
  (map num ["0.06"; "0.51"; "0.28"; "0.12"; "0.03"]) (num "2000.0") (1 / 12) 1 15 seen /\
  forall junk ls, Initialize repository junk ls = Initialize repository' junk ls.
Proof. exact (conj phillipsburg_good repository_seen). Qed.
Example C44_sft_ngen : good_config repository' sft_ngen (map num ["44.0"; "131.0"; "25.0"]) (map num ["13"; "14"; "15"])
  (map num ["0.06"; "0.51"; "0.28"; "0.12"; "0.03"]) (num "2000.0") (1 / 12) 1 15 seen.
Proof. exact sft_ngen_good. Qed.

(** C50: for n > 1 and alpha > 0 the soil is physical. *)
Theorem C50_derived_parameters :
  forall (wp junk : dbl) (tr te al n k : R) (nm : string), (0 < al)%R -> (1 < n)%R -> exists en psib hmin,
    derive wp junk (Fin tr) (Fin te) (Fin al) (Fin n) (Fin k) nm = Ok en /\
    en_soil en = mkSoil (Fin tr) (Fin te) (Fin al) (Fin n) (Fin (1 - / n)) (Fin (n - 1)) (Fin psib) (Fin hmin) (Fin k) /\
    (0 < 1 - / n < 1)%R /\ (0 < psib)%R /\ (psib < hmin)%R.
Proof. exact derive_is. Qed.
Print Assumptions C50_derived_parameters.

(** C50, refuted: the water content at the wilting point depends on the content of uninitialised memory. *)
Theorem C50_wilting_point_refuted : exists en0 en1,
  derive (Fin 1) (Fin 0) (Fin (1 / 10)) (Fin (4 / 10)) (Fin 1) (Fin 2) (Fin 1) "soil" = Ok en0 /\
  derive (Fin 1) (Fin 1) (Fin (1 / 10)) (Fin (4 / 10)) (Fin 1) (Fin 2) (Fin 1) "soil" = Ok en1 /\
  en_theta_wp en0 = Fin (4 / 10) /\ en_theta_wp en1 = Fin (25 / 100).
Proof. exact wilting_point_junk. Qed.
Print Assumptions C50_wilting_point_refuted.

(** C50, refuted by the shipped table: its soils 7 (theta_e 0.38) and 11 (n 1.52) have names with a blank, so their numbers are not read and they are
    soils 6 and 10. *)
Theorem C50_shipped_table_refuted :
  forall (junk : dbl) (ls : list string) (s : state) (l : string), last_line "soil_params_file" l ls -> assigns "soil_params_file" data_file l ->
    Initialize repository junk ls = Ok s ->
    (forall a b, uget (st_soils s) 7 = Ok a -> uget (st_soils s) 6 = Ok b -> a = b /\ s_theta_e a = Fin (value (num "0.39"))) /\
    (forall a b, uget (st_soils s) 11 = Ok a -> uget (st_soils s) 10 = Ok b -> a = b /\ s_n a = Fin (value (num "1.32"))).
Proof. exact shipped_soils. Qed.
Print Assumptions C50_shipped_table_refuted.

Example C50_shipped_table_concrete : forall junk, exists s a b c d, Initialize repository junk phillipsburg = Ok s /\
  uget (st_soils s) 7 = Ok a /\ uget (st_soils s) 6 = Ok b /\ uget (st_soils s) 11 = Ok c /\ uget (st_soils s) 10 = Ok d.
Proof. exact shipped_soils_exist. Qed.
