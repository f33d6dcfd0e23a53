(** C51-C55: the forcing file, the standalone program and its output files; programs that use the interface. *)

From Coq Require Import String Ascii Reals ZArith List Bool Lra Lia.
From RecordUpdate Require Import RecordSet.
From Verif Require Import Outcome Dbl Exact Types ListOps Fronts State Update Bmi Config Driver Spec_Common Spec_Profile Spec_Update Spec_Bmi Spec_Config Spec_Run Spec_Driver
  Pf_Forcing Pf_RunExact Pf_DriverRun Pf_DriverBalance Ex_Config Ex_Driver.
Import ListNotations.
Import RecordSetNotations.
Open Scope string_scope.
Open Scope list_scope.
Open Scope Z_scope.

(** C51, whatever the rounding: if every line ends with a line feed, the complete rows are the forcing, in the order of the file; empty lines and cells behind the
    third are ignored.  The file is the one that the first line with the key forcing_file names. *)
Theorem C51_rows_in_order :
  forall (fp : Fp) (texts : string -> option string) (ls : list string) (name h : string) (rs : list (option frow)),
    first_line "forcing_file" ("forcing_file=" ++ name)%string ls -> texts name = Some (file_of (h :: map row_line rs)) ->
    free_of newline h -> Forall fine (complete_rows rs) -> ReadForcingData texts ls = Ok (forced (complete_rows rs)).
Proof. exact @forcing_file_read. Qed.
Print Assumptions C51_rows_in_order.

(** Reading always ends, and a precipitation never is without a time nor an evapotranspiration without a precipitation. *)
Theorem C51_reading_ends :
  forall (fp : Fp) (t : string), read_text t <> Stop OutOfFuel.
Proof. exact @reading_ends. Qed.
Print Assumptions C51_reading_ends.
Theorem C51_column_lengths :
  forall (fp : Fp) (texts : string -> option string) (ls : list string) (f : forcing), ReadForcingData texts ls = Ok f ->
    (List.length (fo_pet f) <= List.length (fo_precip f) <= List.length (fo_time f))%nat.
Proof. exact @forcing_lengths. Qed.
Print Assumptions C51_column_lengths.

(** C51 refuted: without a line feed at the end the last row is taken twice. *)
Theorem C51_open_last_line_refuted :
  forall (fp : Fp) (texts : string -> option string) (ls : list string) (name h : string) (rs : list (option frow)) (r : frow),
    first_line "forcing_file" ("forcing_file=" ++ name)%string ls -> texts name = Some (file_of (h :: map row_line rs) ++ csv (row_cells r))%string ->
    free_of newline h -> Forall fine (complete_rows rs) -> fine r -> ReadForcingData texts ls = Ok (forced (complete_rows rs ++ [r; r])).
Proof. exact @forcing_file_twice. Qed.
Print Assumptions C51_open_last_line_refuted.

(** C51 refuted: a row without its third cell is accepted; from there on the evapotranspiration belongs to the step before. *)
Theorem C51_short_row_refuted :
  forall (fp : Fp) (texts : string -> option string) (ls : list string) (name h : string) (a : list (option frow)) (t : string) (n : numeral) (b : list (option frow)),
    first_line "forcing_file" ("forcing_file=" ++ name)%string ls -> texts name = Some (file_of (h :: map row_line a ++ csv [t; text n] :: map row_line b)) ->
    free_of newline h -> Forall fine (complete_rows a) -> Forall fine (complete_rows b) -> good_cells [t; text n] -> good_numeral n -> finite (rnd (value n)) ->
    exists f, ReadForcingData texts ls = Ok f /\ fo_time f = map fr_time (complete_rows a) ++ t :: map fr_time (complete_rows b) /\
      fo_precip f = fo_precip (forced (complete_rows a)) ++ rnd (value n) :: fo_precip (forced (complete_rows b)) /\
      fo_pet f = fo_pet (forced (complete_rows a)) ++ fo_pet (forced (complete_rows b)).
Proof. exact @forcing_file_shift. Qed.
Print Assumptions C51_short_row_refuted.

Example C51_concrete : exists t, dr_dir t "./rain.csv" = Some (file_of ("Time,P,PET" :: map row_line dr_frows)) /\ free_of newline "Time,P,PET" /\ Forall (@fine exact) (complete_rows dr_frows) /\
  first_line "forcing_file" "forcing_file=./rain.csv" dr_lines /\
  t = file_of ["Time,P,PET"; "2016-10-01 00:00:00,20.0,0.0"; ""; "2016-10-01 01:00:00,5,0.1,dry"].
Proof. exact dr_rows_case. Qed.
Example C51_read : @ReadForcingData exact dr_texts dr_lines = Ok dr_forcing.
Proof. exact dr_read. Qed.
Example C51_short_row_concrete : good_cells ["2016-10-01 00:30:00"; text (num "7")] /\ good_numeral (num "7") /\ finite (@rnd exact (value (num "7"))) /\
  csv ["2016-10-01 00:30:00"; text (num "7")] = "2016-10-01 00:30:00,7".
Proof. exact dr_short_case. Qed.

(** C52, whatever the rounding: a run of the program that ends normally is a sequence of Updates, one for each line of output; line i has the time of row i, Update i had
    the forcing of row i, and the line has the values that the interface publishes after it. *)
Theorem C52_one_update_per_row :
  forall (fp : Fp) (cfg : Cfg) (files : string -> option (list row)) (texts : string -> option string) (junk : dbl) (ls : list string) (res : result),
    simulate files texts junk ls = Ok res ->
    exists s f n, Initialize files junk ls = Ok s /\ ReadForcingData texts ls = Ok f /\ d2i (p_endtime (st_p s) / (p_fres (st_p s) * lit 3600))%d = Ok n /\
      n <= Z.of_nat (List.length (fo_pet f)) /\ driven s (first_steps (Z.to_nat n) f) (rs_rows res) (ob_s (rs_obj res)) /\ List.length (rs_rows res) = Z.to_nat n /\
      List.length (first_steps (Z.to_nat n) f) = Z.to_nat n /\ rs_printed res = global_error (st_mb (ob_s (rs_obj res))).
Proof. exact @simulate_inv. Qed.
Print Assumptions C52_one_update_per_row.

Local Existing Instance exact.

(** The number of steps is the end time divided by the forcing resolution, rounded down. *)
Theorem C52_number_of_steps :
  forall (cfg : Cfg) (files : string -> option (list row)) (texts : string -> option string) (junk : dbl) (ls : list string) (ts types gs : list numeral) (psi : numeral) (dt fres : R)
    (max : nat) (rows : list row) (endsec : R) (res : result),
    good_config files ls ts types gs psi dt fres max rows -> ends_at ls endsec -> (0 <= endsec)%R -> simulate files texts junk ls = Ok res ->
    exists s f n, Initialize files junk ls = Ok s /\ ReadForcingData texts ls = Ok f /\ (INR n <= endsec / (fres * 3600) < INR n + 1)%R /\ (n <= List.length (fo_pet f))%nat /\
      driven s (first_steps n f) (rs_rows res) (ob_s (rs_obj res)) /\ List.length (first_steps n f) = n /\ List.length (rs_rows res) = n.
Proof. exact @program_steps. Qed.
Print Assumptions C52_number_of_steps.

Example C52_concrete : forall (cfg : Cfg) (junk : dbl), good_config dr_files dr_lines [num "100.0"] [num "1"] [num "1.0"] (num "0.0") (1 / 2) 1 1 [dr_row] /\ ends_at dr_lines 3600 /\
  simulate dr_files dr_texts junk dr_lines = Ok (mkResult [dr_out] (mkObj dr_end (repeat None 11)) (Fin 0)).
Proof. exact (fun cfg junk => conj dr_good (conj dr_ends (dr_run junk))). Qed.

(** C53: a client that reads outputs after the first Update, uses buffers of the announced size and type and does not overwrite the layer boundaries nor the number of
    fronts cannot make the model access memory that is not there, in any order and number of calls. *)
Theorem C53_clients_are_safe :
  forall (cfg : Cfg) (files : string -> option (list row)) (junk : dbl) (ls : list string) (ts types gs : list numeral) (psi : numeral) (dt fres : R)
    (max : nat) (rows : list row) (s : state) (cs : list call),
    good_config files ls ts types gs psi dt fres max rows -> (dt <= fres)%R -> cells_cover ls ts -> Initialize files junk ls = Ok s ->
    along proper cs (mkObj s (repeat None 11)) -> along untied cs (mkObj s (repeat None 11)) ->
    ends memory_safe (fun _ => True) (do_calls cs (mkObj s (repeat None 11))).
Proof. exact @config_calls. Qed.
Print Assumptions C53_clients_are_safe.

(** In a column of one layer there are no ties. *)
Theorem C53_clients_are_safe_one_layer :
  forall (cfg : Cfg) (files : string -> option (list row)) (junk : dbl) (ls : list string) (t : numeral) (types gs : list numeral) (psi : numeral) (dt fres : R)
    (max : nat) (rows : list row) (s : state) (cs : list call),
    good_config files ls [t] types gs psi dt fres max rows -> (dt <= fres)%R -> cells_cover ls [t] -> Initialize files junk ls = Ok s ->
    along proper cs (mkObj s (repeat None 11)) -> ends memory_safe (fun _ => True) (do_calls cs (mkObj s (repeat None 11))).
Proof. exact @config_calls_one. Qed.
Print Assumptions C53_clients_are_safe_one_layer.

Example C53_concrete : forall (cfg : Cfg) (junk : dbl), good_config dr_files dr_lines [num "100.0"] [num "1"] [num "1.0"] (num "0.0") (1 / 2) 1 1 [dr_row] /\
  (1 / 2 <= 1)%R /\ cells_cover dr_lines [num "100.0"] /\ Initialize dr_files junk dr_lines = Ok dr_state0 /\
  along proper dr_calls (mkObj dr_state0 (repeat None 11)) /\ do_calls dr_calls (mkObj dr_state0 (repeat None 11)) = Ok (mkObj dr_end (repeat None 11)).
Proof. intros cfg junk. split; [exact dr_good|]. split; [lra|]. split; [exact dr_cells|]. split; [exact (dr_init junk)|exact dr_client]. Qed.

(** C54: the whole program, for every text of the forcing file. *)
Theorem C54_program_is_safe :
  forall (cfg : Cfg) (files : string -> option (list row)) (texts : string -> option string) (junk : dbl) (ls : list string) (ts types gs : list numeral) (psi : numeral) (dt fres : R)
    (max : nat) (rows : list row) (endsec : R),
    good_config files ls ts types gs psi dt fres max rows -> (dt <= fres)%R -> cells_cover ls ts ->
    ends_at ls endsec -> (0 <= endsec)%R -> (endsec / (fres * 3600) < 2147483647)%R ->
    (forall s f n, Initialize files junk ls = Ok s -> ReadForcingData texts ls = Ok f -> tie_free s (first_steps n f)) ->
    ends memory_safe (fun _ => True) (simulate files texts junk ls).
Proof. exact @program_safe. Qed.
Print Assumptions C54_program_is_safe.

Theorem C54_program_is_safe_one_layer :
  forall (cfg : Cfg) (files : string -> option (list row)) (texts : string -> option string) (junk : dbl) (ls : list string) (t : numeral) (types gs : list numeral) (psi : numeral) (dt fres : R)
    (max : nat) (rows : list row) (endsec : R),
    good_config files ls [t] types gs psi dt fres max rows -> (dt <= fres)%R -> cells_cover ls [t] ->
    ends_at ls endsec -> (0 <= endsec)%R -> (endsec / (fres * 3600) < 2147483647)%R ->
    ends memory_safe (fun _ => True) (simulate files texts junk ls).
Proof. exact @program_safe_one. Qed.
Print Assumptions C54_program_is_safe_one_layer.

Example C54_concrete : forall (cfg : Cfg) (junk : dbl), good_config dr_files dr_lines [num "100.0"] [num "1"] [num "1.0"] (num "0.0") (1 / 2) 1 1 [dr_row] /\ (1 / 2 <= 1)%R /\
  cells_cover dr_lines [num "100.0"] /\ ends_at dr_lines 3600 /\ (0 <= 3600)%R /\ (3600 / (1 * 3600) < 2147483647)%R.
Proof. intros cfg junk. split; [exact dr_good|]. split; [lra|]. split; [exact dr_cells|]. split; [exact dr_ends|lra]. Qed.

(** C55: the columns of the output file (in m) add up to the totals of the ledger (in cm). *)
Theorem C55_columns_add_up :
  forall (cfg : Cfg) (s : state) (ps : list (string * dbl * dbl)) (rs : list outrow) (s' : state), driven s ps rs s' -> p_invalid (st_p s) = false ->
    forall k f, In (k, f) totals -> forall x y, f (st_mb s) = Fin x -> f (st_mb s') = Fin y -> sums_to k rs ((y - x) / 100).
Proof. exact @column_sums. Qed.
Print Assumptions C55_columns_add_up.

(** The water balance can be read off the output file: initial storage, plus precipitation, minus runoff, evapotranspiration and recharge, minus the storage of the
    last line and the water still ponded, is the printed error (plus what calibration changed). *)
Theorem C55_file_balance :
  forall (cfg : Cfg) (files : string -> option (list row)) (texts : string -> option string) (junk : dbl) (ls : list string) (ts types gs : list numeral) (psi : numeral) (dt fres : R)
    (max : nat) (rows : list row) (res : result) (g : R),
    good_config files ls ts types gs psi dt fres max rows -> simulate files texts junk ls = Ok res -> rs_rows res <> [] -> rs_printed res = Fin g ->
    exists s V0 P Ro A Rc V W C, Initialize files junk ls = Ok s /\ lgar_calc_mass_bal (p_cum (st_p s)) (st_head s) = Ok (Fin V0) /\
      sums_to 0 (rs_rows res) P /\ sums_to 3 (rs_rows res) Ro /\ sums_to 2 (rs_rows res) A /\ sums_to 8 (rs_rows res) Rc /\ last_storage (rs_rows res) V /\
      mb_on (st_mb (ob_s (rs_obj res))) = Fin W /\ mb_calib (st_mb (ob_s (rs_obj res))) = Fin C /\
      (V0 / 100 + P - Ro - A - Rc - V - W / 100 + C / 100 = g / 100)%R.
Proof. exact @program_balance. Qed.
Print Assumptions C55_file_balance.

(** The printed error is bounded by the number of sub-steps times the tolerance of the local balance. *)
Theorem C55_file_error_bound :
  forall (cfg : Cfg) (s : state) (ps : list (string * dbl * dbl)) (rs : list outrow) (s' : state), driven s ps rs s' -> ps <> [] -> fresh s -> signs s ->
    p_invalid (st_p s) = false -> not_negative (c_pmax (st_cal s)) ->
    exists xs, history (fun s => not_negative (c_pmax (st_cal s))) s xs s' /\
      (Forall (fun x => finite (residual x)) xs -> finite (mb_calib (st_mb s')) ->
       exists g, global_error (st_mb s') = Fin g /\ (Rabs g <= INR (List.length xs) * (1 / 10000 + 1 / 1000000000000))%R).
Proof. exact @file_error. Qed.
Print Assumptions C55_file_error_bound.

(** Routing: the discharge column and what is still in the queue are the runoff column and what was in the queue, times the sum of the ordinates. *)
Theorem C55_file_routing :
  forall (cfg : Cfg) (s : state) (ps : list (string * dbl * dbl)) (rs : list outrow) (s' : state), driven s ps rs s' -> p_invalid (st_p s) = false ->
    forall ord q r0 r1, (1 <= List.length ord)%nat -> List.length q = S (List.length ord) ->
    g_N s = Z.of_nat (List.length ord) -> g_ord s = map Fin ord -> g_queue s = map Fin q -> mb_runoff (st_mb s) = Fin r0 -> mb_runoff (st_mb s') = Fin r1 ->
    exists Ro Qs q', sums_to 3 rs Ro /\ sums_to 6 rs Qs /\ g_queue s' = map Fin q' /\ List.length q' = List.length q /\
      (100 * Qs + Rsum (firstn (List.length ord) q') = Rsum (firstn (List.length ord) q) + 100 * Ro * Rsum ord)%R.
Proof. exact @file_routing. Qed.
Print Assumptions C55_file_routing.

(** A whole run: 2 cm of rain on a saturated column; 1.5 cm stay ponded, 0.5 cm run off. *)
Example C55_concrete : forall (cfg : Cfg) (junk : dbl), good_config dr_files dr_lines [num "100.0"] [num "1"] [num "1.0"] (num "0.0") (1 / 2) 1 1 [dr_row] /\
  simulate dr_files dr_texts junk dr_lines = Ok (mkResult [dr_out] (mkObj dr_end (repeat None 11)) (Fin 0)) /\
  driven dr_state0 [("2016-10-01 00:00:00", Fin 20, Fin 0)] [dr_out] dr_end /\ column 3 [dr_out] = [Some (D (Fin (1 / 200)))] /\ mb_runoff (st_mb dr_end) = Fin (1 / 2) /\
  g_ord dr_state0 = map Fin [1%R] /\ g_queue dr_state0 = map Fin [0%R; 0%R].
Proof. exact (fun cfg junk => conj dr_good (conj (dr_run junk) (conj dr_driven (conj eq_refl (conj eq_refl (conj eq_refl eq_refl)))))). Qed.
