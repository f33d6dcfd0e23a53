(** C81: the text of the output files. *)

From Coq Require Import String Ascii Reals ZArith List Bool Lra Lia.
From Verif Require Import Outcome Dbl Exact Types ListOps Fronts State Update Bmi Config Driver TableFile Output Spec_Common Spec_Profile Spec_Update Spec_Bmi Spec_Config Spec_Run Spec_Driver
  Spec_Output Pf_Output Ex_Config Ex_Driver Ex_Output.
Import ListNotations.
Open Scope string_scope.
Open Scope list_scope.
Open Scope Z_scope.

(** C81, whatever the rounding: the text of data_variables.csv is a header and one line per step; a line has the time of the step in the forcing file and the
    published values with 15 digits after the point, each rounded to the nearest; and a reader that splits it at the commas gets these cells back. *)
Theorem C81_data_file :
  forall (fp : Fp) (cfg : Cfg) (files : string -> option (list row)) (texts : string -> option string) (junk : dbl) (ls : list string) (res : result),
    simulate files texts junk ls = Ok res ->
    exists cs, data_variables (rs_rows res) = Ok (file_of (map csv (("Time" :: column_names) :: cs))) /\ Forall2 data_cells (rs_rows res) cs /\ Forall (fun c => line_cells (csv c) = c) cs.
Proof. exact @run_data. Qed.
Print Assumptions C81_data_file.

(** The text of data_layers.csv has two lines per step: the number of the step and its time; and the fronts from the surface downwards, each with its depth and head
    in millimetres.  No time breaks a line. *)
Theorem C81_layers_file :
  forall (fp : Fp) (cfg : Cfg) (files : string -> option (list row)) (texts : string -> option string) (junk : dbl) (ls : list string) (res : result),
    simulate files texts junk ls = Ok res ->
    exists lines, data_layers (rs_rows res) = file_of (concat (map (fun p => [fst p; snd p]) lines)) /\ List.length lines = List.length (rs_rows res) /\
      Forall (fun p => free_of newline (fst p) /\ free_of newline (snd p)) lines /\
      forall k r p, nth_error (rs_rows res) k = Some r -> nth_error lines k = Some p -> layer_lines (Z.of_nat k) r (fst p) (snd p).
Proof. exact @run_layers. Qed.
Print Assumptions C81_layers_file.

(** A number that was written is read again as a number that differs from it by at most half a unit of the last digit, before the rounding of the reader; infinities
    and NaN come back as they are. *)
Theorem C81_numbers :
  forall (fp : Fp) (w p : nat) (d : dbl), (w <= p + 2)%nat ->
    written p d (print_fixed w p d) /\
    match d with
    | Fin x => exists v, (Rabs (v - x) <= / 2 * / 10 ^ p)%R /\ stod (print_fixed w p d) = match rnd v with Fin y => Ok (Fin y) | _ => Stop Throw end
    | _ => stod (print_fixed w p d) = Ok d
    end.
Proof. exact (fun fp w p d H => conj (fixed_written w p d H) (written_read p d _ (fixed_written w p d H))). Qed.
Print Assumptions C81_numbers.

Local Existing Instance exact.

(** The water balance can be checked from the text alone: the sums of the printed columns miss it by at most half a unit of the 15th digit for every number used. *)
Theorem C81_balance_from_text :
  forall (cfg : Cfg) (files : string -> option (list row)) (texts : string -> option string) (junk : dbl) (ls : list string) (ts types gs : list numeral) (psi : numeral) (dt fres : R)
    (max : nat) (rows : list row) (res : result) (g : R),
    good_config files ls ts types gs psi dt fres max rows -> simulate files texts junk ls = Ok res -> rs_rows res <> [] -> rs_printed res = Fin g ->
    exists cs s V0 P Ro A Rc V W C, data_variables (rs_rows res) = Ok (file_of (map csv (("Time" :: column_names) :: cs))) /\ Forall (fun c => line_cells (csv c) = c) cs /\
      Initialize files junk ls = Ok s /\ lgar_calc_mass_bal (p_cum (st_p s)) (st_head s) = Ok (Fin V0) /\
      text_sums_to 0 cs P /\ text_sums_to 3 cs Ro /\ text_sums_to 2 cs A /\ text_sums_to 8 cs Rc /\ text_storage cs V /\
      mb_on (st_mb (ob_s (rs_obj res))) = Fin W /\ mb_calib (st_mb (ob_s (rs_obj res))) = Fin C /\
      (Rabs (V0 / 100 + P - Ro - A - Rc - V - W / 100 + C / 100 - g / 100) <= (4 * INR (List.length cs) + 1) * (/ 2 * / 10 ^ 15))%R.
Proof. exact @text_balance. Qed.
Print Assumptions C81_balance_from_text.

(** The files of the run of C55: 2 cm of rain on a saturated column, half a centimetre of runoff. *)
Example C81_concrete : forall (cfg : Cfg) (junk : dbl),
  simulate dr_files dr_texts junk dr_lines = Ok (mkResult [dr_out] (mkObj dr_end (repeat None 11)) (Fin 0)) /\
  data_variables [dr_out] = Ok (file_of [csv ("Time" :: column_names);
    "2016-10-01 00:00:00,0.020000000000000,0.000000000000000,0.000000000000000,0.005000000000000,0.005000000000000,0.400000000000000,0.005000000000000,0.000000000000000,0.000000000000000,0.000000000000000,0.000000000000000"]) /\
  data_layers [dr_out] = file_of ["# Timestep = 0, 2016-10-01 00:00:00 "; "[(1000.000000,0.400000,1,1,0.000000)]"].
Proof. exact (fun cfg junk => conj (dr_run junk) (conj out_data out_layers)). Qed.

(** Rounding: to the nearest, ties to even; the sign of a small negative number is kept. *)
Example C81_concrete_rounding :
  print_fixed 6 15 (Fin (2 / 3)) = "0.666666666666667" /\ print_fixed 0 6 (Fin (- (1 / 3))) = "-0.333333" /\ print_fixed 0 2 (Fin (1 / 8)) = "0.12" /\
  print_fixed 0 2 (Fin (3 / 8)) = "0.38" /\ print_fixed 0 2 (Fin (- (1 / 1000))) = "-0.00" /\ print_fixed 6 15 NaN = "   nan".
Proof. exact out_rounding. Qed.
