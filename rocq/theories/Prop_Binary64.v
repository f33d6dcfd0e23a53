(** C58: numbers of steps in binary64, the arithmetic of the machine (round to nearest even, overflow to infinity). *)

From Coq Require Import String Reals ZArith List Bool Lia.
From RecordUpdate Require Import RecordSet.
From Verif Require Import Outcome Dbl Binary64 Types ListOps Fronts State Update Bmi Config Driver Spec_Common Spec_Update Spec_Config Spec_Driver Spec_Binary64
  Pf_Binary64 Pf_Counts Ex_Config Ex_Clock64 Ex_Binary64.
Import ListNotations.
Import RecordSetNotations.
Open Scope string_scope.
Open Scope list_scope.
Open Scope Z_scope.

Local Existing Instance binary64.

(** If the forcing resolution is [k] time steps, both given in whole seconds with any unit, Initialize finds exactly [k] sub-steps. *)
Theorem C58_substeps :
  forall (files : string -> option (list row)) (junk : dbl) (ls : list string) (s : state) (T F k : Z),
    seconds "timestep" ls T -> seconds "forcing_resolution" ls F -> 1 <= T -> 1 <= k <= 10000000 -> F = k * T ->
    Initialize files junk ls = Ok s -> p_finterval (st_p s) = k.
Proof. exact substeps_64. Qed.
Print Assumptions C58_substeps.

(** If the resolution divides the hour, every ordinate of the unit hydrograph is repeated 3600 / F times. *)
Theorem C58_ordinates :
  forall (files : string -> option (list row)) (junk : dbl) (ls : list string) (s : state) (l : string) (n : numeral) (ns : list numeral) (F : Z),
    seconds "forcing_resolution" ls F -> 1 <= F -> (F | 3600) ->
    last_line "giuh_ordinates" l ls -> assigns "giuh_ordinates" (numbers (n :: ns)) l -> Forall good_numeral (n :: ns) -> Initialize files junk ls = Ok s ->
    g_N s = 3600 / F * Z.of_nat (List.length (n :: ns)).
Proof. exact ordinates_64. Qed.
Print Assumptions C58_ordinates.

(** The clock gains no rounding error: an Update whose step length is T seconds, a divisor of the hour, does all of its k sub-steps and moves the clock by F = k T
    seconds exactly. *)
Theorem C58_clock :
  forall (cfg : Cfg) (s : state) (u : upar) (xs : list step) (s' : state) (t T F e k : Z),
    p_invalid (st_p s) = false -> executed s u xs s' -> p_time (st_p s) = Fin (IZR t) -> u_dt u = Fin (hours64 T) -> p_fres (st_p s) = Fin (hours64 F) ->
    p_endtime (st_p s) = Fin (IZR e) -> 1 <= T -> (T | 3600) -> 1 <= k <= 10000000 -> F = k * T -> 0 <= t -> t + F < 2 ^ 53 -> ngen = true \/ t + F <= e ->
    Z.of_nat (List.length xs) = k /\ p_time (st_p s') = Fin (IZR (t + F)).
Proof. exact @update_64. Qed.
Print Assumptions C58_clock.

(** The program does E / F steps if F divides the hour. *)
Theorem C58_program_steps :
  forall (cfg : Cfg) (files : string -> option (list row)) (texts : string -> option string) (junk : dbl) (ls : list string) (F E : Z) (res : result),
    seconds "forcing_resolution" ls F -> seconds "endtime" ls E -> 1 <= F -> (F | 3600) -> 0 <= E <= 2147483647 * F ->
    simulate files texts junk ls = Ok res -> List.length (rs_rows res) = Z.to_nat (E / F).
Proof. exact @program_64. Qed.
Print Assumptions C58_program_steps.

(** Refuted for other resolutions: with 57 seconds and an end time of 57 seconds the program does no step at all. *)
Theorem C58_program_steps_refuted :
  forall (cfg : Cfg) (files : string -> option (list row)) (texts : string -> option string) (junk : dbl) (ls : list string) (res : result),
    seconds "forcing_resolution" ls 57 -> seconds "endtime" ls 57 -> simulate files texts junk ls = Ok res -> rs_rows res = [].
Proof. exact @program_57. Qed.
Print Assumptions C58_program_steps_refuted.

(** Resolutions of 57 s and of one hour in files that the program accepts; a third of an hour is not a binary64 number. *)
Example C58_concrete_57 : seconds "timestep" b6_lines 19 /\ seconds "forcing_resolution" b6_lines 57 /\ seconds "endtime" b6_lines 57.
Proof. exact b6_seconds. Qed.
Example C58_concrete_57_start : forall junk, exists s, Initialize b6_files junk b6_lines = Ok s.
Proof. exact b6_init. Qed.
Example C58_concrete_57_run : forall (cfg : Cfg) junk, (exists res, simulate b6_files b6_texts junk b6_lines = Ok res) /\ exists f, ReadForcingData b6_texts b6_lines = Ok f /\ List.length (fo_pet f) = 1%nat.
Proof. intros cfg junk. split; [apply b6_run|exact b6_read]. Qed.
Example C58_concrete_hour : seconds "timestep" b7_lines 1200 /\ seconds "forcing_resolution" b7_lines 3600 /\ seconds "endtime" b7_lines 3600 /\
  last_line "giuh_ordinates" "giuh_ordinates=1" b7_lines /\ assigns "giuh_ordinates" (numbers [num "1"]) "giuh_ordinates=1" /\ Forall good_numeral [num "1"].
Proof. destruct b7_seconds as (A & B & C). destruct b7_giuh as (D & E & F). auto 10. Qed.
Example C58_concrete_hour_run : forall (cfg : Cfg) junk, exists res, simulate b6_files b7_texts junk b7_lines = Ok res.
Proof. exact @b7_run. Qed.
Example C58_concrete_clock : forall cfg : Cfg, exists s', executed (c6_start (Fin 32) (Fin 40) []) (c6_upar (Fin 32) (Fin 40)) (c6_xs (Fin 32) (Fin 40) []) s' /\
  p_time (st_p (c6_start (Fin 32) (Fin 40) [])) = Fin 0 /\ u_dt (c6_upar (Fin 32) (Fin 40)) = Fin (hours64 1200) /\ p_fres (st_p (c6_start (Fin 32) (Fin 40) [])) = Fin (hours64 3600) /\
  p_endtime (st_p (c6_start (Fin 32) (Fin 40) [])) = Fin 3600.
Proof. intro cfg. destruct (c6_executed (Fin 32) (Fin 40) []) as (s' & E & _). exists s'. repeat split; try reflexivity; exact (proj1 E) || exact (proj2 E). Qed.
