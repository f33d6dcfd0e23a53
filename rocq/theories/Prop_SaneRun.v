(** C102: in binary64 no front ever holds a NaN, through Updates, calibrations and whole histories. *)

From Coq Require Import String Reals ZArith List Bool.
From Verif Require Import Outcome Dbl Binary64 Types ListOps Soil Fronts Infil Move State Update Bmi Config Driver Spec_Common Spec_Driver Spec_Soil Spec_List Spec_Config Spec_Profile Spec_Update Spec_Physical
  Spec_RoundMono Spec_SatRound Spec_SaneRun Pf_SaneHist Pf_SaneStart Pf_SaneRead Pf_SaneProgram Ex_Config Ex_Clock64 Ex_Binary64 Ex_SaneRun.
Import ListNotations.
Open Scope R_scope.

(** C102: an Update without ties keeps the fronts whole in binary64, after each of its sub-steps and at its end, and publishes their water contents.  When a calibration is pending
    its values have to be those of such a column. *)
Theorem C102_update_binary64 :
  forall (cfg : Cfg) (M : R) (s : state) (u : upar) (xs : list step) (s' : state), @sound_state binary64 s -> @whole_state binary64 M s ->
    (p_calib (st_p s) = true -> @calibration_whole binary64 M s) -> @executed binary64 cfg s u xs s' -> Forall (fun x => ~ @step_tie binary64 cfg u (x_s x) (x_a x)) xs ->
    @whole_state binary64 M s' /\ Forall (fun x => Forall (@whole_front binary64 M (env_of (x_s' x))) (st_head (x_s' x))) xs /\
    (p_invalid (st_p s) = false -> p_theta_wf (st_p s') = map f_theta (st_head s')).
Proof. exact @executed_whole. Qed.
Print Assumptions C102_update_binary64.

(** C102: the same for any sequence of Updates without ties and of user edits in between, *)
Theorem C102_histories_binary64 :
  forall (cfg : Cfg) (M : R) (s0 s : state), @sound_state binary64 s0 -> @whole_state binary64 M s0 -> p_calib (st_p s0) = false -> @calm binary64 cfg s0 s -> @whole_state binary64 M s.
Proof. intros cfg M s0 s HS W C X. exact (proj1 (proj2 (@calm_whole cfg M s0 s HS W C X))). Qed.
Print Assumptions C102_histories_binary64.

(** and in a column of one layer for every sequence. *)
Theorem C102_one_layer_binary64 :
  forall (cfg : Cfg) (M : R) (Q : state -> Prop) (s0 : state) (xs : list step) (s : state), @sound_state binary64 s0 -> @whole_state binary64 M s0 -> p_calib (st_p s0) = false ->
    p_nlayers (st_p s0) = 1%Z -> @history binary64 cfg Q s0 xs s -> @whole_state binary64 M s.
Proof. intros cfg M Q s0 xs s HS W C N H. apply (C102_histories_binary64 cfg M s0 s HS W C). exact (@one_layer_calm cfg Q s0 xs s HS N H). Qed.
Print Assumptions C102_one_layer_binary64.

(** C102: so does the state that Initialize leaves, when the initial head is not negative. *)
Theorem C102_initialize_binary64 :
  forall (files : string -> option (list row)) (junk : dbl) (ls : list string) (l : string) (np : numeral) (M : R) (s : state), last_line "initial_psi" l ls ->
    assigns "initial_psi" (text np) l -> good_numeral np -> 0 <= value np -> @Initialize binary64 files junk ls = Ok s -> @double_column binary64 M (env_of s) -> @whole_state binary64 M s.
Proof. intros files junk ls l np M s. exact (start_whole M files junk ls s l np). Qed.
Print Assumptions C102_initialize_binary64.

(** C102: what whole means for a front: the water content is a finite number, the saturation calculated from it lies between 0 and 1, neither the head nor the conductivity is a NaN. *)
Theorem C102_no_nan :
  forall (M : R) (e : env) (f : front), @double_column binary64 M e -> @whole_front binary64 M e f ->
    (exists s, soil_of e (f_layer f) = Ok s /\ unit_range (@Se_of_theta binary64 s (f_theta f))) /\ (exists t, f_theta f = Fin t) /\ f_psi f <> NaN /\
    exists K, f_K f = Fin K /\ 0 <= K <= M.
Proof.
  intros M e f D W. destruct (whole_values M e f D W) as (s & A & B & C & P). split; [exists s; auto|]. split; [exact C|]. split; [exact P|]. exact (wh_K _ _ _ W).
Qed.
Print Assumptions C102_no_nan.

(** C102: the velocity routine never aborts on whole fronts. *)
Theorem C102_velocities_do_not_abort :
  forall (cfg : Cfg) (M : R) (e : env) (closed : bool) (nint : Z) (h_p : dbl) (l : list front), Forall (@whole_front binary64 M e) l ->
    @lgar_dzdt_calc binary64 cfg e closed nint h_p l <> Stop Abort.
Proof. exact @velocities_no_abort. Qed.
Print Assumptions C102_velocities_do_not_abort.

(** C102: every value that a client reads from soil_moisture_wetting_fronts after an Update is a finite number, at least theta_r of a layer, with a saturation there between 0 and 1. *)
Theorem C102_client_reads_contents :
  forall (cfg : Cfg) (M : R) (s : state) (u : upar) (xs : list step) (s' : state) (pre : list (option dbl)) (vs : list item), @sound_state binary64 s -> @whole_state binary64 M s ->
    (p_calib (st_p s) = true -> @calibration_whole binary64 M s) -> p_invalid (st_p s) = false -> @executed binary64 cfg s u xs s' ->
    Forall (fun x => ~ @step_tie binary64 cfg u (x_s x) (x_a x)) xs -> GetValue "soil_moisture_wetting_fronts" (mkObj s' pre) = Ok vs ->
    Forall (fun v => exists k sl r e t, (1 <= k <= p_nlayers (st_p s'))%Z /\ soil_of (env_of s') k = Ok sl /\ s_theta_r sl = Fin r /\ s_theta_e sl = Fin e /\ v = D (Fin t) /\ 0 <= r <= t /\
      unit_range (@Se_of_theta binary64 sl (Fin t))) vs.
Proof. exact @read_contents. Qed.
Print Assumptions C102_client_reads_contents.

(** C102: the standalone program prints no NaN for a front of a column of one layer, or of any number of layers without ties: in every line of data_layers.csv the water contents are finite and not negative, the heads
    are not NaN, and the conductivities lie between 0 and the largest Ksat. *)
Theorem C102_program_prints_no_nan :
  forall (cfg : Cfg) (files : string -> option (list row)) (texts : string -> option string) (junk : dbl) (ls : list string) (l : string) (np : numeral) (M : R) (s : state) (f : forcing) (res : result),
    last_line "initial_psi" l ls -> assigns "initial_psi" (text np) l -> good_numeral np -> 0 <= value np ->
    @Initialize binary64 files junk ls = Ok s -> increasing_depths s -> finite (p_timestep (st_p s)) -> finite (p_fres (st_p s)) -> (1 <= g_N s)%Z ->
    @double_column binary64 M (env_of s) -> p_calib (st_p s) = false -> @ReadForcingData binary64 texts ls = Ok f -> @simulate binary64 cfg files texts junk ls = Ok res ->
    p_nlayers (st_p s) = 1%Z \/ @tie_free binary64 cfg s (first_steps (List.length (rs_rows res)) f) -> Forall (fun r => Forall (printable M) (w_fronts r)) (rs_rows res).
Proof. exact @program_whole. Qed.
Print Assumptions C102_program_prints_no_nan.

Example C102_an_update : forall (cfg : Cfg) (pb hm : dbl) (dp : list dbl), exists s', @sound_state binary64 (c6_start pb hm dp) /\ @whole_state binary64 1 (c6_start pb hm dp) /\
  p_calib (st_p (c6_start pb hm dp)) = false /\ p_nlayers (st_p (c6_start pb hm dp)) = 1%Z /\ @executed binary64 cfg (c6_start pb hm dp) (c6_upar pb hm) (c6_xs pb hm dp) s' /\
  Forall (fun x => ~ @step_tie binary64 cfg (c6_upar pb hm) (x_s x) (x_a x)) (c6_xs pb hm dp) /\ @calm binary64 cfg (c6_start pb hm dp) s'.
Proof. exact @c6_case. Qed.
Example C102_a_dry_front : forall pb hm : dbl, @whole_front binary64 1 (c6_env pb hm) (mkF (Fin 10) (Fin (1 / 8)) PInf (Fin 0) 1 1 false (Fin 0)).
Proof. exact dry_whole. Qed.
Example C102_a_configuration : forall junk : dbl, exists s, last_line "initial_psi" "initial_psi=0[cm]" b7_lines /\ assigns "initial_psi" (text (num "0")) "initial_psi=0[cm]" /\
  good_numeral (num "0") /\ 0 <= value (num "0") /\ @Initialize binary64 b6_files junk b7_lines = Ok s /\ @sound_state binary64 s /\ increasing_depths s /\
  finite (p_timestep (st_p s)) /\ finite (p_fres (st_p s)) /\ (1 <= g_N s)%Z /\ @double_column binary64 1 (env_of s) /\
  p_calib (st_p s) = false /\ p_nlayers (st_p s) = 1%Z.
Proof. exact b7_start. Qed.
Example C102_a_calibration : forall (pb hm : dbl) (dp : list dbl), @calibration_whole binary64 1 (c6_start pb hm dp).
Proof. exact c6_calibration. Qed.
Example C102_a_reading : forall (cfg : Cfg) (pb hm : dbl) (dp : list dbl) (pre : list (option dbl)), exists s' x, @executed binary64 cfg (c6_start pb hm dp) (c6_upar pb hm) (c6_xs pb hm dp) s' /\
  p_invalid (st_p (c6_start pb hm dp)) = false /\ GetValue "soil_moisture_wetting_fronts" (mkObj s' pre) = Ok [D x].
Proof. exact @c6_reading. Qed.
Example C102_a_run : forall (cfg : Cfg) (junk : dbl), exists f res, @ReadForcingData binary64 b7_texts b7_lines = Ok f /\ @simulate binary64 cfg b6_files b7_texts junk b7_lines = Ok res.
Proof. exact @b7_result. Qed.
