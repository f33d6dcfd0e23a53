(** C69 to C71: columns of one soil layer: the sub-step that starts with one front, the simulation, the standalone program. *)

From Coq Require Import String Reals Lra ZArith List Lia Bool.
From Verif Require Import Outcome Dbl Exact Types ListOps Soil Fronts Infil Move State Update Bmi Config Driver Lib Spec_Common Spec_List Spec_Soil Spec_Update Spec_Profile Spec_Storage Spec_Velocity Spec_Single Spec_SubSingle
  Spec_Config Spec_Run Spec_Driver Spec_OneLayer Spec_OneConfig Spec_OneProgram Pf_SafeMove Pf_SubSingle Pf_OneLayer Pf_OneConfig Pf_OneProgram Ex_Driver Ex_Config Ex_OneLayer.
Import ListNotations.
Open Scope R_scope.
Local Existing Instance exact.

(** ** C69 *)

(** A completed sub-step that starts with a single front leaves a state from which the next one can start, with water contents that belong to
    their heads, and accounts for all water up to the bound that the code checks and the 1e-12 cm of surface water that it forgets. *)
Theorem C69_one_front_balances :
  forall (cfg : Cfg) u s r te D dt st a st' a',
    plain u s r te D dt -> placed u te D st a -> length (st_head st) = 1%nat -> rooted s (st_head st) -> 0 <= r -> substep u st a = Ok (st', a') ->
    placed u te D st' a' /\ rooted s (st_head st') /\ water_kept dt st a st' a' (1 / 10000 + 1 / 1000000000000) /\
    exists m, mb_local (st_mb st') = Some (Fin m) /\ Rabs m <= 1 / 10000.
Proof.
  intros cfg u s r te D dt st a st' a' HP HL H1 HR Hr E.
  assert (HF : footing s r (st_head st)) by (intros _; auto). pose proof (substep_any u s r te D dt st a HP HL HF) as Q. rewrite E in Q.
  destruct Q as (Q1 & Q2 & Q3 & Q4 & _). destruct (st_head st) as [|c [|? ?]] eqn:EH; try discriminate H1. cbn [slack] in Q2, Q3. repeat (split; auto).
Qed.
Print Assumptions C69_one_front_balances.

(** With any number of fronts: what is on the surface infiltrates, runs off or stays, and rain and demand are added up as they come. *)
Theorem C69_surface_water :
  forall (cfg : Cfg) u s r te D dt st a st' a',
    plain u s r te D dt -> placed u te D st a -> rooted s (st_head st) -> 0 <= r -> substep u st a = Ok (st', a') -> surface_kept dt st a a'.
Proof.
  intros cfg u s r te D dt st a st' a' HP HL HR Hr E. assert (HF : footing s r (st_head st)) by (intros _; auto).
  pose proof (substep_any u s r te D dt st a HP HL HF) as Q. rewrite E in Q. apply Q.
Qed.
Print Assumptions C69_surface_water.

(** With any number of fronts: the reasons to stop.  Only with a single front can the check of the local balance fail. *)
Theorem C69_substep_stops :
  forall (cfg : Cfg) u s r te D dt st a why,
    plain u s r te D dt -> placed u te D st a -> rooted s (st_head st) -> 0 <= r -> substep u st a = Stop why -> substep_stops (u_closed u) (st_head st) why.
Proof.
  intros cfg u s r te D dt st a why HP HL HR Hr E. assert (HF : footing s r (st_head st)) by (intros _; auto).
  pose proof (substep_any u s r te D dt st a HP HL HF) as Q. rewrite E in Q. exact (held_stops _ _ _ _ Hr Q).
Qed.
Print Assumptions C69_substep_stops.

(** Half an hour of rain on a saturated column of 100 cm. *)
Example C69_concrete : forall cfg : Cfg,
  plain (dr_upar (1 / 2) (3 / 2)) dr_soil (1 / 10) (2 / 5) 100 (1 / 2) /\ placed (dr_upar (1 / 2) (3 / 2)) (2 / 5) 100 dr_start on_acc /\
  length (st_head dr_start) = 1%nat /\ rooted dr_soil (st_head dr_start) /\ 0 <= 1 / 10 /\
  exists st' a', substep (dr_upar (1 / 2) (3 / 2)) dr_start on_acc = Ok (st', a').
Proof. intro cfg. repeat (split; [first [exact on_plain|exact on_placed|exact on_rooted|reflexivity|lra]|]). exact on_substep. Qed.

(** ** C70 *)

(** A well-formed configuration of one layer starts a simulation of that layer, with the soil of the table row that it names. *)
Theorem C70_configuration_starts :
  forall files junk ls t types gs psi wp fc dt fres max rows, single_config files ls t types gs psi wp fc dt fres max rows ->
    exists s sl r te a n K, Initialize files junk ls = Ok s /\ one_layer sl r te (value t) s /\ fresh s /\ soil_row types rows r te a n K /\ (exists m, vg_soil sl r te a n m K).
Proof.
  intros files junk ls t types gs psi wp fc dt fres max rows SC. destruct (single_start files junk _ _ _ _ _ _ _ _ _ _ _ SC) as (s & sl & r & te & a & n & K & H & OL & FR & SR & VG & _).
  exists s, sl, r, te, a, n, K. auto.
Qed.
Print Assumptions C70_configuration_starts.

(** After any number of Updates, with any numbers as forcing, the column is still one with ordered fronts, and every sub-step kept its water. *)
Theorem C70_every_step_is_kept :
  forall (cfg : Cfg) sl r te D s0 xs s, one_layer sl r te D s0 -> history known_weather s0 xs s -> one_layer sl r te D s /\ Forall (kept_step sl te D) xs.
Proof. exact @history_single. Qed.
Print Assumptions C70_every_step_is_kept.

(** The global balance at the end of an Update is bounded by what the sub-steps may lose. *)
Theorem C70_simulation_balances :
  forall (cfg : Cfg) sl r te D s0 xs s u ys s', one_layer sl r te D s0 -> fresh s0 -> history known_weather s0 xs s -> executed s u ys s' ->
    exists g, global_error (st_mb s') = Fin g /\ Rabs g <= Rsum (map (fun x => slack (st_head (x_s x)) + 1 / 1000000000000) (xs ++ ys)).
Proof. exact @simulation_balance. Qed.
Print Assumptions C70_simulation_balances.

(** An Update either ends with numbers in all outputs, or in a sub-step with one of the reasons of C69. *)
Theorem C70_update_ends :
  forall (cfg : Cfg) sl r te D s, one_layer sl r te D s -> prepared s ->
    ends (fun why => exists u s2 a2 xs s3 a3, runs u s2 a2 xs s3 a3 /\ st_head s2 = st_head s /\ u_closed u = p_closed (st_p s) /\ substep u s3 a3 = Stop why /\ substep_stops (p_closed (st_p s)) (st_head s3) why)
      (fun s' => one_layer sl r te D s' /\ published s') (Update s).
Proof. exact @update_single. Qed.
Print Assumptions C70_update_ends.

(** From the file to the end: all of it for every simulation of a well-formed configuration. *)
Theorem C70_configured_simulation :
  forall (cfg : Cfg) files junk ls t types gs psi wp fc dt fres max rows, single_config files ls t types gs psi wp fc dt fres max rows ->
    exists s0 sl r te a n K, Initialize files junk ls = Ok s0 /\ soil_row types rows r te a n K /\ (exists m, vg_soil sl r te a n m K) /\
      forall xs s, history known_weather s0 xs s -> Forall (kept_step sl te (value t)) xs /\
        (forall u ys s', executed s u ys s' -> Forall (kept_step sl te (value t)) ys /\ exists g, global_error (st_mb s') = Fin g /\ Rabs g <= Rsum (map (fun x => slack (st_head (x_s x)) + 1 / 1000000000000) (xs ++ ys))) /\
        (not_below_zero s -> ends (fun why => exists u s2 a2 zs s3 a3, runs u s2 a2 zs s3 a3 /\ st_head s2 = st_head s /\ u_closed u = p_closed (st_p s) /\ substep u s3 a3 = Stop why /\ substep_stops (p_closed (st_p s)) (st_head s3) why)
                                  published (Update s)).
Proof. exact @simulated. Qed.
Print Assumptions C70_configured_simulation.

Example C70_concrete : forall cfg : Cfg,
  single_config dr_files dr_lines (num "100.0") [num "1"] [num "1.0"] (num "0.0") (num "15495.0") (num "341") (1 / 2) 1 1 [dr_row] /\
  one_layer dr_soil (1 / 10) (2 / 5) 100 dr_state0 /\ fresh dr_state0 /\ history known_weather dr_state0 [] dr_start /\
  executed dr_start (dr_upar (1 / 2) (3 / 2)) dr_xs dr_end /\ length dr_xs = 2%nat.
Proof.
  intro cfg. destruct on_start as [A B]. repeat (split; [first [exact dr_single|exact A|exact B|exact on_history|exact dr_executed]|]). reflexivity.
Qed.

(** ** C71 *)

(** The program on a well-formed configuration of one layer, with forcing that is not negative: it stops for one of four reasons, or the
    global balance that it prints is bounded by the number of sub-steps times 1e-4 cm. *)
Theorem C71_program_balances :
  forall (cfg : Cfg) files texts junk ls t types gs psi wp fc dt fres max rows endsec f, single_config files ls t types gs psi wp fc dt fres max rows ->
    ends_at ls endsec -> fres * 3600 <= endsec -> endsec / (fres * 3600) < 2147483647 -> ReadForcingData texts ls = Ok f -> plausible f ->
    ends program_stops (fun res => (0 < length (rs_rows res))%nat /\ exists g, rs_printed res = Fin g /\ Rabs g <= INR (length (rs_rows res)) * (fres / dt + 1) * (1 / 10000 + 1 / 1000000000000))
      (simulate files texts junk ls).
Proof.
  intros cfg files texts junk ls t types gs psi wp fc dt fres max rows endsec f SC En E0 E1 Ef PF.
  eapply Pf_Structure.ends_mono; [| |exact (program_single cfg files texts junk ls t types gs psi wp fc dt fres max rows endsec f SC En E0 E1 Ef PF)]; [auto|].
  intros res (A & g & B & C & _). eauto.
Qed.
Print Assumptions C71_program_balances.

(** The same for the output file, in metres: the initial storage and the sum of the rain column, less the sums of the columns for runoff, evapotranspiration
    and recharge, is the storage in the last row and the water left on the surface. *)
Theorem C71_file_closes :
  forall (cfg : Cfg) files texts junk ls t types gs psi wp fc dt fres max rows endsec f res, single_config files ls t types gs psi wp fc dt fres max rows ->
    ends_at ls endsec -> fres * 3600 <= endsec -> endsec / (fres * 3600) < 2147483647 -> ReadForcingData texts ls = Ok f -> plausible f -> simulate files texts junk ls = Ok res ->
    exists s V0 P Ro A Rc V W, Initialize files junk ls = Ok s /\ lgar_calc_mass_bal (p_cum (st_p s)) (st_head s) = Ok (Fin V0) /\
      sums_to 0 (rs_rows res) P /\ sums_to 3 (rs_rows res) Ro /\ sums_to 2 (rs_rows res) A /\ sums_to 8 (rs_rows res) Rc /\ last_storage (rs_rows res) V /\
      mb_on (st_mb (ob_s (rs_obj res))) = Fin W /\
      Rabs (V0 / 100 + P - Ro - A - Rc - V - W / 100) <= INR (length (rs_rows res)) * (fres / dt + 1) * (1 / 10000 + 1 / 1000000000000) / 100.
Proof. exact program_columns. Qed.
Print Assumptions C71_file_closes.

(** The bound needs at least one step: a run shorter than one forcing step prints the whole initial storage as the error of its balance. *)
Theorem C71_no_step_refuted :
  forall (cfg : Cfg) files texts junk ls t types gs psi wp fc dt fres max rows endsec f, single_config files ls t types gs psi wp fc dt fres max rows ->
    ends_at ls endsec -> 0 <= endsec < fres * 3600 -> ReadForcingData texts ls = Ok f ->
    exists res g, simulate files texts junk ls = Ok res /\ rs_rows res = [] /\ rs_printed res = Fin g /\ 0 < g.
Proof. exact program_no_step. Qed.
Print Assumptions C71_no_step_refuted.

Example C71_concrete : forall (cfg : Cfg) junk,
  single_config dr_files dr_lines (num "100.0") [num "1"] [num "1.0"] (num "0.0") (num "15495.0") (num "341") (1 / 2) 1 1 [dr_row] /\
  ends_at dr_lines 3600 /\ 1 * 3600 <= 3600 /\ 3600 / (1 * 3600) < 2147483647 /\ ReadForcingData dr_texts dr_lines = Ok dr_forcing /\ plausible dr_forcing /\
  (exists res, simulate dr_files dr_texts junk dr_lines = Ok res /\ rs_rows res = [dr_out]) /\
  single_config dr_files on_short (num "100.0") [num "1"] [num "1.0"] (num "0.0") (num "15495.0") (num "341") (1 / 2) 1 1 [dr_row] /\
  ends_at on_short 1800 /\ 0 <= 1800 < 1 * 3600 /\ ReadForcingData dr_texts on_short = Ok dr_forcing.
Proof.
  intros cfg junk. split; [exact dr_single|]. split; [exact dr_ends|]. split; [lra|]. split; [lra|]. split; [exact dr_read|]. split; [exact dr_plausible|].
  split; [eexists; split; [apply dr_run|reflexivity]|]. split; [exact on_single|]. split; [exact on_ends|]. split; [lra|exact on_read].
Qed.
