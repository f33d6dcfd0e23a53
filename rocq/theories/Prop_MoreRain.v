(** C90: what more rain on the same soil does. *)

From Coq Require Import Reals Lra ZArith List.
From RecordUpdate Require Import RecordSet.
From Verif Require Import Outcome Dbl Exact Types Fronts Infil State Update Spec_Common Spec_Split Ex_Saturated Ex_Unsaturated Pf_MoreRain Ex_MoreRain.
Import ListNotations.
Import RecordSetNotations.
Open Scope R_scope.
Local Existing Instance exact.

(** C90, one sub-step: two sub-steps start from the same state and differ in the rain only, [r1] and [r2] mm/h with 0 <= r1 <= r2.  Then at least as much water goes into the soil, runs off and stays on the
    surface with the heavier rain, and the three differences add up to the additional rain.  Excluded are negative infiltration, ponded water above its maximum (finding 5) and a film of water thinner
    than 10^-12 cm that lies on the surface of a soil in a dry sub-step (the code removes it). *)
Theorem C90_more_rain_in_a_substep :
  forall (cfg : Cfg) u s a r1 r2 t1 t2 a1 a2 dt pm w i0 q0 i1 i2 q1 q2 o1 o2,
  u_dt u = Fin dt -> 0 < dt -> u_pmax u = Fin pm -> 0 <= pm -> 0 <= r1 <= r2 ->
  a_on a = Fin w -> 0 <= w -> (w = 0 \/ 1 / 1000000000000 < w \/ 0 < r1) -> a_in a = Fin i0 -> a_runoff a = Fin q0 ->
  substep u (s <| st_precip := Fin r1 |>) a = Ok (t1, a1) -> a_in a1 = Fin i1 -> a_runoff a1 = Fin q1 -> a_on a1 = Fin o1 -> i0 <= i1 -> o1 <= pm ->
  substep u (s <| st_precip := Fin r2 |>) a = Ok (t2, a2) -> a_in a2 = Fin i2 -> a_runoff a2 = Fin q2 -> a_on a2 = Fin o2 -> i0 <= i2 -> o2 <= pm ->
  (i1 <= i2 /\ q1 <= q2 /\ o1 <= o2) /\ (i2 - i1) + (q2 - q1) + (o2 - o1) = (r2 - r1) / 10 * dt.
Proof. exact @substep_mono. Qed.
Print Assumptions C90_more_rain_in_a_substep.

(** C90, a call of Update whose forcing interval is one sub-step: the infiltration and the runoff that it publishes (in m) and the water it leaves on the surface (in cm) do not decrease when the rain increases,
    and the differences add up to the additional rain. *)
Theorem C90_more_rain_in_an_update :
  forall (cfg : Cfg) s r1 r2 t1 t2 b1 b2 dt pm w i1 i2 q1 q2 o1 o2,
  plain s -> substeps_of s 1 -> p_timestep (st_p s) = Fin dt -> 0 < dt -> p_pmax (st_p s) = Fin pm -> 0 <= pm -> 0 <= r1 <= r2 ->
  mb_on_ts (st_mb s) = Fin w -> 0 <= w -> (w = 0 \/ 1 / 1000000000000 < w \/ 0 < r1) ->
  Update (s <| st_precip := Fin r1 |>) = Ok t1 -> st_out t1 = Some b1 -> o_in b1 = Fin i1 -> o_runoff b1 = Fin q1 -> mb_on_ts (st_mb t1) = Fin o1 -> 0 <= i1 -> o1 <= pm ->
  Update (s <| st_precip := Fin r2 |>) = Ok t2 -> st_out t2 = Some b2 -> o_in b2 = Fin i2 -> o_runoff b2 = Fin q2 -> mb_on_ts (st_mb t2) = Fin o2 -> 0 <= i2 -> o2 <= pm ->
  (i1 <= i2 /\ q1 <= q2 /\ o1 <= o2) /\ (i2 - i1) + (q2 - q1) + (o2 / 100 - o1 / 100) = (r2 - r1) / 1000 * dt.
Proof. exact @update_mono. Qed.
Print Assumptions C90_more_rain_in_an_update.

(** The saturated column with 0.5 cm on it: with 5 mm/h 1 cm stays on the surface and nothing runs off; with 20 mm/h 1.5 cm stay, the maximum, and 1 cm runs off. *)
Example C90_concrete : forall cfg : Cfg,
  plain (more_start 0) /\ substeps_of (more_start 0) 1 /\ p_timestep (st_p (more_start 0)) = Fin 1 /\ p_pmax (st_p (more_start 0)) = Fin (3 / 2) /\ mb_on_ts (st_mb (more_start 0)) = Fin (1 / 2) /\
  (exists t b, Update ((more_start 0) <| st_precip := Fin 5 |>) = Ok t /\ st_out t = Some b /\ o_in b = Fin 0 /\ o_runoff b = Fin 0 /\ mb_on_ts (st_mb t) = Fin 1) /\
  (exists t b, Update ((more_start 0) <| st_precip := Fin 20 |>) = Ok t /\ st_out t = Some b /\ o_in b = Fin 0 /\ o_runoff b = Fin (1 / 100) /\ mb_on_ts (st_mb t) = Fin (3 / 2)).
Proof. exact @more_concrete. Qed.

(** C90 without the restriction to ponded water within its maximum is false: of 3 cm of water on the surface, of which 2 cm are rain, 1.01 cm go into the soil; of 3.01 cm nothing does, for the water that would be left
    is exactly the maximum of 2 cm. *)
Theorem C90_more_rain_refuted : forall cfg : Cfg, exists w1 w2 i1 i2 o1 o2, w1 < w2 /\ i2 < i1 /\ i1 = 101 / 100 /\ i2 = 0 /\
  lgar_insert_water ex_env true 120 (Fin 1) (Fin 0) (Fin w1) (Fin 0) (Fin (w1 - 1)) 1 (Fin 2) [un_front] = Ok (Fin 0, Fin o1, Fin i1) /\
  lgar_insert_water ex_env true 120 (Fin 1) (Fin 0) (Fin w2) (Fin 0) (Fin (w2 - 1)) 1 (Fin 2) [un_front] = Ok (Fin 0, Fin o2, Fin i2).
Proof. exact @more_tie. Qed.
Print Assumptions C90_more_rain_refuted.
