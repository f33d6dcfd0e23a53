(** C97: what the greatest depth of ponded water decides, and what it does not. *)

From Coq Require Import Reals Lra ZArith List.
From RecordUpdate Require Import RecordSet.
From Verif Require Import Outcome Dbl Exact Types Soil Fronts Infil Move State Update Spec_Common Spec_Split Spec_Ponding Pf_Ponding Pf_Ponding2 Ex_Saturated Ex_Unsaturated Ex_Ponding.
Import ListNotations.
Import RecordSetNotations.
Open Scope R_scope.
Local Existing Instance exact.

(** C97, infiltration: with a greatest depth [pm] or a larger one [pm'] the same water goes into the soil.  With the larger one at least as much stays on the surface, but not more than the difference of the depths, and
    that much less runs off. *)
Theorem C97_infiltration :
  forall (cfg : Cfg) e closed nint dt aet pm pm' w r wfd head q1 o1 i1 q2 o2 i2, 0 < dt -> 0 <= pm <= pm' -> 0 <= w ->
  lgar_insert_water e closed nint (Fin dt) aet (Fin w) (Fin 0) r wfd (Fin pm) head = Ok (Fin q1, Fin o1, Fin i1) ->
  lgar_insert_water e closed nint (Fin dt) aet (Fin w) (Fin 0) r wfd (Fin pm') head = Ok (Fin q2, Fin o2, Fin i2) ->
  0 <= i1 -> 0 <= i2 -> o1 <= pm -> o2 <= pm' -> i1 = i2 /\ o1 <= o2 <= o1 + (pm' - pm) /\ q2 <= q1 /\ o1 + q1 = o2 + q2.
Proof. exact @insert_ponding. Qed.
Print Assumptions C97_infiltration.

(** C97, a sub-step from the same fronts and forcing: the fronts are the same up to their velocities, and so are evapotranspiration, recharge, infiltration and the water stored at the end. *)
Theorem C97_substep :
  forall (cfg : Cfg) e dt nint closed wp fc pm pm' s s' a t t' a1 a2 r w i0 q0 i1 i2 q1 q2 o1 o2,
  let u := mkU e (Fin dt) nint closed wp fc (Fin pm) in let u' := mkU e (Fin dt) nint closed wp fc (Fin pm') in
  st_head s' = st_head s -> st_precip s' = st_precip s -> st_pet s' = st_pet s -> p_precip_prev (st_p s') = p_precip_prev (st_p s) -> p_cum (st_p s') = p_cum (st_p s) ->
  0 < dt -> 0 <= pm <= pm' -> st_precip s = Fin r -> a_on a = Fin w -> 0 <= w -> a_in a = Fin i0 -> a_runoff a = Fin q0 ->
  substep u s a = Ok (t, a1) -> a_in a1 = Fin i1 -> a_runoff a1 = Fin q1 -> a_on a1 = Fin o1 -> i0 <= i1 -> o1 <= pm ->
  substep u' s' a = Ok (t', a2) -> a_in a2 = Fin i2 -> a_runoff a2 = Fin q2 -> a_on a2 = Fin o2 -> i0 <= i2 -> o2 <= pm' ->
  same_but_dzdt (st_head t) (st_head t') /\ (a_precip a1 = a_precip a2 /\ a_pet a1 = a_pet a2 /\ a_aet a1 = a_aet a2 /\ a_rech a1 = a_rech a2 /\ a_end a1 = a_end a2) /\
  i1 = i2 /\ (o1 <= o2 <= o1 + (pm' - pm) /\ q2 <= q1) /\ o1 + q1 = o2 + q2.
Proof. exact @substep_ponding. Qed.
Print Assumptions C97_substep.

(** C97, an Update whose forcing interval is one sub-step: the same is true of what it publishes. *)
Theorem C97_update :
  forall (cfg : Cfg) s pm pm' t1 t2 b1 b2 dt r w i1 i2 q1 q2 o1 o2,
  let lo := s <| st_p := (st_p s) <| p_pmax := Fin pm |> |> in let hi := s <| st_p := (st_p s) <| p_pmax := Fin pm' |> |> in
  plain s -> substeps_of s 1 -> p_timestep (st_p s) = Fin dt -> 0 < dt -> 0 <= pm <= pm' -> st_precip s = Fin r -> mb_on_ts (st_mb s) = Fin w -> 0 <= w ->
  Update lo = Ok t1 -> st_out t1 = Some b1 -> o_in b1 = Fin i1 -> o_runoff b1 = Fin q1 -> mb_on_ts (st_mb t1) = Fin o1 -> 0 <= i1 -> o1 <= pm ->
  Update hi = Ok t2 -> st_out t2 = Some b2 -> o_in b2 = Fin i2 -> o_runoff b2 = Fin q2 -> mb_on_ts (st_mb t2) = Fin o2 -> 0 <= i2 -> o2 <= pm' ->
  (same_but_dzdt (st_head t1) (st_head t2) /\ same_fronts t1 t2) /\ (o_precip b1 = o_precip b2 /\ o_pet b1 = o_pet b2 /\ o_aet b1 = o_aet b2 /\ o_rech b1 = o_rech b2 /\ o_end b1 = o_end b2) /\
  i1 = i2 /\ (o1 <= o2 <= o1 + (pm' - pm) /\ q2 <= q1) /\ o1 / 100 + q1 = o2 / 100 + q2.
Proof. exact @update_ponding. Qed.
Print Assumptions C97_update.

(** A saturated column with 0.5 cm on it and 2 cm of rain: with a greatest depth of 1 cm, 1 cm stays and 1.5 cm run off; with 2 cm, 2 cm stay and 0.5 cm run off. *)
Example C97_concrete : forall cfg : Cfg,
  plain (po_start 1) /\ substeps_of (po_start 1) 1 /\ p_timestep (st_p (po_start 1)) = Fin 1 /\ mb_on_ts (st_mb (po_start 1)) = Fin (1 / 2) /\
  (exists t b, Update ((po_start 1) <| st_p := (st_p (po_start 1)) <| p_pmax := Fin 1 |> |>) = Ok t /\ st_out t = Some b /\ o_in b = Fin 0 /\ o_runoff b = Fin (3 / 200) /\ mb_on_ts (st_mb t) = Fin 1) /\
  (exists t b, Update ((po_start 1) <| st_p := (st_p (po_start 1)) <| p_pmax := Fin 2 |> |>) = Ok t /\ st_out t = Some b /\ o_in b = Fin 0 /\ o_runoff b = Fin (1 / 200) /\ mb_on_ts (st_mb t) = Fin 2).
Proof. exact @po_concrete. Qed.

(** An unsaturated column that can take in 1.01 cm of 3.01 cm: with greatest depths of 0, 1 and 3 cm this much goes in. *)
Example C97_concrete_infiltration : forall (cfg : Cfg) pm, pm = 0 \/ pm = 1 \/ pm = 3 -> exists q o,
  lgar_insert_water ex_env true 120 (Fin 1) (Fin 0) (Fin (301 / 100)) (Fin 0) (Fin (201 / 100)) 1 (Fin pm) [un_front] = Ok (Fin q, Fin o, Fin (101 / 100)) /\ o = Rmin pm 2.
Proof.
  intros cfg pm H. destruct (po_insert pm) as (q & o & i & E & A & B & _ & D); [tauto|]. exists q, o. assert (X : i = 101 / 100 /\ o = Rmin pm 2).
  { destruct H as [->|[->| ->]]; [destruct (A eq_refl) as (_ & Ho & Hi)|destruct (B eq_refl) as (_ & Ho & Hi)|destruct (D eq_refl) as (_ & Ho & Hi)]; unfold Rmin; destruct (Rle_dec _ _); lra. }
  destruct X as [<- X]. split; assumption.
Qed.

(** C97 without the restriction to ponded water within its maximum is false: with a greatest depth of exactly 2 cm, what would stay, nothing goes in. *)
Theorem C97_same_infiltration_refuted : forall cfg : Cfg, exists pm pm' q1 o1 i1 q2 o2 i2, 0 <= pm <= pm' /\
  lgar_insert_water ex_env true 120 (Fin 1) (Fin 0) (Fin (301 / 100)) (Fin 0) (Fin (201 / 100)) 1 (Fin pm) [un_front] = Ok (Fin q1, Fin o1, Fin i1) /\
  lgar_insert_water ex_env true 120 (Fin 1) (Fin 0) (Fin (301 / 100)) (Fin 0) (Fin (201 / 100)) 1 (Fin pm') [un_front] = Ok (Fin q2, Fin o2, Fin i2) /\
  i1 = 101 / 100 /\ i2 = 0.
Proof.
  intro cfg. destruct (po_insert 1) as (q1 & o1 & i1 & E1 & _ & A & _); [tauto|]. destruct (po_insert 2) as (q2 & o2 & i2 & E2 & _ & _ & B & _); [tauto|].
  exists 1, 2, q1, o1, i1, q2, o2, i2. split; [lra|]. split; [exact E1|]. split; [exact E2|]. split; [apply A; reflexivity|apply B; reflexivity].
Qed.
Print Assumptions C97_same_infiltration_refuted.

(** C97, any rounding: with any two greatest depths, not even finite ones, the same water goes into the soil, to the last bit, if both let in some or neither does (see the refutation above). *)
Theorem C97_infiltration_any_rounding :
  forall (fp : Fp) (cfg : Cfg) e closed nint dt aet pm pm' w r wfd head q1 o1 i1 q2 o2 i2, 0 < dt ->
  lgar_insert_water e closed nint (Fin dt) aet w (Fin 0) r wfd pm head = Ok (q1, o1, i1) -> lgar_insert_water e closed nint (Fin dt) aet w (Fin 0) r wfd pm' head = Ok (q2, o2, i2) ->
  (i1 = Fin 0 <-> i2 = Fin 0) -> i1 = i2.
Proof. exact @insert_any. Qed.
Print Assumptions C97_infiltration_any_rounding.

(** C97, any rounding: the first sub-step of an Update, whatever its limit, leaves the same fronts up to their velocities, and the same evapotranspiration, recharge, infiltration and stored water. *)
Theorem C97_substep_any_rounding :
  forall (fp : Fp) (cfg : Cfg) e dt nint closed wp fc pm pm' s s' a t t' a1 a2,
  let u := mkU e (Fin dt) nint closed wp fc pm in let u' := mkU e (Fin dt) nint closed wp fc pm' in
  st_head s' = st_head s -> st_precip s' = st_precip s -> st_pet s' = st_pet s -> p_precip_prev (st_p s') = p_precip_prev (st_p s) -> p_cum (st_p s') = p_cum (st_p s) ->
  0 < dt -> a_in a = Fin 0 -> substep u s a = Ok (t, a1) -> substep u' s' a = Ok (t', a2) -> (a_in a1 = Fin 0 <-> a_in a2 = Fin 0) ->
  same_but_dzdt (st_head t) (st_head t') /\ a_precip a1 = a_precip a2 /\ a_pet a1 = a_pet a2 /\ a_aet a1 = a_aet a2 /\ a_rech a1 = a_rech a2 /\ a_end a1 = a_end a2 /\ a_in a1 = a_in a2.
Proof. exact @substep_any. Qed.
Print Assumptions C97_substep_any_rounding.

(** The saturated column above: neither limit lets water in, and the water that stays differs. *)
Example C97_concrete_substep : forall cfg : Cfg, exists t t' a1 a2,
  let a := mkAcc (Fin 0) (Fin 0) (Fin 0) (Fin 40) (Fin 0) (Fin (1 / 2)) (Fin 0) (Fin 0) in
  substep (ex_upar 1 1) (po_start 1) a = Ok (t, a1) /\ substep (ex_upar 1 2) (po_start 2) a = Ok (t', a2) /\
  st_head (po_start 2) = st_head (po_start 1) /\ a_in a1 = Fin 0 /\ a_in a2 = Fin 0 /\ a_on a1 = Fin 1 /\ a_on a2 = Fin 2.
Proof.
  intro cfg. eexists _, _, _, _. cbv zeta. split; [apply ex_substep; lra|]. split; [apply ex_substep; lra|]. split; [reflexivity|]. split; [reflexivity|]. split; [reflexivity|].
  cbn [a_on]. unfold ex_on, Rmin. split; f_equal; destruct (Rle_dec _ _); lra.
Qed.
