(** C63: one sub-step in a column of one layer. *)

From Coq Require Import Reals Lra ZArith List Lia Bool.
From Verif Require Import Outcome Dbl Exact Types ListOps Soil Fronts Infil Move State Update Lib Spec_Common Spec_List Spec_Soil Spec_Update Spec_Profile Spec_Storage Spec_Velocity Spec_Single Spec_SubSingle
  Pf_SafeMove Pf_SubSingle Ex_Saturated Ex_Single Ex_SubSingle.
Import ListNotations.
Open Scope R_scope.
Local Existing Instance exact.

(** ** C63 *)

(** A completed sub-step leaves a state from which the next one can start, accounts for all water up to 1e-7 cm, and reports a local balance
    that is smaller than 1e-7 cm and the 1e-12 cm of surface water that it forgets. *)
Theorem C63_substep_balances :
  forall (cfg : Cfg) u s r te D dt st a st' a',
    plain u s r te D dt -> placed u te D st a -> (2 <= length (st_head st))%nat -> substep u st a = Ok (st', a') ->
    placed u te D st' a' /\ water_kept dt st a st' a' (1 / 10000000) /\
    exists m, mb_local (st_mb st') = Some (Fin m) /\ Rabs m <= 1 / 10000000 + 1 / 1000000000000.
Proof.
  intros cfg u s r te D dt st a st' a' HP HL H2 E. pose proof (substep_single u s r te D dt st a HP HL H2) as Q. rewrite E in Q. destruct Q as (Q1 & Q2 & Q3). auto.
Qed.
Print Assumptions C63_substep_balances.

(** It never aborts on the local balance.  It stops because the first front dries out and is used after its deletion, because the integral of
    the capillary drive does not end, or because the first front is not below the surface. *)
Theorem C63_substep_stops :
  forall (cfg : Cfg) u s r te D dt st a why,
    plain u s r te D dt -> placed u te D st a -> (2 <= length (st_head st))%nat -> 0 <= r -> substep u st a = Stop why ->
    why = UB UseAfterFree \/ why = AssertFail \/ (why = OutOfFuel /\ u_closed u = false).
Proof.
  intros cfg u s r te D dt st a why HP HL H2 Hr E. pose proof (substep_single u s r te D dt st a HP HL H2) as Q. rewrite E in Q. destruct Q as [[Q|Q]|Q]; auto.
Qed.
Print Assumptions C63_substep_stops.

(** In dry weather, with nothing on the surface and no more demand than the first front holds above the second one, it completes if the
    capillary drive is computed in closed form. *)
Theorem C63_dry_weather_continues :
  forall (cfg : Cfg) u s r te D dt st a c n h p pet,
    plain u s r te D dt -> placed u te D st a -> u_closed u = true -> st_head st = c :: n :: h -> 0 <= r ->
    st_precip st = Fin p -> p <= 0 -> a_on a = Fin 0 -> st_pet st = Fin pet ->
    val (f_theta c) <= te - 1 / 1000000000000000 ->
    Rmax pet 0 / 10 * dt <= val (f_depth c) * (val (f_theta c) - val (f_theta n)) ->
    exists st' a', substep u st a = Ok (st', a').
Proof.
  intros cfg u s r te D dt st a c n h p pet HP HL HC EH Hr Ep Hp Eon Epe Hth Hd.
  pose proof (substep_dry u s r te D dt st a c n h p pet HP HL EH Hr Ep Hp Eon Epe Hth Hd) as Q. destruct (substep u st a) as [[st' a']|w]; [eauto|]. destruct Q as [_ Q]. congruence.
Qed.
Print Assumptions C63_dry_weather_continues.

(** A front at 10 cm in 100 cm of soil, one hour without rain, 5 mm/h of demand. *)
Example C63_concrete : forall cfg : Cfg,
  plain ss_u ex_soil (1 / 10) (2 / 5) 100 1 /\ placed ss_u (2 / 5) 100 ss_start ss_acc /\ u_closed ss_u = true /\ (2 <= length (st_head ss_start))%nat /\
  exists st' a', substep ss_u ss_start ss_acc = Ok (st', a').
Proof. intro cfg. exact (conj ss_plain (conj ss_placed (conj eq_refl (conj (le_n 2) ss_runs)))). Qed.
