(** The standalone program on columns of several layers in a drought. *)

From Coq Require Import String Reals ZArith List Bool.
From Verif Require Import Outcome Dbl Exact Types State Bmi Config Driver Spec_Common Spec_Config Spec_Balance Spec_Rest.
Import ListNotations.
Open Scope R_scope.

(** No rain in any row of the forcing; the evaporative demand of every row is a number that is not negative. *)
Definition drought (f : forcing) : Prop := Forall (fun x => x = Fin 0) (fo_precip f) /\ Forall (fun x => exists r, x = Fin r /\ 0 <= r) (fo_pet f).
(** No evaporative demand in any row. *)
Definition no_evaporation (f : forcing) : Prop := Forall (fun x => x = Fin 0) (fo_pet f).

(** Cell [k] of a line of the output is the number [x]. *)
Definition cell (k : nat) (r : outrow) (x : R) : Prop := nth_error (w_vars r) k = Some (D (Fin x)).

(** A line of the output in a drought: one resting front per layer, all at the head [h]; no rain, infiltration, runoff or discharge; the storage is what the layers hold at [h]; the
    balance that the last sub-step recorded is within the tolerance of the program. *)
Record drought_row (qs : list part) (h : R) (r : outrow) : Prop := {
  dw_fronts : hydrostatic qs h (w_fronts r);
  dw_precip : cell 0 r 0;
  dw_pet : exists x, cell 1 r x /\ 0 <= x;
  dw_aet : exists x, cell 2 r x;
  dw_runoff : cell 3 r 0;
  dw_giuh : cell 4 r 0;
  dw_storage : cell 5 r (column_water qs h / 100);
  dw_discharge : cell 6 r 0;
  dw_infiltration : cell 7 r 0;
  dw_recharge : exists x, cell 8 r x;
  dw_groundwater : cell 9 r 0;
  dw_balance : exists x, cell 10 r x /\ Rabs x <= 1 / 1000000
}.

(** A line in a drought without evaporative demand: nothing leaves the column, and the recorded balance is exact. *)
Definition still_row (qs : list part) (h : R) (r : outrow) : Prop := drought_row qs h r /\ cell 1 r 0 /\ cell 2 r 0 /\ cell 8 r 0 /\ cell 10 r 0.

(** A sequence that starts at or above [h] and never falls. *)
Fixpoint rising (h : R) (hs : list R) : Prop := match hs with [] => True | h' :: r => h <= h' /\ rising h' r end.

(** A sequence that starts at or below [w] and never rises. *)
Fixpoint falling (w : R) (ws : list R) : Prop := match ws with [] => True | w' :: r => w' <= w /\ falling w' r end.

(** Soils whose residual water content is not negative. *)
Definition wet_soils (rows : list row) : Prop := Forall (fun x => forall nm tr te al n k, x = full_row nm (Fin tr) te al n k -> 0 <= tr) rows.

(** The layers of a configuration: their thicknesses, and the soils in the rows of the table that the soil types select, with m = 1 - 1/n. *)
Definition configured_layers (ts types : list numeral) (rows : list row) (qs : list part) : Prop :=
  map pt_z qs = map value ts /\
  forall i q, nth_error qs i = Some q -> pt_m q = 1 - / pt_n q /\
    exists m k nm ks, nth_error types i = Some m /\ natural m k /\ nth_error rows (k - 1) = Some (full_row nm (Fin (pt_r q)) (Fin (pt_e q)) (Fin (pt_a q)) (Fin (pt_n q)) (Fin ks)).
