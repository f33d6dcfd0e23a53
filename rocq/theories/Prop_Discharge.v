(** C93: the discharge column of the output. *)

From Coq Require Import String Ascii Reals ZArith List.
From Verif Require Import Outcome Dbl Exact Types ListOps Fronts State Update Bmi Config Driver Spec_Common Spec_Giuh Spec_Config Spec_Driver Ex_Config Ex_Driver Prop_Split Spec_Discharge Pf_Discharge Ex_Discharge.
Import ListNotations.
Open Scope string_scope.
Open Scope list_scope.
Open Scope R_scope.
Local Existing Instance exact.

(** C93: in the output of the program the columns giuh_runoff and total_discharge are equal, and are the convolution of the column surface_runoff with the configured ordinates, each shared out over the steps of its hour.
    If the last lines show no runoff, as many as there are ordinates then, the discharge of the run is its runoff times the sum of the configured ordinates. *)
Theorem C93_discharge : forall (cfg : Cfg) files texts junk ls ts types gs psi dt fres max rows res Ros, good_config files ls ts types gs psi dt fres max rows ->
  simulate files texts junk ls = Ok res -> shows 3 (rs_rows res) Ros ->
  exists k Gs, (1 <= k)%nat /\ steps_per_hour fres k /\ shows 4 (rs_rows res) Gs /\ shows 6 (rs_rows res) Gs /\ List.length Gs = List.length Ros /\
    (forall t, (t < List.length Ros)%nat -> nth t Gs 0 = convolution (per_step k (map value gs)) Ros t) /\
    (forall wet dry, Ros = (wet ++ repeat 0 dry)%list -> (k * List.length gs <= dry)%nat -> Rsum Gs = Rsum Ros * Rsum (map value gs)).
Proof. exact @program_discharge. Qed.
Print Assumptions C93_discharge.

(** Two steps of half an hour and a single ordinate 1: half of the runoff [a] leaves in the first step, half of [a + b] in the second, a quarter of a centimetre. *)
Example C93_half_hours : forall (cfg : Cfg) junk, exists r a b, good_config dr_files sp_lines [num "100.0"] [num "1"] [num "1.0"] (num "0.0") (1 / 2) (1 / 2) 1 [dr_row] /\
  simulate dr_files sp_texts junk sp_lines = Ok r /\ shows 3 (rs_rows r) [a; b] /\ a + b = 1 / 200 /\ shows 4 (rs_rows r) [a / 2; 1 / 400] /\ shows 6 (rs_rows r) [a / 2; 1 / 400].
Proof. exact @half_hours. Qed.
