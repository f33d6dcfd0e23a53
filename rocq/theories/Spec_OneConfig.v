(** Configurations of a column of one soil layer. *)

From Coq Require Import String Reals ZArith List Bool.
From Verif Require Import Outcome Dbl Exact Types State Config Spec_Common Spec_Config.
Import ListNotations.
Open Scope string_scope.
Open Scope R_scope.
Local Existing Instance exact.

(** A well-formed configuration for one layer of thickness [t]: heads at wilting point and field capacity that are not negative and not both zero, a
    sub-step that is not longer than the forcing step, soils whose residual content is not negative, no calibration and no coupling to soil temperatures. *)
Record single_config (files : string -> option (list row)) (ls : list string) (t : numeral) (types gs : list numeral) (psi wp fc : numeral) (dt fres : R) (max : nat) (rows : list row) : Prop := {
  sc_good : good_config files ls [t] types gs psi dt fres max rows;
  sc_wilting : exists l, last_line "wilting_point_psi" l ls /\ assigns "wilting_point_psi" (text wp) l /\ good_numeral wp /\ 0 <= value wp;
  sc_capacity : exists l, last_line "field_capacity_psi" l ls /\ assigns "field_capacity_psi" (text fc) l /\ good_numeral fc /\ 0 <= value fc;
  sc_demand : 0 < value wp + value fc;
  sc_step : dt <= fres;
  sc_residual : Forall (fun x => forall nm tr te al n k, x = full_row nm (Fin tr) te al n k -> 0 <= tr) rows;
  sc_calib : ~ In "calib_params=true" ls;
  sc_frozen : ~ In "sft_coupled=true" ls
}.

(** The soil of the layer: row [k] of the table, counted from 1, where [k] is the first soil type of the configuration. *)
Definition soil_row (types : list numeral) (rows : list row) (r te a n K : R) : Prop :=
  exists m k nm, nth_error types 0 = Some m /\ natural m k /\ nth_error rows (k - 1) = Some (full_row nm (Fin r) (Fin te) (Fin a) (Fin n) (Fin K)).

(** Rain and evaporative demand are not negative. *)
Definition not_below_zero (s : state) : Prop := dleb (Fin 0) (st_precip s) = true /\ dleb (Fin 0) (st_pet s) = true.
