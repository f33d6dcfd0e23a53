(** Only the soils of the layers matter: two columns with the same soil in each layer, whatever the numbers of the soils and the other rows of the table. *)

From Coq Require Import String Reals ZArith List.
From RecordUpdate Require Import RecordSet.
From Verif Require Import Outcome Dbl Types State Update Bmi Config Driver Spec_Config.
Import ListNotations.
Import RecordSetNotations.

(** In each layer there is the same soil, or the arrays fail in the same way. *)
Definition same_layers (st : list (option Z)) (so : list (option soil)) (st' : list (option Z)) (so' : list (option soil)) : Prop :=
  forall k, match uget st k, uget st' k with
            | Ok t, Ok t' => uget so t = uget so' t'
            | Stop r, Stop r' => r = r'
            | _, _ => False
            end.
(** No two layers share a row of the soil table. *)
Definition own_rows (st : list (option Z)) : Prop := forall i j t, uget st i = Ok t -> uget st j = Ok t -> i = j.

(** States that differ in the numbers of the soils and in the table only. *)
Definition relayered (s s' : state) : Prop :=
  exists st so, s' = s <| st_soils := so |> <| st_p := (st_p s) <| p_stype := st |> |> /\ same_layers (p_stype (st_p s)) (st_soils s) st so.

(** The same end: both end with related results, or both stop for the same reason. *)
Definition both {A B : Type} (R : A -> B -> Prop) (x : outcome A) (y : outcome B) : Prop :=
  match x, y with Ok a, Ok b => R a b | Stop r, Stop r' => r = r' | _, _ => False end.

(** Lines of a configuration that may differ: those that name the soil table, number the soils of the layers and bound the numbers. *)
Definition soil_keys : list string := ["soil_params_file"; "layer_soil_type"; "max_valid_soil_types"]%string.
Definition other_soils (l l' : string) : Prop := l = l' \/ In (line_key l) soil_keys /\ In (line_key l') soil_keys.

(** Two runs of the standalone program print the same lines and the same balance. *)
Definition same_result (r r' : result) : Prop := rs_rows r' = rs_rows r /\ rs_printed r' = rs_printed r.

(** The first [n] layers have the same numbers in their rows of the two tables, whatever the numbers of the rows and the names in them. *)
Definition same_rows {fp : Fp} (n : nat) (types : list numeral) (rows : list row) (types' : list numeral) (rows' : list row) : Prop :=
  forall i, (i < n)%nat -> exists m k m' k' r r', nth_error types i = Some m /\ natural m k /\ nth_error types' i = Some m' /\ natural m' k' /\
    nth_error rows (k - 1) = Some r /\ nth_error rows' (k' - 1) = Some r' /\ r_vals r = r_vals r'.
