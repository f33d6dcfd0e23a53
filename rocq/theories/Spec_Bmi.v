(** Vocabulary for statements about the Basic Model Interface. *)

From Coq Require Import String Reals ZArith List Bool.
From Verif Require Import Outcome Dbl Types State Bmi Spec_Column.
Import ListNotations.
Open Scope string_scope.
Open Scope Z_scope.
Open Scope list_scope.

(** Names that a user can know: those of the documentation. *)
Definition known_names : list string := input_var_names ++ output_var_names ++ calib_var_names.
(** Names that have a grid but no value. *)
Definition ghost_names : list string := ["soil_storage_model"; "van_genuchten_m"].

(** Number of items that the arrays of the model hold: as many as its counters say. *)
Record arrays_ok (o : obj) : Prop := {
  ar_pre : length (ob_pre o) = 11%nat;
  ar_layers : 0 <= p_nlayers (st_p (ob_s o));
  ar_cum : Z.of_nat (length (p_cum (st_p (ob_s o)))) = p_nlayers (st_p (ob_s o)) + 1;
  ar_temp : Z.of_nat (length (p_soilT (st_p (ob_s o)))) = p_ncells (st_p (ob_s o));
  ar_theta : Z.of_nat (length (p_theta_wf (st_p (ob_s o)))) = p_nfronts (st_p (ob_s o));
  ar_depth : Z.of_nat (length (p_depth_wf (st_p (ob_s o)))) = p_nfronts (st_p (ob_s o));
  ar_te : Z.of_nat (length (c_theta_e (st_cal (ob_s o)))) = p_nlayers (st_p (ob_s o));
  ar_tr : Z.of_nat (length (c_theta_r (st_cal (ob_s o)))) = p_nlayers (st_p (ob_s o));
  ar_n : Z.of_nat (length (c_n (st_cal (ob_s o)))) = p_nlayers (st_p (ob_s o));
  ar_alpha : Z.of_nat (length (c_alpha (st_cal (ob_s o)))) = p_nlayers (st_p (ob_s o));
  ar_ksat : Z.of_nat (length (c_Ksat (st_cal (ob_s o)))) = p_nlayers (st_p (ob_s o))
}.

(** Items of the type that GetVarType announces. *)
Definition typed (ty : string) (x : item) : Prop := match x with I _ => ty = "int" | D _ => ty = "double" end.

(** The value that the last write to position [j] stores, when [vs] are written to the positions [ix] one after the other. *)
Fixpoint last_write {A : Type} (ix : list Z) (vs : list A) (j : Z) : option A :=
  match ix, vs with
  | i :: r, x :: xs => match last_write r xs j with Some y => Some y | None => if i =? j then Some x else None end
  | _, _ => None
  end.

(** Item at position [j] of an array; [None] outside of it. *)
Definition at_pos {A : Type} (a : list A) (j : Z) : option A := if j <? 0 then None else nth_error a (Z.to_nat j).

(** The calls that a client can make after Initialize. *)
Inductive call : Type :=
| CUpdate | CUntil (t : dbl) | CGet (name : string) | CGetAt (name : string) (inds : list Z)
| CSet (name : string) (v : list item) | CSetAt (name : string) (inds : list Z) (v : list item).
Definition do_call {fp : Fp} {cfg : Cfg} (c : call) (o : obj) : outcome obj :=
  match c with
  | CUpdate => bmi_Update o
  | CUntil t => bmi_UpdateUntil t o
  | CGet name => _ <- GetValue name o ;; Ok o
  | CGetAt name inds => _ <- GetValueAtIndices name inds o ;; Ok o
  | CSet name v => SetValue name v o
  | CSetAt name inds v => SetValueAtIndices name inds v o
  end.
Fixpoint do_calls {fp : Fp} {cfg : Cfg} (cs : list call) (o : obj) : outcome obj :=
  match cs with
  | [] => Ok o
  | c :: r => o' <- do_call c o ;; do_calls r o'
  end.
(** The name that a call writes to. *)
Definition sets (c : call) : option string :=
  match c with CSet name _ | CSetAt name _ _ => Some name | _ => None end.
