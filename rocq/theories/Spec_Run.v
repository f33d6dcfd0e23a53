(** Vocabulary for statements about programs that drive the model through the Basic Model Interface. *)

From Coq Require Import String Reals ZArith List Bool.
From Verif Require Import Outcome Dbl Types ListOps State Update Bmi Config Spec_Common Spec_Profile Spec_Update Spec_Bmi Spec_Config.
Import ListNotations.
Open Scope string_scope.
Open Scope list_scope.

Section Run.
Context {fp : Fp} {cfg : Cfg}.

(** The outputs that exist only after an Update. *)
Definition flux_names : list string :=
  ["precipitation"; "infiltration"; "soil_storage"; "actual_evapotranspiration"; "percolation"; "surface_runoff"; "giuh_runoff"; "total_discharge";
   "groundwater_to_stream_recharge"; "potential_evapotranspiration"; "mass_balance"].
Definition readable (o : obj) (name : string) : Prop := In name flux_names -> st_out (ob_s o) <> None.
(** Names of the two variables whose overwriting desynchronises the model (see C17 and C20). *)
Definition structural : list string := ["soil_depth_layers"; "soil_num_wetting_fronts"].

(** What a client has to respect: outputs are read after the first Update; a buffer has the announced size and type; positions are within
    the announced size; the layer boundaries and the number of fronts are not overwritten.  Nothing is asked for unknown names. *)
Definition proper (o : obj) (c : call) : Prop :=
  match c with
  | CUpdate | CUntil _ => True
  | CGet name => readable o name
  | CGetAt name inds => In name known_names -> readable o name /\ Forall (fun i => 0 <= i < GetGridSize (GetVarGrid name) o)%Z inds
  | CSet name v => In name known_names ->
      ~ In name structural /\ Z.of_nat (length v) = GetGridSize (GetVarGrid name) o /\ Forall (typed (GetVarType name)) v
  | CSetAt name inds v => In name known_names ->
      ~ In name structural /\ Forall (fun i => 0 <= i < GetGridSize (GetVarGrid name) o)%Z inds /\ length inds = length v /\ Forall (typed (GetVarType name)) v
  end.
(** No Update runs into a tie between a front and a layer boundary. *)
Definition untied (o : obj) (c : call) : Prop :=
  match c with CUpdate | CUntil _ => ~ update_tie (ob_s o) | _ => True end.
(** [P] holds at every call that is reached. *)
Fixpoint along (P : obj -> call -> Prop) (cs : list call) (o : obj) : Prop :=
  match cs with
  | [] => True
  | c :: r => P o c /\ forall o', do_call c o = Ok o' -> along P r o'
  end.
End Run.

(** The soil temperature cells, when they are used, reach below the last but one layer. *)
Definition cells_cover (ls : list string) (ts : list numeral) : Prop :=
  ~ In "sft_coupled=true" ls \/
  exists l zs z ts' t, last_line "soil_z" l ls /\ assigns "soil_z" (numbers (zs ++ [z])) l /\ Forall good_numeral (zs ++ [z]) /\
    ts = ts' ++ [t] /\ (Rsum (map value ts') < value z)%R.
