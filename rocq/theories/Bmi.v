(** The query and access functions of the Basic Model Interface, src/bmi_lgar.cxx:693-1183 and include/bmi_lgar.hxx.
    int arithmetic is unbounded here, sizeof(int) = 4 and sizeof(double) = 8.  Console output is not modelled. *)

From Coq Require Import String Reals ZArith List Bool.
From RecordUpdate Require Import RecordSet.
From Verif Require Import Outcome Dbl Types State Update.
Import ListNotations.
Import RecordSetNotations.
Open Scope string_scope.
Open Scope Z_scope.
Open Scope list_scope.

(** A BmiLGAR object.  [ob_pre] holds what was written through SetValue into the members of bmi_unit_conv (in the order of bmi_lgar.hxx:151-163)
    before the first Update initialised all of them. *)
Record obj : Type := mkObj { ob_s : state; ob_pre : list (option dbl) }.

(** The names of bmi_lgar.hxx:33-75, and GetInputVarNames, GetOutputVarNames of bmi_lgar.cxx:1033-1054. *)
Definition input_var_names : list string := ["precipitation_rate"; "potential_evapotranspiration_rate"; "soil_temperature_profile"].
Definition output_var_names : list string :=
  ["soil_moisture_wetting_fronts"; "soil_depth_layers"; "soil_depth_wetting_fronts"; "soil_num_wetting_fronts"; "precipitation"; "potential_evapotranspiration";
   "actual_evapotranspiration"; "surface_runoff"; "giuh_runoff"; "soil_storage"; "total_discharge"; "infiltration"; "percolation";
   "groundwater_to_stream_recharge"; "mass_balance"].
Definition calib_var_names : list string :=
  ["smcmax"; "smcmin"; "van_genuchten_n"; "van_genuchten_alpha"; "hydraulic_conductivity"; "field_capacity"; "ponded_depth_max"].
Definition GetInputItemCount : Z := 3.
Definition GetOutputItemCount : Z := 15.

(** GetVarGrid, bmi_lgar.cxx:693-722 *)
Definition GetVarGrid (name : string) : Z :=
  let is n := String.eqb name n in
  if is "soil_storage_model" || is "soil_num_wetting_fronts" then 0
  else if is "precipitation_rate" || is "precipitation" then 1
  else if is "potential_evapotranspiration_rate" || is "potential_evapotranspiration" || is "actual_evapotranspiration" then 1
  else if is "surface_runoff" || is "giuh_runoff" || is "soil_storage" || is "field_capacity" || is "ponded_depth_max" then 1
  else if is "total_discharge" || is "infiltration" || is "percolation" || is "groundwater_to_stream_recharge" then 1
  else if is "mass_balance" then 1
  else if is "soil_depth_layers" || is "smcmax" || is "smcmin" || is "van_genuchten_m" || is "van_genuchten_alpha" || is "van_genuchten_n"
          || is "hydraulic_conductivity" then 2
  else if is "soil_moisture_wetting_fronts" || is "soil_depth_wetting_fronts" then 3
  else if is "soil_temperature_profile" then 4
  else -1.

(** GetVarType, GetVarItemsize, bmi_lgar.cxx:725-750 *)
Definition GetVarType (name : string) : string :=
  let g := GetVarGrid name in
  if g =? 0 then "int" else if (g =? 1) || (g =? 2) || (g =? 3) || (g =? 4) then "double" else "none".
Definition GetVarItemsize (name : string) : Z :=
  let g := GetVarGrid name in
  if g =? 0 then 4 else if (g =? 1) || (g =? 2) || (g =? 3) || (g =? 4) then 8 else 0.

(** GetVarUnits, bmi_lgar.cxx:753-778 *)
Definition GetVarUnits (name : string) : string :=
  let is n := String.eqb name n in
  if is "precipitation_rate" || is "potential_evapotranspiration_rate" then "mm h^-1"
  else if is "precipitation" || is "potential_evapotranspiration" || is "actual_evapotranspiration" then "m"
  else if is "surface_runoff" || is "giuh_runoff" || is "soil_storage" then "m"
  else if is "total_discharge" || is "infiltration" || is "percolation" then "m"
  else if is "mass_balance" || is "groundwater_to_stream_recharge" then "m"
  else if is "soil_moisture_wetting_fronts" then "none"
  else if is "soil_depth_layers" || is "soil_depth_wetting_fronts" then "m"
  else if is "soil_temperature_profile" then "K"
  else "none".

(** GetVarLocation, bmi_lgar.cxx:793-817 *)
Definition GetVarLocation (name : string) : string :=
  let is n := String.eqb name n in
  if is "precipitation_rate" || is "precipitation" || is "potential_evapotranspiration" || is "potential_evapotranspiration_rate"
     || is "actual_evapotranspiration" then "node"
  else if is "surface_runoff" || is "giuh_runoff" || is "soil_storage" then "node"
  else if is "total_discharge" || is "infiltration" || is "percolation" || is "groundwater_to_stream_recharge" then "node"
  else if is "soil_moisture_wetting_fronts" then "node"
  else if is "mass_balance" then "node"
  else if is "soil_depth_layers" || is "soil_depth_wetting_fronts" || is "soil_num_wetting_fronts" then "node"
  else if is "soil_temperature_profile" then "node"
  else "none".

(** GetGridRank, GetGridSize, GetGridType, bmi_lgar.cxx:848-871, 1086-1093 *)
Definition GetGridRank (g : Z) : Z := if (g =? 0) || (g =? 1) || (g =? 2) || (g =? 3) || (g =? 4) then 1 else -1.
Definition GetGridSize (g : Z) (o : obj) : Z :=
  let p := st_p (ob_s o) in
  if (g =? 0) || (g =? 1) then 1
  else if g =? 2 then p_nlayers p
  else if g =? 3 then p_nfronts p
  else if g =? 4 then p_ncells p
  else -1.
Definition GetGridType (g : Z) : string := if g =? 0 then "uniform_rectilinear" else "".

(** GetGridShape, bmi_lgar.cxx:820-827: the entry of the caller's array [shape] that is written. *)
Definition GetGridShape (g : Z) (o : obj) (shape : list Z) : outcome (list Z) :=
  if g =? 2 then aset shape 0 (p_nlayers (st_p (ob_s o)))
  else if g =? 3 then aset shape 1 (p_nfronts (st_p (ob_s o)))
  else Ok shape.

(** GetVarNbytes, bmi_lgar.cxx:781-790 *)
Definition GetVarNbytes (name : string) (o : obj) : Z := GetVarItemsize name * GetGridSize (GetVarGrid name) o.

(** The memory that GetValuePtr can hand out.  [LOut i] is member [i] of bmi_unit_conv. *)
Inductive loc : Type := LPrecip | LPet | LOut (i : nat) | LCum | LTheta | LDepth | LNum | LTemp | LThetaE | LThetaR | LN | LAlpha | LKsat | LPmax | LFc.

(** GetValuePtr, bmi_lgar.cxx:887-949 *)
Definition GetValuePtr (name : string) : outcome loc :=
  let is n := String.eqb name n in
  if is "precipitation_rate" then Ok LPrecip
  else if is "precipitation" then Ok (LOut 0)
  else if is "potential_evapotranspiration_rate" then Ok LPet
  else if is "potential_evapotranspiration" then Ok (LOut 9)
  else if is "actual_evapotranspiration" then Ok (LOut 3)
  else if is "surface_runoff" then Ok (LOut 5)
  else if is "giuh_runoff" then Ok (LOut 6)
  else if is "soil_storage" then Ok (LOut 2)
  else if is "total_discharge" then Ok (LOut 7)
  else if is "infiltration" then Ok (LOut 1)
  else if is "percolation" then Ok (LOut 4)
  else if is "groundwater_to_stream_recharge" then Ok (LOut 8)
  else if is "mass_balance" then Ok (LOut 10)
  else if is "soil_depth_layers" then Ok LCum
  else if is "soil_moisture_wetting_fronts" then Ok LTheta
  else if is "soil_depth_wetting_fronts" then Ok LDepth
  else if is "soil_num_wetting_fronts" then Ok LNum
  else if is "soil_temperature_profile" then Ok LTemp
  else if is "smcmax" then Ok LThetaE
  else if is "smcmin" then Ok LThetaR
  else if is "van_genuchten_n" then Ok LN
  else if is "van_genuchten_alpha" then Ok LAlpha
  else if is "hydraulic_conductivity" then Ok LKsat
  else if is "ponded_depth_max" then Ok LPmax
  else if is "field_capacity" then Ok LFc
  else Stop Throw.

(** The members of bmi_unit_conv as a list, and back. *)
Definition out_list (b : bout) : list dbl :=
  [o_precip b; o_in b; o_end b; o_aet b; o_rech b; o_runoff b; o_giuh b; o_Q b; o_Qgw b; o_pet b; o_mb b].
Definition out_set (b : bout) (i : nat) (d : dbl) : bout :=
  match i with
  | 0 => b <| o_precip := d |> | 1 => b <| o_in := d |> | 2 => b <| o_end := d |> | 3 => b <| o_aet := d |> | 4 => b <| o_rech := d |>
  | 5 => b <| o_runoff := d |> | 6 => b <| o_giuh := d |> | 7 => b <| o_Q := d |> | 8 => b <| o_Qgw := d |> | 9 => b <| o_pet := d |>
  | 10 => b <| o_mb := d |>
  | _ => b
  end%nat.

(** One item of a buffer: an int or a double. *)
Inductive item : Type := I (z : Z) | D (d : dbl).

(** Size in bytes of the items behind a pointer. *)
Definition loc_size (l : loc) : Z := match l with LNum => 4 | _ => 8 end.

Definition doubles (a : list dbl) : list (option item) := map (fun d => Some (D d)) a.

(** The array behind a pointer; an item may be unset. *)
Definition load (o : obj) (l : loc) : list (option item) :=
  let s := ob_s o in
  match l with
  | LPrecip => doubles [st_precip s]
  | LPet => doubles [st_pet s]
  | LOut i => match st_out s with
              | Some b => match nth_error (out_list b) i with Some d => doubles [d] | None => [] end
              | None => match nth_error (ob_pre o) i with Some d => [option_map D d] | None => [] end
              end
  | LCum => doubles (p_cum (st_p s))
  | LTheta => doubles (p_theta_wf (st_p s))
  | LDepth => doubles (p_depth_wf (st_p s))
  | LNum => [Some (I (p_nfronts (st_p s)))]
  | LTemp => doubles (p_soilT (st_p s))
  | LThetaE => doubles (c_theta_e (st_cal s))
  | LThetaR => doubles (c_theta_r (st_cal s))
  | LN => doubles (c_n (st_cal s))
  | LAlpha => doubles (c_alpha (st_cal s))
  | LKsat => doubles (c_Ksat (st_cal s))
  | LPmax => doubles [c_pmax (st_cal s)]
  | LFc => doubles [c_fc (st_cal s)]
  end.

(** Write one double [d] at index [i] behind the pointer [l]. *)
Definition poke_dbl (o : obj) (l : loc) (i : Z) (d : dbl) : outcome obj :=
  let s := ob_s o in
  let arr (a : list dbl) (f : list dbl -> state) := a' <- aset a i d ;; Ok (mkObj (f a') (ob_pre o)) in
  let one (f : state) := if i =? 0 then Ok (mkObj f (ob_pre o)) else Stop (UB OutOfBounds) in
  match l with
  | LPrecip => one (s <| st_precip := d |>)
  | LPet => one (s <| st_pet := d |>)
  | LOut j => if i =? 0 then
                match st_out s with
                | Some b => Ok (mkObj (s <| st_out := Some (out_set b j d) |>) (ob_pre o))
                | None => Ok (mkObj s (lset (ob_pre o) j (Some d)))
                end
              else Stop (UB OutOfBounds)
  | LCum => arr (p_cum (st_p s)) (fun a => s <| st_p := (st_p s) <| p_cum := a |> |>)
  | LTheta => arr (p_theta_wf (st_p s)) (fun a => s <| st_p := (st_p s) <| p_theta_wf := a |> |>)
  | LDepth => arr (p_depth_wf (st_p s)) (fun a => s <| st_p := (st_p s) <| p_depth_wf := a |> |>)
  | LNum => Stop (UB BadConversion)
  | LTemp => arr (p_soilT (st_p s)) (fun a => s <| st_p := (st_p s) <| p_soilT := a |> |>)
  | LThetaE => arr (c_theta_e (st_cal s)) (fun a => s <| st_cal := (st_cal s) <| c_theta_e := a |> |>)
  | LThetaR => arr (c_theta_r (st_cal s)) (fun a => s <| st_cal := (st_cal s) <| c_theta_r := a |> |>)
  | LN => arr (c_n (st_cal s)) (fun a => s <| st_cal := (st_cal s) <| c_n := a |> |>)
  | LAlpha => arr (c_alpha (st_cal s)) (fun a => s <| st_cal := (st_cal s) <| c_alpha := a |> |>)
  | LKsat => arr (c_Ksat (st_cal s)) (fun a => s <| st_cal := (st_cal s) <| c_Ksat := a |> |>)
  | LPmax => one (s <| st_cal := (st_cal s) <| c_pmax := d |> |>)
  | LFc => one (s <| st_cal := (st_cal s) <| c_fc := d |> |>)
  end.
(** Write one item.  Simplification: a caller that passes ints for a double variable or doubles for the int variable (reinterpreting bytes) is
    reported as [BadConversion]. *)
Definition poke (o : obj) (l : loc) (i : Z) (x : item) : outcome obj :=
  match l, x with
  | LNum, I z => if i =? 0 then Ok (mkObj ((ob_s o) <| st_p := (st_p (ob_s o)) <| p_nfronts := z |> |>) (ob_pre o)) else Stop (UB OutOfBounds)
  | LNum, D _ => Stop (UB BadConversion)
  | _, D d => poke_dbl o l i d
  | _, I _ => Stop (UB BadConversion)
  end.

(** Read the items with the indices [ix].  Copying an unset item is reported as [Uninit]. *)
Fixpoint fetch (m : list (option item)) (ix : list Z) : outcome (list item) :=
  match ix with
  | [] => Ok []
  | i :: r => x <- uget m i ;; xs <- fetch m r ;; Ok (x :: xs)
  end.

(** Store the first items of the buffer [v] at the indices [ix], one after the other. *)
Fixpoint store (o : obj) (l : loc) (ix : list Z) (v : list item) : outcome obj :=
  match ix, v with
  | [], _ => Ok o
  | i :: r, x :: xs => o' <- poke o l i x ;; store o' l r xs
  | _ :: _, [] => Stop (UB OutOfBounds)    (* the caller's buffer is too short *)
  end.

(** Indices 0 .. n-1 of the items that memcpy copies for [nbytes] bytes of items of [size] bytes.  A negative count becomes a huge size_t. *)
Definition items (nbytes size : Z) : outcome (list Z) :=
  if nbytes <? 0 then Stop (UB OutOfBounds) else Ok (map Z.of_nat (seq 0 (Z.to_nat (nbytes / size)))).
(** Indices of the items at the byte offsets inds[i] * itemsize. *)
Definition at_offsets (inds : list Z) (itemsize size : Z) : list Z := map (fun i => i * itemsize / size) inds.

(** GetValue, bmi_lgar.cxx:875-884 *)
Definition GetValue (name : string) (o : obj) : outcome (list item) :=
  l <- GetValuePtr name ;;
  ix <- items (GetVarNbytes name o) (loc_size l) ;;
  fetch (load o l) ix.

(** GetValueAtIndices, bmi_lgar.cxx:951-971 *)
Definition GetValueAtIndices (name : string) (inds : list Z) (o : obj) : outcome (list item) :=
  l <- GetValuePtr name ;;
  fetch (load o l) (at_offsets inds (GetVarItemsize name) (loc_size l)).

(** SetValue, bmi_lgar.cxx:974-986 *)
Definition SetValue (name : string) (v : list item) (o : obj) : outcome obj :=
  l <- GetValuePtr name ;;
  ix <- items (GetVarNbytes name o) (loc_size l) ;;
  store o l ix v.

(** SetValueAtIndices, bmi_lgar.cxx:989-1009 *)
Definition SetValueAtIndices (name : string) (inds : list Z) (v : list item) (o : obj) : outcome obj :=
  l <- GetValuePtr name ;;
  store o l (at_offsets inds (GetVarItemsize name) (loc_size l)) v.

(** Time functions, bmi_lgar.cxx:1057-1084 *)
Definition GetStartTime : dbl := Fin 0.
Definition GetEndTime (o : obj) : dbl := p_endtime (st_p (ob_s o)).
Definition GetCurrentTime (o : obj) : dbl := p_time (st_p (ob_s o)).
Definition GetTimeUnits : string := "s".
Definition GetTimeStep {fp : Fp} (o : obj) : dbl := (p_fres (st_p (ob_s o)) * lit 3600)%d.

(** GetGridX, GetGridY, GetGridZ, GetGridNodeCount, GetGridEdgeCount, GetGridFaceCount, GetGridEdgeNodes, GetGridFaceEdges, GetGridFaceNodes,
    GetGridNodesPerFace, bmi_lgar.cxx:1096-1183: all throw NotImplemented (after printing the first entry of the array argument, if there is one). *)
Definition grid_not_implemented : outcome unit := Stop Throw.

(** Update and UpdateUntil through the object. *)
Definition bmi_Update {fp : Fp} {cfg : Cfg} (o : obj) : outcome obj := s <- Update (ob_s o) ;; Ok (mkObj s (ob_pre o)).
Definition bmi_UpdateUntil {fp : Fp} {cfg : Cfg} (t : dbl) (o : obj) : outcome obj := s <- UpdateUntil t (ob_s o) ;; Ok (mkObj s (ob_pre o)).
