(** C14-C17, C19, C20: variables of the Basic Model Interface. *)

From Coq Require Import String Reals ZArith List Bool.
From Verif Require Import Outcome Dbl Exact Types Fronts State Update Bmi Spec_Common Spec_Column Spec_Update Spec_Bmi Pf_Bmi Pf_BmiMem Pf_BmiRun Ex_Saturated Ex_TwoLayers Ex_Bmi.
Import ListNotations.
Open Scope string_scope.
Open Scope Z_scope.
Open Scope list_scope.

(** C14: every advertised name has a grid, a type, a size and a pointer; the pointer leads to an array of items of that type, with as many items as
    GetVarNbytes says (one more for soil_depth_layers); different names lead to different memory. *)
Theorem C14_names_resolve :
  forall (o : obj) (name : string), arrays_ok o -> In name (input_var_names ++ output_var_names ++ calib_var_names) ->
    0 <= GetVarGrid name <= 4 /\ GetVarType name <> "none" /\ 0 < GetVarItemsize name /\
    exists l, GetValuePtr name = Ok l /\
      GetVarNbytes name o = GetVarItemsize name * (Z.of_nat (length (load o l)) - (if String.eqb name "soil_depth_layers" then 1 else 0)) /\
      (forall j x, at_pos (load o l) j = Some (Some x) -> typed (GetVarType name) x) /\
      (forall name', GetValuePtr name' = Ok l -> name' = name).
Proof. exact names_resolve. Qed.
Print Assumptions C14_names_resolve.

(** C14: this stays so after any sequence of calls that does not overwrite the number of fronts, for every rounding. *)
Theorem C14_arrays_stay_consistent :
  forall (fp : Fp) (cfg : Cfg) (cs : list call) (o o' : obj), arrays_ok o ->
    Forall (fun c => sets c <> Some "soil_num_wetting_fronts") cs -> do_calls cs o = Ok o' -> arrays_ok o'.
Proof. exact @calls_arrays. Qed.
Print Assumptions C14_arrays_stay_consistent.

(** Example: two writes, an Update and two reads. *)
Example C14_concrete : forall cfg : Cfg, arrays_ok bm_obj /\ Forall (fun c => sets c <> Some "soil_num_wetting_fronts") bm_calls /\
  @do_calls exact cfg bm_calls bm_obj = Ok bm_end /\ GetValue "surface_runoff" bm_end = Ok [D (Fin (1 / 200))] /\ GetVarNbytes "soil_depth_layers" bm_end = 8.
Proof. exact @bm_concrete. Qed.

(** C15: what was set is what is read. *)
Theorem C15_set_then_get :
  forall (name : string) (v : list item) (o o' : obj), length (ob_pre o) = 11%nat -> Z.of_nat (length v) = GetGridSize (GetVarGrid name) o ->
    SetValue name v o = Ok o' -> GetValue name o' = Ok v.
Proof. exact set_get. Qed.
Print Assumptions C15_set_then_get.

(** C15: nothing else changes, neither when the whole array nor when single items are written. *)
Theorem C15_nothing_else_changes :
  forall (name name' : string) (v : list item) (o o' : obj), length (ob_pre o) = 11%nat ->
    (SetValue name v o = Ok o' \/ exists inds, SetValueAtIndices name inds v o = Ok o') -> name' <> name ->
    ~ (name = "soil_num_wetting_fronts" /\ In name' ["soil_moisture_wetting_fronts"; "soil_depth_wetting_fronts"]) ->
    GetValue name' o' = GetValue name' o /\ forall inds, GetValueAtIndices name' inds o' = GetValueAtIndices name' inds o.
Proof. exact any_set_frame. Qed.
Print Assumptions C15_nothing_else_changes.

(** C15: setting a value of the right type and size succeeds for every advertised name. *)
Theorem C15_set_succeeds :
  forall (name : string) (v : list item) (o : obj), arrays_ok o -> In name (input_var_names ++ output_var_names ++ calib_var_names) ->
    Z.of_nat (length v) = GetGridSize (GetVarGrid name) o -> Forall (typed (GetVarType name)) v -> exists o', SetValue name v o = Ok o'.
Proof. exact set_ok. Qed.
Print Assumptions C15_set_succeeds.

(** C15, the exception: writing a larger number of fronts makes the next read of either front array run out of bounds. *)
Theorem C15_number_of_fronts_refuted :
  forall (o o' : obj) (z : Z) (name : string), arrays_ok o -> In name ["soil_moisture_wetting_fronts"; "soil_depth_wetting_fronts"] ->
    p_nfronts (st_p (ob_s o)) < z -> SetValue "soil_num_wetting_fronts" [I z] o = Ok o' -> GetValue name o' = Stop (UB OutOfBounds).
Proof. exact set_num_oob. Qed.
Print Assumptions C15_number_of_fronts_refuted.

Example C15_concrete : exists o', SetValue "smcmax" [D (Fin (1 / 2))] bm_obj = Ok o' /\ GetValue "smcmax" bm_obj = Ok [D (Fin (2 / 5))] /\
  GetValue "smcmax" o' = Ok [D (Fin (1 / 2))] /\ GetValue "smcmin" o' = Ok [D (Fin (1 / 10))] /\
  exists o'', SetValue "soil_num_wetting_fronts" [I 5] bm_obj = Ok o'' /\ p_nfronts (st_p (ob_s bm_obj)) < 5.
Proof. eexists. split; [reflexivity|]. repeat split. eexists. split; reflexivity. Qed.

(** C16: indexed reads are the entries of the array. *)
Theorem C16_get_at_indices :
  forall (name : string) (inds : list Z) (o : obj) (v : list item), arrays_ok o -> GetValue name o = Ok v ->
    (Forall (fun i => 0 <= i < Z.of_nat (length v)) inds ->
       exists xs, GetValueAtIndices name inds o = Ok xs /\ Forall2 (fun i x => at_pos v i = Some x) inds xs) /\
    (forall xs, GetValueAtIndices name inds o = Ok xs ->
       Forall (fun i => 0 <= i < Z.of_nat (length v) + (if String.eqb name "soil_depth_layers" then 1 else 0)) inds).
Proof. exact get_at. Qed.
Print Assumptions C16_get_at_indices.

(** C16: indexed writes change these entries only, the last write to an entry wins. *)
Theorem C16_set_at_indices :
  forall (name : string) (inds : list Z) (w : list item) (o o' : obj) (v : list item), arrays_ok o -> GetValue name o = Ok v ->
    SetValueAtIndices name inds w o = Ok o' ->
    exists v', GetValue name o' = Ok v' /\ length v' = length v /\
      forall j, 0 <= j < Z.of_nat (length v) -> at_pos v' j = match last_write inds w j with Some x => Some x | None => at_pos v j end.
Proof. exact set_at. Qed.
Print Assumptions C16_set_at_indices.

(** C16: they succeed exactly for indices inside the array and enough values of the right type. *)
Theorem C16_set_at_indices_defined :
  forall (name : string) (inds : list Z) (w : list item) (o : obj), arrays_ok o -> In name (input_var_names ++ output_var_names ++ calib_var_names) ->
    (exists o', SetValueAtIndices name inds w o = Ok o') <->
    Forall (fun i => 0 <= i < GetGridSize (GetVarGrid name) o + (if String.eqb name "soil_depth_layers" then 1 else 0)) inds /\
    (length inds <= length w)%nat /\ Forall (typed (GetVarType name)) (firstn (length inds) w).
Proof. exact set_at_ok. Qed.
Print Assumptions C16_set_at_indices_defined.

Example C16_concrete : arrays_ok bm_obj /\ GetValue "soil_moisture_wetting_fronts" bm_obj = Ok [D (Fin (2 / 5))] /\
  GetValueAtIndices "soil_moisture_wetting_fronts" [0; 0] bm_obj = Ok [D (Fin (2 / 5)); D (Fin (2 / 5))] /\
  exists o', SetValueAtIndices "soil_moisture_wetting_fronts" [0; 0] [D (Fin 7); D (Fin 8)] bm_obj = Ok o' /\
    GetValue "soil_moisture_wetting_fronts" o' = Ok [D (Fin 8)].
Proof. split; [exact bm_arrays|]. split; [reflexivity|]. split; [reflexivity|]. eexists. split; reflexivity. Qed.

(** C17: any other string is rejected by every function. *)
Theorem C17_unknown_names :
  forall (name : string), ~ In name (input_var_names ++ output_var_names ++ calib_var_names) -> ~ In name ghost_names ->
    GetVarGrid name = -1 /\ GetVarType name = "none" /\ GetVarItemsize name = 0 /\ GetVarUnits name = "none" /\ GetVarLocation name = "none" /\
    GetValuePtr name = Stop Throw /\
    forall o inds v, GetValue name o = Stop Throw /\ GetValueAtIndices name inds o = Stop Throw /\ SetValue name v o = Stop Throw /\
      SetValueAtIndices name inds v o = Stop Throw.
Proof. exact unknown_names. Qed.
Print Assumptions C17_unknown_names.

Example C17_concrete : ~ In "soil_moisture" (input_var_names ++ output_var_names ++ calib_var_names) /\ ~ In "soil_moisture" ghost_names.
Proof. split; cbn; intuition discriminate. Qed.

(** C19: the two names with a grid, a type and a size whose value cannot be accessed. *)
Theorem C19_grid_without_value_refuted :
  forall name : string, In name ["soil_storage_model"; "van_genuchten_m"] ->
    0 <= GetVarGrid name /\ GetVarType name <> "none" /\ 0 < GetVarItemsize name /\ forall o, GetValue name o = Stop Throw.
Proof. exact ghosts. Qed.
Print Assumptions C19_grid_without_value_refuted.

(** C19: every other string with a grid has a value: reading it never throws, and succeeds if the items are set. *)
Theorem C19_every_other_grid_has_a_value :
  forall (name : string) (o : obj), ~ In name ["soil_storage_model"; "van_genuchten_m"] -> arrays_ok o -> 0 <= GetVarGrid name ->
    (exists v, GetValue name o = Ok v /\ Z.of_nat (length v) = GetGridSize (GetVarGrid name) o) \/
    (st_out (ob_s o) = None /\ GetValue name o = Stop (UB Uninit)).
Proof. exact grids_have_values. Qed.
Print Assumptions C19_every_other_grid_has_a_value.

Example C19_concrete : ~ In "smcmax" ["soil_storage_model"; "van_genuchten_m"] /\ arrays_ok bm_obj /\ 0 <= GetVarGrid "smcmax".
Proof. split; [cbn; intuition discriminate|]. split; [exact bm_arrays|discriminate]. Qed.

(** C20: soil_depth_layers is 0 followed by the lower boundaries of all layers but the last, in cm. *)
Theorem C20_what_is_reported :
  forall (o : obj) (ts : list R), p_cum (st_p (ob_s o)) = map Fin (boundaries 0 ts) -> p_nlayers (st_p (ob_s o)) = Z.of_nat (length ts) ->
    GetValue "soil_depth_layers" o = Ok (map (fun z => D (Fin z)) (firstn (length ts) (boundaries 0 ts))).
Proof. exact depth_layers. Qed.
Print Assumptions C20_what_is_reported.

(** C20: for no column are these the depths of the layers, neither in m (as GetVarUnits says) nor in cm. *)
Theorem C20_depths_of_layers_refuted :
  forall (o : obj) (ts : list R) (v : list item), p_cum (st_p (ob_s o)) = map Fin (boundaries 0 ts) -> p_nlayers (st_p (ob_s o)) = Z.of_nat (length ts) ->
    Forall (Rlt 0) ts -> ts <> [] -> GetVarUnits "soil_depth_layers" = "m" /\
    (GetValue "soil_depth_layers" o = Ok v ->
      v <> map (fun z => D (Fin (z / 100))) (skipn 1 (boundaries 0 ts)) /\ v <> map (fun z => D (Fin z)) (skipn 1 (boundaries 0 ts))).
Proof. exact (fun o ts v H N P E => conj eq_refl (depth_layers_wrong o ts v H N P E)). Qed.
Print Assumptions C20_depths_of_layers_refuted.

Example C20_concrete : p_cum (st_p (ob_s bm_two)) = map Fin (boundaries 0 [25%R; 75%R]) /\ p_nlayers (st_p (ob_s bm_two)) = 2 /\
  GetValue "soil_depth_layers" bm_two = Ok [D (Fin 0); D (Fin 25)].
Proof. exact bm_depths. Qed.

(** C01 for sequences of calls: whatever a client reads and writes between the Updates, except the layer boundaries, the balance printed after an
    Update is the sum of the residuals and of the dropped ponding residues of all its sub-steps. *)
Theorem C01_any_call_sequence :
  forall (cfg : Cfg) (cs : list call) (o o1 o2 : obj), length (ob_pre o) = 11%nat -> @fresh exact (ob_s o) -> p_invalid (st_p (ob_s o)) = false ->
    Forall (fun c => sets c <> Some "soil_depth_layers") cs -> @do_calls exact cfg cs o = Ok o1 -> @bmi_Update exact cfg o1 = Ok o2 ->
    exists xs, @history exact cfg (fun _ => True) (ob_s o) xs (ob_s o2) /\
      (Forall (fun x => finite (residual x)) xs -> finite (mb_calib (st_mb (ob_s o2))) ->
       @global_error exact (st_mb (ob_s o2)) =
         Fin (Rsum (map (fun x => val (residual x)) xs) + Rsum (map (fun x => dropped (val (ponded_before x))) xs))).
Proof. exact @calls_ledger. Qed.
Print Assumptions C01_any_call_sequence.

Example C01_calls_concrete : forall cfg : Cfg, length (ob_pre bm_obj) = 11%nat /\ @fresh exact (ob_s bm_obj) /\ p_invalid (st_p (ob_s bm_obj)) = false /\
  Forall (fun c => sets c <> Some "soil_depth_layers") [CSet "precipitation_rate" [D (Fin 20)]] /\
  @do_calls exact cfg [CSet "precipitation_rate" [D (Fin 20)]] bm_obj = Ok bm_obj /\ @bmi_Update exact cfg bm_obj = Ok bm_end /\ mb_precip (st_mb (ob_s bm_end)) = Fin 2.
Proof. exact @bm_fresh. Qed.
