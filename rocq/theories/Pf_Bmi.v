(** Lemmas on the Basic Model Interface. *)

From Coq Require Import String Reals Lra ZArith List Bool Lia.
From RecordUpdate Require Import RecordSet.
From Verif Require Import Outcome Dbl Types Fronts State Update Bmi Lib Spec_Common Spec_Update Spec_Bmi Pf_Update.
Import ListNotations.
Import RecordSetNotations.
Open Scope string_scope.
Open Scope Z_scope.
Open Scope list_scope.

(** ** Names *)

Ltac names H := unfold known_names, input_var_names, output_var_names, calib_var_names in H; cbn [app In] in H;
  repeat (destruct H as [<-|H]); [..|contradiction].

Lemma not_in_eqb : forall (name : string) l, ~ In name l -> forall n, In n l -> String.eqb name n = false.
Proof. intros name l H n I1. apply String.eqb_neq. intros ->. contradiction. Qed.

(** Decision tables: a name is compared with all the others. *)
Ltac off N := repeat match goal with |- context [String.eqb ?a ?b] => rewrite (N b) by (cbn; tauto) end.

Lemma known_dec : forall name, In name known_names \/ ~ In name known_names.
Proof. intro name. destruct (in_dec string_dec name known_names); auto. Qed.

(** Pointers of the known names. *)
Lemma ptr_known : forall name, In name known_names -> exists l, GetValuePtr name = Ok l.
Proof. intros name H. names H; eexists; reflexivity. Qed.

Lemma ptr_unknown : forall name, ~ In name known_names -> GetValuePtr name = Stop Throw.
Proof.
  intros name H. assert (N : forall n, In n known_names -> String.eqb name n = false) by (apply not_in_eqb; assumption).
  unfold GetValuePtr. repeat match goal with |- context [String.eqb name ?b] => rewrite (N b) by (unfold known_names; cbn; tauto) end. reflexivity.
Qed.

Lemma ptr_inv : forall name l, GetValuePtr name = Ok l -> In name known_names.
Proof. intros name l H. destruct (known_dec name) as [K|K]; [assumption|]. rewrite ptr_unknown in H by assumption. discriminate. Qed.

Definition name_of (l : loc) : string :=
  match l with
  | LPrecip => "precipitation_rate" | LPet => "potential_evapotranspiration_rate" | LCum => "soil_depth_layers" | LTheta => "soil_moisture_wetting_fronts"
  | LDepth => "soil_depth_wetting_fronts" | LNum => "soil_num_wetting_fronts" | LTemp => "soil_temperature_profile" | LThetaE => "smcmax" | LThetaR => "smcmin"
  | LN => "van_genuchten_n" | LAlpha => "van_genuchten_alpha" | LKsat => "hydraulic_conductivity" | LPmax => "ponded_depth_max" | LFc => "field_capacity"
  | LOut 0 => "precipitation" | LOut 1 => "infiltration" | LOut 2 => "soil_storage" | LOut 3 => "actual_evapotranspiration" | LOut 4 => "percolation"
  | LOut 5 => "surface_runoff" | LOut 6 => "giuh_runoff" | LOut 7 => "total_discharge" | LOut 8 => "groundwater_to_stream_recharge"
  | LOut 9 => "potential_evapotranspiration" | LOut _ => "mass_balance"
  end%nat.
Lemma name_of_ptr : forall name l, GetValuePtr name = Ok l -> name = name_of l.
Proof. intros name l H. pose proof (ptr_inv _ _ H) as K. names K; cbv in H; apply Ok_inj in H; subst l; reflexivity. Qed.

Lemma ptr_injective : forall a b l, GetValuePtr a = Ok l -> GetValuePtr b = Ok l -> a = b.
Proof. intros a b l H1 H2. rewrite (name_of_ptr _ _ H1), (name_of_ptr _ _ H2). reflexivity. Qed.

Definition good_loc (l : loc) : Prop := match l with LOut i => (i < 11)%nat | _ => True end.
Lemma ptr_good : forall name l, GetValuePtr name = Ok l -> good_loc l.
Proof. intros name l H. pose proof (ptr_inv _ _ H) as K. names K; cbv in H; apply Ok_inj in H; subst l; cbn; lia || trivial. Qed.

(** Item sizes and grids of the known names. *)
Definition loc_cells (l : loc) (o : obj) : Z :=
  match l with
  | LCum | LThetaE | LThetaR | LN | LAlpha | LKsat => p_nlayers (st_p (ob_s o))
  | LTheta | LDepth => p_nfronts (st_p (ob_s o))
  | LTemp => p_ncells (st_p (ob_s o))
  | _ => 1
  end.
Lemma ptr_size : forall name l, GetValuePtr name = Ok l -> GetVarItemsize name = loc_size l.
Proof. intros name l H. pose proof (ptr_inv _ _ H) as K. names K; cbv in H; apply Ok_inj in H; subst l; reflexivity. Qed.
Lemma ptr_cells : forall name l o, GetValuePtr name = Ok l -> GetGridSize (GetVarGrid name) o = loc_cells l o.
Proof. intros name l o H. pose proof (ptr_inv _ _ H) as K. names K; cbv in H; apply Ok_inj in H; subst l; reflexivity. Qed.
Lemma ptr_type : forall name l, GetValuePtr name = Ok l -> GetVarType name = match l with LNum => "int" | _ => "double" end.
Proof. intros name l H. pose proof (ptr_inv _ _ H) as K. names K; cbv in H; apply Ok_inj in H; subst l; reflexivity. Qed.
Lemma ptr_grid : forall name l, GetValuePtr name = Ok l -> 0 <= GetVarGrid name <= 4.
Proof. intros name l H. pose proof (ptr_inv _ _ H) as K. names K; cbv in H; split; discriminate. Qed.
Lemma size_pos : forall l, 0 < loc_size l. Proof. destruct l; cbn; lia. Qed.

Lemma items_ptr : forall name l o, GetValuePtr name = Ok l ->
  items (GetVarNbytes name o) (loc_size l) = if loc_cells l o <? 0 then Stop (UB OutOfBounds) else Ok (map Z.of_nat (seq 0 (Z.to_nat (loc_cells l o)))).
Proof.
  intros name l o H. unfold items, GetVarNbytes. rewrite (ptr_size _ _ H), (ptr_cells _ _ _ H). pose proof (size_pos l).
  rewrite (Z.mul_comm (loc_size l)), Z.div_mul by lia. destruct (Z.ltb_spec (loc_cells l o * loc_size l) 0), (Z.ltb_spec (loc_cells l o) 0); try reflexivity; nia.
Qed.
Lemma offsets_ptr : forall name l inds, GetValuePtr name = Ok l -> at_offsets inds (GetVarItemsize name) (loc_size l) = inds.
Proof.
  intros name l inds H. unfold at_offsets. rewrite (ptr_size _ _ H). pose proof (size_pos l). rewrite <- (map_id inds) at 2. apply map_ext. intro i. apply Z.div_mul. lia.
Qed.

(** ** Memory *)

Definition fits (l : loc) (x : item) : Prop := match l, x with LNum, I _ => True | LNum, D _ => False | _, D _ => True | _, I _ => False end.
Lemma fits_typed : forall name l x, GetValuePtr name = Ok l -> (fits l x <-> typed (GetVarType name) x).
Proof. intros name l x H. rewrite (ptr_type _ _ H). destruct l, x; cbn; split; intro F; try easy. Qed.

Lemma aset_ok : forall (A : Type) (a : list A) i x, 0 <= i < Z.of_nat (length a) -> aset a i x = Ok (lset a (Z.to_nat i) x).
Proof. intros A a i x H. unfold aset. destruct (Z.ltb_spec i 0); [lia|]. destruct (Nat.ltb_spec (Z.to_nat i) (length a)); [reflexivity|lia]. Qed.
Lemma aset_inv : forall (A : Type) (a a' : list A) i x, aset a i x = Ok a' -> 0 <= i < Z.of_nat (length a) /\ a' = lset a (Z.to_nat i) x.
Proof. intros A a a' i x H. unfold aset in H. destruct (Z.ltb_spec i 0); [discriminate|]. destruct (Nat.ltb_spec (Z.to_nat i) (length a)); [|discriminate]. apply Ok_inj in H. split; [lia|auto]. Qed.

Lemma map_lset : forall (A B : Type) (f : A -> B) a i x, map f (lset a i x) = lset (map f a) i (f x).
Proof. induction a as [|y a IH]; intros [|i] x; cbn; try reflexivity. f_equal. apply IH. Qed.

Definition wf (o : obj) : Prop := length (ob_pre o) = 11%nat.

Lemma out_set_list : forall b i d, (i < 11)%nat -> out_list (out_set b i d) = lset (out_list b) i d.
Proof. intros b i d H. do 11 (destruct i as [|i]; [reflexivity|]). lia. Qed.

Ltac edit s := match goal with |- user_edit _ ?x => exists (st_precip x), (st_pet x), (p_soilT (st_p x)), (st_cal x), (st_out x), (p_nfronts (st_p x)), (p_theta_wf (st_p x)), (p_depth_wf (st_p x)) end;
  destruct s as [? ? ? [] ? ? ? [] ? ? ? ?]; reflexivity.

(** What one write does. *)
Lemma poke_spec : forall o l i x, good_loc l -> wf o -> fits l x -> 0 <= i < Z.of_nat (length (load o l)) ->
  exists o', poke o l i x = Ok o' /\ wf o' /\ load o' l = lset (load o l) (Z.to_nat i) (Some x) /\
    (forall l', good_loc l' -> l' <> l -> load o' l' = load o l') /\
    p_nlayers (st_p (ob_s o')) = p_nlayers (st_p (ob_s o)) /\ p_ncells (st_p (ob_s o')) = p_ncells (st_p (ob_s o)) /\
    (l <> LNum -> p_nfronts (st_p (ob_s o')) = p_nfronts (st_p (ob_s o))) /\ (l <> LCum -> user_edit (ob_s o) (ob_s o')).
Proof.
  intros o l i x G W F B.
  assert (U : forall s, user_edit s s).
  { intros s. edit s. }
  destruct o as [s pre]. destruct l; destruct x as [z|d]; try contradiction; unfold poke, poke_dbl;
    cbn [ob_s ob_pre];
    try (unfold load, doubles in B; cbv zeta in B; cbn [ob_s] in B; rewrite map_length in B);
    try (rewrite aset_ok by exact B; cbn [bind]);
    try (assert (i = 0) as -> by (cbn in B; lia); cbn [Z.eqb]).
  all: try (eexists; split; [reflexivity|]; split; [exact W|]; split; [first [reflexivity|exact (map_lset _ _ (fun d => Some (D d)) _ _ _)]|]; split;
    [intros [] _ Hl; try reflexivity; try congruence|]; split; [reflexivity|]; split; [reflexivity|]; split; [intro; first [reflexivity|congruence]|]; intro; try congruence;
    cbn [ob_s]; edit s).
  (* bmi_unit_conv *)
  rename i0 into j. assert (i = 0). { cbn in B. destruct (st_out s); destruct (nth_error _ _); cbn in B; lia. } subst i. cbn [Z.eqb].
  cbn in G. destruct (st_out s) as [b|] eqn:EO.
  - eexists. split; [reflexivity|]. split; [exact W|]. split.
    + cbn [load ob_s]. rewrite EO. change (st_out (s <| st_out := Some (out_set b j d) |>)) with (Some (out_set b j d)). cbv iota. rewrite out_set_list by assumption.
      do 11 (destruct j as [|j]; [reflexivity|]). lia.
    + split.
      * intros l' G' Hl. destruct l'; try reflexivity. cbn [load ob_s]. rewrite EO. change (st_out (s <| st_out := Some (out_set b j d) |>)) with (Some (out_set b j d)). cbv iota.
        rewrite out_set_list by assumption. assert (i <> j) by congruence. cbn in G'. 
        replace (nth_error (lset (out_list b) j d) i) with (nth_error (out_list b) i); [reflexivity|].
        clear - H. revert i j H. induction (out_list b) as [|y r IH]; intros [|i] [|j] H; cbn; try reflexivity; try congruence. apply IH. congruence.
      * split; [reflexivity|]. split; [reflexivity|]. split; [reflexivity|]. intros _. cbn [ob_s]. clear EO. edit s.
  - eexists. split; [reflexivity|]. split; [unfold wf; cbn [ob_pre]; rewrite lset_length; exact W|]. split.
    + cbn [load ob_s ob_pre]. rewrite EO. unfold wf in W. cbn in W. assert (j < length pre)%nat by lia.
      clear - H. revert j H. induction pre as [|y r IH]; intros [|j] H; cbn in *; try lia; [reflexivity|]. apply IH. lia.
    + split.
      * intros l' G' Hl. destruct l'; try reflexivity. cbn [load ob_s ob_pre]. rewrite EO. assert (i <> j) by congruence.
        replace (nth_error (lset pre j (Some d)) i) with (nth_error pre i); [reflexivity|].
        clear - H. revert i j H. induction pre as [|y r IH]; intros [|i] [|j] H; cbn; try reflexivity; try congruence. apply IH. congruence.
      * split; [reflexivity|]. split; [reflexivity|]. split; [reflexivity|]. intros _. apply U.
Qed.
