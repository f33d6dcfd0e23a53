(** C89: what the unit test of the interface establishes. *)

From Coq Require Import String Ascii Reals ZArith List Bool Lra Lia.
From RecordUpdate Require Import RecordSet.
From Verif Require Import Outcome Dbl Exact Types State Update Bmi Config Lib Spec_Common Spec_Config UnitTest Spec_UnitTest Pf_Config Pf_Init Pf_InitTotal Pf_UnitTest Ex_Config Ex_Driver.
Import ListNotations.
Import RecordSetNotations.
Open Scope string_scope.
Open Scope list_scope.
Open Scope R_scope.

(** The test returns for a configuration exactly if the configuration initialises with three layers and one temperature cell, the first Update (1.896 mm/h of rain, 0.104 mm/h of PET) publishes four fronts with the
    benchmark values and fluxes, and the second Update, with other soil parameters, ends.  The exit code is then always 0. *)
Theorem C89_passes : forall (fp : Fp) (cfg : Cfg) files junk junk' ls z, unit_test files junk junk' ls = Ok z <->
  z = 0%Z /\ exists s t t', Initialize files junk ls = Ok s /\ p_nlayers (st_p s) = 3%Z /\ p_ncells (st_p s) = 1%Z /\ Update (test_rain s) = Ok t /\ p_nfronts (st_p t) = 4%Z /\ benchmark t /\
    Update (test_parameters s) = Ok t'.
Proof. exact @test_passes. Qed.
Print Assumptions C89_passes.

(** What this means in exact arithmetic. *)
Theorem C89_meaning : forall (cfg : Cfg) files junk junk' ls z, @unit_test exact cfg files junk junk' ls = Ok z ->
  exists s t, @Initialize exact files junk ls = Ok s /\ @Update exact cfg (@test_rain exact s) = Ok t /\ published_benchmark t.
Proof. exact @test_meaning. Qed.
Print Assumptions C89_meaning.

(** A valid configuration with another number of layers or of temperature cells ends the test with an exception. *)
Theorem C89_other_sizes : forall (fp : Fp) (cfg : Cfg) files junk junk' ls s, Initialize files junk ls = Ok s -> p_nlayers (st_p s) <> 3%Z \/ p_ncells (st_p s) <> 1%Z ->
  unit_test files junk junk' ls = Stop Throw.
Proof. exact @test_size. Qed.
Print Assumptions C89_other_sizes.

(** The arrays of the test have room for exactly four fronts: with more the copy runs over their end, with fewer entries without a value are compared. *)
Theorem C89_buffers_refuted : forall (fp : Fp) (cfg : Cfg) files junk junk' ls s t, Initialize files junk ls = Ok s -> p_nlayers (st_p s) = 3%Z -> p_ncells (st_p s) = 1%Z -> Update (test_rain s) = Ok t ->
  ((4 < p_nfronts (st_p t))%Z -> unit_test files junk junk' ls = Stop (UB OutOfBounds)) /\ ((p_nfronts (st_p t) < 4)%Z -> unit_test files junk junk' ls = Stop (UB Uninit)).
Proof. exact @test_fronts. Qed.
Print Assumptions C89_buffers_refuted.

(** The comparisons of the calibration test cannot fail: once the benchmark is met only the second Update decides. *)
Theorem C89_calibration : forall (fp : Fp) (cfg : Cfg) files junk junk' ls s t, Initialize files junk ls = Ok s -> p_nlayers (st_p s) = 3%Z -> p_ncells (st_p s) = 1%Z -> Update (test_rain s) = Ok t ->
  p_nfronts (st_p t) = 4%Z -> benchmark t -> unit_test files junk junk' ls = (t' <- Update (test_parameters s) ;; Ok 0%Z).
Proof. exact @test_calibration. Qed.
Print Assumptions C89_calibration.

Section Exact.
Local Existing Instance exact.

(** tests/configs/unittest.txt, with the first fifteen soils of the table of the repository *)
Definition ut_lines : list string := [
  "verbosity=none";
  "forcing_file=../forcing/forcing_data_Phillipsburg.csv";
  "soil_params_file=../data/vG_default_params.dat";
  "layer_thickness=44.0,131.0,25.0[cm]";
  "initial_psi=2000.0[cm]";
  "timestep=300[sec]";
  "endtime=1.0[hr]";
  "forcing_resolution=3600[sec]";
  "ponded_depth_max=0[cm]";
  "layer_soil_type=13,14,15";
  "max_valid_soil_types=15";
  "wilting_point_psi=15495.0[cm]";
  "field_capacity_psi=340.9[cm]";
  "giuh_ordinates=0.06,0.51,0.28,0.12,0.03";
  "calib_params=true"].
Definition ut_data : string := "../data/vG_default_params.dat".
Definition ut_files : string -> option (list row) := fun f => if String.eqb f ut_data then Some seen else None.
Ltac a_natural := match goal with |- exists k, natural ?m k /\ _ => let k := eval vm_compute in (fold_left (fun a d => 10 * a + d)%nat (nu_int m) 0%nat) in exists k; split; [apply natural_check; chk|lia] end.
Ltac a_types n ns := apply (gl_types _ (num n) (map num ns)); [assigned|cbn [map]; repeat (apply Forall_cons; [a_natural|]); apply Forall_nil].
Lemma ut_basic : basic_config ut_files ut_lines (map num ["44.0"; "131.0"; "25.0"]) (map num ["13"; "14"; "15"]) (map num ["0.06"; "0.51"; "0.28"; "0.12"; "0.03"]) (num "2000.0") (1 / 12) 1 15 seen.
Proof.
  constructor.
  - unfold ut_lines.
    apply Forall_cons; [a_comment|]. apply Forall_cons; [a_comment|]. apply Forall_cons; [a_file ut_data|].
    apply Forall_cons; [a_vector "layer_thickness" "44.0" ["131.0"; "25.0"]|]. apply Forall_cons; [a_number "initial_psi" "2000.0"|].
    apply Forall_cons; [a_time "timestep" "300" "[sec]" 1%R|]. apply Forall_cons; [a_time "endtime" "1.0" "[hr]" 3600%R|].
    apply Forall_cons; [a_time "forcing_resolution" "3600" "[sec]" 1%R|]. apply Forall_cons; [a_number "ponded_depth_max" "0"|].
    apply Forall_cons; [a_types "13" ["14"; "15"]|].
    apply Forall_cons; [apply (gl_max _ (num "15") 15); [assigned|apply natural_check; chk|lia]|].
    apply Forall_cons; [a_number "wilting_point_psi" "15495.0"|]. apply Forall_cons; [a_number "field_capacity_psi" "340.9"|].
    apply Forall_cons; [a_vector "giuh_ordinates" "0.06" ["0.51"; "0.28"; "0.12"; "0.03"]|]. apply Forall_cons; [a_flag "calib_params" true|]. apply Forall_nil.
  - apply required_check. chk.
  - exists "layer_thickness=44.0,131.0,25.0[cm]". split; [a_last 3%nat|]. split; [assigned|]. split; [discriminate|]. split; [goods|]. cbn [map]. repeat (constructor; [values; lra|]). constructor.
  - exists "layer_soil_type=13,14,15". split; [a_last 9%nat|]. split; [assigned|]. split; [discriminate|]. goods.
  - exists "giuh_ordinates=0.06,0.51,0.28,0.12,0.03". split; [a_last 13%nat|]. split; [assigned|]. split; [discriminate|]. split; [goods|]. cbn [map]. repeat (constructor; [values; lra|]). constructor.
  - exists "initial_psi=2000.0[cm]". split; [a_last 4%nat|]. split; [assigned|]. split; [good|]. values. lra.
  - exists "soil_params_file=../data/vG_default_params.dat", ut_data. split; [a_last 2%nat|]. split; [assigned|]. split; [cbn; repeat split; discriminate|]. split; [reflexivity|exact seen_physical].
  - exists (num "300"), "[sec]", 1%R. split; [change (last_line "timestep" "timestep=300[sec]" ut_lines); a_last 5%nat|]. split; [key|]. split; [good|]. values. lra.
  - exists (num "3600"), "[sec]", 1%R. split; [change (last_line "forcing_resolution" "forcing_resolution=3600[sec]" ut_lines); a_last 7%nat|]. split; [key|]. split; [good|]. values. lra.
  - lra.
  - left. exists "max_valid_soil_types=15", (num "15"), 15%nat. split; [a_last 10%nat|]. split; [assigned|]. split; [apply natural_check; chk|]. split; [lia|reflexivity].
  - lia.
  - right; cbn; intuition discriminate.
Qed.
Lemma ut_good : good_config ut_files ut_lines (map num ["44.0"; "131.0"; "25.0"]) (map num ["13"; "14"; "15"]) (map num ["0.06"; "0.51"; "0.28"; "0.12"; "0.03"]) (num "2000.0") (1 / 12) 1 15 seen.
Proof.
  split; [|lra]. split; [exact ut_basic|]. intros i L. cbn in L.
  destruct i as [|[|[|i]]]; [exists (num "13"), 13%nat|exists (num "14"), 14%nat|exists (num "15"), 15%nat|lia]; (split; [reflexivity|]; split; [apply natural_check; chk|]; cbn; lia).
Qed.
(** It initialises with three layers and one cell, so the test reaches the first Update. *)
Example C89_repository : forall junk, exists s, Initialize ut_files junk ut_lines = Ok s /\ p_nlayers (st_p s) = 3%Z /\ p_ncells (st_p s) = 1%Z /\ metadata (mkObj s (repeat None 11)) = Ok (Next true).
Proof.
  intro junk. destruct (configured ut_files junk _ _ _ _ _ _ _ _ _ ut_good) as (s & H & _ & _ & _ & _ & _ & _ & N & _). cbn [map List.length] in N. exists s. split; [exact H|]. split; [exact N|].
  assert (C : p_ncells (st_p s) = 1%Z).
  { destruct (init_inv _ _ _ _ H) as (c & st & rows & tab & thick & psi & ord & I). pose proof (in_cells _ _ _ _ _ _ _ _ _ _ _ I) as K.
    assert (S : p_sft (st_p s) = cf_sft c). { pose proof (in_p _ _ _ _ _ _ _ _ _ _ _ I) as P. repeat match goal with Q : _ /\ _ |- _ => destruct Q end. assumption. }
    destruct (cf_sft c); [|tauto]. destruct (proj2 (need_all _ _ _ _ H) S) as (l & L1 & L2). exfalso. revert L2. apply (unset_check "soil_z" ut_lines); [key|chk|exact L1]. }
  split; [exact C|]. rewrite (test_metadata _ _ _ _ H), N, C. reflexivity.
Qed.
(** The one-layer column of Ex_Driver is refused. *)
Example C89_one_layer : forall (cfg : Cfg) junk, unit_test dr_files junk junk dr_lines = Stop Throw.
Proof. intros cfg junk. apply (C89_other_sizes exact cfg dr_files junk junk dr_lines dr_state0 (dr_init junk)). left. cbn. lia. Qed.
(** A state that meets the benchmark: the published values are the benchmark itself. *)
Example C89_benchmark : exists t, p_nfronts (st_p t) = 4%Z /\ benchmark t.
Proof.
  exists (dr_state0 <| st_p := (st_p dr_state0) <| p_nfronts := 4%Z |> <| p_depth_wf := map Fin [455355239489608365 / 10000000000000000000; 44 / 100; 175 / 100; 2] |>
       <| p_theta_wf := map Fin [21371581122514613 / 100000000000000000; 17270389607163267 / 100000000000000000; 25211383152603861 / 100000000000000000; 17959348005962811 / 100000000000000000] |> |>
       <| st_out := Some (mkOut (Fin 0) (Fin (1896 / 1000000)) (Fin 0) (Fin (2980092620558239 / 100000000000000000000)) (Fin 0) (Fin 0) (Fin 0) (Fin 0) (Fin 0) (Fin (104 / 1000000)) (Fin 0)) |>).
  split; [reflexivity|]. constructor.
  - do 4 eexists. split; [reflexivity|]. change (@rnd exact) with Fin. repeat split; apply within_exact; eexists; (split; [reflexivity|]); apply Rabs_def1; lra.
  - do 4 eexists. split; [reflexivity|]. change (@rnd exact) with Fin. repeat split; apply within_exact; eexists; (split; [reflexivity|]); apply Rabs_def1; lra.
  - eexists. split; [reflexivity|]. change (@rnd exact) with Fin. repeat split; apply not_off_exact; right; eexists; (split; [reflexivity|]); apply Rabs_le; cbn; lra.
Qed.
End Exact.
