(** The configuration of Ex_Driver with a second line for the initial head. *)

From Coq Require Import String Ascii Reals Lra ZArith List Bool Lia.
From Verif Require Import Outcome Dbl Exact Types ListOps Soil State Bmi Config Driver Lib Spec_Common Spec_Config Spec_Driver Spec_RoundMono Spec_DryStart Pf_Dbl Pf_Ledger Pf_ConfigThm Ex_Config Ex_Driver Prop_Config.
Import ListNotations.
Open Scope R_scope.
Open Scope string_scope.
Open Scope list_scope.

Section Run.
Local Existing Instance exact.

Definition ds_line : string := "initial_psi=100.0[cm]".
Notation ds_lines := (dr_lines ++ [ds_line]).
Lemma ds_basic : basic_config dr_files ds_lines [num "100.0"] [num "1"] [num "1.0"] (num "100.0") (1 / 2) 1 1 [dr_row].
Proof.
  constructor.
  - apply Forall_app. split; [exact (gc_lines _ _ _ _ _ _ _ _ _ _ dr_basic)|]. apply Forall_cons; [a_number "initial_psi" "100.0"|]. apply Forall_nil.
  - apply required_check. chk.
  - exists "layer_thickness=100.0[cm]". split; [a_last 3%nat|]. split; [assigned|]. split; [discriminate|]. split; [goods|]. repeat (constructor; [values; lra|]). constructor.
  - exists "layer_soil_type=1". split; [a_last 10%nat|]. split; [assigned|]. split; [discriminate|]. goods.
  - exists "giuh_ordinates=1.0". split; [a_last 14%nat|]. split; [assigned|]. split; [discriminate|]. split; [goods|]. repeat (constructor; [values; lra|]). constructor.
  - exists ds_line. split; [a_last 15%nat|]. split; [assigned|]. split; [good|]. values. lra.
  - exists "soil_params_file=./soil.dat", "./soil.dat". split; [a_last 2%nat|]. split; [assigned|]. split; [cbn; repeat split; discriminate|]. split; [reflexivity|].
    constructor; [|constructor]. exists "loam", (1 / 10), (2 / 5), (1 / 100), 2, 1. split; [reflexivity|]. split; [cbn; lia|]. lra.
  - exists (num "1800"), "[sec]", 1%R. split; [change (last_line "timestep" "timestep=1800[sec]" ds_lines); a_last 5%nat|]. split; [key|]. split; [good|]. values. lra.
  - exists (num "1.0"), "[hr]", 3600%R. split; [change (last_line "forcing_resolution" "forcing_resolution=1.0[hr]" ds_lines); a_last 7%nat|]. split; [key|]. split; [good|]. values. lra.
  - lra.
  - left. exists "max_valid_soil_types=1", (num "1"), 1%nat. split; [a_last 11%nat|]. split; [assigned|]. split; [apply natural_check; chk|]. split; [lia|reflexivity].
  - lia.
  - right; cbn; intuition discriminate.
Qed.
Lemma ds_good : good_config dr_files ds_lines [num "100.0"] [num "1"] [num "1.0"] (num "100.0") (1 / 2) 1 1 [dr_row].
Proof.
  split; [|lra]. split; [exact ds_basic|]. intros i L. cbn in L. destruct i as [|i]; [exists (num "1"), 1%nat|lia]. split; [reflexivity|]. split; [apply natural_check; chk|]. cbn. lia.
Qed.
Lemma ds_case : forall junk, last_line "initial_psi" "initial_psi=0.0[cm]" dr_lines /\ assigns "initial_psi" (text (num "0.0")) "initial_psi=0.0[cm]" /\ good_numeral (num "0.0") /\
  assigns "initial_psi" (text (num "100.0")) ds_line /\ good_numeral (num "100.0") /\ 0 <= value (num "0.0") <= value (num "100.0") /\
  Initialize dr_files junk dr_lines = Ok dr_state0 /\ (exists s', Initialize dr_files junk ds_lines = Ok s') /\ rounded_column (env_of dr_state0).
Proof.
  intro junk. split; [a_last 4%nat|]. split; [assigned|]. split; [good|]. split; [assigned|]. split; [good|]. split; [values; lra|]. split; [apply dr_init|].
  split; [destruct (C44_first_state_is_sound _ junk _ _ _ _ _ _ _ _ _ ds_good) as (s' & E & _); exists s'; exact E|].
  change (env_of dr_state0) with dr_env. intros k K. cbn in K. assert (k = 1%Z) as -> by lia. split.
  - exists 0, 100, (100 - 0). repeat split. lra.
  - exists dr_soil, (1 / 10), (2 / 5). split; [reflexivity|]. unfold rounded_soil. cbn [dr_soil s_theta_r s_theta_e s_alpha s_n s_m]. repeat split; try lra; eexists; split; try reflexivity; lra.
Qed.
End Run.
