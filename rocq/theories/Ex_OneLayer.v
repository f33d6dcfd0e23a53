(** Worked examples for a column of one soil layer: the configuration and the run of Ex_Driver, and the same configuration with an end time
    shorter than one forcing step. *)

From Coq Require Import String Ascii Reals Lra ZArith List Bool Lia.
From RecordUpdate Require Import RecordSet.
From Verif Require Import Outcome Dbl Exact Types ListOps Soil Fronts Infil Move State Update Config Driver Lib Spec_Common Spec_Soil Spec_Update Spec_Profile Spec_Storage Spec_Velocity Spec_Single Spec_SubSingle
  Spec_Bmi Spec_Config Spec_Run Spec_Driver Spec_OneLayer Spec_OneConfig Spec_OneProgram Pf_Dbl Pf_Pow Pf_Config Pf_SafeMove Pf_OneLayer Pf_OneConfig Ex_Config Ex_Driver.
Import ListNotations.
Import RecordSetNotations.
Open Scope string_scope.
Open Scope list_scope.
Open Scope R_scope.
Local Existing Instance exact.

(** The configuration of Ex_Driver with end time [l]. *)
Definition on_lines (l : string) : list string := map (fun x => if String.eqb x "endtime=3600[s]" then l else x) dr_lines.
Lemma on_same : on_lines "endtime=3600[s]" = dr_lines.
Proof. reflexivity. Qed.

Lemma dr_single : single_config dr_files dr_lines (num "100.0") [num "1"] [num "1.0"] (num "0.0") (num "15495.0") (num "341") (1 / 2) 1 1 [dr_row].
Proof.
  constructor.
  - exact dr_good.
  - exists "wilting_point_psi=15495.0[cm]". split; [a_last 12%nat|]. split; [assigned|]. split; [good|]. values. lra.
  - exists "field_capacity_psi=341[cm]". split; [a_last 13%nat|]. split; [assigned|]. split; [good|]. values. lra.
  - values. lra.
  - lra.
  - constructor; [|constructor]. intros nm tr te al n k H. unfold dr_row, full_row in H. injection H as _ <- _ _ _ _. lra.
  - cbn. intuition discriminate.
  - cbn. intuition discriminate.
Qed.
Lemma dr_plausible : plausible dr_forcing.
Proof. split; repeat (constructor; [eexists; split; [reflexivity|lra]|]); constructor. Qed.

Ltac a_natural := match goal with |- exists k, natural ?m k /\ _ => let k := eval vm_compute in (fold_left (fun a d => 10 * a + d)%nat (nu_int m) 0%nat) in exists k; split; [apply natural_check; chk|lia] end.
Ltac a_types n ns := apply (gl_types _ (num n) (map num ns)); [assigned|cbn [map]; repeat (apply Forall_cons; [a_natural|]); apply Forall_nil].
Definition on_short : list string := on_lines "endtime=1800[s]".
Lemma on_basic : basic_config dr_files on_short [num "100.0"] [num "1"] [num "1.0"] (num "0.0") (1 / 2) 1 1 [dr_row].
Proof.
  constructor.
  - unfold on_short, on_lines, dr_lines. cbn [map String.eqb Ascii.eqb Bool.eqb].
    apply Forall_cons; [a_comment|]. apply Forall_cons; [a_comment|]. apply Forall_cons; [a_file "./soil.dat"|].
    apply Forall_cons; [a_vector "layer_thickness" "100.0" (@nil string)|]. apply Forall_cons; [a_number "initial_psi" "0.0"|].
    apply Forall_cons; [a_time "timestep" "1800" "[sec]" 1%R|]. apply Forall_cons; [a_time "endtime" "1800" "[s]" 1%R|].
    apply Forall_cons; [a_time "forcing_resolution" "1.0" "[hr]" 3600%R|]. apply Forall_cons; [a_number "ponded_depth_max" "1.5"|].
    apply Forall_cons; [a_flag "use_closed_form_G" true|]. apply Forall_cons; [a_types "1" (@nil string)|].
    apply Forall_cons; [apply (gl_max _ (num "1") 1); [assigned|apply natural_check; chk|lia]|].
    apply Forall_cons; [a_number "wilting_point_psi" "15495.0"|]. apply Forall_cons; [a_number "field_capacity_psi" "341"|].
    apply Forall_cons; [a_vector "giuh_ordinates" "1.0" (@nil string)|]. apply Forall_nil.
  - apply required_check. chk.
  - exists "layer_thickness=100.0[cm]". split; [a_last 3%nat|]. split; [assigned|]. split; [discriminate|]. split; [goods|]. repeat (constructor; [values; lra|]). constructor.
  - exists "layer_soil_type=1". split; [a_last 10%nat|]. split; [assigned|]. split; [discriminate|]. goods.
  - exists "giuh_ordinates=1.0". split; [a_last 14%nat|]. split; [assigned|]. split; [discriminate|]. split; [goods|]. repeat (constructor; [values; lra|]). constructor.
  - exists "initial_psi=0.0[cm]". split; [a_last 4%nat|]. split; [assigned|]. split; [good|]. values. lra.
  - exists "soil_params_file=./soil.dat", "./soil.dat". split; [a_last 2%nat|]. split; [assigned|]. split; [cbn; repeat split; discriminate|]. split; [reflexivity|].
    constructor; [|constructor]. exists "loam", (1 / 10), (2 / 5), (1 / 100), 2, 1. split; [reflexivity|]. split; [cbn; lia|]. lra.
  - exists (num "1800"), "[sec]", 1%R. split; [change (last_line "timestep" "timestep=1800[sec]" on_short); a_last 5%nat|]. split; [key|]. split; [good|]. values. lra.
  - exists (num "1.0"), "[hr]", 3600%R. split; [change (last_line "forcing_resolution" "forcing_resolution=1.0[hr]" on_short); a_last 7%nat|]. split; [key|]. split; [good|]. values. lra.
  - lra.
  - left. exists "max_valid_soil_types=1", (num "1"), 1%nat. split; [a_last 11%nat|]. split; [assigned|]. split; [apply natural_check; chk|]. split; [lia|reflexivity].
  - lia.
  - right; cbn; intuition discriminate.
Qed.
Lemma on_single : single_config dr_files on_short (num "100.0") [num "1"] [num "1.0"] (num "0.0") (num "15495.0") (num "341") (1 / 2) 1 1 [dr_row].
Proof.
  constructor.
  - split; [|lra]. split; [exact on_basic|]. intros i L. cbn in L. destruct i as [|i]; [exists (num "1"), 1%nat|lia]. split; [reflexivity|]. split; [apply natural_check; chk|]. cbn. lia.
  - exists "wilting_point_psi=15495.0[cm]". split; [a_last 12%nat|]. split; [assigned|]. split; [good|]. values. lra.
  - exists "field_capacity_psi=341[cm]". split; [a_last 13%nat|]. split; [assigned|]. split; [good|]. values. lra.
  - values. lra.
  - lra.
  - constructor; [|constructor]. intros nm tr te al n k H. unfold dr_row, full_row in H. injection H as _ <- _ _ _ _. lra.
  - cbn. intuition discriminate.
  - cbn. intuition discriminate.
Qed.
Lemma on_ends : ends_at on_short 1800.
Proof. exists (num "1800"), "[s]", 1%R. split; [good|]. split; [cbn; tauto|]. split; [change (last_line "endtime" "endtime=1800[s]" on_short); a_last 6%nat|]. values. lra. Qed.
Lemma on_read : ReadForcingData dr_texts on_short = Ok dr_forcing.
Proof. rewrite <- dr_read. reflexivity. Qed.

Section Run.
Context {cfg : Cfg}.
(** The state after Initialize, the first Update with 20 mm/h of rain. *)
Lemma on_start : one_layer dr_soil (1 / 10) (2 / 5) 100 dr_state0 /\ fresh dr_state0.
Proof.
  destruct (single_start dr_files (Fin 0) _ _ _ _ _ _ _ _ _ _ _ dr_single) as (s & sl & r & te & a & n & K & H & OL & FR & SR & (m & VG) & _).
  rewrite dr_init in H. apply Ok_inj in H. subst s. split; [|exact FR].
  assert (SL : sl = dr_soil) by (pose proof (sg_soil _ _ _ _ _ (ol_single _ _ _ _ _ OL)) as Q; apply Ok_inj in Q; symmetry; exact Q). subst sl.
  destruct VG as [Vr Ve _ _ _ _ _ _ _ _ _]. cbn in Vr, Ve. injection Vr as <-. injection Ve as <-.
  replace 100 with (value (num "100.0")) by (values; lra). exact OL.
Qed.
Lemma on_edit : user_edit dr_state0 dr_start.
Proof. exists (Fin 20), (Fin 0), [Fin 0], dr_cal, None, 1%Z, [Fin (2 / 5)], [Fin 1]. reflexivity. Qed.
Lemma on_history : history known_weather dr_state0 [] dr_start.
Proof. eapply hist_edit; [constructor|exact on_edit|split; eexists; reflexivity]. Qed.

(** The first sub-step of it: one saturated front. *)
Definition on_acc : acc := mkAcc (Fin 0) (Fin 0) (Fin 0) (Fin 40) (Fin 0) (Fin 0) (Fin 0) (Fin 0).
Lemma on_plain : plain (dr_upar (1 / 2) (3 / 2)) dr_soil (1 / 10) (2 / 5) 100 (1 / 2).
Proof.
  destruct on_start as [OL _]. constructor; [exact (ol_single _ _ _ _ _ OL)|reflexivity|lra|exact (ol_capillary _ _ _ _ _ OL)|exists (3 / 2); split; [reflexivity|lra]|exists 15495, 341; repeat split; lra].
Qed.
Lemma on_placed : placed (dr_upar (1 / 2) (3 / 2)) (2 / 5) 100 dr_start on_acc.
Proof.
  destruct on_start as [OL _]. constructor; [reflexivity|exact (ol_fronts _ _ _ _ _ OL)| |exists 0; split; [reflexivity|lra]|eexists; reflexivity|eexists; reflexivity].
  cbn. f_equal. lra.
Qed.
Lemma on_rooted : rooted dr_soil (st_head dr_start).
Proof. exact (ol_rooted _ _ _ _ _ (proj1 on_start)). Qed.
Lemma on_substep : exists st' a', substep (dr_upar (1 / 2) (3 / 2)) dr_start on_acc = Ok (st', a').
Proof. do 2 eexists. unfold dr_start, on_acc. apply dr_substep; lra. Qed.
End Run.
