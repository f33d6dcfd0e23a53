(** Examples for columns with the same soils under other numbers. *)

From Coq Require Import String Ascii Reals ZArith List Bool Lra Lia.
From RecordUpdate Require Import RecordSet.
From Verif Require Import Outcome Dbl Exact Types ListOps Fronts State Update Bmi Config Driver Lib Spec_Common Spec_Config Spec_Driver Spec_Update Spec_Profile Spec_Bmi Spec_Calib
  Pf_Update Pf_Calib Pf_InitState Pf_InitTotal Ex_Saturated Ex_TwoLayers Ex_Calib Ex_Config Ex_Driver Spec_Relayer Pf_Relayer Pf_Relayer2 Pf_Relayer3.
From Verif Require Import Update.
Import ListNotations.
Import RecordSetNotations.
Open Scope string_scope.
Open Scope list_scope.
Open Scope R_scope.

(** Another soil, which no layer has. *)
Definition rl_other : soil := mkSoil (Fin (1 / 5)) (Fin (1 / 2)) (Fin (1 / 50)) (Fin 3) (Fin (2 / 3)) (Fin 9) (Fin 1) (Fin 1) (Fin 1).
(** The column of Ex_TwoLayers, whose layers share row 1 of the table; here they have the rows 3 and 1 of a longer table. *)
Definition rl_types : list (option Z) := [None; Some 3%Z; Some 1%Z].
Definition rl_soils : list (option soil) := [None; Some ex_soil; Some rl_other; Some ex_soil].
Definition rl_state (s : state) : state := s <| st_soils := rl_soils |> <| st_p := (st_p s) <| p_stype := rl_types |> |>.

Lemma rl_layers : same_layers [None; Some 1%Z; Some 1%Z] [None; Some ex_soil] rl_types rl_soils.
Proof.
  intro k. unfold uget, aget. destruct (Z.ltb_spec k 0); [reflexivity|]. destruct (Z.to_nat k) as [|[|[|[|n]]]]; try reflexivity; cbn; destruct n; reflexivity.
Qed.
Lemma rl_own : own_rows rl_types.
Proof.
  intros i j t Hi Hj. apply uget_Ok, aget_Ok in Hi as [Pi Hi], Hj as [Pj Hj].
  assert (Q : forall n t, nth_error rl_types n = Some (Some t) -> n = 1%nat /\ t = 3%Z \/ n = 2%nat /\ t = 1%Z).
  { intros [|[|[|n]]] u H; cbn in H; try discriminate; [injection H as <-; auto..|destruct n; discriminate]. }
  destruct (Q _ _ Hi) as [[A B]|[A B]], (Q _ _ Hj) as [[C D]|[C D]]; try lia; subst; discriminate.
Qed.

Section Run.
Local Existing Instance exact.
Context {cfg : Cfg}.

Lemma rl_update : relayered tw_start (rl_state tw_start) /\ ~ own_rows (p_stype (st_p tw_start)) /\ p_calib (st_p tw_start) = false /\ exists t t', Update tw_start = Ok t /\ Update (rl_state tw_start) = Ok t' /\ st_head t' = tw_head /\ relayered t t'.
Proof.
  assert (R : relayered tw_start (rl_state tw_start)) by (exists rl_types, rl_soils; split; [reflexivity|exact rl_layers]).
  split; [exact R|]. split; [intro O; discriminate (O 1%Z 2%Z 1%Z eq_refl eq_refl)|]. split; [reflexivity|].
  destruct tw_update as (t & U & Hd & _). pose proof (update_relayer tw_start (rl_state tw_start) R ltac:(discriminate)) as B. rewrite U in B.
  destruct (Update (rl_state tw_start)) as [t'|w]; [|destruct B]. exists t, t'. split; [exact U|]. split; [reflexivity|]. split; [|exact B].
  destruct B as (st & so & -> & _). exact Hd.
Qed.

(** With other values to be applied: if the layers share a row, the upper layer has the conductivity set for the lower one, and its own if they do not. *)
Lemma rl_shared : exists s s', relayered s s' /\ sound_state s /\ sound_state s' /\ p_calib (st_p s) = true /\ c_Ksat (st_cal s) = [Fin 7; Fin 1] /\
  (exists u xs t sl, executed s u xs t /\ soil_of (u_env u) 1 = Ok sl /\ s_Ksat sl = Fin 1) /\
  (forall u' xs' t', executed s' u' xs' t' -> exists sl, soil_of (u_env u') 1 = Ok sl /\ s_Ksat sl = Fin 7).
Proof.
  destruct cs_run as (u & xs & t & X & SS & C & N & K & sl & S1 & S2 & KS). cbv zeta in *. exists (cs_start (2 / 5) 7), (rl_state (cs_start (2 / 5) 7)).
  assert (SS' : sound_state (rl_state (cs_start (2 / 5) 7))).
  { destruct SS as [[E1 E2 E3 E4 E5] P1 P2 P3 P4]. constructor; try assumption. constructor; try assumption.
    intros k Hk. assert (k = 1 \/ k = 2)%Z as [->| ->] by (change (e_nlayers (env_of (rl_state (cs_start (2 / 5) 7)))) with 2%Z in Hk; lia); eexists; reflexivity. }
  split; [exists rl_types, rl_soils; split; [reflexivity|exact rl_layers]|]. split; [exact SS|]. split; [exact SS'|]. split; [exact C|]. split; [exact K|].
  split; [exists u, xs, t, sl; auto|]. intros u' xs' t' X'.
  destruct (calibration_distinct (rl_state (cs_start (2 / 5) 7)) u' xs' t') as (D & _); try assumption; try reflexivity; [apply SS'|apply SS'|intros j k y _ _ Hj Hk; exact (rl_own _ _ _ Hj Hk)|].
  destruct (D 1%Z) as (a & b & _ & B & _ & (_ & _ & _ & _ & V & _) & _); [change (p_nlayers (st_p (rl_state (cs_start (2 / 5) 7)))) with 2%Z; lia|].
  exists b. split; [exact B|]. injection V as <-. reflexivity.
Qed.

(** ** The program *)
(** The configuration of Ex_Driver with another table, in which the soil is the second of three. *)
Definition rl_lines : list string := Eval cbn in firstn 2 dr_lines ++ ["soil_params_file=./other.dat"] ++ firstn 7 (skipn 3 dr_lines) ++ ["layer_soil_type=2"; "max_valid_soil_types=3"] ++ skipn 12 dr_lines.
Definition rl_rows : list row := [full_row "clay" (Fin (1 / 10)) (Fin (1 / 2)) (Fin (1 / 200)) (Fin (3 / 2)) (Fin (1 / 10)); full_row "Boden" (Fin (1 / 10)) (Fin (2 / 5)) (Fin (1 / 100)) (Fin 2) (Fin 1);
  full_row "sand" (Fin (1 / 20)) (Fin (2 / 5)) (Fin (1 / 10)) (Fin 3) (Fin 20)].
Definition rl_files (f : string) : option (list row) := if String.eqb f "./other.dat" then Some rl_rows else None.
Ltac a_natural := match goal with |- exists k, natural ?m k /\ _ => let k := eval vm_compute in (fold_left (fun a d => 10 * a + d)%nat (nu_int m) 0%nat) in exists k; split; [apply natural_check; chk|lia] end.
Ltac a_types n ns := apply (gl_types _ (num n) (map num ns)); [assigned|cbn [map]; repeat (apply Forall_cons; [a_natural|]); apply Forall_nil].
Lemma rl_basic : basic_config rl_files rl_lines [num "100.0"] [num "2"] [num "1.0"] (num "0.0") (1 / 2) 1 3 rl_rows.
Proof.
  constructor.
  - unfold rl_lines.
    apply Forall_cons; [a_comment|]. apply Forall_cons; [a_comment|]. apply Forall_cons; [a_file "./other.dat"|].
    apply Forall_cons; [a_vector "layer_thickness" "100.0" (@nil string)|]. apply Forall_cons; [a_number "initial_psi" "0.0"|].
    apply Forall_cons; [a_time "timestep" "1800" "[sec]" 1%R|]. apply Forall_cons; [a_time "endtime" "3600" "[s]" 1%R|].
    apply Forall_cons; [a_time "forcing_resolution" "1.0" "[hr]" 3600%R|]. apply Forall_cons; [a_number "ponded_depth_max" "1.5"|].
    apply Forall_cons; [a_flag "use_closed_form_G" true|]. apply Forall_cons; [a_types "2" (@nil string)|].
    apply Forall_cons; [apply (gl_max _ (num "3") 3); [assigned|apply natural_check; chk|lia]|].
    apply Forall_cons; [a_number "wilting_point_psi" "15495.0"|]. apply Forall_cons; [a_number "field_capacity_psi" "341"|].
    apply Forall_cons; [a_vector "giuh_ordinates" "1.0" (@nil string)|]. apply Forall_nil.
  - apply required_check. chk.
  - exists "layer_thickness=100.0[cm]". split; [a_last 3%nat|]. split; [assigned|]. split; [discriminate|]. split; [goods|]. repeat (constructor; [values; lra|]). constructor.
  - exists "layer_soil_type=2". split; [a_last 10%nat|]. split; [assigned|]. split; [discriminate|]. goods.
  - exists "giuh_ordinates=1.0". split; [a_last 14%nat|]. split; [assigned|]. split; [discriminate|]. split; [goods|]. repeat (constructor; [values; lra|]). constructor.
  - exists "initial_psi=0.0[cm]". split; [a_last 4%nat|]. split; [assigned|]. split; [good|]. values. lra.
  - exists "soil_params_file=./other.dat", "./other.dat". split; [a_last 2%nat|]. split; [assigned|]. split; [cbn; repeat split; discriminate|]. split; [reflexivity|].
    repeat (apply Forall_cons || apply Forall_nil); do 6 eexists; (split; [reflexivity|]); (split; [cbn; lia|]); lra.
  - exists (num "1800"), "[sec]", 1%R. split; [change (last_line "timestep" "timestep=1800[sec]" rl_lines); a_last 5%nat|]. split; [key|]. split; [good|]. values. lra.
  - exists (num "1.0"), "[hr]", 3600%R. split; [change (last_line "forcing_resolution" "forcing_resolution=1.0[hr]" rl_lines); a_last 7%nat|]. split; [key|]. split; [good|]. values. lra.
  - lra.
  - left. exists "max_valid_soil_types=3", (num "3"), 3%nat. split; [a_last 11%nat|]. split; [assigned|]. split; [apply natural_check; chk|]. split; [lia|reflexivity].
  - lia.
  - right; cbn; intuition discriminate.
Qed.
Lemma rl_good : good_config rl_files rl_lines [num "100.0"] [num "2"] [num "1.0"] (num "0.0") (1 / 2) 1 3 rl_rows.
Proof.
  split; [|lra]. split; [exact rl_basic|]. intros i L. cbn in L. destruct i as [|i]; [exists (num "2"), 2%nat|lia]. split; [reflexivity|]. split; [apply natural_check; chk|]. cbn. lia.
Qed.
Lemma rl_same : same_rows 1 [num "1"] [dr_row] [num "2"] rl_rows.
Proof.
  intros i Hi. assert (i = 0)%nat as -> by lia. exists (num "1"), 1%nat, (num "2"), 2%nat. eexists. eexists. split; [reflexivity|]. split; [apply natural_check; chk|]. split; [reflexivity|]. split; [apply natural_check; chk|].
  split; [reflexivity|]. split; reflexivity.
Qed.
Lemma rl_other_soils : Forall2 other_soils dr_lines rl_lines.
Proof.
  unfold dr_lines, rl_lines. repeat (apply Forall2_cons; [first [left; reflexivity|right; split; cbn; tauto]|]). apply Forall2_nil.
Qed.
Lemma rl_run : forall junk, good_config rl_files rl_lines [num "100.0"] [num "2"] [num "1.0"] (num "0.0") (1 / 2) 1 3 rl_rows /\ Forall2 other_soils dr_lines rl_lines /\ ~ In "calib_params=true" dr_lines /\
  same_rows 1 [num "1"] [dr_row] [num "2"] rl_rows /\ exists r, simulate rl_files dr_texts junk rl_lines = Ok r /\ rs_rows r = [dr_out] /\ rs_printed r = Fin 0.
Proof.
  intro junk. split; [exact rl_good|]. split; [exact rl_other_soils|]. assert (NC : ~ In "calib_params=true" dr_lines) by (cbn; intuition discriminate). split; [exact NC|]. split; [exact rl_same|].
  pose proof (program_relayer _ _ dr_texts junk junk _ _ _ _ _ _ _ _ _ _ _ _ _ dr_good rl_good rl_other_soils NC eq_refl eq_refl rl_same) as B. rewrite dr_run in B.
  destruct (simulate rl_files dr_texts junk rl_lines) as [r|w]; [|destruct B]. exists r. split; [reflexivity|]. exact B.
Qed.
End Run.
