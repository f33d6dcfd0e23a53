(** C87: what does not influence the results. *)

From Coq Require Import String Ascii Reals ZArith List Bool Lra Lia.
From RecordUpdate Require Import RecordSet.
From Verif Require Import Outcome Dbl Exact Types Fronts State Update Bmi Config Driver Lib Spec_Common Spec_Config Spec_Driver Spec_Update Spec_Influence
  Pf_Forcing Pf_DriverRun Pf_InitTotal Pf_Influence Ex_Config Ex_Driver.
Import ListNotations.
Import RecordSetNotations.
Open Scope string_scope.
Open Scope list_scope.
Open Scope R_scope.

(** Whatever memory holds that the code never writes before it computes the water content at the wilting point (the local vg_m, and the wilting point if it is not configured): the initial state, or the reason
    for which there is none, is the same, and so is the run of the program. *)
Theorem C87_indeterminate_memory :
  forall (fp : Fp) (cfg : Cfg) files texts junk junk' ls,
    Initialize files junk ls = Initialize files junk' ls /\ simulate files texts junk ls = simulate files texts junk' ls.
Proof. intros fp cfg files texts junk junk' ls. split; [apply initialize_junk|apply simulate_junk]. Qed.
Print Assumptions C87_indeterminate_memory.

(** Two clients that change the same model through the interface before an Update: if no calibration is pending and they agree on the forcing, and on the soil temperatures if these are coupled, then the Update
    ends the same way for both, and publishes the same fluxes, fronts and totals.  The other variables of the interface, among them the published fluxes, the number of fronts and the calibration values, do not matter. *)
Theorem C87_written_variables :
  forall (fp : Fp) (cfg : Cfg) s s1 s2,
    user_edit s s1 -> user_edit s s2 -> p_invalid (st_p s) = false -> p_calib (st_p s) = false ->
    st_precip s1 = st_precip s2 -> st_pet s1 = st_pet s2 -> (p_sft (st_p s) = true -> p_soilT (st_p s1) = p_soilT (st_p s2)) ->
    both (fun t1 t2 => published t1 = published t2 /\ st_mb t1 = st_mb t2 /\ g_queue t1 = g_queue t2) (Update s1) (Update s2).
Proof. exact @edits_same. Qed.
Print Assumptions C87_written_variables.

(** The same for sessions of any length, in which the clients write before every Update. *)
Theorem C87_sessions :
  forall (fp : Fp) (cfg : Cfg) s rs t rs' t',
    session s rs t -> session s rs' t' -> p_invalid (st_p s) = false -> p_calib (st_p s) = false ->
    Forall2 (fun r r' => fst (fst (fst r)) = fst (fst (fst r')) /\ snd (fst (fst r)) = snd (fst (fst r')) /\ (p_sft (st_p s) = true -> snd (fst r) = snd (fst r'))) rs rs' ->
    map snd rs = map snd rs'.
Proof. exact @session_inputs. Qed.
Print Assumptions C87_sessions.

(** The unit hydrograph is downstream of everything else: an Update with another hydrograph, other water on its way through it or other routed totals ends the same way, and everything but the routed runoff,
    the discharge and their totals is the same. *)
Theorem C87_routing_update :
  forall (fp : Fp) (cfg : Cfg) s s', rerouted s s' -> routes s -> routes s' ->
    both (fun t t' => rerouted t t' /\ routes t /\ routes t' /\ exists b b', st_out t = Some b /\ st_out t' = Some b' /\ unrouted b = unrouted b') (Update s) (Update s').
Proof. exact @routing_both. Qed.
Print Assumptions C87_routing_update.

(** So for the program: with configurations that differ in the lines giuh_ordinates only, and that both initialise, it ends the same way, writes the same lines but for the cells giuh_runoff and total_discharge,
    and prints the same balance. *)
Theorem C87_routing_program :
  forall (fp : Fp) (cfg : Cfg) files texts junk ls ls' s s',
    Forall2 other_hydrograph ls ls' -> Initialize files junk ls = Ok s -> Initialize files junk ls' = Ok s' -> (1 <= g_N s)%Z ->
    both (fun r r' => Forall2 same_but_routing (rs_rows r) (rs_rows r') /\ rs_printed r = rs_printed r') (simulate files texts junk ls) (simulate files texts junk ls').
Proof. exact @routing_simulate. Qed.
Print Assumptions C87_routing_program.

(** What is written does not depend on the future: with forcing files that agree in their first [k] rows, two completed runs agree in the first [k] lines of their output. *)
Theorem C87_causality :
  forall (fp : Fp) (cfg : Cfg) files texts texts' junk ls f f' k r r',
    ReadForcingData texts ls = Ok f -> ReadForcingData texts' ls = Ok f' -> same_until k f f' ->
    simulate files texts junk ls = Ok r -> simulate files texts' junk ls = Ok r' -> firstn k (rs_rows r) = firstn k (rs_rows r').
Proof. exact @causal. Qed.
Print Assumptions C87_causality.

(** Concrete cases: the run of [Ex_Driver.v], rain on a saturated column. *)
Local Existing Instance exact.

(** A client that writes nonsense into the outputs, the number of fronts and the calibration values. *)
Definition in_careless : state :=
  dr_start <| st_out := Some (mkOut (Fin 1) (Fin 2) (Fin 3) (Fin 4) NaN NaN NaN NaN PInf PInf PInf) |> <| st_cal := mkCal [] [] [] [] [] (Fin 7) (Fin 8) |>
    <| st_p := (st_p dr_start) <| p_soilT := [Fin 5] |> <| p_nfronts := 77%Z |> <| p_theta_wf := [NaN] |> <| p_depth_wf := [] |> |>.
Example C87_careless_client : forall cfg : Cfg, user_edit dr_start in_careless /\ session dr_start [((Fin 20, Fin 0, [Fin 0]), published dr_end)] dr_end /\
  exists t, session dr_start [((Fin 20, Fin 0, [Fin 5]), published dr_end)] t /\ p_soilT (st_p t) = [Fin 5].
Proof.
  intro cfg. assert (A : user_edit dr_start in_careless).
  { exists (Fin 20), (Fin 0), [Fin 5], (mkCal [] [] [] [] [] (Fin 7) (Fin 8)). do 4 eexists. reflexivity. }
  assert (B : user_edit dr_start dr_start).
  { exists (Fin 20), (Fin 0), [Fin 0], dr_cal. do 4 eexists. reflexivity. }
  split; [exact A|]. split; [exact (ss_step dr_start dr_start dr_end [] dr_end B dr_update (ss_end dr_end))|].
  pose proof (C87_written_variables exact cfg dr_start dr_start in_careless B A eq_refl eq_refl eq_refl eq_refl ltac:(discriminate)) as H. rewrite dr_update in H.
  destruct (Update in_careless) as [t|w] eqn:E; [|destruct H]. cbn [both] in H. destruct H as (H & _).
  exists t. split; [rewrite H; exact (ss_step dr_start in_careless t [] t A E (ss_end t))|].
  pose proof (update_scribble [Fin 5] (mkCal [] [] [] [] [] (Fin 7) (Fin 8)) (Some (mkOut (Fin 1) (Fin 2) (Fin 3) (Fin 4) NaN NaN NaN NaN PInf PInf PInf)) 77%Z [NaN] [] dr_start eq_refl eq_refl ltac:(discriminate)) as S.
  rewrite dr_update in S. cbn [res_map] in S. change (scribble [Fin 5] (mkCal [] [] [] [] [] (Fin 7) (Fin 8)) (Some (mkOut (Fin 1) (Fin 2) (Fin 3) (Fin 4) NaN NaN NaN NaN PInf PInf PInf)) 77%Z [NaN] [] dr_start) with in_careless in S.
  rewrite E in S. apply Ok_inj in S. subst t. reflexivity.
Qed.

(** Another hydrograph. *)
Definition in_lines : list string := Eval cbn in firstn 14 dr_lines ++ ["giuh_ordinates=0.5,0.25,0.25"].
Ltac a_natural := match goal with |- exists k, natural ?m k /\ _ => let k := eval vm_compute in (fold_left (fun a d => 10 * a + d)%nat (nu_int m) 0%nat) in exists k; split; [apply natural_check; chk|lia] end.
Ltac a_types n ns := apply (gl_types _ (num n) (map num ns)); [assigned|cbn [map]; repeat (apply Forall_cons; [a_natural|]); apply Forall_nil].
Lemma in_good : good_config dr_files in_lines [num "100.0"] [num "1"] (map num ["0.5"; "0.25"; "0.25"]) (num "0.0") (1 / 2) 1 1 [dr_row].
Proof.
  split; [|lra]. split.
  - constructor.
    + unfold in_lines.
      apply Forall_cons; [a_comment|]. apply Forall_cons; [a_comment|]. apply Forall_cons; [a_file "./soil.dat"|].
      apply Forall_cons; [a_vector "layer_thickness" "100.0" (@nil string)|]. apply Forall_cons; [a_number "initial_psi" "0.0"|].
      apply Forall_cons; [a_time "timestep" "1800" "[sec]" 1%R|]. apply Forall_cons; [a_time "endtime" "3600" "[s]" 1%R|].
      apply Forall_cons; [a_time "forcing_resolution" "1.0" "[hr]" 3600%R|]. apply Forall_cons; [a_number "ponded_depth_max" "1.5"|].
      apply Forall_cons; [a_flag "use_closed_form_G" true|]. apply Forall_cons; [a_types "1" (@nil string)|].
      apply Forall_cons; [apply (gl_max _ (num "1") 1); [assigned|apply natural_check; chk|lia]|].
      apply Forall_cons; [a_number "wilting_point_psi" "15495.0"|]. apply Forall_cons; [a_number "field_capacity_psi" "341"|].
      apply Forall_cons; [a_vector "giuh_ordinates" "0.5" ["0.25"; "0.25"]|]. apply Forall_nil.
    + apply required_check. chk.
    + exists "layer_thickness=100.0[cm]". split; [a_last 3%nat|]. split; [assigned|]. split; [discriminate|]. split; [goods|]. repeat (constructor; [values; lra|]). constructor.
    + exists "layer_soil_type=1". split; [a_last 10%nat|]. split; [assigned|]. split; [discriminate|]. goods.
    + exists "giuh_ordinates=0.5,0.25,0.25". split; [a_last 14%nat|]. split; [assigned|]. split; [discriminate|]. split; [goods|]. repeat (constructor; [values; lra|]). constructor.
    + exists "initial_psi=0.0[cm]". split; [a_last 4%nat|]. split; [assigned|]. split; [good|]. values. lra.
    + exists "soil_params_file=./soil.dat", "./soil.dat". split; [a_last 2%nat|]. split; [assigned|]. split; [cbn; repeat split; discriminate|]. split; [reflexivity|].
      constructor; [|constructor]. exists "loam", (1 / 10), (2 / 5), (1 / 100), 2, 1. split; [reflexivity|]. split; [cbn; lia|]. lra.
    + exists (num "1800"), "[sec]", 1%R. split; [change (last_line "timestep" "timestep=1800[sec]" in_lines); a_last 5%nat|]. split; [key|]. split; [good|]. values. lra.
    + exists (num "1.0"), "[hr]", 3600%R. split; [change (last_line "forcing_resolution" "forcing_resolution=1.0[hr]" in_lines); a_last 7%nat|]. split; [key|]. split; [good|]. values. lra.
    + lra.
    + left. exists "max_valid_soil_types=1", (num "1"), 1%nat. split; [a_last 11%nat|]. split; [assigned|]. split; [apply natural_check; chk|]. split; [lia|reflexivity].
    + lia.
    + right; cbn; intuition discriminate.
  - intros i L. cbn in L. destruct i as [|i]; [exists (num "1"), 1%nat|lia]. split; [reflexivity|]. split; [apply natural_check; chk|]. cbn. lia.
Qed.
(** It also runs, and the runoff of its line is that of [dr_out]: half a centimetre. *)
Example C87_other_hydrograph : forall (cfg : Cfg) junk, Forall2 other_hydrograph dr_lines in_lines /\ (exists s', Initialize dr_files junk in_lines = Ok s') /\ Initialize dr_files junk dr_lines = Ok dr_state0 /\
  exists r row, simulate dr_files dr_texts junk in_lines = Ok r /\ rs_rows r = [row] /\ nth_error (w_vars row) 3 = Some (D (Fin (1 / 200))) /\ rs_printed r = Fin 0.
Proof.
  intros cfg junk. assert (F : Forall2 other_hydrograph dr_lines in_lines).
  { unfold dr_lines, in_lines. do 14 (apply Forall2_cons; [left; reflexivity|]). apply Forall2_cons; [right; split; reflexivity|apply Forall2_nil]. }
  destruct (configured dr_files junk _ _ _ _ _ _ _ _ _ in_good) as (s' & S' & _). split; [exact F|]. split; [exists s'; exact S'|]. split; [apply dr_init|].
  pose proof (C87_routing_program exact cfg dr_files dr_texts junk dr_lines in_lines dr_state0 s' F (dr_init junk) S' ltac:(cbn; lia)) as H. rewrite dr_run in H.
  destruct (simulate dr_files dr_texts junk in_lines) as [r|w]; [|destruct H]. cbn [both rs_rows rs_printed] in H. destruct H as [H P]. exists r.
  inversion H as [|x row l l' (_ & _ & _ & Q) T E1 E2]; subst. inversion T; subst. exists row. split; [reflexivity|]. split; [reflexivity|]. split; [|symmetry; exact P].
  rewrite <- (Q 3%nat) by discriminate. reflexivity.
Qed.

(** Another second hour. *)
Definition in_rain : string := file_of ["Time,P(mm/h),PET(mm/h)"; "2016-10-01 00:00:00,20.0,0.0"; "2016-10-01 01:00:00,80,0.7"].
Definition in_texts (f : string) : option string := if String.eqb f "./rain.csv" then Some in_rain else None.
Definition in_forcing : forcing := mkForcing ["2016-10-01 00:00:00"; "2016-10-01 01:00:00"] [Fin 20; Fin 80] [Fin 0; Fin (7 / 10)].
Lemma in_read : ReadForcingData in_texts dr_lines = Ok in_forcing.
Proof.
  cbv -[IZR powerRZ Rmult Rplus Rdiv Rinv Rminus Ropp].
  replace (powerRZ 10 (-1)) with (1 / 10) by (change (powerRZ 10 (-1)) with (/ 10 ^ 1); field). replace (powerRZ 10 0) with 1 by reflexivity.
  repeat match goal with
  | |- ?x = ?x => reflexivity
  | |- Fin _ = Fin _ => apply f_equal; lra
  | |- @eq R _ _ => fail 1
  | |- _ = _ => f_equal
  end.
Qed.
Example C87_other_future : forall (cfg : Cfg) junk, ReadForcingData dr_texts dr_lines = Ok dr_forcing /\ ReadForcingData in_texts dr_lines = Ok in_forcing /\ same_until 1 dr_forcing in_forcing /\
  dr_forcing <> in_forcing /\ (exists r, simulate dr_files dr_texts junk dr_lines = Ok r) /\ exists r', simulate dr_files in_texts junk dr_lines = Ok r'.
Proof.
  intros cfg junk. split; [exact dr_read|]. split; [exact in_read|]. split; [repeat split|]. split; [intro H; apply (f_equal fo_precip) in H; injection H as H; lra|]. split; [eexists; apply dr_run|].
  unfold simulate. rewrite dr_init. cbn [bind]. cbv zeta. unfold GetEndTime, GetTimeStep. cbn [ob_s].
  change (p_endtime (st_p dr_state0)) with (Fin 3600). change (p_fres (st_p dr_state0)) with (Fin 1). rewrite dr_steps_count. cbn [bind]. rewrite in_read. cbn [bind].
  change (1 <=? Z.of_nat (List.length (fo_pet in_forcing)))%Z with true. cbn [cassert bind]. change (Z.to_nat 1) with 1%nat. cbn [drive]. unfold drive_step.
  change (aget (fo_precip in_forcing) 0) with (Ok (Fin 20)). cbn [bind]. rewrite set_precip. cbn [bind]. change (aget (fo_pet in_forcing) 0) with (Ok (Fin 0)). cbn [bind]. rewrite set_pet. cbn [bind].
  unfold bmi_Update. cbn [ob_s]. change (dr_state0 <| st_precip := Fin 20 |> <| st_pet := Fin 0 |>) with dr_start. rewrite dr_update. cbn [bind ob_pre ob_s]. eexists. reflexivity.
Qed.
