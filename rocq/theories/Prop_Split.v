(** C88: one forcing interval or several shorter ones. *)

From Coq Require Import String Ascii Reals ZArith List Bool Lra Lia.
From RecordUpdate Require Import RecordSet.
From Verif Require Import Outcome Dbl Exact Types Fronts State Update Bmi Config Driver Lib Spec_Common Spec_Config Spec_Driver Spec_Update Spec_Influence Spec_Split
  Pf_Forcing Pf_DriverRun Pf_InitTotal Pf_Split Pf_Split2 Ex_Config Ex_Driver.
Import ListNotations.
Import RecordSetNotations.
Open Scope string_scope.
Open Scope list_scope.
Open Scope R_scope.

(** One Update over an interval of k*m sub-steps, or k Updates over m sub-steps each, with the same rates of precipitation and PET: with any rounding the column of soil is the same afterwards, the same fronts
    are published, and the storage and the balance of the last sub-step as well.  The hypothesis on the counter says that no sub-step of the long interval was skipped. *)
Theorem C88_fronts : forall (fp : Fp) (cfg : Cfg) k m s s' t, plain s -> recut s s' -> routes s' -> (0 < k)%nat -> (0 < m)%nat -> substeps_of s (Z.of_nat (k * m)) -> substeps_of s' (Z.of_nat m) ->
  Update s = Ok t -> p_timesteps (st_p t) = (p_timesteps (st_p s) + Z.of_nat (k * m))%Z ->
  exists ts, updates k s' = Ok ts /\ List.length ts = k /\ recut t (last ts s') /\ same_fronts t (last ts s') /\
    exists b b', st_out t = Some b /\ st_out (last ts s') = Some b' /\ o_end b = o_end b' /\ o_mb b = o_mb b'.
Proof. exact @split_fronts. Qed.
Print Assumptions C88_fronts.

(** In exact arithmetic the fluxes of the long interval are the sums over the short ones. *)
Theorem C88_fluxes : forall (cfg : Cfg) k m s s' t, plain s -> recut s s' -> routes s' -> (0 < k)%nat -> (0 < m)%nat -> @substeps_of exact s (Z.of_nat (k * m)) -> @substeps_of exact s' (Z.of_nat m) ->
  @Update exact cfg s = Ok t -> p_timesteps (st_p t) = (p_timesteps (st_p s) + Z.of_nat (k * m))%Z ->
  exists ts b, @updates exact cfg k s' = Ok ts /\ st_out t = Some b /\ forall g, In g [o_precip; o_in; o_aet; o_rech; o_runoff; o_pet] -> g b = @total exact g ts.
Proof. exact @split_fluxes. Qed.
Print Assumptions C88_fluxes.

(** The lines of output of a run, with any rounding. *)
Theorem C88_rows : forall (fp : Fp) (cfg : Cfg) k m s ps rs t s' pss, driven s ps rs t -> plain s -> recut s s' -> routes s' -> (0 < k)%nat -> (0 < m)%nat ->
  substeps_of s (Z.of_nat (k * m)) -> substeps_of s' (Z.of_nat m) -> p_timesteps (st_p t) = (p_timesteps (st_p s) + Z.of_nat (List.length ps) * Z.of_nat (k * m))%Z -> Forall2 (cut_steps k) ps pss ->
  exists rss t', driven s' (concat pss) (concat rss) t' /\ recut t t' /\ Forall2 (same_column k) rs rss.
Proof. exact split_rows. Qed.
Print Assumptions C88_rows.

Section Exact.
Local Existing Instance exact.

(** The standalone program: two configurations that differ in forcing_resolution only, and a forcing file in which every row is repeated k times.  If the program completes with the long interval it completes
    with the short one; it writes k lines for each line, the last of which shows the same fronts, storage and balance, and in which precipitation, PET, AET, runoff, infiltration and recharge add up. *)
Theorem C88_program : forall (cfg : Cfg) files texts texts' junk ls ls' f f' r s s' k m n dt pss,
  Forall2 other_resolution ls ls' -> Initialize files junk ls = Ok s -> Initialize files junk ls' = Ok s' -> ReadForcingData texts ls = Ok f -> ReadForcingData texts' ls' = Ok f' ->
  plain s -> (0 < k)%nat -> (0 < m)%nat -> p_timestep (st_p s) = Fin dt -> p_fres (st_p s) = Fin (INR (k * m) * dt) -> p_fres (st_p s') = Fin (INR m * dt) -> INR m * dt <= 1 ->
  p_endtime (st_p s) = Fin (INR n * (INR (k * m) * dt * 3600)) -> (Z.of_nat (n * k) <= 2147483647)%Z ->
  Forall2 (cut_steps k) (first_steps n f) pss -> first_steps (n * k) f' = concat pss -> simulate files texts junk ls = Ok r ->
  exists r' rss, simulate files texts' junk ls' = Ok r' /\ rs_rows r' = concat rss /\ List.length (rs_rows r) = n /\ Forall2 (same_column k) (rs_rows r) rss /\ Forall2 same_fluxes (rs_rows r) rss.
Proof. exact @split_program. Qed.
Print Assumptions C88_program.

(** ** Two half hours instead of an hour: the rain of Ex_Driver on the saturated column *)

Definition sp_lines : list string := Eval cbn in firstn 7 dr_lines ++ ["forcing_resolution=0.5[hr]"] ++ skipn 8 dr_lines.
Ltac a_natural := match goal with |- exists k, natural ?m k /\ _ => let k := eval vm_compute in (fold_left (fun a d => 10 * a + d)%nat (nu_int m) 0%nat) in exists k; split; [apply natural_check; chk|lia] end.
Ltac a_types n ns := apply (gl_types _ (num n) (map num ns)); [assigned|cbn [map]; repeat (apply Forall_cons; [a_natural|]); apply Forall_nil].
Lemma sp_basic : basic_config dr_files sp_lines [num "100.0"] [num "1"] [num "1.0"] (num "0.0") (1 / 2) (1 / 2) 1 [dr_row].
Proof.
  constructor.
  - unfold sp_lines.
    apply Forall_cons; [a_comment|]. apply Forall_cons; [a_comment|]. apply Forall_cons; [a_file "./soil.dat"|].
    apply Forall_cons; [a_vector "layer_thickness" "100.0" (@nil string)|]. apply Forall_cons; [a_number "initial_psi" "0.0"|].
    apply Forall_cons; [a_time "timestep" "1800" "[sec]" 1%R|]. apply Forall_cons; [a_time "endtime" "3600" "[s]" 1%R|].
    apply Forall_cons; [a_time "forcing_resolution" "0.5" "[hr]" 3600%R|]. apply Forall_cons; [a_number "ponded_depth_max" "1.5"|].
    apply Forall_cons; [a_flag "use_closed_form_G" true|]. apply Forall_cons; [a_types "1" (@nil string)|].
    apply Forall_cons; [apply (gl_max _ (num "1") 1); [assigned|apply natural_check; chk|lia]|].
    apply Forall_cons; [a_number "wilting_point_psi" "15495.0"|]. apply Forall_cons; [a_number "field_capacity_psi" "341"|].
    apply Forall_cons; [a_vector "giuh_ordinates" "1.0" (@nil string)|]. apply Forall_nil.
  - apply required_check. chk.
  - exists "layer_thickness=100.0[cm]". split; [a_last 3%nat|]. split; [assigned|]. split; [discriminate|]. split; [goods|]. repeat (constructor; [values; lra|]). constructor.
  - exists "layer_soil_type=1". split; [a_last 10%nat|]. split; [assigned|]. split; [discriminate|]. goods.
  - exists "giuh_ordinates=1.0". split; [a_last 14%nat|]. split; [assigned|]. split; [discriminate|]. split; [goods|]. repeat (constructor; [values; lra|]). constructor.
  - exists "initial_psi=0.0[cm]". split; [a_last 4%nat|]. split; [assigned|]. split; [good|]. values. lra.
  - exists "soil_params_file=./soil.dat", "./soil.dat". split; [a_last 2%nat|]. split; [assigned|]. split; [cbn; repeat split; discriminate|]. split; [reflexivity|].
    constructor; [|constructor]. exists "loam", (1 / 10), (2 / 5), (1 / 100), 2, 1. split; [reflexivity|]. split; [cbn; lia|]. lra.
  - exists (num "1800"), "[sec]", 1%R. split; [change (last_line "timestep" "timestep=1800[sec]" sp_lines); a_last 5%nat|]. split; [key|]. split; [good|]. values. lra.
  - exists (num "0.5"), "[hr]", 3600%R. split; [change (last_line "forcing_resolution" "forcing_resolution=0.5[hr]" sp_lines); a_last 7%nat|]. split; [key|]. split; [good|]. values. lra.
  - lra.
  - left. exists "max_valid_soil_types=1", (num "1"), 1%nat. split; [a_last 11%nat|]. split; [assigned|]. split; [apply natural_check; chk|]. split; [lia|reflexivity].
  - lia.
  - right; cbn; intuition discriminate.
Qed.
Lemma sp_good : good_config dr_files sp_lines [num "100.0"] [num "1"] [num "1.0"] (num "0.0") (1 / 2) (1 / 2) 1 [dr_row].
Proof.
  split; [|lra]. split; [exact sp_basic|]. intros i L. cbn in L. destruct i as [|i]; [exists (num "1"), 1%nat|lia]. split; [reflexivity|]. split; [apply natural_check; chk|]. cbn. lia.
Qed.
Definition sp_rain : string := file_of ["Time,P(mm/h),PET(mm/h)"; "2016-10-01 00:00:00,20.0,0.0"; "2016-10-01 00:30:00,20.0,0.0"].
Definition sp_texts (f : string) : option string := if String.eqb f "./rain.csv" then Some sp_rain else None.
Definition sp_forcing : forcing := mkForcing ["2016-10-01 00:00:00"; "2016-10-01 00:30:00"] [Fin 20; Fin 20] [Fin 0; Fin 0].
Lemma sp_read : ReadForcingData sp_texts sp_lines = Ok sp_forcing.
Proof.
  cbv -[IZR powerRZ Rmult Rplus Rdiv Rinv Rminus Ropp].
  replace (powerRZ 10 (-1)) with (1 / 10) by (change (powerRZ 10 (-1)) with (/ 10 ^ 1); field). replace (powerRZ 10 0) with 1 by reflexivity.
  repeat match goal with
  | |- ?x = ?x => reflexivity
  | |- Fin _ = Fin _ => apply f_equal; lra
  | |- @eq R _ _ => fail 1
  | |- _ = _ => f_equal
  end.
Qed.

(** The hour has two sub-steps of half an hour; 5 mm of the 20 mm run off, and they are the sum of the runoff of the two half hours. *)
Example C88_half_hours : forall (cfg : Cfg) junk, Forall2 other_resolution dr_lines sp_lines /\ sp_lines <> dr_lines /\ simulate dr_files dr_texts junk dr_lines = Ok (mkResult [dr_out] (mkObj dr_end (repeat None 11)) (Fin 0)) /\
  exists r q1 q2 x1 x2, simulate dr_files sp_texts junk sp_lines = Ok r /\ rs_rows r = [q1; q2] /\ w_fronts q2 = [dr_front] /\ nth_error (w_vars q2) 5 = Some (D (Fin (4 / 10))) /\
    nth_error (w_vars q1) 3 = Some (D x1) /\ nth_error (w_vars q2) 3 = Some (D x2) /\ (x1 + (x2 + Fin 0))%d = Fin (1 / 200).
Proof.
  intros cfg junk. assert (F : Forall2 other_resolution dr_lines sp_lines).
  { unfold dr_lines, sp_lines. do 7 (apply Forall2_cons; [left; reflexivity|]). apply Forall2_cons; [right; split; reflexivity|]. repeat (apply Forall2_cons; [left; reflexivity|]). apply Forall2_nil. }
  destruct (configured dr_files junk _ _ _ _ _ _ _ _ _ sp_good) as (s' & S' & _ & _ & _ & _ & _ & _ & _ & _ & Fr). split; [exact F|]. split; [discriminate|]. split; [apply dr_run|].
  destruct (C88_program cfg dr_files dr_texts sp_texts junk dr_lines sp_lines dr_forcing sp_forcing (mkResult [dr_out] (mkObj dr_end (repeat None 11)) (Fin 0)) dr_state0 s' 2 1 1 (1 / 2)
    [[("2016-10-01 00:00:00", Fin 20, Fin 0); ("2016-10-01 00:30:00", Fin 20, Fin 0)]] F (dr_init junk) S' dr_read sp_read) as (r & rss & R1 & R2 & R3 & R4 & R5).
  - repeat split.
  - lia.
  - lia.
  - reflexivity.
  - change (Fin 1 = Fin (INR (2 * 1) * (1 / 2))). f_equal. cbn. lra.
  - rewrite Fr. f_equal. cbn. lra.
  - cbn. lra.
  - change (Fin 3600 = Fin (INR 1 * (INR (2 * 1) * (1 / 2) * 3600))). f_equal. cbn. lra.
  - cbn. lia.
  - constructor; [|constructor]. split; [reflexivity|]. intros q [<-|[<-|[]]]; split; reflexivity.
  - reflexivity.
  - apply dr_run.
  - cbn [rs_rows] in R3, R4, R5. inversion R4 as [|a rb l l' (L & q & Q1 & Q2 & Q3 & _) T]; subst. inversion T; subst. inversion R5 as [|a b l l' Fl T2]; subst.
    destruct rb as [|q1 [|q2 [|? ?]]]; try discriminate L. cbn in Q1. injection Q1 as <-. destruct (Fl 3%nat ltac:(cbn; tauto)) as (x & X1 & X2).
    inversion X2 as [|? ? x1 y1 A1 A2]; subst. inversion A2 as [|? ? x2 y2 B1 B2]; subst. inversion B2; subst.
    exists r, q1, q2, x1, x2. split; [exact R1|]. split; [rewrite R2; reflexivity|]. split; [exact Q2|]. split; [exact Q3|]. split; [exact A1|]. split; [exact B1|].
    cbn in X1. injection X1 as X1. symmetry. exact X1.
Qed.

(** The same at the level of Update: the state with the hour is that of [dr_start], the other one has half an hour instead. *)
Definition sp_start : state := dr_start <| st_p := (st_p dr_start) <| p_fres := Fin (1 / 2) |> <| p_finterval := 1%Z |> |>.
Lemma sp_fixes : plain dr_start /\ recut dr_start sp_start /\ routes sp_start /\ substeps_of dr_start 2 /\ substeps_of sp_start 1.
Proof.
  split; [repeat split|]. split; [|split].
  - exists (Fin (1 / 2)), 1%Z, (p_nfronts (st_p dr_start)), (p_theta_wf (st_p dr_start)), (p_depth_wf (st_p dr_start)), (st_out dr_start), (g_N dr_start), (g_ord dr_start), (g_queue dr_start), (st_mb dr_start).
    split; reflexivity.
  - unfold routes. cbn. lia.
  - split; unfold substeps_of; [change (p_fres (st_p dr_start)) with (Fin 1); change (p_timestep (st_p dr_start)) with (Fin (1 / 2))|
      change (p_fres (st_p sp_start)) with (Fin (1 / 2)); change (p_timestep (st_p sp_start)) with (Fin (1 / 2))].
    + replace (Fin 1) with (Fin (INR 2 * (1 / 2))) by (f_equal; cbn; lra). apply (whole 2 (1 / 2)); [lra|cbn; lia].
    + replace (Fin (1 / 2)) with (Fin (INR 1 * (1 / 2))) at 1 by (f_equal; cbn; lra). apply (whole 1 (1 / 2)); [lra|cbn; lia].
Qed.
Example C88_update : forall (cfg : Cfg), Update dr_start = Ok dr_end /\ p_timesteps (st_p dr_end) = (p_timesteps (st_p dr_start) + 2)%Z /\
  exists t1 t2, updates 2 sp_start = Ok [t1; t2] /\ same_fronts dr_end t2 /\ total o_runoff [t1; t2] = Fin (1 / 200).
Proof.
  intro cfg. destruct sp_fixes as (H1 & H2 & H3 & H4 & H5). split; [exact dr_update|]. split; [reflexivity|].
  destruct (C88_fronts exact cfg 2 1 dr_start sp_start dr_end H1 H2 H3 ltac:(lia) ltac:(lia) H4 H5 dr_update eq_refl) as (ts & U & L & _ & SF & _).
  destruct (C88_fluxes cfg 2 1 dr_start sp_start dr_end H1 H2 H3 ltac:(lia) ltac:(lia) H4 H5 dr_update eq_refl) as (ts' & b & U' & B & T). assert (ts' = ts) as -> by congruence.
  destruct ts as [|t1 [|t2 [|? ?]]]; try discriminate L. exists t1, t2. split; [exact U|]. split; [exact SF|]. rewrite <- (T o_runoff ltac:(cbn; tauto)). injection B as <-. reflexivity.
Qed.
End Exact.
