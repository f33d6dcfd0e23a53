(** Proofs about the standalone program on a column of one soil layer. *)

From Coq Require Import String Ascii Reals Lra ZArith List Bool Lia.
From RecordUpdate Require Import RecordSet.
From Verif Require Import Outcome Dbl Exact Types ListOps Fronts State Update Bmi Config Driver Lib Spec_Common Spec_List Spec_Column Spec_Profile Spec_Update Spec_Bmi Spec_Config Spec_Run Spec_Driver
  Spec_Soil Spec_Storage Spec_Single Spec_SubSingle Spec_OneLayer Spec_OneConfig Spec_OneProgram Pf_List Pf_Dbl Pf_Structure Pf_Update Pf_SafeUpdate Pf_SafeHistory Pf_Config Pf_Init Pf_InitState Pf_InitTotal Pf_Alone Pf_SafeMove Pf_Soil Pf_Storage Pf_Single Pf_Forcing Pf_ConfigThm Pf_RunExact Pf_DriverRun Pf_DriverBalance Pf_OneLayer Pf_OneConfig.
Import ListNotations.
Import RecordSetNotations.
Open Scope string_scope.
Open Scope list_scope.
Open Scope R_scope.
Local Existing Instance exact.

Section Run.
Context {cfg : Cfg}.
Variables (dt fres D : R) (sl : soil) (r te : R) (s0 : state).
Hypothesis Hdt : 0 < dt.
Hypothesis Hfine : dt <= fres.
Hypothesis Hint : fres / dt + 1 < 2147483647.
Hypothesis OL : one_layer sl r te D s0.
Hypothesis ST0 : steady dt fres s0.

Lemma slow_stop : forall closed l why, substep_stops closed l why -> program_stops why.
Proof. intros closed l why [Q|[Q|[[Q _]|[_ [Q|Q]]]]]; unfold program_stops; auto. Qed.

Lemma step_single : forall f i o xs, serving dt fres o -> history known_weather s0 xs (ob_s o) -> plausible f ->
  (0 <= i < Z.of_nat (List.length (fo_pet f)))%Z -> (List.length (fo_pet f) <= List.length (fo_precip f) <= List.length (fo_time f))%nat ->
  ends program_stops (fun '(o', _) => serving dt fres o' /\ ob_pre o' = ob_pre o /\
    exists s u ys, history known_weather s0 xs s /\ executed s u ys (ob_s o') /\ INR (length ys) <= fres / dt + 1) (drive_step f i o).
Proof.
  intros f i o xs I HI [PP PE] Hi L. unfold drive_step. destruct (aget_in_range _ (fo_precip f) i) as [p Ep]; [lia|]. destruct (aget_in_range _ (fo_pet f) i) as [e Ee]; [lia|].
  destruct (aget_in_range _ (fo_time f) i) as [t Et]; [lia|]. rewrite Ep. cbn [bind]. rewrite set_precip. cbn [bind]. rewrite Ee. cbn [bind]. rewrite set_pet. cbn [bind ob_s ob_pre].
  pose proof (forced_serving dt fres p e _ I) as I1. fold (with_forcing p e (ob_s o)). unfold bmi_Update. cbn [ob_s ob_pre].
  assert (Ed : user_edit (ob_s o) (with_forcing p e (ob_s o))).
  { destruct (ob_s o) as [? ? ? pp ? ? ? ca ou ? ? ?] eqn:Q. exists p, e, (p_soilT pp), ca, ou, (p_nfronts pp), (p_theta_wf pp), (p_depth_wf pp). destruct pp. reflexivity. }
  apply aget_Ok in Ep as [_ Ep], Ee as [_ Ee]. rewrite Forall_forall in PP, PE. destruct (PP _ (nth_error_In _ _ Ep)) as (p' & -> & Hp). destruct (PE _ (nth_error_In _ _ Ee)) as (e' & -> & He).
  assert (KW : known_weather (with_forcing (Fin p') (Fin e') (ob_s o))) by (split; eexists; reflexivity).
  pose proof (hist_edit _ _ _ _ _ HI Ed KW) as HI1. destruct (history_single _ _ _ _ _ _ _ OL HI1) as [O1 _]. pose proof (history_steady _ _ _ _ _ _ _ _ _ OL ST0 HI1) as ST.
  assert (NB : not_below_zero (with_forcing (Fin p') (Fin e') (ob_s o))) by (split; apply Rleb_true; assumption).
  pose proof (update_single _ _ _ _ _ O1 (steady_prepared _ _ _ ST Hdt Hfine Hint NB)) as US.
  assert (T : ~ update_tie (with_forcing (Fin p') (Fin e') (ob_s o))) by (apply one_layer_untied; [exact (sv_sound _ _ _ I1)|exact (sg_n _ _ _ _ _ (ol_single _ _ _ _ _ O1))]).
  destruct (Update (with_forcing (Fin p') (Fin e') (ob_s o))) as [s1|why] eqn:U; cbn [bind].
  2:{ destruct US as (u & s2 & a2 & zs & s3 & a3 & _ & _ & _ & _ & Q). exact (slow_stop _ _ _ Q). }
  pose proof (serving_update dt fres _ s1 I1 T U) as I2. cbn [ob_pre] in I2. cbv zeta. cbn [ob_s].
  destruct (get_into "soil_moisture_wetting_fronts" _ (sv_arrays _ _ _ I2)) as (v1 & V1 & W1); [cbn; tauto|]. cbn [ob_s] in W1. rewrite V1. cbn [bind]. rewrite W1. cbn [bind].
  destruct (get_into "soil_depth_wetting_fronts" _ (sv_arrays _ _ _ I2)) as (v2 & V2 & W2); [cbn; tauto|]. cbn [ob_s] in W2. rewrite V2. cbn [bind]. rewrite W2. cbn [bind].
  rewrite Et. cbn [bind]. destruct US as [_ ((b & Eb & _) & _)]. rewrite (columns_some (mkObj s1 (ob_pre o)) b Eb). cbn [bind ends].
  split; [exact I2|]. split; [reflexivity|]. cbn [ob_s]. destruct (executed_exists _ _ U) as (u & ys & X). exists (with_forcing (Fin p') (Fin e') (ob_s o)), u, ys. split; [exact HI1|]. split; [exact X|].
  exact (executed_few _ _ _ _ _ _ ST Hdt Hfine Hint X (ol_valid _ _ _ _ _ O1) (ol_calib _ _ _ _ _ O1)).
Qed.

Lemma drive_single : forall k f i o xs, serving dt fres o -> history known_weather s0 xs (ob_s o) -> plausible f ->
  (0 <= i)%Z -> (i + Z.of_nat k <= Z.of_nat (List.length (fo_pet f)))%Z -> (List.length (fo_pet f) <= List.length (fo_precip f) <= List.length (fo_time f))%nat ->
  ends program_stops (fun '(o', rs) => length rs = k /\
    (k = O \/ exists zs s u ys, history known_weather s0 (xs ++ zs) s /\ executed s u ys (ob_s o') /\ INR (length (zs ++ ys)) <= INR k * (fres / dt + 1))) (drive k f i o).
Proof.
  induction k as [|k IH]; intros f i o xs I HI PF Hi Hk L; [cbn; auto|]. cbn [drive].
  eapply ends_bind; [apply (step_single f i o xs I HI PF); [lia|exact L]|]. intros [o1 w] _ (I1 & P1 & s & u & ys & H1 & X1 & L1).
  pose proof (hist_update _ _ _ _ _ _ _ H1 X1) as HI1.
  eapply ends_bind; [apply (IH f (i + 1)%Z o1 (xs ++ ys) I1 HI1 PF); [lia|lia|exact L]|]. intros [o2 rs] ED (L2 & Q). cbn [ends length]. split; [lia|]. right.
  destruct Q as [->|(zs & s' & u' & ys' & H2 & X2 & L3)].
  - cbn [drive] in ED. apply Ok_inj, pair_equal_spec in ED as [<- _]. exists [], s, u, ys. rewrite app_nil_r. split; [exact H1|]. split; [exact X1|]. cbn [app]. rewrite S_INR. cbn [INR]. lra.
  - exists (ys ++ zs), s', u', ys'. rewrite app_assoc. split; [exact H2|]. split; [exact X2|]. rewrite <- app_assoc, app_length, plus_INR, S_INR. lra.
Qed.
End Run.

Lemma slack_bound : forall l, slack l + 1 / 1000000000000 <= 1 / 10000 + 1 / 1000000000000.
Proof. intros [|f [|g l]]; cbn [slack]; lra. Qed.
Lemma tolerance : forall xs, Rsum (map (fun x => slack (st_head (x_s x)) + 1 / 1000000000000) xs) <= INR (length xs) * (1 / 10000 + 1 / 1000000000000).
Proof. induction xs as [|x xs IH]; [cbn; lra|]. cbn [map Rsum length]. rewrite S_INR. pose proof (slack_bound (st_head (x_s x))). lra. Qed.

Theorem program_single : forall (cfg : Cfg) files texts junk ls t types gs psi wp fc dt fres max rows endsec f, single_config files ls t types gs psi wp fc dt fres max rows ->
  ends_at ls endsec -> fres * 3600 <= endsec -> endsec / (fres * 3600) < 2147483647 -> ReadForcingData texts ls = Ok f -> plausible f ->
  ends program_stops (fun res => (0 < length (rs_rows res))%nat /\ exists g, rs_printed res = Fin g /\ Rabs g <= INR (length (rs_rows res)) * (fres / dt + 1) * (1 / 10000 + 1 / 1000000000000) /\ mb_calib (st_mb (ob_s (rs_obj res))) = Fin 0)
    (simulate files texts junk ls).
Proof.
  intros cfg files texts junk ls t types gs psi wp fc dt fres max rows endsec f SC (n & u & k & Gn & Uk & Ln & ->) E0 E1' Ef PF.
  destruct (single_start files junk _ _ _ _ _ _ _ _ _ _ _ SC) as (s & sl & r & te & a & n0 & K & H & OL & FR & SR & VG & SS & Q1 & Q2 & Q3 & Q4 & _).
  pose proof (sc_good _ _ _ _ _ _ _ _ _ _ _ _ SC) as G.
  assert (Cv : cells_cover ls [t]) by (left; exact (sc_frozen _ _ _ _ _ _ _ _ _ _ _ _ SC)).
  destruct (config_serving _ _ _ _ _ _ _ _ _ _ _ _ G Cv H) as [I _]. pose proof (endtime_units _ _ _ _ _ _ _ Gn Uk Ln H) as Et.
  destruct (gc_range _ _ _ _ _ _ _ _ _ _ (proj1 (proj1 G))) as (R1 & R2 & R3 & R4).
  assert (ST0 : steady dt fres s) by (repeat split; auto; apply (ss_giuh _ SS)).
  unfold simulate. rewrite H. cbn [bind]. cbv zeta. unfold GetEndTime, GetTimeStep. cbn [ob_s]. rewrite Et, Q3.
  assert (EN : 0 <= value n * k) by lra. destruct (steps_int _ _ R2 EN E1') as [m Em]. rewrite Em. cbn [bind]. rewrite Ef. cbn [bind]. pose proof (forcing_lengths _ _ _ Ef) as L.
  destruct (m <=? Z.of_nat (List.length (fo_pet f)))%Z eqn:Le; [|right; left; reflexivity]. cbn [cassert bind]. apply Z.leb_le in Le.
  assert (M1 : (1 <= m)%Z).
  { change (Fin fres * lit 3600)%d with (Fin (fres * 3600)) in Em. rewrite Pf_Pow.div_fin in Em by lra. unfold d2i in Em. destruct (_ && _)%bool; [|discriminate]. apply Ok_inj in Em. subst m. apply trunc_ge1.
    apply Rmult_le_reg_r with (fres * 3600); [lra|]. unfold Rdiv. rewrite Rmult_assoc, Rinv_l by lra. lra. }
  eapply ends_bind.
  - apply (drive_single dt fres (value t) sl r te s R1 (sc_step _ _ _ _ _ _ _ _ _ _ _ _ SC) R4 OL ST0 (Z.to_nat m) f 0 (mkObj s (repeat None 11)) [] I); [constructor|exact PF|lia|lia|exact L].
  - intros [o rs] _ (L2 & [Q|(zs & s' & u' & ys & H2 & X2 & L3)]); [lia|]. cbn [ends rs_rows rs_printed rs_obj]. split; [lia|].
    destruct (simulation_balance _ _ _ _ _ _ _ _ _ _ OL FR H2 X2) as (g & Eg & Bg). exists g. split; [exact Eg|].
    destruct (history_single _ _ _ _ _ _ _ OL H2) as [O2 _]. destruct (executed_single _ _ _ _ _ _ _ _ O2 X2) as (_ & _ & _ & C1).
    assert (Z : mb_calib (st_mb s) = Fin 0) by (destruct FR as (_ & _ & _ & _ & _ & Z & _); exact Z). rewrite (history_calib_zero _ _ _ _ _ _ _ OL Z H2) in C1.
    split; [|rewrite C1; cbn; f_equal; ring]. eapply Rle_trans; [exact Bg|]. eapply Rle_trans; [apply tolerance|]. rewrite L2. apply Rmult_le_compat_r; [lra|exact L3].
Qed.

(** The columns of the output file. *)
Theorem program_columns : forall (cfg : Cfg) files texts junk ls t types gs psi wp fc dt fres max rows endsec f res, single_config files ls t types gs psi wp fc dt fres max rows ->
  ends_at ls endsec -> fres * 3600 <= endsec -> endsec / (fres * 3600) < 2147483647 -> ReadForcingData texts ls = Ok f -> plausible f -> simulate files texts junk ls = Ok res ->
  exists s V0 P Ro A Rc V W, Initialize files junk ls = Ok s /\ lgar_calc_mass_bal (p_cum (st_p s)) (st_head s) = Ok (Fin V0) /\
    sums_to 0 (rs_rows res) P /\ sums_to 3 (rs_rows res) Ro /\ sums_to 2 (rs_rows res) A /\ sums_to 8 (rs_rows res) Rc /\ last_storage (rs_rows res) V /\
    mb_on (st_mb (ob_s (rs_obj res))) = Fin W /\
    Rabs (V0 / 100 + P - Ro - A - Rc - V - W / 100) <= INR (length (rs_rows res)) * (fres / dt + 1) * (1 / 10000 + 1 / 1000000000000) / 100.
Proof.
  intros cfg files texts junk ls t types gs psi wp fc dt fres max rows endsec f res SC En E0 E1' Ef PF H.
  pose proof (program_single cfg files texts junk ls t types gs psi wp fc dt fres max rows endsec f SC En E0 E1' Ef PF) as Q. rewrite H in Q. destruct Q as (NE & g & Eg & Bg & Cg).
  assert (NE' : rs_rows res <> []) by (intro Z; rewrite Z in NE; cbn in NE; lia).
  destruct (program_balance _ _ _ _ _ _ _ _ _ _ _ _ _ _ (sc_good _ _ _ _ _ _ _ _ _ _ _ _ SC) H NE' Eg) as (s & V0 & P & Ro & A & Rc & V & W & C & Q1 & Q2 & Q3 & Q4 & Q5 & Q6 & Q7 & Q8 & Q9 & Q10).
  exists s, V0, P, Ro, A, Rc, V, W. repeat (split; [assumption|]). rewrite Q9 in Cg. assert (C = 0) by congruence. subst C.
  replace (V0 / 100 + P - Ro - A - Rc - V - W / 100) with (g / 100) by lra. unfold Rdiv at 1. rewrite Rabs_mult, (Rabs_pos_eq (/ 100)) by lra. unfold Rdiv at 4. apply Rmult_le_compat_r; [lra|exact Bg].
Qed.

(** A run that is shorter than one forcing step. *)
Theorem program_no_step : forall (cfg : Cfg) files texts junk ls t types gs psi wp fc dt fres max rows endsec f, single_config files ls t types gs psi wp fc dt fres max rows ->
  ends_at ls endsec -> 0 <= endsec < fres * 3600 -> ReadForcingData texts ls = Ok f ->
  exists res g, simulate files texts junk ls = Ok res /\ rs_rows res = [] /\ rs_printed res = Fin g /\ 0 < g.
Proof.
  intros cfg files texts junk ls t types gs psi wp fc dt fres max rows endsec f SC (n & u & k & Gn & Uk & Ln & ->) [E0 E1'] Ef.
  destruct (single_start files junk _ _ _ _ _ _ _ _ _ _ _ SC) as (s & sl & r & te & a & n0 & K & H & OL & FR & SR & (m & VG) & SS & Q1 & Q2 & Q3 & Q4 & HL).
  pose proof (endtime_units _ _ _ _ _ _ _ Gn Uk Ln H) as Et. pose proof (sc_good _ _ _ _ _ _ _ _ _ _ _ _ SC) as G.
  destruct (gc_range _ _ _ _ _ _ _ _ _ _ (proj1 (proj1 G))) as (R1 & R2 & R3 & R4).
  unfold simulate. rewrite H. cbn [bind]. cbv zeta. unfold GetEndTime, GetTimeStep. cbn [ob_s]. rewrite Et, Q3.
  assert (X1 : value n * k / (fres * 3600) < 1). { apply Rmult_lt_reg_r with (fres * 3600); [lra|]. unfold Rdiv. rewrite Rmult_assoc, Rinv_l by lra. lra. }
  assert (X0 : 0 <= value n * k / (fres * 3600)) by (apply Rmult_le_pos; [exact E0|apply Rlt_le, Rinv_0_lt_compat; lra]).
  assert (Em : d2i (Fin (value n * k) / (Fin fres * lit 3600))%d = Ok 0%Z).
  { change (Fin fres * lit 3600)%d with (Fin (fres * 3600)). rewrite Pf_Pow.div_fin by lra. unfold d2i. assert (T : trunc (value n * k / (fres * 3600)) = 0%Z).
    { unfold trunc. destruct (Rlt_dec _ 0); [lra|]. destruct (base_Int_part (value n * k / (fres * 3600))) as [B1 B2]. set (z := Int_part _) in *.
      assert (-1 < z)%Z by (apply lt_IZR; cbn; lra). assert (z < 1)%Z by (apply lt_IZR; cbn; lra). lia. }
    rewrite T. reflexivity. }
  rewrite Em. cbn [bind]. rewrite Ef. cbn [bind]. destruct (Z.leb_spec 0 (Z.of_nat (List.length (fo_pet f)))); [|lia]. cbn [cassert bind]. change (Z.to_nat 0) with O. cbn [drive bind].
  destruct FR as ((V & M1 & M2) & M3 & M4 & M5 & M6 & M7 & M8 & _).
  destruct (init_inv _ _ _ _ H) as (c & st & rows' & tab & thick & ps & ord & I). destruct (in_s _ _ _ _ _ _ _ _ _ _ _ I) as (_ & _ & _ & _ & _ & _ & Mb).
  assert (M9 : mb_end (st_mb s) = Fin 0) by (rewrite Mb; reflexivity).
  eexists. exists V. split; [reflexivity|]. split; [reflexivity|]. split.
  - cbn [rs_printed rs_obj ob_s]. unfold global_error. rewrite M2, M3, M4, M5, M6, M7, M8, M9. cbn. f_equal. ring.
  - pose proof (ol_single _ _ _ _ _ OL) as SG. pose proof (sd_graded _ _ _ _ (ol_fronts _ _ _ _ _ OL)) as GR. pose proof (ol_rooted _ _ _ _ _ OL) as RO.
    change (p_cum (st_p s)) with (e_cum (env_of s)) in M1. destruct (st_head s) as [|x [|? ?]] eqn:EH; try discriminate HL.
    assert (HS : Str (env_of s) [x]) by (apply Str_iff; [apply (sg_env _ _ _ _ _ SG)|split; [exact (gr_profile _ _ _ _ GR)|exact (gr_rest _ _ _ _ GR)]]).
    rewrite (single_mass _ _ _ _ _ _ SG HS (gr_measured _ _ _ _ GR)) in M1. apply Ok_inj in M1. injection M1 as <-.
    destruct (alone_front _ _ _ _ _ _ SG HS) as (Bx & Dx & _). inversion_clear RO as [|? ? RX _]. destruct (RX Bx) as (h & Hh & _ & Th).
    rewrite (theta_of_h_is _ _ _ _ _ _ _ _ VG Hh) in Th. pose proof VG as [Vr Ve Va Vn Vm Vk Vre Va0 Vn1 Vm01 Vk0]. pose proof (theta_range _ _ _ _ _ _ Vre Va0 Vn1 Vm01 Hh) as [T1 _].
    pose proof (sd_below _ _ _ _ (ol_fronts _ _ _ _ _ OL)) as BS. rewrite EH in BS. inversion_clear BS as [|? ? BX _]. rewrite Dx in BX. cbn [val] in BX.
    pose proof (ol_residual _ _ _ _ _ OL) as R0. unfold storage. cbn [slabs]. rewrite Dx, Th. cbn [val]. set (th := vg_theta _ _ _ _ _ _) in *. nra.
Qed.
