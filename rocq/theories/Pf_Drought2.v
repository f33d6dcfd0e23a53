(** Proofs about runs of the standalone program in a drought. *)

From Coq Require Import String Ascii Reals Lra ZArith List Bool Lia.
From RecordUpdate Require Import RecordSet.
From Verif Require Import Outcome Dbl Exact Types ListOps Fronts State Giuh Update Bmi Config Driver Lib Spec_Common Spec_List Spec_Column Spec_Profile Spec_Update Spec_Bmi Spec_Config Spec_Run Spec_Driver
  Spec_Soil Spec_Storage Spec_Balance Spec_Shares Spec_Physical Spec_Motion Spec_Upright Spec_OneLayer Spec_OneConfig Spec_Layered Spec_Rest Spec_Drought
  Pf_List Pf_Dbl Pf_Pow Pf_Structure Pf_Update Pf_Ledger Pf_SafeUpdate Pf_SafeHistory Pf_BmiRun Pf_Run Pf_Text Pf_Config Pf_Lines Pf_Init Pf_InitState Pf_InitExact Pf_InitTotal Pf_Table Pf_Alone Pf_SafeMove Pf_Soil Pf_Storage Pf_Single Pf_Shares Pf_Motion Pf_Forcing Pf_ConfigThm Pf_RunExact Pf_DriverRun Pf_DriverBalance Pf_OneLayer Pf_OneConfig
  Pf_Layered Pf_Layered2 Pf_Rest Pf_Rest2 Pf_Rest3 Pf_Rest4 Pf_Drought.
Import ListNotations.
Import RecordSetNotations.
Open Scope string_scope.
Open Scope list_scope.
Open Scope R_scope.
Local Existing Instance exact.

(** ** One step *)
Section Run.
Context {cfg : Cfg}.
Variables (dt fres M : R) (qs : list part) (s0 : state).
Hypothesis Hdt : 0 < dt.
Hypothesis Hfine : dt <= fres.
Hypothesis Hint : fres / dt + 1 < 2147483647.
Hypothesis HW : Forall (fun q => 0 <= pt_r q) qs.

Lemma serving_executed : forall o u xs s', serving dt fres o -> executed (ob_s o) u xs s' -> Forall (fun x => ~ step_tie u (x_s x) (x_a x)) xs -> serving dt fres (mkObj s' (ob_pre o)).
Proof.
  intros o u xs s' I X T. pose proof X as [H _]. pose proof I as [A S V M0 F Tm C Z]. destruct (Update_settings _ _ H) as ((K1 & K2 & K3 & K4 & _) & K5 & K6). destruct (K6 V) as [_ K7].
  destruct (Update_static _ _ H) as [(S1 & S2 & S3 & S4 & S5 & _ & _ & S6 & _) _].
  constructor; cbn [ob_s]; try congruence.
  - apply update_arrays; assumption.
  - eapply executed_sound; eassumption.
  - intros Q. rewrite K4 in Q. rewrite K5 by assumption. auto.
  - intros Q. rewrite K1 in Q. rewrite S1, S2, S3, S4, S5. auto.
Qed.

(** The object during a run without rain, at the head [h], after the sub-steps [xs]. *)
Record arid (h : R) (xs : list step) (o : obj) : Prop := {
  ar_serving : serving dt fres o;
  ar_history : history dry s0 xs (ob_s o);
  ar_layered : layered M qs (ob_s o);
  ar_resting : resting qs h (ob_s o);
  ar_parched : parched (ob_s o);
  ar_steady : steady dt fres (ob_s o);
  ar_calib : mb_calib (st_mb (ob_s o)) = Fin 0;
  ar_checked : Forall checked xs }.

Lemma out_row : forall h b t l, drought_out qs h b -> hydrostatic qs h l -> drought_row qs h (mkRowOut t (map D (columns_of b)) l) /\ (still_out b -> still_row qs h (mkRowOut t (map D (columns_of b)) l)).
Proof.
  intros h b t l [D1 D2 D3 D4 D5 D6 D7 (a & D8) (r & D9) (e & D10 & D11) (m & D12 & D13)] H.
  assert (R : drought_row qs h (mkRowOut t (map D (columns_of b)) l)).
  { constructor; unfold cell; cbn [w_vars w_fronts columns_of map nth_error]; [exact H| | | | | | | | | | |]; try (eexists; split; [|eassumption]); try eexists; do 2 f_equal; eassumption. }
  split; [exact R|]. intros (S1 & S2 & S3 & S4). split; [exact R|]. unfold cell. cbn [w_vars columns_of map nth_error]. rewrite S1, S2, S3, S4. auto.
Qed.

Lemma step_drought : forall f i o h xs, arid h xs o -> drought f ->
  (0 <= i < Z.of_nat (List.length (fo_pet f)))%Z -> (List.length (fo_pet f) <= List.length (fo_precip f) <= List.length (fo_time f))%nat ->
  ends (fun why => ~ no_evaporation f /\ (why = OutOfFuel \/ why = Abort)) (fun '(o', r) => exists h' s u ys, arid h' (xs ++ ys) o' /\ h <= h' /\ drought_row qs h' r /\ (no_evaporation f -> h' = h /\ still_row qs h r /\ Forall closed ys) /\
    history dry s0 xs s /\ executed s u ys (ob_s o') /\ INR (length ys) <= fres / dt + 1) (drive_step f i o).
Proof.
  intros f i o h xs [I HI LY RE PA ST CA CH] [PP PE] Hi L. unfold drive_step. destruct (aget_in_range _ (fo_precip f) i) as [p Ep]; [lia|]. destruct (aget_in_range _ (fo_pet f) i) as [e Ee]; [lia|].
  destruct (aget_in_range _ (fo_time f) i) as [t Et]; [lia|]. rewrite Ep. cbn [bind]. rewrite set_precip. cbn [bind]. rewrite Ee. cbn [bind]. rewrite set_pet. cbn [bind ob_s ob_pre].
  pose proof (forced_serving dt fres p e _ I) as I1. fold (with_forcing p e (ob_s o)). unfold bmi_Update. cbn [ob_s ob_pre].
  assert (Ed : user_edit (ob_s o) (with_forcing p e (ob_s o))).
  { destruct (ob_s o) as [? ? ? pp ? ? ? ca ou ? ? ?] eqn:Q. exists p, e, (p_soilT pp), ca, ou, (p_nfronts pp), (p_theta_wf pp), (p_depth_wf pp). destruct pp. reflexivity. }
  apply aget_Ok in Ep as [_ Ep], Ee as [_ Ee]. rewrite Forall_forall in PP, PE. pose proof (PP _ (nth_error_In _ _ Ep)) as ->. destruct (PE _ (nth_error_In _ _ Ee)) as (e' & -> & He).
  set (s := with_forcing (Fin 0) (Fin e') (ob_s o)) in *.
  assert (DR : dry s) by (split; [exists 0; split; [reflexivity|lra]|exists e'; reflexivity]).
  assert (ND : no_evaporation f -> no_demand s). { intro N. unfold no_evaporation in N. rewrite Forall_forall in N. specialize (N _ (nth_error_In _ _ Ee)). exists e'. split; [reflexivity|]. injection N as ->. lra. }
  pose proof (hist_edit _ _ _ _ _ HI Ed DR) as HI1. pose proof (edit_layered M qs _ _ LY Ed ltac:(eexists; reflexivity)) as LY1. pose proof (edit_steady _ _ _ _ ST Ed) as ST1.
  assert (RE1 : resting qs h s) by exact RE. assert (PA1 : parched s) by exact PA. assert (CA1 : mb_calib (st_mb s) = Fin 0) by exact CA.
  assert (NB : not_below_zero s) by (split; apply Rleb_true; lra).
  assert (HQ : 0 < column_water qs h) by (exact (water_positive qs _ h (la_strata _ _ _ (ly_layers _ _ _ LY)) (hs_head _ _ _ (proj1 RE)) HW)).
  destruct (update_drought M qs s h LY1 RE1 DR PA1 (steady_prepared _ _ _ ST1 Hdt Hfine Hint NB) HW) as [US UN].
  destruct (Update s) as [s1|why] eqn:U; cbn [bind].
  2:{ destruct (US why eq_refl) as [U1 U2]. split; [|exact U2]. intro N. exact (U1 (ND N)). }
  destruct (executed_exists _ _ U) as (u & ys & X). pose proof (UN _ _ _ X) as NE.
  destruct (executed_drought M qs s u ys s1 h LY1 RE1 DR PA1 X NE) as (zs & h' & b & J1 & J2 & J3 & J4 & J5 & J6 & J7 & J8 & J9 & J10 & J11).
  assert (TI : Forall (fun x => ~ step_tie u (x_s x) (x_a x)) ys). { rewrite <- J1. apply Forall_map. eapply Forall_impl; [|exact (proj1 J2)]. intros y [[Q _] _]. exact Q. }
  pose proof (serving_executed _ u ys s1 I1 X TI) as I2. cbn [ob_pre] in I2. cbv zeta. cbn [ob_s].
  destruct (get_into "soil_moisture_wetting_fronts" _ (sv_arrays _ _ _ I2)) as (v1 & V1 & W1); [cbn; tauto|]. cbn [ob_s] in W1. rewrite V1. cbn [bind]. rewrite W1. cbn [bind].
  destruct (get_into "soil_depth_wetting_fronts" _ (sv_arrays _ _ _ I2)) as (v2 & V2 & W2); [cbn; tauto|]. cbn [ob_s] in W2. rewrite V2. cbn [bind]. rewrite W2. cbn [bind].
  rewrite Et. cbn [bind]. rewrite (columns_some (mkObj s1 (ob_pre o)) b J9). cbn [bind ends ob_s].
  destruct (out_row h' b t (st_head s1) J10 (proj1 J6)) as [O1 O2].
  assert (C1 : mb_calib (st_mb s1) = Fin 0).
  { pose proof X as X'. rewrite <- J1 in X'. destruct (executed_layered M qs s u zs s1 LY1 X' (proj1 J2)) as (_ & _ & Q). rewrite Q, CA1. cbn. f_equal. ring. }
  exists h', s, u, ys. split.
  { constructor; cbn [ob_s]; [exact I2|exact (hist_update _ _ _ _ _ _ _ HI1 X)|exact J5|exact J6|exact J8|exact (executed_steady _ _ _ _ _ _ (ly_valid _ _ _ LY1) (ly_calib _ _ _ LY1) ST1 X)|exact C1|apply Forall_app; auto]. }
  split; [exact J4|]. split; [exact O1|]. split.
  { intro N. destruct (J11 (ND N) HQ) as (-> & _ & Q & Q'). split; [reflexivity|]. split; [exact (O2 Q)|exact Q']. }
  split; [exact HI1|]. split; [exact X|]. exact (executed_few _ _ _ _ _ _ ST1 Hdt Hfine Hint X (ly_valid _ _ _ LY1) (ly_calib _ _ _ LY1)).
Qed.

Lemma drive_drought : forall k f i o h xs, arid h xs o -> drought f ->
  (0 <= i)%Z -> (i + Z.of_nat k <= Z.of_nat (List.length (fo_pet f)))%Z -> (List.length (fo_pet f) <= List.length (fo_precip f) <= List.length (fo_time f))%nat ->
  ends (fun why => ~ no_evaporation f /\ (why = OutOfFuel \/ why = Abort)) (fun '(o', rs) => List.length rs = k /\ exists h' hs zs, arid h' (xs ++ zs) o' /\ INR (length zs) <= INR k * (fres / dt + 1) /\
    Forall2 (drought_row qs) hs rs /\ rising h hs /\ (no_evaporation f -> Forall (still_row qs h) rs /\ Forall closed zs) /\
    (k = O \/ exists s u ws ys, zs = ws ++ ys /\ history dry s0 (xs ++ ws) s /\ executed s u ys (ob_s o'))) (drive k f i o).
Proof.
  induction k as [|k IH]; intros f i o h xs I DR Hi Hk L.
  - cbn [drive ends]. split; [reflexivity|]. exists h, [], []. rewrite app_nil_r. split; [exact I|]. split; [cbn; lra|]. split; [constructor|]. split; [exact Logic.I|]. split; [split; constructor|auto].
  - cbn [drive]. eapply ends_bind; [apply (step_drought f i o h xs I DR); [lia|exact L]|]. intros [o1 w] _ (h1 & s & u & ys & I1 & H1 & R1 & R2 & X1 & X2 & X3).
    eapply ends_bind; [apply (IH f (i + 1)%Z o1 h1 (xs ++ ys) I1 DR); [lia|lia|exact L]|]. intros [o2 rs] ED (L2 & h' & hs & zs & J1 & J2 & J3 & J4 & J5 & J6). cbn [ends List.length]. split; [lia|].
    exists h', (h1 :: hs), (ys ++ zs). rewrite app_assoc. split; [exact J1|]. split; [rewrite app_length, plus_INR, S_INR; lra|]. split; [constructor; assumption|]. split; [split; [exact H1|exact J4]|].
    split; [intro N; destruct (R2 N) as (-> & R3 & R4); destruct (J5 N) as [J9 J10]; split; [constructor; [exact R3|exact J9]|apply Forall_app; exact (conj R4 J10)]|]. right. destruct J6 as [->|(s' & u' & ws & vs & -> & J7 & J8)].
    + cbn [drive] in ED. apply Ok_inj, pair_equal_spec in ED as [<- <-]. assert (zs = []) as ->. { destruct zs as [|z zs]; [reflexivity|]. exfalso. change (INR 0) with 0 in J2. assert (0 < INR (List.length (z :: zs))) by (apply lt_0_INR; cbn; lia). lra. }
      exists s, u, [], ys. rewrite !app_nil_r. split; [reflexivity|]. split; [exact X1|exact X2].
    + exists s', u', (ys ++ ws), vs. split; [rewrite app_assoc; reflexivity|]. split; [rewrite app_assoc; exact J7|exact J8].
Qed.
End Run.

(** ** From a configuration *)
Lemma table_start : forall files junk ls ts types gs psi dt fres max rows s qs, good_config files ls ts types gs psi dt fres max rows -> Initialize files junk ls = Ok s ->
  strata (env_of s) qs -> map pt_z qs = map value ts -> configured_layers ts types rows qs.
Proof.
  intros files junk ls ts types gs psi dt fres max rows s qs GC H ST EZ. split; [exact EZ|].
  pose proof GC as [[[GL GR (lt & Lt & At & Nt & Gt & Pt) (ly & Ly & Ay & Ny & Gy) _ (lp & Lp & Ap & Gp & Pp) (lf & f & Lf & Af & Ff & Fs & Ph) _ _ _ GM _ _] TY] FR1].
  assert (LT : List.length qs = List.length ts) by (rewrite <- (map_length pt_z qs), EZ, map_length; reflexivity). destruct ts as [|n ns]; [contradiction|].
  destruct (init_inv _ _ _ _ H) as (c & st & rows' & tab & thick & ps & ord & I). pose proof (in_conf _ _ _ _ _ _ _ _ _ _ _ I) as C.
  destruct (conf_thick _ _ _ _ _ Lt At Gt C) as [T _]. rewrite (in_thick _ _ _ _ _ _ _ _ _ _ _ I) in T. apply some_inj in T; subst thick.
  pose proof (conf_psi _ _ _ _ Lp Ap Gp C) as P. rewrite (in_psi _ _ _ _ _ _ _ _ _ _ _ I) in P. apply some_inj in P; subst ps.
  change (rnd (value psi)) with (Fin (value psi)) in I. rewrite value_exact in I.
  destruct (in_rows _ _ _ _ _ _ _ _ _ _ _ I) as (file & F1 & F2). rewrite (conf_file _ _ _ _ Lf Af Ff C) in F1. injection F1 as <-. rewrite Fs in F2. injection F2 as <-.
  destruct types as [|y0 types]; [contradiction|].
  intros i q Ei.
  assert (LN : e_nlayers (env_of s) = Z.of_nat (List.length qs)). { destruct ST as (_ & _ & ss & HC & _). pose proof (col_n _ _ _ HC) as Q. rewrite map_length in Q. exact Q. }
  assert (Li : (i < List.length qs)%nat) by (apply nth_error_Some; congruence).
  destruct (soil_at (env_of s) qs ST (Z.of_nat (S i)) q ltac:(lia)) as (sl & ks & Eo & V); [replace (Z.to_nat (Z.of_nat (S i) - 1)) with i by lia; exact Ei|].
  destruct (init_soil _ _ _ _ _ _ _ _ _ _ _ I (Z.of_nat (S i))) as (t & en & A & B & D'); [cbn [env_of e_nlayers] in LN; lia|]. rewrite Eo in D'. apply Ok_inj in D'. subst sl.
  destruct (entry_row _ _ _ _ _ _ _ _ _ _ _ I Ph _ _ B) as (nm & tr & te' & al & n' & k' & B1 & B2 & B3 & B4 & B5 & B6 & B7).
  destruct (derive_is (p_wilting (st_p s)) junk tr te' al n' k' nm B4 B5) as (en' & psib & hmin & D1 & S & _). rewrite B7 in D1. apply Ok_inj in D1. subst en'.
  destruct V as [Vr Ve Va Vn Vm Vk _ _ _ _ _]. rewrite S in Vr, Ve, Va, Vn, Vm, Vk. cbn in Vr, Ve, Va, Vn, Vm, Vk. injection Vr as <-. injection Ve as <-. injection Va as <-. injection Vn as <-. injection Vm as Vm. injection Vk as <-.
  split; [symmetry; exact Vm|].
  destruct (TY i ltac:(cbn [List.length] in LT |- *; lia)) as (m0 & k0 & Nm & Nk & Bk1 & Bk2).
  pose proof (conf_stype _ _ _ _ _ Ly Ay Gy C) as (zs & C2 & C2'). rewrite (in_st _ _ _ _ _ _ _ _ _ _ _ I) in C2. apply some_inj in C2. subst zs.
  assert (MX : (max <= 15)%nat). { destruct GM as [(lm & nm' & km & _ & _ & _ & _ & ->)|[-> _]]; lia. }
  destruct (each_types _ _ C2') as [_ ET]. pose proof (ET i m0 k0 Nm Nk ltac:(lia)) as EZ'.
  exists m0, k0, nm, k'. split; [exact Nm|]. split; [exact Nk|].
  destruct (in_p _ _ _ _ _ _ _ _ _ _ _ I) as (_ & _ & CU & SY & _). rewrite SY in A.
  unfold uget in A. bind_inv A x Ex. apply aget_Ok in Ex as [_ Ex]. rewrite Nat2Z.id in Ex. cbn [nth_error] in Ex. rewrite nth_error_map, EZ' in Ex. cbn in Ex. injection Ex as <-. apply Ok_inj in A. subst t.
  replace (k0 - 1)%nat with (Z.to_nat (Z.of_nat k0 - 1)) by lia. exact B2.
Qed.

Lemma residual_start : forall ts types rows qs, wet_soils rows -> configured_layers ts types rows qs -> Forall (fun q => 0 <= pt_r q) qs.
Proof.
  intros ts types rows qs WS [_ H]. apply Forall_forall. intros q Hq. apply In_nth_error in Hq as (i & Ei). destruct (H i q Ei) as (_ & m & k & nm & ks & _ & _ & E).
  unfold wet_soils in WS. rewrite Forall_forall in WS. exact (WS _ (nth_error_In _ _ E) _ _ _ _ _ _ eq_refl).
Qed.

Lemma checked_sum : forall xs, Forall checked xs -> Rabs (Rsum (map (fun x => val (residual x)) xs) + Rsum (map (fun x => dropped (val (ponded_before x))) xs)) <= INR (length xs) * (1 / 10000).
Proof.
  intros xs H. induction H as [|x xs ((m & Em & Bm) & Ep) _ IH]; cbn [map Rsum length]; [rewrite Rplus_0_r, Rabs_R0; cbn; lra|]. rewrite S_INR, Em, Ep. cbn [val].
  assert (Z : dropped 0 = 0) by (unfold dropped; destruct (Rle_dec 0 (1 / 1000000000000)); lra). rewrite Z.
  set (A := Rsum (map (fun x => val (residual x)) xs)) in *. set (B := Rsum (map (fun x => dropped (val (ponded_before x))) xs)) in *.
  replace (m + A + (0 + B)) with (m + (A + B)) by ring. eapply Rle_trans; [apply Rabs_triang|]. lra.
Qed.

Lemma closed_sum : forall xs, Forall closed xs -> Rsum (map (fun x => val (residual x)) xs) + Rsum (map (fun x => dropped (val (ponded_before x))) xs) = 0.
Proof.
  intros xs H. induction H as [|x xs (Em & Ep) _ IH]; cbn [map Rsum]; [ring|]. rewrite Em, Ep. cbn [val].
  assert (Z : dropped 0 = 0) by (unfold dropped; destruct (Rle_dec 0 (1 / 1000000000000)); lra). rewrite Z. lra.
Qed.

Lemma storage_falls : forall M qs e hs rs h, layers M qs e -> 0 <= h -> Forall2 (drought_row qs) hs rs -> rising h hs -> exists ws, Forall2 (fun w r => cell 5 r w) ws rs /\ falling (column_water qs h / 100) ws.
Proof.
  intros M qs e hs rs h HL Hh F. revert h Hh. induction F as [|h' r hs rs D F IH]; intros h Hh R; [exists []; split; [constructor|exact Logic.I]|]. destruct R as [R1 R2].
  destruct (IH h' ltac:(lra) R2) as (ws & A & B). exists (column_water qs h' / 100 :: ws). split; [constructor; [exact (dw_storage _ _ _ D)|exact A]|]. split; [|exact B].
  pose proof (water_mono e qs (la_strata _ _ _ HL) h h' Hh R1). lra.
Qed.

Theorem program_drought : forall (cfg : Cfg) files texts junk ls ts types gs psi dt fres max rows endsec f, good_config files ls ts types gs psi dt fres max rows ->
  ~ In "calib_params=true" ls -> ~ In "sft_coupled=true" ls -> rooting_lines ls -> dt <= fres -> wet_soils rows ->
  ends_at ls endsec -> fres * 3600 <= endsec -> endsec / (fres * 3600) < 2147483647 -> ReadForcingData texts ls = Ok f -> endsec <= INR (List.length (fo_pet f)) * (fres * 3600) -> drought f ->
  exists qs, configured_layers ts types rows qs /\ ends (fun why => ~ no_evaporation f /\ (why = OutOfFuel \/ why = Abort))
    (fun res => (0 < List.length (rs_rows res))%nat /\ (exists hs, Forall2 (drought_row qs) hs (rs_rows res) /\ rising (value psi) hs) /\
      (exists ws, Forall2 (fun w r => cell 5 r w) ws (rs_rows res) /\ falling (column_water qs (value psi) / 100) ws) /\
      (exists g, rs_printed res = Fin g /\ Rabs g <= INR (List.length (rs_rows res)) * (fres / dt + 1) * (1 / 10000)) /\
      (no_evaporation f -> Forall (still_row qs (value psi)) (rs_rows res) /\ rs_printed res = Fin 0))
    (simulate files texts junk ls).
Proof.
  intros cfg files texts junk ls ts types gs psi dt fres max rows endsec f G NC NS RL Hf WS (n & u & k & Gn & Uk & Ln & ->) E0 E1' Ef Len DR.
  destruct (resting_start files junk ls ts types gs psi dt fres max rows G NC RL) as (s & M & qs & H & LY & FR & Eqs & RE & DY & _).
  pose proof (table_start files junk ls ts types gs psi dt fres max rows s qs G H (la_strata _ _ _ (ly_layers _ _ _ LY)) Eqs) as CL.
  exists qs. split; [exact CL|]. pose proof (residual_start ts types rows qs WS CL) as HW.
  assert (Cv : cells_cover ls ts) by (left; exact NS).
  destruct (config_serving _ _ _ _ _ _ _ _ _ _ _ _ G Cv H) as [I _]. pose proof (endtime_units _ _ _ _ _ _ _ Gn Uk Ln H) as Et.
  destruct (gc_range _ _ _ _ _ _ _ _ _ _ (proj1 (proj1 G))) as (R1 & R2 & R3 & R4).
  destruct (configured files junk _ _ _ _ _ _ _ _ _ G) as (s' & H' & SS & _ & _ & VA & WI & _ & NL & DT & FS). rewrite H in H'. apply Ok_inj in H'. subst s'.
  destruct (init_inv _ _ _ _ H) as (c & st & rows' & tab & thick & ps & ord & II). pose proof (in_conf _ _ _ _ _ _ _ _ _ _ _ II) as C.
  destruct (in_s _ _ _ _ _ _ _ _ _ _ _ II) as (_ & _ & _ & _ & _ & GQ & MB).
  assert (GO : Forall finite (g_ord s)).
  { destruct (gc_giuh _ _ _ _ _ _ _ _ _ _ (proj1 (proj1 G))) as (lg & Lg & Ag & Ng & Gg & Pg). destruct gs as [|g0 gs]; [contradiction|]. destruct (giuh_total _ _ _ _ _ _ _ _ Lg Ag Gg H FS (proj2 G)) as (_ & _ & GO & _). exact GO. }
  assert (PA : parched s). { split; [exact GO|]. rewrite GQ. apply Forall_forall. intros x X. apply repeat_spec in X. symmetry. exact X. }
  assert (ST0 : steady dt fres s).
  { destruct (in_p _ _ _ _ _ _ _ _ _ _ _ II) as (_ & _ & _ & _ & _ & _ & _ & MI & _ & _ & _ & _ & _ & _ & _ & SF & _).
    split; [rewrite MI; exact DT|]. split; [exact FS|]. split; [intros _; exact DT|]. split; [|apply (ss_giuh _ SS)].
    destruct (p_sft (st_p s)) eqn:EC; [|reflexivity]. exfalso. apply NS. symmetry in SF. destruct (sft_lines _ _ _ (gc_lines _ _ _ _ _ _ _ _ _ _ (proj1 (proj1 G))) C SF) as [Z|Z]; [discriminate Z|exact Z]. }
  assert (A0 : arid dt fres M qs s (value psi) [] (mkObj s (repeat None 11))).
  { constructor; cbn [ob_s]; [exact I|constructor|exact LY|exact RE|exact PA|exact ST0|rewrite MB; reflexivity|constructor]. }
  unfold simulate. rewrite H. cbn [bind]. cbv zeta. unfold GetEndTime, GetTimeStep. cbn [ob_s]. rewrite Et, FS.
  assert (EN : 0 <= value n * k) by lra. destruct (steps_int _ _ R2 EN E1') as [m Em]. rewrite Em. cbn [bind]. rewrite Ef. cbn [bind]. pose proof (forcing_lengths _ _ _ Ef) as L.
  change (Fin fres * lit 3600)%d with (Fin (fres * 3600)) in Em. rewrite Pf_Pow.div_fin in Em by lra. unfold d2i in Em. destruct (_ && _)%bool; [|discriminate]. apply Ok_inj in Em.
  set (x := value n * k / (fres * 3600)) in *.
  assert (X1 : 1 <= x <= INR (List.length (fo_pet f))).
  { unfold x. split; apply Rmult_le_reg_r with (fres * 3600); try lra; unfold Rdiv; rewrite Rmult_assoc, Rinv_l by lra; lra. }
  assert (M1 : (1 <= m)%Z) by (rewrite <- Em; apply trunc_ge1; lra).
  assert (Le : (m <= Z.of_nat (List.length (fo_pet f)))%Z).
  { rewrite <- Em. unfold trunc. destruct (Rlt_dec x 0); [lra|]. destruct (base_Int_part x) as [B1 _]. apply le_IZR. rewrite <- INR_IZR_INZ. lra. }
  destruct (Z.leb_spec m (Z.of_nat (List.length (fo_pet f)))); [|lia]. cbn [cassert bind].
  eapply ends_bind.
  - apply (drive_drought dt fres M qs s R1 Hf R4 HW (Z.to_nat m) f 0 (mkObj s (repeat None 11)) (value psi) [] A0 DR); [lia|lia|exact L].
  - intros [o rs] _ (L2 & h' & hs & zs & J1 & J2 & J3 & J4 & J5 & J6). cbn [ends rs_rows rs_printed rs_obj]. split; [lia|]. split; [exists hs; split; [exact J3|exact J4]|].
    split; [exact (storage_falls M qs _ hs rs (value psi) (ly_layers _ _ _ LY) (hs_head _ _ _ (proj1 RE)) J3 J4)|].
    destruct J6 as [J6|(s2 & u2 & ws & ys & -> & J7 & J8)]; [lia|]. cbn [app] in *. pose proof (ar_checked _ _ _ _ _ _ _ _ J1) as CH.
    assert (GE : global_error (st_mb (ob_s o)) = Fin (Rsum (map (fun x => val (residual x)) (ws ++ ys)) + Rsum (map (fun x => dropped (val (ponded_before x))) (ws ++ ys)))).
    { apply (history_global dry s ws s2 u2 ys (ob_s o) FR (ly_valid _ _ _ LY) J7 J8).
      * eapply Forall_impl; [|exact CH]. intros y ((r & Er & _) & _). exists r. exact Er.
      * rewrite (ar_calib _ _ _ _ _ _ _ _ J1). eexists. reflexivity. }
    split.
    + eexists. split; [exact GE|]. eapply Rle_trans; [exact (checked_sum _ CH)|]. rewrite L2. apply Rmult_le_compat_r; [lra|exact J2].
    + intro N. destruct (J5 N) as [J9 J10]. split; [exact J9|]. change (global_error (st_mb (ob_s o)) = Fin 0). rewrite GE, (closed_sum _ J10). reflexivity.
Qed.
