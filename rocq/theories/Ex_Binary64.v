(** A configuration and a run in binary64: forcing of 57 seconds. *)

From Coq Require Import String Ascii Reals Lra ZArith List Bool Lia.
From Flocq Require Import Core.
From RecordUpdate Require Import RecordSet.
From Verif Require Import Outcome Dbl Binary64 Types ListOps Soil Giuh Fronts State Update Lib Spec_Common Spec_Update Bmi Config Driver Spec_Bmi Spec_Config Spec_Driver Spec_Binary64
  Pf_Binary64 Pf_Counts Pf_Config Pf_Lines Pf_Init Pf_Bmi Pf_BmiMem Pf_DriverRun Ex_Config Ex_Clock64.
Import ListNotations.
Import RecordSetNotations.
Open Scope R_scope.
Open Scope string_scope.

Section B64.
Local Existing Instance binary64.
Context {cfg : Cfg}.

Definition b6_lines : list string := [
  "forcing_file=./rain.csv";
  "soil_params_file=./soil.dat";
  "layer_thickness=64[cm]";
  "initial_psi=0[cm]";
  "timestep=19[sec]";
  "endtime=57[s]";
  "forcing_resolution=57[s]";
  "layer_soil_type=1";
  "max_valid_soil_types=1";
  "wilting_point_psi=15495[cm]";
  "field_capacity_psi=341[cm]";
  "giuh_ordinates=1"].
Definition b6_row : row := full_row "loam" (Fin (1 / 8)) (Fin (1 / 2)) (Fin (1 / 64)) (Fin 2) (Fin 1).
Definition b6_files (f : string) : option (list row) := if String.eqb f "./soil.dat" then Some [b6_row] else None.
Definition b6_texts (f : string) : option string := if String.eqb f "./rain.csv" then Some ("Time,P,PET" ++ String newline ("0,20,0" ++ String newline "")) else None.
Definition b6_conf : conf :=
  mkConf (Some [Fin 64]) (Some [1%Z]) (Some [Fin 1]) None (Some (Fin 0)) (Some 1%Z) (Some "./soil.dat") (Some (Fin 15495)) (Some (Fin 341)) false false
    (Some (Fin (hours64 19))) (Some (Fin 57)) (Some (Fin (hours64 57))) false None false.

Lemma read_int : forall m, (0 <= m < 2 ^ 53)%Z -> rnd (1 * IZR m * powerRZ 10 0) = Fin (IZR m).
Proof. intros m M. replace (1 * IZR m * powerRZ 10 0) with (IZR m) by (cbn; ring). apply rnd_IZR. assumption. Qed.
Lemma one_int : d2i (Fin 1) = Ok 1%Z.
Proof. apply d2i_between; [lra|lia]. Qed.
Lemma hours_pos : forall m, (1 <= m)%Z -> (Fin 0 <? Fin (hours64 m))%d = true.
Proof.
  intros m M. pose proof (hours64_bounds m M) as B. assert (e1 : eps = / 9007199254740992) by reflexivity. rewrite e1 in B. apply IZR_le in M. cbn. unfold Rltb. destruct (Rlt_dec _ _); [reflexivity|lra].
Qed.

Lemma b6_config : config_lines conf0 b6_lines = Ok b6_conf.
Proof.
  assert (T19 : (Fin 19 / lit 3600)%d = Fin (hours64 19)) by exact (hours_64 "[s]" 1 19 19 ltac:(cbn; tauto) ltac:(lia) ltac:(lra)).
  assert (T57 : (Fin 57 / lit 3600)%d = Fin (hours64 57)) by exact (hours_64 "[s]" 1 57 57 ltac:(cbn; tauto) ltac:(lia) ltac:(lra)).
  cbv -[IZR powerRZ Rmult Rplus Rdiv Rinv Rminus Ropp Rltb Rleb Req_EM_T Rlt_dec Rle_dec ddiv trunc d2i dgtb dltb dleb deqb dgeb lit rnd hours64 binary64].
  repeat (rewrite read_int by lia). rewrite one_int. rewrite T19, T57. unfold dgtb. rewrite !hours_pos by lia.
  replace (Fin 0 <? Fin 57)%d with true by (cbn; unfold Rltb; destruct (Rlt_dec _ _); [reflexivity|lra]). reflexivity.
Qed.

(** Results of the arithmetic within one per cent. *)
Definition about (lo hi : R) (d : dbl) : Prop := exists x, d = Fin x /\ lo <= x <= hi.
Lemma about_rnd : forall x lo hi, / 1000000000 <= lo -> hi <= 9000000000 -> lo <= x <= hi -> about (lo * (99 / 100)) (hi * (101 / 100)) (rnd x).
Proof.
  intros x lo hi L H B. exists (b64_near x). split; [apply rnd_small, Pf_Counts.fits; lra|]. assert (e1 : eps = / 9007199254740992) by reflexivity.
  pose proof (near_bounds x ltac:(lra)) as Q. rewrite e1 in Q. lra.
Qed.
Lemma about_lit : forall x, / 1000000000 <= x -> x <= 9000000000 -> about (x * (99 / 100)) (x * (101 / 100)) (lit x).
Proof. intros x L H. apply about_rnd; lra. Qed.
Lemma about_mul : forall a b la ha lb hb, about la ha a -> about lb hb b -> 0 < la -> 0 < lb -> / 1000000000 <= la * lb -> ha * hb <= 9000000000 -> about (la * lb * (99 / 100)) (ha * hb * (101 / 100)) (a * b)%d.
Proof.
  intros a b la ha lb hb (x & -> & X) (y & -> & Y) A B L H. apply about_rnd; try assumption. split; apply Rmult_le_compat; lra.
Qed.
Lemma about_add : forall a b la ha lb hb, about la ha a -> about lb hb b -> / 1000000000 <= la + lb -> ha + hb <= 9000000000 -> about ((la + lb) * (99 / 100)) ((ha + hb) * (101 / 100)) (a + b)%d.
Proof. intros a b la ha lb hb (x & -> & X) (y & -> & Y) L H. apply about_rnd; lra. Qed.
Lemma about_div : forall a b la ha lb hb, about la ha a -> about lb hb b -> 0 < la -> 0 < lb -> / 1000000000 <= la / hb -> ha / lb <= 9000000000 -> about (la / hb * (99 / 100)) (ha / lb * (101 / 100)) (a / b)%d.
Proof.
  intros a b la ha lb hb (x & -> & X) (y & -> & Y) A B L H. unfold ddiv. destruct (Req_EM_T y 0); [lra|]. apply about_rnd; try assumption.
  assert (0 < / hb <= / y /\ / y <= / lb). { repeat split; [apply Rinv_0_lt_compat; lra|apply Rinv_le_contravar; lra|apply Rinv_le_contravar; lra]. }
  unfold Rdiv. split; apply Rmult_le_compat; lra.
Qed.
Lemma about_fin : forall x, about x x (Fin x).
Proof. intro x. exists x. split; [reflexivity|lra]. Qed.
Lemma about_le : forall d lo hi lo' hi', about lo hi d -> lo' <= lo -> hi <= hi' -> about lo' hi' d.
Proof. intros d lo hi lo' hi' (x & -> & X) A B. exists x. split; [reflexivity|lra]. Qed.

Ltac ab := lazymatch goal with
  | |- about _ _ (Fin _) => apply about_fin
  | |- about _ _ (lit _) => apply about_lit; lra
  | |- about _ _ (_ * _)%d => eapply about_mul; [ab|ab|lra|lra|lra|lra]
  | |- about _ _ (_ + _)%d => eapply about_add; [ab|ab|lra|lra]
  | |- about _ _ (_ / _)%d => eapply about_div; [ab|ab|lra|lra|lra|lra]
  end.

Lemma half_64 : b64_near (1 / 2) = 1 / 2.
Proof.
  unfold b64_near. apply round_generic; [apply valid_rnd_N|]. replace (1 / 2) with (bpow radix2 (-1)) by (cbn; lra). apply generic_format_bpow. unfold b64_exp, FLT_exp. lia.
Qed.

Lemma b6_derive : forall junk, exists e pb hm, derive (Fin 15495) junk (Fin (1 / 8)) (Fin (1 / 2)) (Fin (1 / 64)) (Fin 2) (Fin 1) "loam" = Ok e /\ en_soil e = c6_soil pb hm.
Proof.
  intro junk. unfold derive. rewrite !(lit_IZR 1), !(lit_IZR 2), !(lit_IZR 3) by lia.
  replace (Fin 1 <? Fin 2)%d with true by (cbn; unfold Rltb; destruct (Rlt_dec _ _); [reflexivity|lra]). cbv zeta.
  assert (H : (Fin 1 / Fin 2)%d = Fin (1 / 2)). { rewrite div_near; [f_equal; apply half_64|lra|apply Pf_Counts.fits; lra]. }
  rewrite H. replace (Fin 1 - Fin (1 / 2))%d with (Fin (1 / 2)).
  2: { cbn [dsub]. replace (1 - 1 / 2) with (1 / 2) by lra. rewrite rnd_small by (apply Pf_Counts.fits; lra). f_equal. symmetry. apply half_64. }
  replace (Fin 2 / Fin (1 / 2))%d with (Fin 4). 2: { unfold ddiv. destruct (Req_EM_T (1 / 2) 0); [lra|]. replace (2 / (1 / 2)) with 4 by lra. symmetry. apply (rnd_IZR 4). lia. }
  replace (Fin 1 + Fin 4)%d with (Fin 5). 2: { cbn [dadd]. replace (1 + 4) with 5 by lra. symmetry. apply (rnd_IZR 5). lia. }
  replace (Fin 5 - Fin 1)%d with (Fin 4). 2: { cbn [dsub]. replace (5 - 1) with 4 by lra. symmetry. apply (rnd_IZR 4). lia. }
  match goal with |- context [cassert (Fin 0 <? ?x)%d] => assert (A : exists lo hi, about lo hi x /\ 0 < lo) end.
  { do 2 eexists. split; [ab|lra]. }
  rewrite (sub_is 5 3 2); [|lra|apply (rnd_IZR 2); lia]. rewrite (div_is 2 2 1); [|lra|lra|apply (rnd_IZR 1); lia].
  destruct A as (lo & hi & (y & -> & Y) & P). replace (Fin 0 <? Fin y)%d with true by (cbn; unfold Rltb; destruct (Rlt_dec _ _); [reflexivity|lra]). cbn [cassert bind]. do 3 eexists. split; reflexivity.
Qed.

Lemma b6_init : forall junk, exists s, Initialize b6_files junk b6_lines = Ok s.
Proof.
  intro junk. unfold Initialize, InitFromConfigFile. rewrite b6_config. cbn [bind].
  unfold init_rest. cbn [cf_maxtypes cf_stype cf_file cf_wp cf_thick cf_psi cf_timestep cf_endtime cf_fc cf_fres cf_giuh cf_sft cf_soilz cf_pmax b6_conf need known bind].
  change (1 + 1 <? 0)%Z with false. cbn [bind]. destruct (b6_derive junk) as (e & pb & hm & W & _).
  assert (T : lgar_read_vG_param_file (b6_files "./soil.dat") 1 (Fin 15495) junk (repeat None (Z.to_nat (1 + 1))) = Ok [None; Some e]).
  { change (b6_files "./soil.dat") with (Some [b6_row]). unfold lgar_read_vG_param_file. cbn [read_rows]. unfold read_row.
    change (scan b6_row loc0) with (mkLoc (Some "loam") (map Some [Fin (1 / 8); Fin (1 / 2); Fin (1 / 64); Fin 2; Fin 1])).
    cbn [l_name l_vals map known bind]. change (String.length "loam") with 4%nat. cbn [Z.of_nat Pos.of_succ_nat Pos.succ]. cbv iota.
    change (30 <=? 4)%Z with false. change (25 <? 4)%Z with false. change (4 =? 25)%Z with false. cbv iota. 
    change (repeat (@None entry) (Z.to_nat (1 + 1))) with [@None entry; None]. change (aget [@None entry; None] 1) with (Ok (@None entry)). cbn [bind]. rewrite W. cbn [bind]. reflexivity. }
  rewrite T. cbn [bind List.length]. change (any_invalid 1 1 (None :: map Some [1%Z]) 1) with (Ok false). cbn [bind].
  assert (Rs : exists v, resample (Fin (hours64 57)) [Fin 1] = Ok (63%Z, None :: repeat (Some v) 63)).
  { unfold resample. rewrite (lit_IZR 1) by lia. pose proof (hours64_bounds 57 ltac:(lia)) as B. assert (e1 : eps = / 9007199254740992) by reflexivity. rewrite e1 in B.
    assert (Q : d2i (Fin 1 / Fin (hours64 57))%d = Ok 63%Z).
    { assert (C : 1 / 64 * (100 / 99) <= hours64 57 <= 1 / 63 * (999 / 1000)) by lra. assert (D : 63 * (1000 / 999) <= 1 / hours64 57 <= 64 * (99 / 100)).
      { assert (0 < hours64 57) by lra. split; [apply (Rmult_le_reg_r (hours64 57))|apply (Rmult_le_reg_r (hours64 57))]; try lra; replace (1 / hours64 57 * hours64 57) with 1 by (field; lra); lra. }
      rewrite div_near; [|lra|apply Pf_Counts.fits; lra]. pose proof (near_bounds (1 / hours64 57) ltac:(lra)) as N. rewrite e1 in N. apply d2i_between; [lra|lia]. }
    rewrite Q. cbn [bind]. exists (Fin 1 / dofZ 63)%d. change (63 * Z.of_nat (List.length [Fin 1]))%Z with 63%Z.
    generalize (dofZ 63). intro d. change (repeat (@None dbl) (Z.to_nat (63 + 1))) with (repeat (@None dbl) 64). reflexivity. }
  destruct Rs as (v & ->). cbn [bind]. rewrite (guarded 57 19 3) by lia. cbn [bind].
  match goal with |- context [running (Fin 0) [Fin 64]] => set (cu := running (Fin 0) [Fin 64]) end.
  assert (Cu : exists b, cu = [b]) by (eexists; reflexivity). destruct Cu as (b & Cu). rewrite Cu. clear cu Cu.
  assert (Hd : exists f, InitializeWettingFronts (Z.of_nat 1) (Fin 0) (None :: map Some [1%Z]) [Fin 0; b] (repeat (lit 1) 2) [None; Some e] = Ok [f] /\ f_layer f = 1%Z).
  { unfold InitializeWettingFronts. change (Z.to_nat (Z.of_nat 1)) with 1%nat. cbn [zfor].
    change (uget (None :: map Some [1%Z]) 1) with (Ok 1%Z). cbn [bind]. change (uget [None; Some e] 1) with (Ok e). cbn [bind].
    change (aget [Fin 0; b] 1) with (Ok b). cbn [bind]. generalize (theta_of_h (en_soil e) (Fin 0)). intro th.
    match goal with |- context [listInsertFront ?a ?b ?c ?d ?e ?g ?h ?i] => let v := eval cbv in (listInsertFront a b c d e g h i) in change (listInsertFront a b c d e g h i) with v end.
    cbn [bind lget nth_error]. change (aget (repeat (lit 1) 2) 1) with (Ok (lit 1)). cbn [bind f_theta]. eexists. split; reflexivity. }
  destruct Hd as (f & -> & F). cbn [bind].
  assert (M : exists m, lgar_calc_mass_bal [Fin 0; b] [f] = Ok m). { unfold lgar_calc_mass_bal. cbn [mass_loop]. rewrite F. eexists. reflexivity. }
  destruct M as (m & ->). cbn [bind]. change (Z.of_nat 1 =? listLength [f])%Z with true. cbn [cassert bind]. cbv zeta.
  cbn [sr_p sr_N sr_ord sr_tab sr_head sr_vol p_nlayers p_stype]. change (layer_values (Z.to_nat (Z.of_nat 1)) 1 (None :: map Some [1%Z]) [None; Some e] [f]) with (Ok [(f, en_soil e)]).
  cbn [bind]. change (zfor 0 (Z.to_nat 63) (fun i a => o <- uget (None :: repeat (Some v) 63) (i + 1) ;; Ok (a ++ [o])%list) []) with (Ok (repeat v 63)). cbn [bind].
  eexists. reflexivity.
Qed.

Lemma b6_seconds : seconds "timestep" b6_lines 19 /\ seconds "forcing_resolution" b6_lines 57 /\ seconds "endtime" b6_lines 57.
Proof.
  repeat split.
  - exists (num "19"), "[sec]", 1, 19%Z. split; [good|]. split; [values; lra|]. split; [lia|]. split; [cbn; tauto|]. split; [change (last_line "timestep" "timestep=19[sec]" b6_lines); a_last 4%nat|]. lra.
  - exists (num "57"), "[s]", 1, 57%Z. split; [good|]. split; [values; lra|]. split; [lia|]. split; [cbn; tauto|]. split; [change (last_line "forcing_resolution" "forcing_resolution=57[s]" b6_lines); a_last 6%nat|]. lra.
  - exists (num "57"), "[s]", 1, 57%Z. split; [good|]. split; [values; lra|]. split; [lia|]. split; [cbn; tauto|]. split; [change (last_line "endtime" "endtime=57[s]" b6_lines); a_last 5%nat|]. lra.
Qed.
Lemma b6_read : exists f, ReadForcingData b6_texts b6_lines = Ok f /\ List.length (fo_pet f) = 1%nat.
Proof.
  eexists. split.
  - cbv -[IZR powerRZ Rmult Rplus Rdiv Rinv Rminus Ropp rnd binary64]. repeat (rewrite read_int by lia). reflexivity.
  - reflexivity.
Qed.
Lemma b6_run : forall junk, exists res, simulate b6_files b6_texts junk b6_lines = Ok res.
Proof.
  intro junk. destruct (b6_init junk) as (s & I). destruct b6_read as (f & R & L). destruct b6_seconds as (_ & SF & SE). unfold simulate. rewrite I. cbn [bind]. cbv zeta.
  unfold GetEndTime, GetTimeStep. cbn [ob_s]. rewrite (fres_64 _ _ _ _ _ SF I), (endtime_64 b6_files junk b6_lines s _ SE ltac:(lia) I), lost_step. cbn [bind]. rewrite R. cbn [bind]. rewrite L.
  eexists. reflexivity.
Qed.

(** ** Forcing of an hour in sub-steps of twenty minutes *)
Definition b7_lines : list string := [
  "forcing_file=./rain.csv";
  "soil_params_file=./soil.dat";
  "layer_thickness=64[cm]";
  "initial_psi=0[cm]";
  "timestep=20[min]";
  "endtime=3600[s]";
  "forcing_resolution=1[hr]";
  "ponded_depth_max=1[cm]";
  "use_closed_form_G=true";
  "layer_soil_type=1";
  "max_valid_soil_types=1";
  "wilting_point_psi=15495[cm]";
  "field_capacity_psi=341[cm]";
  "giuh_ordinates=1"].
Definition b7_texts (f : string) : option string := if String.eqb f "./rain.csv" then Some ("Time,P,PET" ++ String newline ("0,0,0" ++ String newline "")) else None.
Definition b7_conf : conf :=
  mkConf (Some [Fin 64]) (Some [1%Z]) (Some [Fin 1]) None (Some (Fin 0)) (Some 1%Z) (Some "./soil.dat") (Some (Fin 15495)) (Some (Fin 341)) true false
    (Some (Fin (hours64 1200))) (Some (Fin 3600)) (Some (Fin (hours64 3600))) false (Some (Fin 1)) false.
Lemma b7_config : config_lines conf0 b7_lines = Ok b7_conf.
Proof.
  assert (T1 : (Fin 20 / lit 60)%d = Fin (hours64 1200)) by exact (hours_64 "[min]" 60 20 1200 ltac:(cbn; tauto) ltac:(lia) ltac:(lra)).
  assert (T2 : (Fin 1 / lit 1)%d = Fin (hours64 3600)) by exact (hours_64 "[hr]" 3600 1 3600 ltac:(cbn; tauto) ltac:(lia) ltac:(lra)).
  cbv -[IZR powerRZ Rmult Rplus Rdiv Rinv Rminus Ropp Rltb Rleb Req_EM_T Rlt_dec Rle_dec ddiv trunc d2i dgtb dltb dleb deqb dgeb lit rnd hours64 binary64].
  repeat (rewrite read_int by lia). rewrite one_int. rewrite T1, T2. unfold dgtb. rewrite !hours_pos by lia. rewrite (ltb_64t 0 3600), (ltb_64f 1 0) by lra. reflexivity.
Qed.
Lemma hour_one : hours64 3600 = 1.
Proof. unfold hours64. replace (3600 / 3600) with 1 by lra. apply (near_IZR 1). lia. Qed.
Lemma b7_K : forall pb hm, K_of_Se (c6_soil pb hm) (Se_of_theta (c6_soil pb hm) (Fin (1 / 2))) (Fin 1) = Fin 1.
Proof.
  intros pb hm. unfold K_of_Se, calc_K_from_Se, Se_of_theta, calc_Se_from_theta, c6_soil. cbn [s_alpha s_n s_m s_theta_e s_theta_r]. rewrite !(lit_IZR 1), !(lit_IZR 2) by lia.
  rewrite (sub_is _ _ (3 / 8)); [|lra|apply r_38]. rewrite (div_is (3 / 8) _ 1); [|lra|lra|apply (rnd_IZR 1); lia]. rewrite pow_one64.
  rewrite (sub_is 1 1 0); [|lra|apply r_0]. rewrite pow_zero64 by lra. rewrite (sub_is 1 0 1); [|lra|apply (rnd_IZR 1); lia]. rewrite pow_one64.
  replace (dsqrt (Fin 1)) with (Fin 1). 2: { cbn [dsqrt]. destruct (Rlt_dec 1 0); [lra|]. rewrite sqrt_1. symmetry. apply (rnd_IZR 1). lia. }
  rewrite (mul_is 1 1 1); [|lra|apply (rnd_IZR 1); lia]. apply mul_is; [lra|apply (rnd_IZR 1); lia].
Qed.
Lemma b7_init : forall junk, exists pb hm dp s, Initialize b6_files junk b7_lines = Ok s /\ s <| st_precip := Fin 0 |> <| st_pet := Fin 0 |> = c6_start pb hm dp.
Proof.
  intro junk. unfold Initialize, InitFromConfigFile. rewrite b7_config. cbn [bind].
  unfold init_rest. cbn [cf_maxtypes cf_stype cf_file cf_wp cf_thick cf_psi cf_timestep cf_endtime cf_fc cf_fres cf_giuh cf_sft cf_soilz cf_pmax b7_conf need known bind].
  change (1 + 1 <? 0)%Z with false. cbn [bind]. destruct (b6_derive junk) as (e & pb & hm & W & ES).
  assert (T : lgar_read_vG_param_file (b6_files "./soil.dat") 1 (Fin 15495) junk (repeat None (Z.to_nat (1 + 1))) = Ok [None; Some e]).
  { change (b6_files "./soil.dat") with (Some [b6_row]). unfold lgar_read_vG_param_file. cbn [read_rows]. unfold read_row.
    change (scan b6_row loc0) with (mkLoc (Some "loam") (map Some [Fin (1 / 8); Fin (1 / 2); Fin (1 / 64); Fin 2; Fin 1])).
    cbn [l_name l_vals map known bind]. change (String.length "loam") with 4%nat. cbn [Z.of_nat Pos.of_succ_nat Pos.succ]. cbv iota.
    change (30 <=? 4)%Z with false. change (25 <? 4)%Z with false. change (4 =? 25)%Z with false. cbv iota. 
    change (repeat (@None entry) (Z.to_nat (1 + 1))) with [@None entry; None]. change (aget [@None entry; None] 1) with (Ok (@None entry)). cbn [bind]. rewrite W. cbn [bind]. reflexivity. }
  rewrite T. cbn [bind List.length]. change (any_invalid 1 1 (None :: map Some [1%Z]) 1) with (Ok false). cbn [bind].
  assert (R1 : rnd 1 = Fin 1) by (apply (rnd_IZR 1); lia).
  assert (Rs : resample (Fin (hours64 3600)) [Fin 1] = Ok (1%Z, [None; Some (Fin 1)])).
  { unfold resample. rewrite (lit_IZR 1), hour_one by lia. rewrite (div_is 1 1 1); [|lra|lra|exact R1]. rewrite one_int. cbn [bind].
    change (1 * Z.of_nat (List.length [Fin 1]))%Z with 1%Z. assert (D1 : dofZ 1 = Fin 1) by exact R1. rewrite D1. assert (Q : (Fin 1 / Fin 1)%d = Fin 1) by (apply div_is; [lra|lra|exact R1]).
    change (repeat (@None dbl) (Z.to_nat (1 + 1))) with [@None dbl; None]. cbn [List.length zfor]. change (Z.to_nat 1) with 1%nat. cbn [zfor]. change (aget [Fin 1] 0) with (Ok (Fin 1)). cbn [bind]. rewrite Q. reflexivity. }
  rewrite Rs. cbn [bind]. rewrite (guarded 3600 1200 3) by lia. cbn [bind].
  assert (L1 : lit 1 = Fin 1) by exact R1. rewrite L1.
  assert (Cu : running (Fin 0) [Fin 64] = [Fin 64]). { cbn [running]. rewrite (add_is 0 64 64); [reflexivity|lra|apply (rnd_IZR 64); lia]. } rewrite Cu.
  assert (Hd : InitializeWettingFronts (Z.of_nat 1) (Fin 0) (None :: map Some [1%Z]) [Fin 0; Fin 64] (repeat (Fin 1) 2) [None; Some e] = Ok [c6_front]).
  { unfold InitializeWettingFronts. change (Z.to_nat (Z.of_nat 1)) with 1%nat. cbn [zfor].
    change (uget (None :: map Some [1%Z]) 1) with (Ok 1%Z). cbn [bind]. change (uget [None; Some e] 1) with (Ok e). cbn [bind]. rewrite ES.
    change (aget [Fin 0; Fin 64] 1) with (Ok (Fin 64)). cbn [bind]. rewrite c6_theta.
    match goal with |- context [listInsertFront ?a ?b ?c ?d ?e ?g ?h ?i] => let v := eval cbv -[IZR Rdiv Rmult Rinv] in (listInsertFront a b c d e g h i) in change (listInsertFront a b c d e g h i) with v end.
    cbn [bind lget nth_error]. change (aget (repeat (Fin 1) 2) 1) with (Ok (Fin 1)). cbn [bind f_theta].
    change (s_Ksat (c6_soil pb hm)) with (Fin 1). rewrite (mul_is 1 1 1); [|lra|exact R1]. rewrite b7_K. reflexivity. }
  rewrite Hd. cbn [bind]. rewrite c6_mass. cbn [bind]. change (Z.of_nat 1 =? listLength [c6_front])%Z with true. cbn [cassert bind]. cbv zeta.
  cbn [sr_p sr_N sr_ord sr_tab sr_head sr_vol p_nlayers p_stype]. change (layer_values (Z.to_nat (Z.of_nat 1)) 1 (None :: map Some [1%Z]) [None; Some e] [c6_front]) with (Ok [(c6_front, en_soil e)]).
  cbn [bind]. change (zfor 0 (Z.to_nat 1) (fun i a => o <- uget [None; Some (Fin 1)] (i + 1) ;; Ok (a ++ [o])%list) []) with (Ok [Fin 1]). cbn [bind map fst snd].
  exists pb, hm. do 2 eexists. split; [reflexivity|]. cbn [option_map]. rewrite ES. reflexivity.
Qed.
Lemma b7_seconds : seconds "timestep" b7_lines 1200 /\ seconds "forcing_resolution" b7_lines 3600 /\ seconds "endtime" b7_lines 3600.
Proof.
  repeat split.
  - exists (num "20"), "[min]", 60, 20%Z. split; [good|]. split; [values; lra|]. split; [lia|]. split; [cbn; tauto|]. split; [change (last_line "timestep" "timestep=20[min]" b7_lines); a_last 4%nat|]. lra.
  - exists (num "1"), "[hr]", 3600, 1%Z. split; [good|]. split; [values; lra|]. split; [lia|]. split; [cbn; tauto|]. split; [change (last_line "forcing_resolution" "forcing_resolution=1[hr]" b7_lines); a_last 6%nat|]. lra.
  - exists (num "3600"), "[s]", 1, 3600%Z. split; [good|]. split; [values; lra|]. split; [lia|]. split; [cbn; tauto|]. split; [change (last_line "endtime" "endtime=3600[s]" b7_lines); a_last 5%nat|]. lra.
Qed.
Lemma b7_giuh : last_line "giuh_ordinates" "giuh_ordinates=1" b7_lines /\ assigns "giuh_ordinates" (numbers [num "1"]) "giuh_ordinates=1" /\ Forall good_numeral [num "1"].
Proof. split; [a_last 13%nat|]. split; [left; chk|goods]. Qed.
Lemma b7_read : ReadForcingData b7_texts b7_lines = Ok (mkForcing ["0"] [Fin 0] [Fin 0]).
Proof. cbv -[IZR powerRZ Rmult Rplus Rdiv Rinv Rminus Ropp rnd binary64]. repeat (rewrite read_int by lia). reflexivity. Qed.
Lemma b7_run : forall junk, exists res, simulate b6_files b7_texts junk b7_lines = Ok res.
Proof.
  intro junk. destruct (b7_init junk) as (pb & hm & dp & s & I & ES). destruct b7_seconds as (_ & SF & SE). unfold simulate. rewrite I. cbn [bind]. cbv zeta.
  unfold GetEndTime, GetTimeStep. cbn [ob_s]. rewrite (fres_64 _ _ _ _ _ SF I), (endtime_64 b6_files junk b7_lines s _ SE ltac:(lia) I).
  rewrite (step_count 3600 3600) by (lia || exists 1%Z; reflexivity). change (3600 / 3600)%Z with 1%Z. cbn [bind]. rewrite b7_read. cbn [bind]. change (1 <=? Z.of_nat (List.length (fo_pet (mkForcing ["0"] [Fin 0] [Fin 0]))))%Z with true.
  cbn [cassert bind]. change (Z.to_nat 1) with 1%nat. cbn [drive]. unfold drive_step. cbn [fo_precip fo_pet fo_time]. change (aget [Fin 0] 0) with (Ok (Fin 0)). cbn [bind]. rewrite set_precip. cbn [bind].
  rewrite set_pet. cbn [bind]. unfold bmi_Update. cbn [ob_s ob_pre]. rewrite ES. destruct (c6_executed pb hm dp) as (s' & (U & _) & (b & So) & N & (x & X) & (y & Y)). rewrite U. cbn [bind ob_s ob_pre].
  change (aget ["0"] 0) with (Ok "0").
  assert (G1 : GetValue "soil_moisture_wetting_fronts" (mkObj s' (repeat None 11)) = Ok [D x]).
  { rewrite (GetValue_eq "soil_moisture_wetting_fronts" LTheta _ eq_refl). unfold loc_cells, load. cbn [ob_s]. rewrite N, X. reflexivity. }
  assert (G2 : GetValue "soil_depth_wetting_fronts" (mkObj s' (repeat None 11)) = Ok [D y]).
  { rewrite (GetValue_eq "soil_depth_wetting_fronts" LDepth _ eq_refl). unfold loc_cells, load. cbn [ob_s]. rewrite N, Y. reflexivity. }
  rewrite G1. cbn [bind]. rewrite N. change (into 1 [D x]) with (Ok [D x]). cbn [bind]. rewrite G2. cbn [bind]. change (into 1 [D y]) with (Ok [D y]). cbn [bind].
  rewrite (columns_some (mkObj s' (repeat None 11)) b So). cbn [bind]. eexists. reflexivity.
Qed.
End B64.
