(** The configuration of Ex_Binary64 with a second line for the initial head. *)

From Coq Require Import String Ascii Reals Lra ZArith List Bool Lia.
From RecordUpdate Require Import RecordSet.
From Verif Require Import Outcome Dbl Binary64 Types ListOps Soil Giuh Fronts State Update Lib Spec_Common Config Spec_Config Spec_Binary64 Spec_RoundMono Spec_DryStart Spec_StartRound
  Pf_Binary64 Pf_Counts Pf_Config Pf_Lines Pf_Init Pf_RoundMono Ex_Config Ex_Clock64 Ex_Binary64.
Import ListNotations.
Import RecordSetNotations.
Open Scope R_scope.
Open Scope string_scope.
Open Scope list_scope.

Section B64.
Local Existing Instance binary64.

Definition b8_line : string := "initial_psi=64[cm]".
Definition b8_conf : conf :=
  mkConf (Some [Fin 64]) (Some [1%Z]) (Some [Fin 1]) None (Some (Fin 64)) (Some 1%Z) (Some "./soil.dat") (Some (Fin 15495)) (Some (Fin 341)) true false
    (Some (Fin (hours64 1200))) (Some (Fin 3600)) (Some (Fin (hours64 3600))) false (Some (Fin 1)) false.
Lemma b8_config : config_lines conf0 (b7_lines ++ [b8_line]) = Ok b8_conf.
Proof.
  assert (T1 : (Fin 20 / lit 60)%d = Fin (hours64 1200)) by exact (hours_64 "[min]" 60 20 1200 ltac:(cbn; tauto) ltac:(lia) ltac:(lra)).
  assert (T2 : (Fin 1 / lit 1)%d = Fin (hours64 3600)) by exact (hours_64 "[hr]" 3600 1 3600 ltac:(cbn; tauto) ltac:(lia) ltac:(lra)).
  cbv -[IZR powerRZ Rmult Rplus Rdiv Rinv Rminus Ropp Rltb Rleb Req_EM_T Rlt_dec Rle_dec ddiv trunc d2i dgtb dltb dleb deqb dgeb lit rnd hours64 binary64].
  repeat (rewrite read_int by lia). rewrite one_int. rewrite T1, T2. unfold dgtb. rewrite !hours_pos by lia. rewrite (ltb_64t 0 3600), (ltb_64f 1 0) by lra. reflexivity.
Qed.
Lemma b8_init : forall junk, exists s, Initialize b6_files junk (b7_lines ++ [b8_line]) = Ok s.
Proof.
  intro junk. unfold Initialize, InitFromConfigFile. rewrite b8_config. cbn [bind].
  unfold init_rest. cbn [cf_maxtypes cf_stype cf_file cf_wp cf_thick cf_psi cf_timestep cf_endtime cf_fc cf_fres cf_giuh cf_sft cf_soilz cf_pmax b8_conf need known bind].
  change (1 + 1 <? 0)%Z with false. cbn [bind]. destruct (b6_derive junk) as (e & pb & hm & W & _).
  assert (T : lgar_read_vG_param_file (b6_files "./soil.dat") 1 (Fin 15495) junk (repeat None (Z.to_nat (1 + 1))) = Ok [None; Some e]).
  { change (b6_files "./soil.dat") with (Some [b6_row]). unfold lgar_read_vG_param_file. cbn [read_rows]. unfold read_row.
    change (scan b6_row loc0) with (mkLoc (Some "loam") (map Some [Fin (1 / 8); Fin (1 / 2); Fin (1 / 64); Fin 2; Fin 1])).
    cbn [l_name l_vals map known bind]. change (String.length "loam") with 4%nat. cbn [Z.of_nat Pos.of_succ_nat Pos.succ]. cbv iota.
    change (30 <=? 4)%Z with false. change (25 <? 4)%Z with false. change (4 =? 25)%Z with false. cbv iota. 
    change (repeat (@None entry) (Z.to_nat (1 + 1))) with [@None entry; None]. change (aget [@None entry; None] 1) with (Ok (@None entry)). cbn [bind]. rewrite W. cbn [bind]. reflexivity. }
  rewrite T. cbn [bind List.length]. change (any_invalid 1 1 (None :: map Some [1%Z]) 1) with (Ok false). cbn [bind].
  assert (R1 : rnd 1 = Fin 1) by (apply (rnd_IZR 1); lia).
  assert (Rs : resample (Fin (hours64 3600)) [Fin 1] = Ok (1%Z, [None; Some (Fin 1)])).
  { unfold resample. rewrite (lit_IZR 1), hour_one by lia. rewrite (div_is 1 1 1); [|lra|lra|exact R1]. rewrite one_int. cbn [bind].
    change (1 * Z.of_nat (List.length [Fin 1]))%Z with 1%Z. assert (D1 : dofZ 1 = Fin 1) by exact R1. rewrite D1. assert (Q : (Fin 1 / Fin 1)%d = Fin 1) by (apply div_is; [lra|lra|exact R1]).
    change (repeat (@None dbl) (Z.to_nat (1 + 1))) with [@None dbl; None]. cbn [List.length zfor]. change (Z.to_nat 1) with 1%nat. cbn [zfor]. change (aget [Fin 1] 0) with (Ok (Fin 1)). cbn [bind]. rewrite Q. reflexivity. }
  rewrite Rs. cbn [bind]. rewrite (guarded 3600 1200 3) by lia. cbn [bind].
  assert (L1 : lit 1 = Fin 1) by exact R1. rewrite L1.
  assert (Cu : running (Fin 0) [Fin 64] = [Fin 64]). { cbn [running]. rewrite (add_is 0 64 64); [reflexivity|lra|apply (rnd_IZR 64); lia]. } rewrite Cu.
  assert (Hd : exists f, InitializeWettingFronts (Z.of_nat 1) (Fin 64) (None :: map Some [1%Z]) [Fin 0; Fin 64] (repeat (Fin 1) 2) [None; Some e] = Ok [f] /\ f_layer f = 1%Z).
  { unfold InitializeWettingFronts. change (Z.to_nat (Z.of_nat 1)) with 1%nat. cbn [zfor].
    change (uget (None :: map Some [1%Z]) 1) with (Ok 1%Z). cbn [bind]. change (uget [None; Some e] 1) with (Ok e). cbn [bind].
    change (aget [Fin 0; Fin 64] 1) with (Ok (Fin 64)). cbn [bind]. generalize (theta_of_h (en_soil e) (Fin 64)). intro th.
    match goal with |- context [listInsertFront ?a ?b ?c ?d ?e ?g ?h ?i] => let v := eval cbv -[IZR] in (listInsertFront a b c d e g h i) in change (listInsertFront a b c d e g h i) with v end.
    cbn [bind lget nth_error]. change (aget (repeat (Fin 1) 2) 1) with (Ok (Fin 1)). cbn [bind f_theta]. eexists. split; reflexivity. }
  destruct Hd as (f & Hd & F). rewrite Hd. cbn [bind].
  assert (M : exists m, lgar_calc_mass_bal [Fin 0; Fin 64] [f] = Ok m). { unfold lgar_calc_mass_bal. cbn [mass_loop]. rewrite F. eexists. reflexivity. }
  destruct M as (m & ->). cbn [bind]. change (Z.of_nat 1 =? listLength [f])%Z with true. cbn [cassert bind]. cbv zeta.
  cbn [sr_p sr_N sr_ord sr_tab sr_head sr_vol p_nlayers p_stype]. change (layer_values (Z.to_nat (Z.of_nat 1)) 1 (None :: map Some [1%Z]) [None; Some e] [f]) with (Ok [(f, en_soil e)]).
  cbn [bind]. change (zfor 0 (Z.to_nat 1) (fun i a => o <- uget [None; Some (Fin 1)] (i + 1) ;; Ok (a ++ [o])%list) []) with (Ok [Fin 1]). cbn [bind map fst snd].
  eexists. reflexivity.
Qed.

Lemma b8_soil : forall pb hm k sl, (1 <= k <= 1)%Z -> soil_of (c6_env pb hm) k = Ok sl -> double_soil sl /\ exists r e, rounded_soil sl r e.
Proof.
  intros pb hm k sl K E. assert (k = 1%Z) as -> by lia. apply Ok_inj in E. subst sl.
  assert (H : rounded_soil (c6_soil pb hm) (1 / 8) (1 / 2)).
  { unfold rounded_soil, c6_soil. cbn [s_theta_r s_theta_e s_alpha s_n s_m]. repeat split; try lra.
    - replace (1 / 8) with (IZR 1 * Flocq.Core.Raux.bpow Flocq.Core.Zaux.radix2 (-3)) by (cbn; lra). rewrite rnd_small; [f_equal; apply near_format; lia|]. apply fits. cbn. lra.
    - exists (1 / 64). split; [reflexivity|lra].
    - exists 2. split; [reflexivity|lra].
    - exists (1 / 2). split; [reflexivity|lra]. }
  split; [|eauto]. exists (1 / 8), (1 / 2), 1. split; [exact H|]. split; [|split; [reflexivity|split; [apply rnd_one|lra]]]. rewrite rnd_small by (apply fits; lra). rewrite half_64. reflexivity.
Qed.
Lemma b8_case : forall junk, exists s s', last_line "initial_psi" "initial_psi=0[cm]" b7_lines /\ assigns "initial_psi" (text (num "0")) "initial_psi=0[cm]" /\ good_numeral (num "0") /\
  assigns "initial_psi" (text (num "64")) b8_line /\ good_numeral (num "64") /\ 0 <= value (num "0") <= value (num "64") /\
  Initialize b6_files junk b7_lines = Ok s /\ Initialize b6_files junk (b7_lines ++ [b8_line]) = Ok s' /\ rounded_column (env_of s) /\
  (forall k sl, (1 <= k <= p_nlayers (st_p s))%Z -> soil_of (env_of s) k = Ok sl -> double_soil sl).
Proof.
  intro junk. destruct (b7_init junk) as (pb & hm & dp & s & I & ES). destruct (b8_init junk) as (s' & I'). exists s, s'. split; [a_last 3%nat|]. split; [assigned|]. split; [good|]. split; [assigned|]. split; [good|]. split; [values; lra|].
  split; [exact I|]. split; [exact I'|]. assert (EE : env_of s = c6_env pb hm) by (apply (f_equal env_of) in ES; exact ES). assert (EN : p_nlayers (st_p s) = 1%Z) by (apply (f_equal (fun s => p_nlayers (st_p s))) in ES; exact ES).
  rewrite EE, EN. split.
  - intros k K. cbn in K. assert (k = 1%Z) as -> by lia. split.
    + exists 0, 64, 64. split; [reflexivity|]. split; [reflexivity|]. split; [|lra]. cbn [dsub]. rewrite Rminus_0_r. apply (rnd_IZR 64). lia.
    + destruct (b8_soil pb hm 1%Z _ ltac:(lia) eq_refl) as (_ & r & e & R). eexists. exists r, e. split; [reflexivity|exact R].
  - intros k sl K E. apply (b8_soil pb hm k sl K E).
Qed.
End B64.
