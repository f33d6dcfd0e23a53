(** Worked examples: Updates that apply calibration parameters. *)

From Coq Require Import Reals Lra ZArith List Bool Lia.
From RecordUpdate Require Import RecordSet.
From Verif Require Import Outcome Dbl Exact Types ListOps Soil Giuh Fronts Infil Move State Update Bmi Lib Spec_Common Spec_List Spec_Update Spec_Profile Spec_Bmi Spec_Calib
  Pf_Dbl Pf_Pow Pf_Update Pf_Clock Pf_Profile Pf_Structure Pf_Calib Ex_Saturated Ex_Safety Ex_TwoLayers.
Import ListNotations.
Import RecordSetNotations.
Open Scope R_scope.

(** A saturated layer of 100 cm with a porosity of 1/2 in the soil table; the user sets 2/5, and a conductivity of 1 instead of 3. *)
Definition ca_soil : soil :=
  mkSoil (Fin (1 / 10)) (Fin (1 / 2)) (Fin (1 / 100)) (Fin 2) (Fin (1 / 2)) (Fin 1) (Fin 10) (Fin 0) (Fin 3).
Definition ca_front : front := mkF (Fin 100) (Fin (1 / 2)) (Fin 0) (Fin 1) 1 1 true (Fin 0).
Definition ca_cal : calib := mkCal [Fin (2 / 5)] [Fin (1 / 10)] [Fin 2] [Fin (1 / 100)] [Fin 1] (Fin 341) (Fin (3 / 2)).
Definition ca_mb : massbal := mkMB (Fin 0) (Fin 50) (Fin 0) (Fin 0) (Fin 0) (Fin 0) (Fin 0) (Fin 0) (Fin 0) (Fin 0) (Fin 0) (Fin 0) (Fin 0) None.
Definition ca_start : state :=
  mkState [ca_front] [ca_front] [None; Some ca_soil] ((ex_params 1 1 0 7200 0 0 0 1 1 [Fin (1 / 2)] [Fin 1]) <| p_calib := true |>) ca_mb
    (Fin 20) (Fin 0) ca_cal None 1 [Fin 1] [Fin 0; Fin 0].
Definition ca_mid : state := ex_state (ex_params 1 1 (3 / 2) 7200 0 0 0 1 1 [Fin (1 / 2)] [Fin 1]) ca_mb 20 None [ca_front] 0.

Section Run.
Local Existing Instance exact.
Context {cfg : Cfg}.

Lemma ca_m : (lit 1 - lit 1 / Fin 2)%d = Fin (1 / 2).
Proof. change (lit 1) with (Fin 1). rewrite div_fin by lra. cbn. f_equal. lra. Qed.

Lemma ca_prologue : update_prologue ca_start = Ok (recal ca_cal ca_mid, Fin (-10)).
Proof.
  unfold update_prologue. change (p_sft (st_p ca_start)) with false. cbv iota zeta. cbn [bind].
  change (p_calib (st_p ca_start)) with true. cbv iota.
  unfold update_calibratable_parameters. cbv zeta.
  match goal with |- context [lgar_calc_mass_bal ?a ?b] => change (lgar_calc_mass_bal a b) with (lgar_calc_mass_bal [Fin 0; Fin 100] [ca_front]) end.
  replace (lgar_calc_mass_bal [Fin 0; Fin 100] [ca_front]) with (@Ok dbl (Fin 50)) by (symmetry; reval; feq). cbn [bind].
  match goal with |- context [calib_loop ?k ?a ?b ?c ?d ?e] => replace (calib_loop k a b c d e) with (@Ok (list front * list (option soil)) ([ex_front], [None; Some ex_soil])) end.
  2: { symmetry. change (Z.to_nat (p_nfronts (st_p (ca_start <| st_p := st_p ca_start |>)))) with 1%nat. cbn [calib_loop]. cbv zeta.
    change (st_head (ca_start <| st_p := st_p ca_start |>)) with [ca_front]. cbv iota.
    cbn [bind uget aget ca_start ca_cal c_theta_e c_theta_r c_n c_alpha c_Ksat st_cal st_p st_soils p_stype].
    change (f_layer ca_front) with 1%Z.
    match goal with |- context [uget ?a ?b] => change (uget a b) with (Ok 1%Z) end. cbn [bind].
    match goal with |- context [aget ?a ?b] => change (aget a b) with (Ok (Fin (2 / 5))) end. cbn [bind].
    match goal with |- context [aget ?a ?b] => change (aget a b) with (Ok (Fin (1 / 10))) end. cbn [bind].
    match goal with |- context [aget ?a ?b] => change (aget a b) with (Ok (Fin 2)) end. cbn [bind].
    match goal with |- context [aget ?a ?b] => change (aget a b) with (Ok (Fin (1 / 100))) end. cbn [bind].
    match goal with |- context [aget ?a ?b] => change (aget a b) with (Ok (Fin 1)) end. cbn [bind].
    match goal with |- context [uget ?a ?b] => change (uget a b) with (Ok ca_soil) end. cbn [bind].
    assert (S : calib_soil ca_soil (Fin (2 / 5)) (Fin (1 / 10)) (Fin 2) (Fin (1 / 100)) (Fin 1) = ex_soil) by (unfold calib_soil; rewrite ca_m; reflexivity).
    rewrite S. change (f_psi ca_front) with (Fin 0). rewrite ex_theta. reflexivity. }
  cbn [bind].
  match goal with |- context [lgar_calc_mass_bal ?a ?b] => change (lgar_calc_mass_bal a b) with (lgar_calc_mass_bal [Fin 0; Fin 100] [ex_front]) end.
  rewrite ex_mass. cbn [bind]. replace (Fin 40 - Fin 50)%d with (Fin (-10)) by (cbn; f_equal; lra). reflexivity.
Qed.

Definition ca_last : state := ex_state (ex_params 1 1 (3 / 2) 7200 (0 + 1 * 3600) (0 + 1) (20 * (1 / 10) * 1) 1 1 [Fin (1 / 2)] [Fin 1]) (ca_mb <| mb_local := Some (Fin 0) |>) 20 None [ex_front] 0.
Definition ca_acc : acc := mkAcc (Fin (0 + 20 * (1 / 10) * 1)) (Fin 0) (Fin 0) (Fin 40) (Fin 0) (Fin (ex_on (3 / 2) (20 * (1 / 10) * 1 + 0))) (Fin (0 + ex_off (3 / 2) (20 * (1 / 10) * 1 + 0))) (Fin 0).
Lemma ca_substep : substep (ex_upar 1 (3 / 2)) ca_mid (acc0 (Fin 40) (Fin 0)) = Ok (ca_last, ca_acc).
Proof. unfold ca_mid, acc0. rewrite ex_substep by lra. reflexivity. Qed.
Lemma ca_on : ex_on (3 / 2) (20 * (1 / 10) * 1 + 0) = 3 / 2. Proof. unfold ex_on, Rmin. destruct (Rle_dec _ _); lra. Qed.
Lemma ca_off : ex_off (3 / 2) (20 * (1 / 10) * 1 + 0) = 1 / 2. Proof. unfold ex_off, Rmin. destruct (Rle_dec _ _); lra. Qed.

Definition ca_step : step := mkStep (recal ca_cal ca_mid) (acc0 (Fin 40) (Fin 0)) (recal ca_cal ca_last) ca_acc.

Lemma ca_executed : exists s', executed ca_start (ex_upar 1 (3 / 2)) [ca_step] s' /\ mb_calib (st_mb s') = Fin (-10) /\ global_error (st_mb s') = Fin 0.
Proof.
  assert (R : exists s', finish_update (recal ca_cal ca_last) ca_acc (Fin (-10)) = Ok s' /\ mb_calib (st_mb s') = Fin (-10) /\ global_error (st_mb s') = Fin 0).
  { unfold finish_update.
    match goal with |- context [giuh_convolution_integral ?a ?b ?c ?dd] => replace (giuh_convolution_integral a b c dd) with (@Ok (dbl * list dbl) (Fin (1 / 2), [Fin 0; Fin 0])) end.
    2: { symmetry. unfold ca_acc. rewrite ca_off. reval. feq. }
    cbn [bind]. match goal with |- context [mb_local ?x] => change (mb_local x) with (Some (Fin 0)) end. cbv iota zeta.
    eexists. split; [reflexivity|]. split.
    - match goal with |- ?l = _ => change l with (Fin 0 + Fin (-10))%d end. cbn. f_equal. lra.
    - unfold global_error, ca_acc. rewrite ca_on, ca_off.
      match goal with |- ?l = _ => change l with (Fin 50 + (Fin 0 + Fin (0 + 20 * (1 / 10) * 1)) - (Fin 0 + Fin (0 + 1 / 2)) - (Fin 0 + Fin 0) - Fin (3 / 2) - (Fin 0 + Fin 0) - Fin 40 + (Fin 0 + Fin (-10)))%d end.
      cbn. f_equal. lra. }
  destruct R as (s' & R & R1 & R2). exists s'. split; [|auto].
  assert (M : lgar_calc_mass_bal (p_cum (st_p (recal ca_cal ca_mid))) (st_head (recal ca_cal ca_mid)) = Ok (Fin 40)) by exact ex_mass.
  assert (C : d2i (Fin 1 / Fin 1 + lit (1 / 100000000))%d = Ok 1%Z).
  { rewrite div_fin by lra. change (lit (1 / 100000000)) with (Fin (1 / 100000000)). cbn [dadd lit rnd exact d2i].
    replace (trunc (1 / 1 + 1 / 100000000)) with 1%Z; [reflexivity|]. symmetry. apply trunc_nat; [lia|]. lra. }
  assert (S : update_steps (recal ca_cal ca_mid) = Ok (recal ca_cal ca_mid, Fin 1, 1%Z)).
  { unfold update_steps. change (p_adaptive (st_p (recal ca_cal ca_mid))) with false. cbv iota zeta.
    match goal with |- context [d2i ?x] => change x with (Fin 1 / Fin 1 + lit (1 / 100000000))%d end. rewrite C. reflexivity. }
  assert (T : substep (ex_upar 1 (3 / 2)) (recal ca_cal ca_mid) (acc0 (Fin 40) (Fin 0)) = Ok (recal ca_cal ca_last, ca_acc)).
  { rewrite substep_recal, ca_substep. reflexivity. }
  assert (U : Update ca_start = Ok s').
  { unfold Update. change (p_invalid (st_p ca_start)) with false. cbv iota. rewrite ca_prologue. cbn [bind]. rewrite M. cbn [bind].
    change (st_precip (recal ca_cal ca_mid)) with (Fin 20). change (st_pet (recal ca_cal ca_mid)) with (Fin 0). unfold dgeb. rewrite !leb_t by lra. cbn [cassert bind].
    rewrite S. cbn [bind]. change (Z.to_nat 1) with 1%nat. cbn [subcycle_loop].
    match goal with |- context [substep ?u ?s ?a] => change (substep u s a) with (substep (ex_upar 1 (3 / 2)) (recal ca_cal ca_mid) (acc0 (Fin 40) (Fin 0))) end.
    rewrite T. cbn [bind].
    match goal with |- context [if ?c then Ok ?x else Ok ?x] => replace (if c then Ok x else Ok x) with (Ok x) by (destruct c; reflexivity) end.
    cbn [bind]. exact R. }
  split; [exact U|]. change (p_invalid (st_p ca_start)) with false. cbv iota.
  exists (recal ca_cal ca_mid), (Fin (-10)), (Fin 40), (recal ca_cal ca_mid), 1%Z, (recal ca_cal ca_last), ca_acc.
  split; [exact ca_prologue|]. split; [exact M|]. split; [exact S|]. split; [reflexivity|].
  split; [econstructor; [exact T|constructor]|]. split; [left; reflexivity|exact R].
Qed.

Lemma ca_env_sound : sound_env (env_of ca_start).
Proof.
  assert (K1 : forall k, (1 <= k <= 1)%Z -> k = 1%Z) by lia. assert (K0 : forall k, (0 <= k <= 1)%Z -> k = 0%Z \/ k = 1%Z) by lia.
  constructor; change (e_nlayers (env_of ca_start)) with 1%Z.
  - lia.
  - intros k Hk. destruct (K0 k Hk) as [->| ->]; eexists; split; reflexivity.
  - intros k z z' Hk A B. assert (k = 0)%Z as -> by lia. injection A as <-. injection B as <-. lra.
  - intros k Hk. rewrite (K1 k Hk). eexists. reflexivity.
  - intros k Hk. rewrite (K1 k Hk). eexists. reflexivity.
Qed.
Lemma ca_profile : profile (p_nlayers (st_p ca_start)) (p_cum (st_p ca_start)) (st_head ca_start).
Proof.
  apply profile_scan; [discriminate|]. split.
  - intros i f E. destruct i as [|i]; [injection E as <-; reflexivity|]. destruct i; discriminate.
  - cbn -[Z.le]. repeat split; try reflexivity; lia.
Qed.
Lemma ca_distinct : distinct_types (p_stype (st_p ca_start)) (p_nlayers (st_p ca_start)).
Proof. intros j k t Hj Hk _ _. cbn in Hj, Hk. lia. Qed.

Lemma ca_concrete : exists s', p_invalid (st_p ca_start) = false /\ p_calib (st_p ca_start) = true /\ p_nfronts (st_p ca_start) = listLength (st_head ca_start) /\
  profile (p_nlayers (st_p ca_start)) (p_cum (st_p ca_start)) (st_head ca_start) /\ sound_env (env_of ca_start) /\
  distinct_types (p_stype (st_p ca_start)) (p_nlayers (st_p ca_start)) /\ executed ca_start (ex_upar 1 (3 / 2)) [ca_step] s' /\
  soil_of (env_of ca_start) 1 = Ok ca_soil /\ soil_of ex_env 1 = Ok ex_soil /\ mb_calib (st_mb s') = Fin (-10) /\ global_error (st_mb s') = Fin 0.
Proof.
  destruct ca_executed as (s' & X & A & B). exists s'. split; [reflexivity|]. split; [reflexivity|]. split; [reflexivity|]. split; [exact ca_profile|]. split; [exact ca_env_sound|].
  split; [exact ca_distinct|]. split; [exact X|]. split; [reflexivity|]. split; [reflexivity|]. split; assumption.
Qed.

(** Two layers of the same soil type: the user sets a conductivity of 7 for the upper and of 1 for the lower one. *)
Definition cs_cal (te1 ks1 : R) : calib :=
  mkCal [Fin te1; Fin (2 / 5)] [Fin (1 / 10); Fin (1 / 10)] [Fin 2; Fin 2] [Fin (1 / 100); Fin (1 / 100)] [Fin ks1; Fin 1] (Fin 15495) (Fin 0).
Definition cs_start (te1 ks1 : R) : state := (recal (cs_cal te1 ks1) tw_start) <| st_p := (st_p tw_start) <| p_calib := true |> |>.

Lemma cs_theta : forall te ks, theta_of_h (calib_soil ex_soil (Fin te) (Fin (1 / 10)) (Fin 2) (Fin (1 / 100)) (Fin ks)) (Fin 0) = Fin te.
Proof.
  intros te ks. unfold calib_soil. rewrite ca_m. unfold theta_of_h, calc_theta_from_h. cbn [s_alpha s_n s_m s_theta_e s_theta_r].
  replace (Fin (1 / 100) * Fin 0)%d with (Fin 0) by (cbn; f_equal; ring).
  rewrite pow_zero by lra. change (lit 1) with (Fin 1).
  replace (Fin 1 + Fin 0)%d with (Fin 1) by (cbn; f_equal; ring).
  rewrite pow_one. rewrite div_fin by lra. cbn. f_equal. field.
Qed.

Definition cs_head (te1 : R) : list front := [set_theta tw_top (Fin te1); tw_low].
Lemma cs_loop : forall te1 ks1, calib_loop 2 [None; Some 1%Z; Some 1%Z] (cs_cal te1 ks1) [] tw_head [None; Some ex_soil] = Ok (cs_head te1, [None; Some ex_soil]).
Proof.
  intros te1 ks1. cbn [calib_loop tw_head]. cbv zeta. change (f_layer tw_top) with 1%Z. change (f_layer tw_low) with 2%Z.
  match goal with |- context [uget ?a ?b] => change (uget a b) with (Ok 1%Z) end. cbn [bind].
  do 5 (match goal with |- context [aget ?a ?b] => let x := eval cbv [aget cs_cal c_theta_e c_theta_r c_n c_alpha c_Ksat Z.ltb Z.compare Z.sub Z.add Z.opp Z.pos_sub Z.to_nat nth_error] in (aget a b) in change (aget a b) with x end; cbn [bind]).
  match goal with |- context [uget ?a ?b] => change (uget a b) with (Ok ex_soil) end. cbn [bind].
  change (f_psi tw_top) with (Fin 0). rewrite cs_theta.
  match goal with |- context [aset ?a ?b ?c] => change (aset a b c) with (Ok [None; c]) end. cbn [bind].
  match goal with |- context [uget ?a 2] => change (uget a 2) with (Ok 1%Z) end. cbn [bind].
  do 5 (match goal with |- context [aget ?a ?b] => let x := eval cbv [aget cs_cal c_theta_e c_theta_r c_n c_alpha c_Ksat Z.ltb Z.compare Z.sub Z.add Z.opp Z.pos_sub Z.to_nat nth_error Pos.to_nat Pos.iter_op Pos.pred_double] in (aget a b) in change (aget a b) with x end; cbn [bind]).
  match goal with |- context [uget ?a 1] => change (uget a 1) with (Ok (calib_soil ex_soil (Fin te1) (Fin (1 / 10)) (Fin 2) (Fin (1 / 100)) (Fin ks1))) end. cbn [bind].
  change (calib_soil (calib_soil ex_soil (Fin te1) (Fin (1 / 10)) (Fin 2) (Fin (1 / 100)) (Fin ks1)) (Fin (2 / 5)) (Fin (1 / 10)) (Fin 2) (Fin (1 / 100)) (Fin 1))
    with (calib_soil ex_soil (Fin (2 / 5)) (Fin (1 / 10)) (Fin 2) (Fin (1 / 100)) (Fin 1)).
  change (f_psi tw_low) with (Fin 0). rewrite cs_theta.
  match goal with |- context [aset ?a ?b ?c] => change (aset a b c) with (Ok [None; c]) end. cbn [bind].
  unfold calib_soil. rewrite ca_m. reflexivity.
Qed.

Lemma cs_mass : forall te1, lgar_calc_mass_bal [Fin 0; Fin 25; Fin 100] (cs_head te1) = Ok (Fin (25 * te1 + 30)).
Proof. intro te1. reval. feq. Qed.

Lemma cs_prologue : forall te1 ks1, exists v,
  update_prologue (cs_start te1 ks1) = Ok ((recal (cs_cal te1 ks1) tw_start) <| st_head := cs_head te1 |>, v).
Proof.
  intros te1 ks1. eexists. unfold update_prologue. change (p_sft (st_p (cs_start te1 ks1))) with false. cbv iota zeta. cbn [bind].
  change (p_calib (st_p (cs_start te1 ks1))) with true. cbv iota.
  unfold update_calibratable_parameters. cbv zeta.
  match goal with |- context [lgar_calc_mass_bal ?a ?b] => change (lgar_calc_mass_bal a b) with (lgar_calc_mass_bal [Fin 0; Fin 25; Fin 100] tw_head) end.
  rewrite tw_mass. cbn [bind].
  match goal with |- context [calib_loop ?k ?a ?b ?c ?d ?e] => change (calib_loop k a b c d e) with (calib_loop 2 [None; Some 1%Z; Some 1%Z] (cs_cal te1 ks1) [] tw_head [None; Some ex_soil]) end.
  rewrite cs_loop. cbn [bind].
  match goal with |- context [lgar_calc_mass_bal ?a ?b] => change (lgar_calc_mass_bal a b) with (lgar_calc_mass_bal [Fin 0; Fin 25; Fin 100] (cs_head te1)) end.
  rewrite cs_mass. cbn [bind]. reflexivity.
Qed.

(** The conductivity set for the upper layer is lost. *)
Lemma cs_run : exists u xs s', let s := cs_start (2 / 5) 7 in @executed exact cfg s u xs s' /\ sound_state s /\ p_calib (st_p s) = true /\ p_nfronts (st_p s) = listLength (st_head s) /\
  c_Ksat (st_cal s) = [Fin 7; Fin 1] /\ exists sl, soil_of (u_env u) 1 = Ok sl /\ soil_of (u_env u) 2 = Ok sl /\ s_Ksat sl = Fin 1.
Proof.
  destruct (cs_prologue (2 / 5) 7) as [v Ev].
  assert (H : (recal (cs_cal (2 / 5) 7) tw_start) <| st_head := cs_head (2 / 5) |> = recal (cs_cal (2 / 5) 7) tw_start) by reflexivity.
  rewrite H in Ev. clear H. set (c := cs_cal (2 / 5) 7) in *.
  destruct tw_update as (s0 & U0 & _ & _).
  assert (R : exists s', finish_update (recal c tw_next) tw_acc0 v = Ok s').
  { unfold finish_update.
    match goal with |- context [giuh_convolution_integral ?a ?b ?c ?dd] => replace (giuh_convolution_integral a b c dd) with (@Ok (dbl * list dbl) (Fin 0, [Fin 0; Fin 0])) end.
    2: { symmetry. reval. feq. }
    cbn [bind]. match goal with |- context [mb_local ?x] => change (mb_local x) with (Some (Fin 0)) end. cbv iota zeta.
    eexists. reflexivity. }
  destruct R as (s' & R).
  assert (M : lgar_calc_mass_bal (p_cum (st_p (recal c tw_start))) (st_head (recal c tw_start)) = Ok (Fin 40)) by exact tw_mass.
  assert (T : substep tw_upar (recal c tw_start) tw_acc0 = Ok (recal c tw_next, tw_acc0)) by (rewrite substep_recal, tw_substep; reflexivity).
  assert (S : update_steps (recal c tw_start) = Ok (recal c tw_start, Fin 1, 1%Z)) by (rewrite steps_recal; unfold tw_start at 1; rewrite sf_steps; reflexivity).
  assert (U : Update (cs_start (2 / 5) 7) = Ok s').
  { unfold Update. change (p_invalid (st_p (cs_start (2 / 5) 7))) with false. cbv iota. rewrite Ev. cbn [bind]. rewrite M. cbn [bind].
    change (st_precip (recal c tw_start)) with (Fin 0). change (st_pet (recal c tw_start)) with (Fin 0). unfold dgeb. rewrite !leb_t by lra. cbn [cassert bind].
    rewrite S. cbn [bind]. change (Z.to_nat 1) with 1%nat. cbn [subcycle_loop].
    match goal with |- context [substep ?u ?s ?a] => change (substep u s a) with (substep tw_upar (recal c tw_start) tw_acc0) end.
    rewrite T. cbn [bind].
    match goal with |- context [if ?c then Ok ?x else Ok ?x] => replace (if c then Ok x else Ok x) with (Ok x) by (destruct c; reflexivity) end.
    cbn [bind]. exact R. }
  exists tw_upar, [mkStep (recal c tw_start) tw_acc0 (recal c tw_next) tw_acc0], s'. cbv zeta. split.
  { split; [exact U|]. change (p_invalid (st_p (cs_start (2 / 5) 7))) with false. cbv iota.
    exists (recal c tw_start), v, (Fin 40), (recal c tw_start), 1%Z, (recal c tw_next), tw_acc0.
    split; [exact Ev|]. split; [exact M|]. split; [exact S|]. split; [reflexivity|].
    split; [econstructor; [exact T|constructor]|]. split; [left; reflexivity|exact R]. }
  split; [destruct tw_sound; constructor; assumption|]. split; [reflexivity|]. split; [reflexivity|]. split; [reflexivity|].
  exists ex_soil. repeat split.
Qed.
Lemma cs_lost : exists s u xs s', @executed exact cfg s u xs s' /\ sound_state s /\ p_calib (st_p s) = true /\ p_nfronts (st_p s) = listLength (st_head s) /\
  c_Ksat (st_cal s) = [Fin 7; Fin 1] /\ exists sl, soil_of (u_env u) 1 = Ok sl /\ soil_of (u_env u) 2 = Ok sl /\ s_Ksat sl = Fin 1.
Proof. exists (cs_start (2 / 5) 7). exact cs_run. Qed.

(** With a larger porosity for the upper layer its front starts above the saturation of its own layer. *)
Lemma cs_oversaturated : exists s s1 v f sl, sound_state s /\ p_calib (st_p s) = true /\ p_nfronts (st_p s) = listLength (st_head s) /\
  c_theta_e (st_cal s) = [Fin (1 / 2); Fin (2 / 5)] /\ update_prologue s = Ok (s1, v) /\ lget (st_head s1) 0 = Ok f /\ f_layer f = 1%Z /\
  soil_of (env_of s1) 1 = Ok sl /\ f_theta f = Fin (1 / 2) /\ s_theta_e sl = Fin (2 / 5).
Proof.
  destruct (cs_prologue (1 / 2) 1) as [v Ev]. exists (cs_start (1 / 2) 1). eexists _, v, _, ex_soil. split; [destruct tw_sound; constructor; assumption|].
  split; [reflexivity|]. split; [reflexivity|]. split; [reflexivity|]. split; [exact Ev|]. repeat split.
Qed.

End Run.
