(** Worked example: an Update of a saturated column of two layers. *)

From Coq Require Import Reals Lra ZArith List Bool Lia.
From RecordUpdate Require Import RecordSet.
From Verif Require Import Outcome Dbl Exact Types ListOps Soil Giuh Fronts Infil Move State Update Lib Spec_Common Spec_List Spec_Update Spec_Profile
  Pf_Dbl Pf_Pow Pf_Update Pf_Clock Pf_Profile Pf_Structure Ex_Saturated Ex_Safety.
Import ListNotations.
Import RecordSetNotations.
Open Scope R_scope.

(** Layers of 25 and 75 cm, each with its bottom front only. *)
Definition tw_top : front := mkF (Fin 25) (Fin (2 / 5)) (Fin 0) (Fin 1) 1 1 true (Fin 0).
Definition tw_low : front := mkF (Fin 100) (Fin (2 / 5)) (Fin 0) (Fin 1) 2 2 true (Fin 0).
Definition tw_head : list front := [tw_top; tw_low].
Definition tw_start : state :=
  sf_state 2 [Fin 0; Fin 25; Fin 75] [Fin 0; Fin 25; Fin 100] [None; Some 1%Z; Some 1%Z] [Fin 1; Fin 1; Fin 1] 15495 0 40 tw_head.
Definition tw_upar : upar := mkU ti_env (Fin 1) 120 true (Fin 15495) (Fin 15495) (Fin 0).

Section Run.
Local Existing Instance exact.
Context {cfg : Cfg}.

Lemma tw_sound : sound_state tw_start.
Proof.
  assert (K : forall k, (1 <= k <= 2)%Z -> k = 1%Z \/ k = 2%Z) by lia.
  constructor.
  - exact (ss_env _ ti_sound).
  - apply profile_scan; [discriminate|]. split.
    + intros i f E. do 2 (destruct i as [|i]; [injection E as <-; reflexivity|]). destruct i; discriminate.
    + cbn -[Z.le]. repeat split; try reflexivity; lia.
  - intros f E. injection E as <-. reflexivity.
  - exact (ss_times _ ti_sound).
  - exact (ss_giuh _ ti_sound).
Qed.

Lemma tw_mass : lgar_calc_mass_bal [Fin 0; Fin 25; Fin 100] tw_head = Ok (Fin 40).
Proof. reval. feq. Qed.

Lemma tw_no_cross : ~ cross_tie ti_env tw_head.
Proof.
  intros (p & l' & Hp & EP & c & n & ck & Ec & En & _ & HL & _). cbn in Hp. assert (p = 0)%nat as -> by lia.
  apply Ok_inj in EP. subst l'. injection Ec as <-. injection En as <-. discriminate.
Qed.

Lemma tw_cross : lgar_wetting_fronts_cross_layer_boundary ti_env tw_head = Ok tw_head.
Proof.
  unfold lgar_wetting_fronts_cross_layer_boundary. change (length tw_head) with 2%nat. cbn [cross_loop].
  change (Z.of_nat 1 =? listLength tw_head)%Z with false. cbv iota. unfold cross_step. change (lget tw_head 0) with (Ok tw_top). cbn [bind].
  change (f_layer tw_top) with 1%Z. change (soil_of ti_env 1) with (Ok ex_soil). change (aget (e_frozen ti_env) 1) with (Ok (Fin 1)). cbn [bind].
  change (lget tw_head 1) with (Ok tw_low). change (aget (e_cum ti_env) 1) with (Ok (Fin 25)). cbn [bind].
  change (f_depth tw_top >? Fin 25)%d with (Fin 25 <? Fin 25)%d. rewrite ltb_f by lra. cbn [andb bind]. reflexivity.
Qed.

Lemma tw_move_loop : move_loop 2 ti_env (Fin 1) (Fin 0) 2 tw_head 2 tw_head (Fin 0) = Ok (tw_head, Fin 0).
Proof.
  cbn [move_loop].
  assert (M2 : move_one ti_env (Fin 1) (Fin 0) 2 tw_head 2 (Z.of_nat 2) tw_head (Fin 0) = Ok (tw_head, Fin 0)).
  { unfold move_one. change (Z.of_nat 2) with 2%Z.
    change (findFrontOld 2 tw_head tw_head) with (tw_head, Some 1%nat). change (findFrontOld (2 + 1) tw_head tw_head) with (tw_head, @None nat).
    change (findFront 2 tw_head) with (Some 1%nat). change (findFront (2 - 1) tw_head) with (Some 0%nat). cbv iota.
    change (lget tw_head 1) with (Ok tw_low). cbn [bind]. change (f_layer tw_low) with 2%Z. change (soil_of ti_env 2) with (Ok ex_soil). cbn [bind].
    change (2 =? 1)%Z with false. change (2 =? 2)%Z with true. change (2 <? 2)%Z with false. change (2 + 1 =? 2)%Z with false.
    change (2 =? e_nlayers ti_env)%Z with true. change (pget tw_head (Some 0%nat)) with (Ok tw_top). cbv iota. cbn [bind andb negb orb].
    change (pget tw_head (Some 1%nat)) with (Ok tw_low). cbn [bind]. change (aget (e_cum ti_env) (2 - 1)) with (Ok (Fin 25)). cbn [bind].
    unfold balance_theta. change (repeat (@None dbl) (Z.to_nat (2 + 1))) with [@None dbl; None; None].
    unfold masses_above. change (Z.to_nat (2 - 1)) with 1%nat. cbn [zfor]. change (soil_of ti_env 1) with (Ok ex_soil). cbn [bind].
    change (aget (e_cum ti_env) 1) with (Ok (Fin 25)). change (aget (e_cum ti_env) (1 - 1)) with (Ok (Fin 0)). cbn [bind].
    change (aset [@None dbl; None; None] 1 ?x) with (Ok [@None dbl; x; None]). cbn [bind].
    change (aset [@None dbl; ?y; None] 2 ?x) with (Ok [@None dbl; y; x]). cbn [bind].
    unfold lgar_theta_mass_balance. cbn [tw_low f_psi set_depth f_depth f_dzdt f_theta]. rewrite !ex_theta.
    change (water_added 2 2 (Fin 0) (Fin 0)) with (Fin 0 - (Fin 0 + Fin 0))%d.
    match goal with |- context [if ?c then Ok (Fin (2 / 5), _) else _] => replace c with true end.
    2: { symmetry. cbn. apply Rleb_true. match goal with |- Rabs ?x <= _ => replace x with 0 by ring end. rewrite Rabs_R0. lra. }
    cbn [bind]. rewrite ex_clamp, ex_psi. unfold tw_head. cbn [lset]. unfold set_psi, set_theta. cbn [f_depth f_K f_layer f_num f_bottom f_dzdt].
    replace (Fin 100 + Fin 0 * Fin 1)%d with (Fin 100) by (cbn; f_equal; ring). reflexivity. }
  rewrite M2. cbn [bind].
  change (move_one ti_env (Fin 1) (Fin 0) 2 tw_head 2 (Z.of_nat 1) tw_head (Fin 0)) with
    (Ok (lset tw_head 0 (set_psi (set_theta tw_top (theta_of_h ex_soil (Fin 0))) (Fin 0)), Fin 0)).
  rewrite ex_theta. reflexivity.
Qed.

Lemma tw_closure : closure ti_env (Fin 40) (Fin 0) tw_head (Fin 0) = Ok (tw_head, Fin 0, Fin 0).
Proof.
  unfold closure. rewrite tw_cross. cbn [bind]. change (wetting_front_free_drainage tw_head) with 2%Z.
  change (soil_of ti_env 2) with (Ok ex_soil). cbn [bind]. unfold dgtb. rewrite (ltb_t 0 40) by lra. cbn [cassert bind].
  change (findFront 2 tw_head) with (Some 1%nat). cbv iota. change (lget tw_head 1) with (Ok tw_low). cbn [bind f_theta tw_low s_theta_e ex_soil].
  match goal with |- context [if ?c then _ else Ok (tw_head, Fin 0, Fin 0)] => replace c with true end.
  2: { symmetry. cbn. apply Rltb_true. match goal with |- Rabs ?x < _ => replace x with 0 by ring end. rewrite Rabs_R0. lra. }
  change (e_cum ti_env) with [Fin 0; Fin 25; Fin 100]. rewrite tw_mass. cbn [bind]. rewrite closure_loop_done; [reflexivity|].
  cbn. apply Rltb_false. match goal with |- Rabs (Rabs ?x - _) <= _ => replace x with 0 by ring end. rewrite Rabs_R0.
  unfold Rabs. destruct (Rcase_abs _); lra.
Qed.

Lemma tw_check : check_and_fix ti_env tw_head (Fin 0) = Ok (tw_head, Fin 0).
Proof.
  unfold check_and_fix, lgar_check_dry_over_wet_wetting_fronts. cbn [tw_head check_dry bind]. unfold dry_over_wet.
  change (f_layer tw_top =? f_layer tw_low)%Z with false. rewrite andb_false_r. reflexivity.
Qed.

Lemma tw_merge : lgar_merge_wetting_fronts ti_env tw_head = Ok tw_head.
Proof.
  unfold lgar_merge_wetting_fronts. change (length tw_head) with 2%nat. cbn [merge_loop].
  change (Z.of_nat 1 =? listLength tw_head)%Z with false. cbv iota. unfold merge_step. change (lget tw_head 0) with (Ok tw_top).
  change (lget tw_head 1) with (Ok tw_low). cbn [bind]. change (f_layer tw_top =? f_layer tw_low)%Z with false. rewrite andb_false_r. reflexivity.
Qed.

Lemma tw_move : lgar_move_wetting_fronts ti_env (Fin 1) (Fin 0) 2 (Fin 40) (Fin 0) tw_head tw_head = Ok (tw_head, Fin 0, Fin 0).
Proof.
  unfold lgar_move_wetting_fronts. change (aget (e_cum ti_env) (e_nlayers ti_env)) with (Ok (Fin 100)). cbn [bind].
  change (listLength tw_head) with 2%Z. change (length tw_head) with 2%nat. rewrite tw_move_loop. cbn [bind]. unfold tw_head at 1.
  rewrite tw_closure. cbn [bind].
  assert (P : merge_phases ti_env tw_head = Ok (tw_head, Fin 0, Fin 0)).
  { unfold merge_phases. rewrite tw_check. cbn [bind]. rewrite tw_merge. cbn [bind]. rewrite tw_cross. cbn [bind].
    rewrite tw_check. cbn [bind]. rewrite tw_merge. cbn [bind].
    change (aget (e_cum ti_env) (e_nlayers ti_env)) with (Ok (Fin 100)). cbn [bind].
    replace (lgar_wetting_front_cross_domain_boundary ti_env (Fin 100) tw_head) with (@Ok (dbl * list front) (Fin 0, tw_head)).
    - cbn [bind]. rewrite tw_check. reflexivity.
    - symmetry. unfold lgar_wetting_front_cross_domain_boundary, tw_head. cbn [length Nat.sub domain_loop]. fold tw_head.
      change (Z.of_nat 1 >=? listLength tw_head)%Z with false. cbv iota. change (lget tw_head 0) with (Ok tw_top). cbn [bind].
      change (uget (e_stype ti_env) (f_layer tw_top)) with (Ok 1%Z). change (lget tw_head 1) with (Ok tw_low). cbn [bind].
      cbn [tw_head nth_error]. fold tw_head. change (f_depth tw_top >=? Fin 100)%d with (Fin 100 <=? Fin 25)%d. rewrite leb_f by lra. reflexivity. }
  rewrite P. cbn [bind].
  assert (F : refresh_psi ti_env tw_head = Ok tw_head).
  { unfold tw_head. cbn [refresh_psi]. change (f_psi tw_top >? lit 1)%d with (Fin 1 <? Fin 0)%d. rewrite ltb_f by lra. reflexivity. }
  rewrite F. cbn [bind]. change (fix_single ti_env tw_head) with (Ok tw_head). cbn [bind].
  assert (Y : (dabs (Fin 0) >? lit (1 / 10000000))%d = false).
  { cbn. rewrite Rabs_R0. apply Rltb_false. lra. }
  rewrite Y. replace (Fin 0 + Fin 0)%d with (Fin 0) by (cbn; f_equal; ring). reflexivity.
Qed.

Lemma tw_no_tie : forall wfd, wfd = 2%Z -> ~ move_tie ti_env (Fin 1) (Fin 0) wfd (Fin 40) (Fin 0) tw_head tw_head.
Proof.
  intros wfd -> (l & a & E & HT). change (length tw_head) with 2%nat in E. change (listLength tw_head) with 2%Z in E.
  rewrite tw_move_loop in E. apply Ok_inj in E. apply pair_equal_spec in E as [<- <-].
  destruct HT as [HT|(l1 & a1 & fl & l2 & mc & l3 & EA & EB & EC & HT)]; [exact (tw_no_cross HT)|].
  rewrite tw_closure in EA. apply Ok_inj in EA. apply pair_equal_spec in EA as [EA _]. apply pair_equal_spec in EA as [<- _].
  rewrite tw_check in EB. apply Ok_inj in EB. apply pair_equal_spec in EB as [<- _].
  rewrite tw_merge in EC. apply Ok_inj in EC. subst l3. exact (tw_no_cross HT).
Qed.

Lemma tw_create : create_decision ti_env tw_head (Fin 0) (Fin 0) (Fin 0) = Ok false.
Proof.
  unfold create_decision. change (lget tw_head 0) with (Ok tw_top). cbn [bind]. change (soil_of ti_env (f_layer tw_top)) with (Ok ex_soil). cbn [bind].
  unfold dgtb. rewrite !ltb_f by lra. rewrite andb_false_r. destruct (_ || _)%bool; reflexivity.
Qed.

Lemma tw_hydro_tie : ~ hydro_tie tw_upar (Fin 0) (Fin 0) (Fin 0) (Fin 0) (Fin 0) (Fin 0) (Fin 40) tw_head tw_head.
Proof.
  intros (aet & create & EA & EC & HT). cbn [u_env tw_upar] in EA, EC. unfold dgtb in EA. rewrite ltb_f in EA by lra. apply Ok_inj in EA. subst aet.
  rewrite tw_create in EC. apply Ok_inj in EC. subst create. destruct HT as (b & EB & HT).
  unfold dgtb in EB. rewrite ltb_f in EB by lra. apply Ok_inj in EB. subst b. unfold sub_no_insert in HT. cbn [b_ponded u_pmax tw_upar] in HT.
  rewrite ltb_f in HT by lra. cbn [b_volin b_aet u_env u_dt] in HT. exact (tw_no_tie _ eq_refl HT).
Qed.

Lemma tw_hydro : sub_hydro tw_upar (Fin 0) (Fin 0) (Fin 0) (Fin 0) (Fin 0) (Fin 0) (Fin 40) tw_head tw_head
  = Ok (mkSub tw_head tw_head (Fin 0) (Fin 0) (Fin 0) (Fin 0) (Fin 0) (Fin 0)).
Proof.
  unfold sub_hydro, tw_upar. cbn [u_env u_dt u_wilting u_fc u_closed u_nint u_pmax].
  unfold dgtb at 1. rewrite ltb_f by lra. cbn [bind]. rewrite tw_create. cbn [bind b_ponded].
  unfold dgtb at 1. rewrite ltb_f by lra. cbn [andb bind].
  unfold sub_no_insert. cbn [b_ponded u_pmax b_head b_prev b_aet b_volin b_rech bind]. rewrite ltb_f by lra.
  unfold sub_move. cbn [u_env u_dt b_volin b_aet b_head b_prev b_ponded b_runoff b_on b_rech bind].
  change (wetting_front_free_drainage tw_head) with 2%Z. rewrite tw_move. cbn [bind b_ponded b_head b_prev b_volin b_runoff b_on b_aet b_rech].
  assert (Z : lgar_dzdt_calc ti_env true 120 (Fin 0) tw_head = Ok tw_head).
  { unfold lgar_dzdt_calc, tw_head. cbn [dzdt_loop f_K tw_top tw_low]. rewrite !ltb_f by lra. reflexivity. }
  rewrite Z. cbn [bind]. replace (Fin 0 - Fin 0)%d with (Fin 0) by (cbn; f_equal; ring). reflexivity.
Qed.

(** The state before and after the only sub-step. *)
Definition tw_next : state :=
  tw_start <| st_p := (st_p tw_start) <| p_time := Fin 3600 |> <| p_timesteps := 1%Z |> |>
           <| st_mb := (st_mb tw_start) <| mb_local := Some (Fin 0) |> |>.
Definition tw_acc0 : acc := acc0 (Fin 40) (Fin 0).

Lemma tw_substep : substep tw_upar tw_start tw_acc0 = Ok (tw_next, tw_acc0).
Proof.
  unfold substep, tw_acc0, acc0. cbn [u_dt tw_upar a_on a_end].
  replace (dfmax (st_precip tw_start) (Fin 0)) with (Fin 0)
    by (cbn; unfold Rltb; destruct (Rlt_dec _ _); reflexivity).
  replace (dfmax (st_pet tw_start) (Fin 0)) with (Fin 0)
    by (cbn; unfold Rltb; destruct (Rlt_dec _ _); reflexivity).
  change mm_to_cm with (Fin (1 / 10)).
  replace (Fin 0 * Fin (1 / 10))%d with (Fin 0) by (cbn; f_equal; ring).
  replace (Fin 0 * Fin 1)%d with (Fin 0) by (cbn; f_equal; lra).
  replace (Fin 0 + Fin 0)%d with (Fin 0) by (cbn; f_equal; lra).
  rewrite ex_clean by lra.
  match goal with |- context [lgar_calc_mass_bal ?a ?b] => change (lgar_calc_mass_bal a b) with (lgar_calc_mass_bal [Fin 0; Fin 25; Fin 100] tw_head) end.
  rewrite tw_mass. cbn [bind].
  change (st_head tw_start) with tw_head. change (listCopy tw_head) with tw_head.
  match goal with |- context [sub_hydro ?a ?b ?c0 ?d ?ee ?g ?h ?i ?j ?k] => change (sub_hydro a b c0 d ee g h i j k) with
    (sub_hydro tw_upar (Fin 0) (Fin 0) (Fin 0) (Fin 0) (Fin 0) (Fin 0) (Fin 40) tw_head tw_head) end.
  rewrite tw_hydro. cbn [bind b_head b_prev b_runoff b_aet b_on b_rech b_volin].
  match goal with |- context [lgar_calc_mass_bal ?a ?b] => change (lgar_calc_mass_bal a b) with (lgar_calc_mass_bal [Fin 0; Fin 25; Fin 100] tw_head) end.
  rewrite tw_mass. cbn [bind].
  match goal with |- context [local_balance ?a ?b ?c ?dd ?e ?g ?h ?i] => replace (local_balance a b c dd e g h i) with (Fin 0) by (cbn; f_equal; ring) end.
  replace (dabs (Fin 0) >? lit (1 / 10000))%d with false by (symmetry; cbn; rewrite Rabs_R0; apply Rltb_false; lra).
  change (lget tw_head 0) with (Ok tw_top). cbn [bind]. unfold dgtb. change (f_depth tw_top) with (Fin 25). rewrite ltb_t by lra. cbn [cassert bind].
  replace (dfmax (Fin 0) (Fin 0)) with (Fin 0) by (cbn; unfold Rltb; destruct (Rlt_dec _ _); reflexivity).
  cbn [a_precip a_pet a_aet a_in a_runoff a_rech].
  replace (Fin 0 + Fin 0)%d with (Fin 0) by (cbn; f_equal; lra).
  unfold tw_next. apply f_equal. apply f_equal2; [|reflexivity].
  replace (p_time (st_p tw_start) + Fin 1 * hr_to_sec)%d with (Fin 3600) by (cbn; f_equal; lra). reflexivity.
Qed.

Lemma tw_update : exists s', Update tw_start = Ok s' /\ st_head s' = tw_head /\ executed tw_start tw_upar [mkStep tw_start tw_acc0 tw_next tw_acc0] s'.
Proof.
  assert (R : exists s', finish_update tw_next tw_acc0 (Fin 0) = Ok s' /\ st_head s' = tw_head).
  { unfold finish_update.
    match goal with |- context [giuh_convolution_integral ?a ?b ?c ?dd] => replace (giuh_convolution_integral a b c dd) with (@Ok (dbl * list dbl) (Fin 0, [Fin 0; Fin 0])) end.
    2: { symmetry. reval. feq. }
    cbn [bind]. match goal with |- context [mb_local ?x] => change (mb_local x) with (Some (Fin 0)) end. cbv iota zeta.
    eexists. split; reflexivity. }
  destruct R as (s' & R & RH).
  assert (M : lgar_calc_mass_bal (p_cum (st_p tw_start)) (st_head tw_start) = Ok (Fin 40)) by exact tw_mass.
  assert (U : Update tw_start = Ok s').
  { unfold Update. change (p_invalid (st_p tw_start)) with false. cbv iota.
    change (update_prologue tw_start) with (Ok (tw_start, Fin 0)). cbn [bind]. rewrite M. cbn [bind].
    change (st_precip tw_start) with (Fin 0). change (st_pet tw_start) with (Fin 0). unfold dgeb. rewrite !leb_t by lra. cbn [cassert bind].
    unfold tw_start at 1. rewrite sf_steps. cbn [bind]. change (Z.to_nat 1) with 1%nat. cbn [subcycle_loop].
    match goal with |- context [substep ?u ?s ?a] => change (substep u s a) with (substep tw_upar tw_start tw_acc0) end.
    rewrite tw_substep. cbn [bind].
    match goal with |- context [if ?c then Ok ?x else Ok ?x] => replace (if c then Ok x else Ok x) with (Ok x) by (destruct c; reflexivity) end.
    cbn [bind]. exact R. }
  exists s'. split; [exact U|]. split; [exact RH|]. split; [exact U|]. change (p_invalid (st_p tw_start)) with false. cbv iota.
  exists tw_start, (Fin 0), (Fin 40), tw_start, 1%Z, tw_next, tw_acc0.
  split; [reflexivity|]. split; [exact M|]. split; [apply sf_steps|]. split; [reflexivity|].
  split; [econstructor; [exact tw_substep|constructor]|]. split; [|exact R].
  cbn. auto.
Qed.

Lemma tw_step_tie : forall u, u = tw_upar -> ~ step_tie u tw_start tw_acc0.
Proof.
  intros u ->. unfold step_tie. cbn [u_dt tw_upar a_on tw_acc0 acc0 a_end]. fold tw_upar.
  replace (dfmax (st_precip tw_start) (Fin 0)) with (Fin 0)
    by (cbn; unfold Rltb; destruct (Rlt_dec _ _); reflexivity).
  replace (dfmax (st_pet tw_start) (Fin 0)) with (Fin 0)
    by (cbn; unfold Rltb; destruct (Rlt_dec _ _); reflexivity).
  change mm_to_cm with (Fin (1 / 10)).
  replace (Fin 0 * Fin (1 / 10))%d with (Fin 0) by (cbn; f_equal; ring).
  replace (Fin 0 * Fin 1)%d with (Fin 0) by (cbn; f_equal; lra).
  replace (Fin 0 + Fin 0)%d with (Fin 0) by (cbn; f_equal; lra).
  rewrite ex_clean by lra. exact tw_hydro_tie.
Qed.

Lemma tw_calm : exists s, sound_state tw_start /\ p_nlayers (st_p tw_start) = 2%Z /\ Update tw_start = Ok s /\ calm tw_start s.
Proof.
  destruct tw_update as (s' & HU & _ & HX). exists s'. split; [exact tw_sound|]. split; [reflexivity|]. split; [exact HU|].
  eapply calm_update; [apply calm_start|exact HX|]. constructor; [|constructor]. cbn [x_s x_a]. apply tw_step_tie. reflexivity.
Qed.

Lemma tw_safe : sound_state tw_start /\ ready tw_start /\ ~ update_tie tw_start.
Proof.
  split; [exact tw_sound|]. split; [apply sf_ready|].
  intros (s1 & vcal & volend & s2 & dt & n & xs & s3 & a & EP & EM & ES & HR & HL & HT).
  change (update_prologue tw_start) with (Ok (tw_start, Fin 0)) in EP. apply Ok_inj in EP. apply pair_equal_spec in EP as [<- _].
  change (lgar_calc_mass_bal (p_cum (st_p tw_start)) (st_head tw_start)) with (lgar_calc_mass_bal [Fin 0; Fin 25; Fin 100] tw_head) in EM.
  rewrite tw_mass in EM. apply Ok_inj in EM. subst volend.
  unfold tw_start in ES. rewrite sf_steps in ES. fold tw_start in ES. apply Ok_inj in ES. apply pair_equal_spec in ES as [ES <-]. apply pair_equal_spec in ES as [<- <-].
  change (Z.to_nat 1) with 1%nat in HL. destruct xs; [|cbn in HL; lia]. inversion HR; subst. revert HT. apply tw_step_tie. reflexivity.
Qed.
End Run.
