(** Worked examples: heads at the boundary between two layers. *)

From Coq Require Import Reals Lra ZArith List Bool Lia.
From Verif Require Import Outcome Dbl Exact Types ListOps Soil Fronts Infil Move State Update Lib Spec_Common Spec_List Spec_Soil Spec_Update Spec_Profile Spec_Storage Spec_Advance Spec_Physical
  Spec_Meet Spec_Shares Spec_Balance Pf_Dbl Pf_Pow Pf_Soil Pf_Update Pf_Profile Pf_Structure Pf_Cross Pf_Physical Pf_Level Ex_Saturated Ex_Unsaturated Ex_Safety Ex_TwoLayers Ex_Soil Ex_Physical Ex_Books.
Import ListNotations.
Open Scope R_scope.

Section Run.
Local Existing Instance exact.
Context {cfg : Cfg}.

(** ** The Update of a saturated column of two layers *)
Lemma few_unburied : forall l, (length l <= 2)%nat -> ~ buried_inversion l.
Proof. intros l H (i & j & b & c & n & Hj & _ & _ & En & _). apply length_S in En. lia. Qed.

Lemma tw_unburied : forall wfd, wfd = 2%Z -> ~ move_buried ti_env (Fin 1) (Fin 0) wfd (Fin 40) (Fin 0) tw_head tw_head.
Proof.
  intros wfd -> (l & a & l1 & a1 & fl & E & EA & HB). change (length tw_head) with 2%nat in E. change (listLength tw_head) with 2%Z in E.
  rewrite tw_move_loop in E. apply Ok_inj in E. apply pair_equal_spec in E as [<- <-].
  rewrite tw_closure in EA. apply Ok_inj in EA. apply pair_equal_spec in EA as [EA _]. apply pair_equal_spec in EA as [<- _].
  assert (F : ~ buried_inversion tw_head) by (apply few_unburied; cbn; lia).
  destruct HB as [HB|(l2 & mc & l3 & l4 & E2 & E3 & E4 & HB)]; [exact (F HB)|].
  rewrite tw_check in E2. apply Ok_inj in E2. apply pair_equal_spec in E2 as [<- <-]. rewrite tw_merge in E3. apply Ok_inj in E3. subst l3.
  rewrite tw_cross in E4. apply Ok_inj in E4. subst l4. destruct HB as [HB|(l5 & mc' & l6 & D & fl6 & l7 & E5 & E6 & ED & E7 & HB)]; [exact (F HB)|].
  rewrite tw_check in E5. apply Ok_inj in E5. apply pair_equal_spec in E5 as [<- _]. rewrite tw_merge in E6. apply Ok_inj in E6. subst l6.
  apply Ok_inj in ED. subst D.
  replace (lgar_wetting_front_cross_domain_boundary ti_env (Fin 100) tw_head) with (@Ok (dbl * list front) (Fin 0, tw_head)) in E7.
  - apply Ok_inj in E7. apply pair_equal_spec in E7 as [_ <-]. exact (F HB).
  - symmetry. unfold lgar_wetting_front_cross_domain_boundary, tw_head. cbn [length Nat.sub domain_loop]. fold tw_head.
    change (Z.of_nat 1 >=? listLength tw_head)%Z with false. cbv iota. change (lget tw_head 0) with (Ok tw_top). cbn [bind].
    change (uget (e_stype ti_env) (f_layer tw_top)) with (Ok 1%Z). change (lget tw_head 1) with (Ok tw_low). cbn [bind].
    cbn [tw_head nth_error]. fold tw_head. change (f_depth tw_top >=? Fin 100)%d with (Fin 100 <=? Fin 25)%d. rewrite leb_f by lra. reflexivity.
Qed.

Lemma tw_step_buried : ~ step_buried tw_upar tw_start tw_acc0.
Proof.
  unfold step_buried. cbn [u_dt tw_upar a_on tw_acc0 acc0 a_end]. fold tw_upar.
  replace (dfmax (st_precip tw_start) (Fin 0)) with (Fin 0) by (cbn; unfold Rltb; destruct (Rlt_dec _ _); reflexivity).
  replace (dfmax (st_pet tw_start) (Fin 0)) with (Fin 0) by (cbn; unfold Rltb; destruct (Rlt_dec _ _); reflexivity).
  change mm_to_cm with (Fin (1 / 10)).
  replace (Fin 0 * Fin (1 / 10))%d with (Fin 0) by (cbn; f_equal; ring).
  replace (Fin 0 * Fin 1)%d with (Fin 0) by (cbn; f_equal; lra).
  replace (Fin 0 + Fin 0)%d with (Fin 0) by (cbn; f_equal; lra).
  rewrite ex_clean by lra.
  intros (aet & create & EA & EC & HT). cbn [u_env tw_upar] in EA, EC. unfold dgtb in EA. rewrite ltb_f in EA by lra. apply Ok_inj in EA. subst aet.
  change (st_head tw_start) with tw_head in EC. change (p_precip_prev (st_p tw_start)) with (Fin 0) in EC. rewrite tw_create in EC. apply Ok_inj in EC. subst create. destruct HT as (b & EB & HT).
  unfold dgtb in EB. rewrite ltb_f in EB by lra. apply Ok_inj in EB. subst b. unfold sub_no_insert in HT. cbn [b_ponded u_pmax tw_upar] in HT.
  rewrite ltb_f in HT by lra. cbn [b_volin b_aet u_env u_dt] in HT. exact (tw_unburied _ eq_refl HT).
Qed.

Lemma tw_meet : heads_meet ti_env tw_head.
Proof.
  intros i c n s Ec En B Es. destruct i as [|i]; [|destruct i; discriminate]. injection Ec as <-. injection En as <-. apply Ok_inj in Es. subst s.
  split; [reflexivity|]. cbn [f_theta f_psi tw_top tw_low]. symmetry. apply ex_theta.
Qed.

Lemma tw_smooth : exists s', executed tw_start tw_upar [mkStep tw_start tw_acc0 tw_next tw_acc0] s' /\ smooth tw_upar [mkStep tw_start tw_acc0 tw_next tw_acc0] /\ smooth_history tw_start s'.
Proof.
  destruct tw_update as (s' & _ & _ & HX). exists s'. split; [exact HX|].
  assert (S : smooth tw_upar [mkStep tw_start tw_acc0 tw_next tw_acc0]) by (constructor; [|constructor]; cbn [x_s x_a]; split; [apply tw_step_tie; reflexivity|exact tw_step_buried]).
  split; [exact S|]. eapply smooth_update; [apply smooth_start|exact HX|exact S].
Qed.

(** ** A repair below a wetter front of the same layer *)
Definition bu_head : list front :=
  [mkF (Fin 25) (Fin (2 / 5)) (Fin 0) (Fin 1) 1 1 true (Fin 0); mkF (Fin 40) (Fin (2 / 5)) (Fin 0) (Fin 1) 2 2 false (Fin 1);
   ti_front 60 1 2 3 false; ti_front 100 0 2 4 true].
Definition bu_after : list front :=
  [mkF (Fin 25) (Fin (17 / 50)) (Fin 75) (Fin 1) 1 1 true (Fin 0); mkF (Fin 40) (Fin (2 / 5)) (Fin 0) (Fin 1) 2 2 false (Fin 1); ti_front 100 0 2 3 true].

Lemma bu_physical : Forall (physical_front 1 ti_env) bu_head.
Proof.
  assert (G : forall k, (k = 1 \/ k = 2)%Z -> forall d dz num b, physical_front 1 ti_env (ti_front d dz k num b)).
  { intros k Hk d dz num b. apply phys_iff; [exact ti_vg|]. split; [cbn; lia|]. split; [right; exists 75; split; [reflexivity|lra]|]. split; [|exists (1 / 10); split; [reflexivity|lra]].
    exists ex_soil. split; [destruct Hk as [-> | ->]; reflexivity|]. cbn [f_theta f_psi ti_front]. symmetry. exact ti_theta. }
  assert (W : forall k, (k = 1 \/ k = 2)%Z -> forall d num b v, physical_front 1 ti_env (mkF d (Fin (2 / 5)) (Fin 0) (Fin 1) k num b v)).
  { intros k Hk d num b v. apply phys_iff; [exact ti_vg|]. split; [cbn; lia|]. split; [right; exists 0; split; [reflexivity|lra]|]. split; [|exists 1; split; [reflexivity|lra]].
    exists ex_soil. split; [destruct Hk as [-> | ->]; reflexivity|]. cbn [f_theta f_psi]. symmetry. apply ex_theta. }
  unfold bu_head. repeat (apply Forall_cons || apply Forall_nil); (apply G || apply W); lia.
Qed.
Lemma bu_profile : profile (e_nlayers ti_env) (e_cum ti_env) bu_head /\ deepest_rests bu_head.
Proof.
  split; [|intros f E; injection E as <-; reflexivity]. apply profile_scan; [discriminate|]. split.
  - intros i f E. do 4 (destruct i as [|i]; [injection E as <-; reflexivity|]). destruct i; discriminate.
  - cbn -[Z.le]. repeat split; try reflexivity; lia.
Qed.
Lemma bu_meet : heads_meet ti_env bu_head.
Proof.
  intros i c n s Ec En B Es. destruct i as [|[|[|[|i]]]]; [|injection Ec as <-; discriminate|injection Ec as <-; discriminate|discriminate|destruct i; discriminate]. injection Ec as <-. injection En as <-. apply Ok_inj in Es. subst s.
  split; [reflexivity|]. cbn [f_theta f_psi]. symmetry. apply ex_theta.
Qed.
Lemma bu_buried : buried_inversion bu_head.
Proof. exists 2%nat, 1%nat. do 3 eexists. split; [lia|]. do 3 (split; [reflexivity|]). cbn. split; [reflexivity|]. split; [reflexivity|]. split; [lia|]. split; [lra|]. intro E. injection E. lra. Qed.

Lemma bu_repair : exists mc, check_and_fix ti_env bu_head (Fin 0) = Ok (bu_after, mc).
Proof.
  set (a := mkF (Fin 25) (Fin (2 / 5)) (Fin 0) (Fin 1) 1 1 true (Fin 0)). set (b := mkF (Fin 40) (Fin (2 / 5)) (Fin 0) (Fin 1) 2 2 false (Fin 1)).
  set (c := ti_front 60 1 2 3 false). set (d := ti_front 100 0 2 4 true).
  assert (AB : dry_over_wet a b = false) by (unfold dry_over_wet; change (f_layer a =? f_layer b)%Z with false; apply andb_false_r).
  assert (BC : dry_over_wet b c = false) by (unfold dry_over_wet; change (f_theta b <=? f_theta c)%d with (Fin (2 / 5) <=? Fin (17 / 50))%d; rewrite leb_f by lra; reflexivity).
  assert (CD : dry_over_wet c d = true) by (unfold dry_over_wet; change (f_theta c <=? f_theta d)%d with (Fin (17 / 50) <=? Fin (17 / 50))%d; rewrite leb_t by lra; reflexivity).
  change bu_head with [a; b; c; d]. unfold check_and_fix, lgar_check_dry_over_wet_wetting_fronts, lgar_fix_dry_over_wet_wetting_fronts. cbn [bind check_dry]. rewrite AB, BC, CD.
  change (length [a; b; c; d]) with 4%nat. cbn [fix_loop].
  change (1 <=? listLength [a; b; c; d])%Z with true. change (1 + 1 <=? listLength [a; b; c; d])%Z with true. change (1 + 1 + 1 <=? listLength [a; b; c; d])%Z with true.
  cbv iota. cbn [nth_error]. rewrite AB, BC, CD.
  assert (FP : exists dm, fix_pair ti_env c [a; b; c; d] = Ok (bu_after, 2%nat, dm)).
  { unfold fix_pair. destruct (lgar_calc_mass_bal (e_cum ti_env) [a; b; c; d]) as [m1|] eqn:M1; [|discriminate]. cbn [bind].
    change (listDeleteFront (f_num c) [a; b; c; d]) with (@Ok (list front * option nat) ([a; b; ti_front 100 0 2 3 true], Some 2%nat)). cbn [bind].
    change (f_layer c >? 1)%Z with true. cbv iota. change (lget [a; b; ti_front 100 0 2 3 true] 2) with (Ok (ti_front 100 0 2 3 true)). cbn [bind].
    change (soil_of ti_env (f_layer (ti_front 100 0 2 3 true))) with (Ok ex_soil). cbn [bind]. change (f_theta (ti_front 100 0 2 3 true)) with (Fin (17 / 50)). rewrite un_psi.
    change (fix_above ti_env (f_layer c) (Fin 75) ?x) with (fix_above ti_env 2 (Fin 75) [a; b; ti_front 100 0 2 3 true]).
    change (fix_above ti_env 2 (Fin 75) [a; b; ti_front 100 0 2 3 true]) with (Ok [set_theta (set_psi a (Fin 75)) (theta_of_h ex_soil (Fin 75)); b; ti_front 100 0 2 3 true]).
    rewrite un_theta. cbn [bind]. change (set_theta _ _ :: _) with bu_after. destruct (lgar_calc_mass_bal (e_cum ti_env) bu_after) as [m2|] eqn:M2; [|discriminate]. cbn [bind]. eauto. }
  destruct FP as [dm FP]. rewrite FP. cbn [bind]. cbn [fix_loop]. eexists. reflexivity.
Qed.
Lemma bu_apart : ~ heads_meet ti_env bu_after.
Proof. intro H. destruct (H 0%nat _ _ ex_soil eq_refl eq_refl eq_refl eq_refl) as [E _]. cbn in E. injection E. lra. Qed.
End Run.
