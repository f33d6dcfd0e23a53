(** A front in the second layer of a column of two layers. *)

From Coq Require Import Reals Lra ZArith List Bool Lia.
From Verif Require Import Outcome Dbl Exact Types ListOps Soil Fronts Infil Move State Lib Spec_Common Spec_List Spec_Profile Spec_Advance Pf_Dbl Pf_Pow Pf_Profile
  Ex_Saturated Ex_Unsaturated Ex_Safety.
Import ListNotations.
Open Scope R_scope.
Local Existing Instance exact.

Definition ad_head : list front := [ti_front 25 0 1 1 true; ti_front 50 1 2 2 false; ti_front 100 0 2 3 true].
Definition ad_after : list front := [ti_front 25 0 1 1 true; ti_front 52 1 2 2 false; ti_front 100 0 2 3 true].

Lemma ti_env_sound : sound_env ti_env.
Proof. exact (ss_env _ ti_sound). Qed.

Lemma ad_profile : profile 2 [Fin 0; Fin 25; Fin 100] ad_head.
Proof.
  apply profile_scan; [discriminate|]. split.
  - intros i f E. do 3 (destruct i as [|i]; [injection E as <-; reflexivity|]). destruct i; discriminate.
  - cbn -[Z.le]. repeat split; try reflexivity; lia.
Qed.

Lemma ad_clamp : clamp_theta ex_soil (Fin (17 / 50)) = Fin (17 / 50).
Proof.
  unfold clamp_theta. change (s_theta_r ex_soil) with (Fin (1 / 10)). change (s_theta_e ex_soil) with (Fin (2 / 5)).
  cbn. unfold Rltb. destruct (Rlt_dec _ _); cbn; unfold Rltb; destruct (Rlt_dec _ _); try lra; reflexivity.
Qed.

Lemma ad_balance : forall (cfg : Cfg) lz dz a,
  balance_theta ti_env 2 ex_soil (Fin 75) (Fin 75) (Some (Fin 75, Fin 75)) (Fin 0) (Fin 0) lz dz (Fin 0) a = Ok (Fin (17 / 50), a).
Proof.
  intros cfg lz dz a. unfold balance_theta. change (Z.to_nat (2 + 1)) with 3%nat. unfold masses_above. change (Z.to_nat (2 - 1)) with 1%nat. cbn [zfor].
  change (soil_of ti_env 1) with (Ok ex_soil). cbn [bind]. change (aget (e_cum ti_env) 1) with (Ok (Fin 25)). cbn [bind].
  change (aget (e_cum ti_env) (1 - 1)) with (Ok (Fin 0)). cbn [bind]. rewrite un_theta.
  replace (Fin 0 + (Fin 25 - Fin 0) * (Fin (17 / 50) - Fin (17 / 50)))%d with (Fin 0) by (cbn; f_equal; lra).
  cbn [repeat]. change (aset [None; None; None] 1 (Some (Fin (17 / 50)))) with (Ok [None; Some (Fin (17 / 50)); None]). cbn [bind].
  change (aset [None; None; None] 1 (Some (Fin 25 - Fin 0)%d)) with (Ok [None; Some (Fin 25 - Fin 0)%d; None]). cbn [bind].
  match goal with |- context [aset ?l 2 (Some lz)] => change (aset l 2 (Some lz)) with (Ok [None; Some (Fin (17 / 50)); Some lz]) end. cbn [bind].
  match goal with |- context [aset ?l 2 (Some dz)] => change (aset l 2 (Some dz)) with (Ok [None; Some (Fin 25 - Fin 0)%d; Some dz]) end. cbn [bind].
  unfold lgar_theta_mass_balance.
  replace (dabs (Fin 0 - (Fin 0 + Fin 0)))%d with (Fin 0) by (cbn; f_equal; symmetry; replace (0 - (0 + 0)) with 0 by lra; apply Rabs_R0).
  unfold tmb_tol. change (lit (1 / 1000000000000)) with (Fin (1 / 1000000000000)). rewrite leb_t by lra. cbn [bind]. rewrite un_theta, ad_clamp. reflexivity.
Qed.

Lemma ad_moves : forall cfg : Cfg, move_loop 3 ti_env (Fin 2) (Fin 0) 1 ad_head 3 ad_head (Fin 0) = Ok (ad_after, Fin 0).
Proof.
  intro cfg. cbn [move_loop].
  assert (M3 : move_one ti_env (Fin 2) (Fin 0) 1 ad_head 3 (Z.of_nat 3) ad_head (Fin 0) = Ok (ad_head, Fin 0)) by reflexivity.
  rewrite M3. cbn [bind].
  assert (M2 : move_one ti_env (Fin 2) (Fin 0) 1 ad_head 3 (Z.of_nat 2) ad_head (Fin 0) = Ok (ad_after, Fin 0)).
  { unfold move_one. change (Z.of_nat 2) with 2%Z.
    change (findFrontOld 2 ad_head ad_head) with (ad_head, Some 1%nat). change (findFrontOld (2 + 1) ad_head ad_head) with (ad_head, Some 2%nat).
    change (findFront 2 ad_head) with (Some 1%nat). change (findFront (2 - 1) ad_head) with (Some 0%nat). change (findFront (2 + 1) ad_head) with (Some 2%nat).
    cbv iota. change (lget ad_head 1) with (Ok (ti_front 50 1 2 2 false)). cbn [bind f_layer ti_front].
    change (soil_of ti_env 2) with (Ok ex_soil). cbn [bind]. change (2 =? 1)%Z with false. cbv iota.
    change (pget ad_head (Some 0%nat)) with (Ok (ti_front 25 0 1 1 true)). cbn [bind].
    change (2 =? 3)%Z with false. change (false || (2 <? 3)%Z)%bool with true. cbv iota.
    change (pget ad_head (Some 2%nat)) with (Ok (ti_front 100 0 2 3 true)). cbn [bind f_layer ti_front].
    change ((2 <? 3)%Z && negb (2 =? 2)%Z)%bool with false. change (false && negb (2 =? 2)%Z && (3 =? e_nlayers ti_env)%Z)%bool with false.
    change ((2 <? 3)%Z && (2 =? 2)%Z)%bool with true. cbv iota.
    change (pget ad_head (Some 1%nat)) with (Ok (ti_front 50 1 2 2 false)). cbn [bind].
    change (lget ad_head 2) with (Ok (ti_front 100 0 2 3 true)). cbn [bind].
    change (aget (e_cum ti_env) (2 - 1)) with (Ok (Fin 25)). cbn [bind].
    cbn [f_depth f_dzdt f_theta f_psi ti_front set_depth]. change (water_added 1 2 (Fin 0) (Fin 0)) with (Fin 0).
    replace ((Fin 50 - Fin 25) * (Fin (17 / 50) - Fin (17 / 50)))%d with (Fin 0) by (cbn; f_equal; lra).
    match goal with |- context [balance_theta _ _ _ _ _ _ _ (?x * (Fin (17 / 50) - Fin (17 / 50)))%d _ ?x _ _] =>
      replace (x * (Fin (17 / 50) - Fin (17 / 50)))%d with (Fin 0) by (cbn; f_equal; lra) end.
    rewrite ad_balance. cbn [bind]. rewrite un_psi.
    replace (Fin 50 + Fin 1 * Fin 2)%d with (Fin 52) by (cbn; f_equal; lra). reflexivity. }
  rewrite M2. cbn [bind].
  change (move_one ti_env (Fin 2) (Fin 0) 1 ad_head 3 (Z.of_nat 1) ad_after (Fin 0)) with
    (Ok (lset ad_after 0 (set_psi (set_theta (ti_front 25 0 1 1 true) (theta_of_h ex_soil (Fin 75))) (Fin 75)), Fin 0)).
  rewrite un_theta. reflexivity.
Qed.
