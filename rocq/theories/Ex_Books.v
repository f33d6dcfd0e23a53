(** Columns of two layers for the water ledger. *)

From Coq Require Import Reals Lra ZArith List Bool Lia.
From Verif Require Import Outcome Dbl Exact Types ListOps Soil Fronts Infil Move State Lib Spec_Common Spec_Soil Spec_List Spec_Profile Spec_Storage Spec_Update Spec_Column
  Spec_Advance Spec_Balance Spec_Shares Pf_Dbl Pf_Pow Pf_Profile Pf_Soil Ex_Saturated Ex_Unsaturated Ex_Safety Ex_Advance.
Import ListNotations.
Open Scope R_scope.
Local Existing Instance exact.

(** The layers of [ti_env]: 25 cm and 75 cm of the same soil. *)
Definition bk_part (z : R) : part := mkPart z 0 (1 / 10) (2 / 5) (1 / 100) 2 (1 / 2).
Definition bk_column : list part := [bk_part 25; bk_part 75].

(** A front at 20 cm in the first layer, at 1 cm/h for four hours; 1 mm of rain and 1 cm of evapotranspiration. *)
Definition bk_head : list front := [mkF (Fin 20) (Fin (2 / 5)) (Fin 0) (Fin 1) 1 1 false (Fin 1); ti_front 25 0 1 2 true; ti_front 100 0 2 3 true].
Definition bk_after : list front :=
  [mkF (Fin 24) (Fin (141 / 400)) (h_of_Se ex_soil (Se_of_theta ex_soil (Fin (141 / 400)))) (Fin 1) 1 1 false (Fin 1); ti_front 25 0 1 2 true; ti_front 100 0 2 3 true].

Lemma bk_soil : forall z, vg_soil ex_soil (pt_r (bk_part z)) (pt_e (bk_part z)) (pt_a (bk_part z)) (pt_n (bk_part z)) (pt_m (bk_part z)) 1.
Proof. intro z. constructor; cbn; try reflexivity; lra. Qed.

Lemma bk_strata : strata ti_env bk_column.
Proof.
  split; [discriminate|]. split; [repeat constructor; cbn; lra|]. exists [ex_soil; ex_soil]. split.
  - constructor; try reflexivity.
    + cbn. repeat f_equal; lra.
    + intros k s E. do 2 (destruct k as [|k]; [injection E as <-; reflexivity|]). destruct k; discriminate.
  - repeat constructor; exists 1; apply bk_soil.
Qed.

Lemma bk_theta : forall z, pt_theta (bk_part z) 75 = 17 / 50.
Proof.
  intro z. pose proof un_theta as U. rewrite (theta_of_h_is ex_soil _ _ _ _ _ _ 75 (bk_soil z)) in U by lra. injection U as U. exact U.
Qed.

Lemma ti_on_curve : forall d dz lay num b, (lay = 1 \/ lay = 2)%Z -> on_curve bk_column (ti_front d dz lay num b).
Proof.
  intros d dz lay num b H. right. destruct H as [-> | ->].
  - exists (bk_part 25), 75. split; [reflexivity|]. split; [reflexivity|]. split; [lra|]. cbn [f_theta ti_front]. rewrite bk_theta. reflexivity.
  - exists (bk_part 75), 75. split; [reflexivity|]. split; [reflexivity|]. split; [lra|]. cbn [f_theta ti_front]. rewrite bk_theta. reflexivity.
Qed.

Lemma ti_moves_down : forall d dz lay num b, (lay = 1 \/ lay = 2)%Z -> (if (lay =? 2)%Z then 25 <= d else 0 <= d) -> 0 <= dz -> (lay = 1%Z -> b = true) ->
  moves_down bk_column (ti_front d dz lay num b).
Proof.
  intros d dz lay num b H Hd Hz Hb. exists d, dz. split; [reflexivity|]. split; [reflexivity|]. split; [|split; [assumption|]].
  - destruct H as [-> | ->]; [change (0 <= d); exact Hd|change (25 + 0 <= d); cbn in Hd; lra].
  - cbn. intros L F. rewrite Hb in F by assumption. discriminate.
Qed.

Lemma ad_on_curve : Forall (on_curve bk_column) ad_head.
Proof. repeat (apply Forall_cons || apply Forall_nil); apply ti_on_curve; lia. Qed.
Lemma ad_moves_down : Forall (moves_down bk_column) ad_head.
Proof. repeat (apply Forall_cons || apply Forall_nil); apply ti_moves_down; try lia; try (cbn; lra); reflexivity. Qed.
Lemma ad_meet : heads_meet ti_env ad_head.
Proof.
  intros i c n s E1 E2 B S. destruct i as [|[|i]]; cbn in E1, E2; [|injection E1 as <-; discriminate|destruct i; discriminate].
  injection E1 as <-. injection E2 as <-. injection S as <-. split; [reflexivity|]. cbn [f_theta f_psi ti_front]. rewrite un_theta. reflexivity.
Qed.

Lemma bk_profile : profile 2 [Fin 0; Fin 25; Fin 100] bk_head.
Proof.
  apply profile_scan; [discriminate|]. split.
  - intros i f E. do 3 (destruct i as [|i]; [injection E as <-; reflexivity|]). destruct i; discriminate.
  - cbn -[Z.le]. repeat split; try reflexivity; lia.
Qed.
Lemma bk_on_curve : Forall (on_curve bk_column) bk_head.
Proof.
  constructor; [|repeat (apply Forall_cons || apply Forall_nil); apply ti_on_curve; lia]. left. split; [reflexivity|]. split; [reflexivity|]. exists (bk_part 25), (2 / 5). repeat split; cbn; lra.
Qed.
Lemma bk_moves_down : Forall (moves_down bk_column) bk_head.
Proof.
  constructor; [|repeat (apply Forall_cons || apply Forall_nil); apply ti_moves_down; try lia; try (cbn; lra); reflexivity]. exists 20, 1. repeat split; cbn; lra.
Qed.
Lemma bk_meet : heads_meet ti_env bk_head.
Proof.
  intros i c n s E1 E2 B S. destruct i as [|[|i]]; cbn in E1, E2; [injection E1 as <-; discriminate| |destruct i; discriminate].
  injection E1 as <-. injection E2 as <-. injection S as <-. split; [reflexivity|]. cbn [f_theta f_psi ti_front]. rewrite un_theta. reflexivity.
Qed.
Lemma bk_drier : drier_downwards bk_head.
Proof. cbn. repeat split; intros; try discriminate; lra. Qed.
Lemma bk_inside : Forall (fun f => val (f_depth f) <= top_of bk_column (e_nlayers ti_env + 1)) bk_head.
Proof. change (top_of bk_column (e_nlayers ti_env + 1)) with (25 + (75 + 0)). repeat (apply Forall_cons || apply Forall_nil); cbn; lra. Qed.

Lemma bk_dries : forall cfg : Cfg, move_loop 3 ti_env (Fin 4) (Fin (1 / 10)) 1 bk_head 3 bk_head (Fin 1) = Ok (bk_after, Fin 1).
Proof.
  intro cfg. cbn [move_loop].
  assert (M3 : move_one ti_env (Fin 4) (Fin (1 / 10)) 1 bk_head 3 (Z.of_nat 3) bk_head (Fin 1) = Ok (bk_head, Fin 1)) by reflexivity.
  rewrite M3. cbn [bind].
  assert (M2 : move_one ti_env (Fin 4) (Fin (1 / 10)) 1 bk_head 3 (Z.of_nat 2) bk_head (Fin 1) = Ok (bk_head, Fin 1)).
  { change (move_one ti_env (Fin 4) (Fin (1 / 10)) 1 bk_head 3 (Z.of_nat 2) bk_head (Fin 1)) with
      (Ok (lset bk_head 1 (set_psi (set_theta (ti_front 25 0 1 2 true) (theta_of_h ex_soil (Fin 75))) (Fin 75)), Fin 1)).
    rewrite un_theta. reflexivity. }
  rewrite M2. cbn [bind]. unfold move_one. change (Z.of_nat 1) with 1%Z. set (c := mkF (Fin 20) (Fin (2 / 5)) (Fin 0) (Fin 1) 1 1 false (Fin 1)).
  change (findFrontOld 1 bk_head bk_head) with (bk_head, Some 0%nat). change (findFrontOld (1 + 1) bk_head bk_head) with (bk_head, Some 1%nat).
  change (findFront 1 bk_head) with (Some 0%nat). change (findFront (1 + 1) bk_head) with (Some 1%nat).
  cbv iota. change (lget bk_head 0) with (Ok c). cbn [bind]. change (f_layer c) with 1%Z.
  change (soil_of ti_env 1) with (Ok ex_soil). cbn [bind]. change (1 =? 1)%Z with true. change ((1 =? 3)%Z) with false. cbv iota. cbn [bind orb].
  change (pget bk_head (Some 1%nat)) with (Ok (ti_front 25 0 1 2 true)). cbn [bind f_layer ti_front].
  change ((1 <? 3)%Z && negb (1 =? 1)%Z)%bool with false. change (false && negb (1 =? 1)%Z && (3 =? e_nlayers ti_env)%Z)%bool with false.
  change ((1 <? 3)%Z && (1 =? 1)%Z)%bool with true. cbv iota.
  change (pget bk_head (Some 0%nat)) with (Ok c). cbn [bind].
  change (aget (e_cum ti_env) (e_nlayers ti_env)) with (Ok (Fin 100)). cbn [bind].
  change (f_depth c) with (Fin 20). change (f_dzdt c) with (Fin 1). change (f_theta c) with (Fin (2 / 5)).
  replace (dfmin (Fin 20 + Fin 1 * Fin 4)%d (Fin 100)) with (Fin 24)
    by (cbn; unfold Rltb; destruct (Rlt_dec _ _); [f_equal; lra|lra]).
  change (f_dzdt (set_depth c (Fin 24))) with (Fin 1). rewrite eqb_f by lra. cbn [andb].
  cbn [f_theta ti_front]. change (water_added 1 1 (Fin (1 / 10)) (Fin 1)) with (Fin (1 / 10) - (Fin 0 + Fin 1))%d.
  match goal with |- context [(?x <? s_theta_r ex_soil)%d] => replace x with (Fin (141 / 400))
    by (cbn; destruct (Req_EM_T _ _); [lra|cbn; f_equal; lra]) end.
  change (s_theta_r ex_soil) with (Fin (1 / 10)). rewrite ltb_f by lra.
  replace (dfmax (Fin (1 / 10)) (dfmin (s_theta_e ex_soil) (Fin (141 / 400)))) with (Fin (141 / 400)); [reflexivity|].
  change (s_theta_e ex_soil) with (Fin (2 / 5)). cbn. unfold Rltb. destruct (Rlt_dec _ _); cbn; unfold Rltb; destruct (Rlt_dec _ _); try lra; reflexivity.
Qed.

Lemma bk_moves : forall cfg : Cfg, move_loop 3 ti_env (Fin 2) (Fin 0) 2 ad_head 3 ad_head (Fin 0) = Ok (ad_after, Fin 0).
Proof.
  intro cfg. cbn [move_loop].
  assert (M3 : move_one ti_env (Fin 2) (Fin 0) 2 ad_head 3 (Z.of_nat 3) ad_head (Fin 0) = Ok (ad_head, Fin 0)) by reflexivity.
  rewrite M3. cbn [bind].
  assert (M2 : move_one ti_env (Fin 2) (Fin 0) 2 ad_head 3 (Z.of_nat 2) ad_head (Fin 0) = Ok (ad_after, Fin 0)).
  { unfold move_one. change (Z.of_nat 2) with 2%Z.
    change (findFrontOld 2 ad_head ad_head) with (ad_head, Some 1%nat). change (findFrontOld (2 + 1) ad_head ad_head) with (ad_head, Some 2%nat).
    change (findFront 2 ad_head) with (Some 1%nat). change (findFront (2 - 1) ad_head) with (Some 0%nat). change (findFront (2 + 1) ad_head) with (Some 2%nat).
    cbv iota. change (lget ad_head 1) with (Ok (ti_front 50 1 2 2 false)). cbn [bind f_layer ti_front].
    change (soil_of ti_env 2) with (Ok ex_soil). cbn [bind]. change (2 =? 1)%Z with false. cbv iota.
    change (pget ad_head (Some 0%nat)) with (Ok (ti_front 25 0 1 1 true)). cbn [bind].
    change (2 =? 3)%Z with false. change (false || (2 <? 3)%Z)%bool with true. cbv iota.
    change (pget ad_head (Some 2%nat)) with (Ok (ti_front 100 0 2 3 true)). cbn [bind f_layer ti_front].
    change ((2 <? 3)%Z && negb (2 =? 2)%Z)%bool with false. change (false && negb (2 =? 2)%Z && (3 =? e_nlayers ti_env)%Z)%bool with false.
    change ((2 <? 3)%Z && (2 =? 2)%Z)%bool with true. cbv iota.
    change (pget ad_head (Some 1%nat)) with (Ok (ti_front 50 1 2 2 false)). cbn [bind].
    change (lget ad_head 2) with (Ok (ti_front 100 0 2 3 true)). cbn [bind].
    change (aget (e_cum ti_env) (2 - 1)) with (Ok (Fin 25)). cbn [bind].
    cbn [f_depth f_dzdt f_theta f_psi ti_front set_depth]. replace (water_added 2 2 (Fin 0) (Fin 0)) with (Fin 0) by (cbn; f_equal; lra).
    replace ((Fin 50 - Fin 25) * (Fin (17 / 50) - Fin (17 / 50)))%d with (Fin 0) by (cbn; f_equal; lra).
    match goal with |- context [balance_theta _ _ _ _ _ _ _ (?x * (Fin (17 / 50) - Fin (17 / 50)))%d _ ?x _ _] =>
      replace (x * (Fin (17 / 50) - Fin (17 / 50)))%d with (Fin 0) by (cbn; f_equal; lra) end.
    rewrite ad_balance. cbn [bind]. rewrite un_psi.
    replace (Fin 50 + Fin 1 * Fin 2)%d with (Fin 52) by (cbn; f_equal; lra). reflexivity. }
  rewrite M2. cbn [bind].
  change (move_one ti_env (Fin 2) (Fin 0) 2 ad_head 3 (Z.of_nat 1) ad_after (Fin 0)) with
    (Ok (lset ad_after 0 (set_psi (set_theta (ti_front 25 0 1 1 true) (theta_of_h ex_soil (Fin 75))) (Fin 75)), Fin 0)).
  rewrite un_theta. reflexivity.
Qed.
