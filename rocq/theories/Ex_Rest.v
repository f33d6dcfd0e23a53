(** Columns of two layers at rest: a saturated one and one at a head of 75 cm. *)

From Coq Require Import String Reals Lra ZArith List Lia Bool.
From Verif Require Import Outcome Dbl Exact Types ListOps Soil Fronts Infil Move State Update Config Lib Spec_Common Spec_Soil Spec_List Spec_Profile Spec_Storage Spec_Update Spec_Velocity Spec_Column Spec_Config
  Spec_Advance Spec_Balance Spec_Shares Spec_Physical Spec_Meet Spec_Motion Spec_Upright Spec_Layered Spec_Rest Pf_Profile Pf_Structure Pf_Physical Pf_Level Pf_Soil Pf_Drier
  Ex_Saturated Ex_Unsaturated Ex_Safety Ex_TwoLayers Ex_Physical Ex_Velocity Ex_Advance Ex_Books Ex_Motion Ex_Meet Ex_Layered Ex_Config.
Import ListNotations.
Open Scope R_scope.
Local Existing Instance exact.

Definition hy_head : list front := [ti_front 25 0 1 1 true; ti_front 100 0 2 2 true].
(** [pet] mm/h of evaporative demand. *)
Definition hy_start (pet : R) : state :=
  sf_state 2 [Fin 0; Fin 25; Fin 75] [Fin 0; Fin 25; Fin 100] [None; Some 1%Z; Some 1%Z] [Fin 1; Fin 1; Fin 1] 15495 pet 34 hy_head.
Definition hy_acc : acc := acc0 (Fin 34) (Fin 0).

Lemma hy_theta : forall z, pt_theta (bk_part z) 75 = 17 / 50.
Proof. intro z. pose proof un_theta as E. rewrite (theta_of_h_is _ _ _ _ _ _ _ 75 (bk_soil z)) in E by lra. injection E as E. exact E. Qed.
Lemma tw_theta : forall z, pt_theta (bk_part z) 0 = 2 / 5.
Proof. intro z. pose proof (ex_theta) as E. rewrite (theta_of_h_is _ _ _ _ _ _ _ 0 (bk_soil z)) in E by lra. injection E as E. exact E. Qed.

Lemma hy_hydrostatic : hydrostatic bk_column 75 hy_head.
Proof.
  constructor; [lra|reflexivity|]. intros i f q E1 E2. destruct i as [|[|i]]; cbn in E1, E2; [| |destruct i; discriminate]; injection E1 as <-; injection E2 as <-.
  - rewrite hy_theta. repeat split. change (Fin 25 = Fin (0 + 25)) || change (Fin 100 = Fin (25 + 0 + 75)). f_equal. lra.
  - rewrite hy_theta. repeat split. change (Fin 25 = Fin (0 + 25)) || change (Fin 100 = Fin (25 + 0 + 75)). f_equal. lra.
Qed.
Lemma tw_hydrostatic : hydrostatic bk_column 0 tw_head.
Proof.
  constructor; [lra|reflexivity|]. intros i f q E1 E2. destruct i as [|[|i]]; cbn in E1, E2; [| |destruct i; discriminate]; injection E1 as <-; injection E2 as <-.
  - rewrite tw_theta. repeat split. change (Fin 25 = Fin (0 + 25)) || change (Fin 100 = Fin (25 + 0 + 75)). f_equal. lra.
  - rewrite tw_theta. repeat split. change (Fin 25 = Fin (0 + 25)) || change (Fin 100 = Fin (25 + 0 + 75)). f_equal. lra.
Qed.
Lemma hy_water : column_water bk_column 75 = 34.
Proof. unfold column_water, bk_column. cbn [map Rsum]. rewrite !hy_theta. cbn. lra. Qed.
Lemma tw_water : column_water bk_column 0 = 40.
Proof. unfold column_water, bk_column. cbn [map Rsum]. rewrite !tw_theta. cbn. lra. Qed.

Lemma hy_orderly : orderly 1 ti_env hy_head.
Proof.
  constructor.
  - apply profile_scan; [discriminate|]. split; [|cbn -[Z.le]; repeat split; try reflexivity; lia]. intros i f E. do 2 (destruct i as [|i]; [injection E as <-; reflexivity|]). destruct i; discriminate.
  - intros f E. injection E as <-. reflexivity.
  - pose proof bk_physical as H. unfold bk_head in H. apply Forall_cons_iff in H as [_ H]. apply Forall_cons_iff in H as [H1 H]. apply Forall_cons_iff in H as [H2 _].
    repeat (apply Forall_cons || apply Forall_nil); [destruct H1|destruct H2]; constructor; assumption.
  - repeat (apply Forall_cons || apply Forall_nil); (split; [eexists; reflexivity|]); [exists 0|exists 25]; (split; [reflexivity|cbn; lra]).
  - repeat (apply Forall_cons || apply Forall_nil); [exists 25, 0|exists 100, 0]; (split; [reflexivity|]; split; [reflexivity|]; split; [lra|]; discriminate).
  - apply dn_iff. intros i f g E1 E2 L. destruct i as [|i]; cbn in E1, E2; [|destruct i; discriminate]. injection E1 as <-. injection E2 as <-. discriminate.
  - intros i c n s E1 E2 B S. destruct i as [|i]; cbn in E1, E2; [|destruct i; discriminate]. injection E1 as <-. injection E2 as <-. injection S as <-. split; [reflexivity|]. cbn [f_theta f_psi ti_front]. rewrite un_theta. reflexivity.
Qed.
Lemma hy_storage : storage hy_head = 34.
Proof. unfold storage, slabs. cbn. lra. Qed.

Lemma hy_rooting : rooting (Fin 15495) (Fin 15495).
Proof. exists 15495, 15495. repeat split; lra. Qed.
Lemma hy_dry : forall pet, dry (hy_start pet).
Proof. intro pet. split; [exists 0; split; [reflexivity|lra]|eexists; reflexivity]. Qed.
Lemma tw_resting : resting bk_column 0 tw_start /\ dry tw_start /\ no_demand tw_start.
Proof.
  split; [split; [exact tw_hydrostatic|split; [reflexivity|exact hy_rooting]]|]. split; [split; [exists 0; split; [reflexivity|lra]|eexists; reflexivity]|]. exists 0. split; [reflexivity|lra].
Qed.
Lemma tw_history : forall cfg : Cfg, exists s, history dry tw_start [tw_x] s /\ history (fun s => dry s /\ no_demand s) tw_start [tw_x] s.
Proof.
  intro cfg. destruct (@tw_update cfg) as (s & _ & _ & X). exists s. split; change [tw_x] with ([] ++ [tw_x]); exact (hist_update _ _ _ _ _ _ _ (hist_start _ _) X).
Qed.
Lemma phillipsburg_rooting : rooting_lines phillipsburg.
Proof.
  exists (num "15495.0"), (num "340.9"), "wilting_point_psi=15495.0[cm]"%string, "field_capacity_psi=340.9[cm]"%string.
  split; [change (last_line "wilting_point_psi" "wilting_point_psi=15495.0[cm]" phillipsburg); a_last 12%nat|]. split; [assigned|]. split; [good|]. split; [values; lra|].
  split; [change (last_line "field_capacity_psi" "field_capacity_psi=340.9[cm]" phillipsburg); a_last 13%nat|]. split; [assigned|]. split; [good|]. split; values; lra.
Qed.
