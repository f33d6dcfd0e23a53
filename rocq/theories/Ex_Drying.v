(** Worked examples of the head iteration: a saturated metre of soil that has to lose a little water, and one that is to hold more than fits. *)

From Coq Require Import Reals Lra ZArith List Bool Lia.
From Verif Require Import Outcome Dbl Exact Types ListOps Soil Fronts Infil Lib Spec_Common Spec_Soil Spec_Balance Pf_Dbl Pf_Pow Pf_Soil Pf_Balance Pf_Drying Ex_Saturated Ex_Unsaturated Ex_Dry Ex_Velocity.
Import ListNotations.
Open Scope R_scope.

Section Run.
Local Existing Instance exact.
Context {cfg : Cfg}.

(** The water above the front at a head of 1 mm. *)
Definition dg_target : R := held [dr_part] (1 / 10).

Lemma dg_loss : 1 / 100000 < held [dr_part] 0 - dg_target.
Proof.
  unfold dg_target, held, pt_theta, vg_theta, dr_part. cbn [map Rsum pt_z pt_t pt_r pt_e pt_a pt_n pt_m]. rewrite ve_Se0. unfold vg_Se. rewrite pw_pos by lra. rewrite Rpower_2 by lra.
  replace (1 / 100 * (1 / 10) * (1 / 100 * (1 / 10))) with (1 / 1000000) by field. rewrite Rpower_Ropp.
  assert (P : 1 + 4 / 10000000 <= Rpower (1 + 1 / 1000000) (1 / 2)).
  { replace (1 + 4 / 10000000) with (Rpower ((1 + 4 / 10000000) * (1 + 4 / 10000000)) (1 / 2)) by (apply Rpower_half; lra). apply Rle_Rpower_l; lra. }
  assert (Q : / Rpower (1 + 1 / 1000000) (1 / 2) <= / (1 + 4 / 10000000)) by (apply Rinv_le_contravar; lra).
  assert (/ (1 + 4 / 10000000) <= 1 - 39 / 100000000). { apply (Rmult_le_reg_l (1 + 4 / 10000000)); [lra|]. rewrite Rinv_r by lra. lra. }
  lra.
Qed.

Lemma dg_dries : (2 <= fuel)%nat ->
  lgar_theta_mass_balance ex_env 1 ex_soil (Fin 0) (Fin (held [dr_part] 0)) (Fin dg_target) (Fin (1 / 50)) [None; Some (Fin 0)] [None; Some (Fin 100)] = Ok (Fin (pt_theta dr_part (1 / 10)), Fin (1 / 50)).
Proof.
  intro Hf. pose proof dg_loss as L. unfold lgar_theta_mass_balance. cbv zeta. change (dabs (Fin (held [dr_part] 0) - Fin dg_target))%d with (Fin (Rabs (held [dr_part] 0 - dg_target))). change tmb_tol with (Fin tol).
  rewrite Rabs_right by lra. rewrite leb_f by (unfold tol; lra).
  assert (EF : dfmax (lit 1) (Fin 0 / lit 100) = Fin 1).
  { change (lit 1) with (Fin 1). change (lit 100) with (Fin 100). rewrite div_fin by lra. unfold dfmax, dltb, Rltb. destruct (Rlt_dec 1 (0 / 100)); [exfalso; lra|reflexivity]. }
  rewrite EF. destruct fuel as [|[|k]]; [lia|lia|]. set (x := mkT _ _ _ _ _ _ _ _ _ _ _ _).
  assert (P1 : 0 <= 0 + 1 / 10 * 1) by lra. assert (U : dg_target < held [dr_part] 0) by lra.
  destruct (pass ex_env 1 ex_soil _ _ [] dr_part dr_parts eq_refl dg_target x 0 1 (held [dr_part] 0) 0 _ _ _ _ _ _ eq_refl eq_refl eq_refl eq_refl eq_refl
    (sh_up dg_target 0 1 (held [dr_part] 0) false false 0 U) P1) as (dp & c & b & ES & _).
  replace (0 + 1 / 10 * 1) with (1 / 10) in ES by field. replace (Rabs (held [dr_part] (1 / 10) - dg_target)) with 0 in ES by (unfold dg_target; rewrite Rminus_diag_eq by reflexivity; rewrite Rabs_R0; reflexivity).
  cbn [tmb_loop]. change (t_delta x) with (Fin (held [dr_part] 0 - dg_target)). change tmb_tol with (Fin tol). unfold dgtb at 1. rewrite ltb_t by (unfold tol; lra). rewrite ES. cbn [bind].
  replace (if b then _ else _) with (Ok (mkT (Fin (1 / 10)) (Fin 0) (Fin 1) false (Fin (pt_theta dr_part (1 / 10))) (Fin (held [dr_part] (1 / 10))) (Fin 0) dp c false (t_iter x + 1) (aug_now x || t_aug x))).
  2:{ destruct b; [reflexivity|]. cbn [t_delta]. unfold dgtb. rewrite ltb_f by (unfold tol; lra). reflexivity. }
  cbn [bind t_delta t_theta t_psi t_sat]. unfold dgtb. rewrite ltb_f by (unfold tol; lra). cbn [andb]. unfold dgeb. change (s_theta_e ex_soil) with (Fin (2 / 5)). rewrite leb_f; [reflexivity|].
  unfold dg_target, held, pt_theta, vg_theta, dr_part in L |- *. cbn [map Rsum pt_z pt_t pt_r pt_e pt_a pt_n pt_m] in L |- *. rewrite ve_Se0 in L. lra.
Qed.
End Run.
