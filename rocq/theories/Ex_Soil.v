(** Examples beside the theorems on the soil functions, with the soil of Ex_Saturated (n = 2, m = 1/2). *)

From Coq Require Import Reals Lra ZArith List Bool Lia.
From Verif Require Import Outcome Dbl Exact Types ListOps Soil Infil Lib Spec_Common Spec_Soil Spec_Frozen
  Pf_Dbl Pf_Pow Pf_Soil Pf_SoilAny Pf_Geff Pf_Frozen Ex_Saturated Ex_Unsaturated.
Import ListNotations.
Open Scope R_scope.

Lemma ex_vg : vg_soil ex_soil (1 / 10) (2 / 5) (1 / 100) 2 (1 / 2) 1.
Proof. split; try reflexivity; lra. Qed.

Section Run.
Local Existing Instance exact.

Lemma ex_curve : vg_soil ex_soil (1 / 10) (2 / 5) (1 / 100) 2 (1 / 2) 1 /\ theta_of_h ex_soil (Fin 75) = Fin (17 / 50) /\
  h_of_Se ex_soil (Se_of_theta ex_soil (Fin (17 / 50))) = Fin 75.
Proof. split; [apply ex_vg|]. split; [apply un_theta|apply un_psi]. Qed.

Lemma ex_conductivity : calc_K_from_Se (Fin (4 / 5)) (Fin 1) (Fin (1 / 2)) = Fin (sqrt (4 / 5) * (4 / 25)).
Proof.
  rewrite K_of_Se_is by lra. f_equal. unfold vg_K. replace (/ (1 / 2)) with 2 by lra. rewrite (pw_pos (4 / 5)), Rpower_2 by lra.
  rewrite pw_pos by lra. replace (1 - 4 / 5 * (4 / 5)) with (3 / 5 * (3 / 5)) by lra. rewrite Rpower_half by lra. field.
Qed.

Lemma ex_geff : forall cfg : Cfg, calc_Geff true (Fin (1 / 10)) (Fin (17 / 50)) ex_soil (Fin 1) 120 = Ok (Fin (128 / 25)).
Proof.
  intro cfg. unfold calc_Geff, Se_of_theta, calc_Se_from_theta. cbn [negb]. cbn [s_theta_r s_theta_e s_lambda s_psib ex_soil].
  change (lit 1) with (Fin 1). change (lit 2) with (Fin 2). change (lit 3) with (Fin 3). cbn [dsub dadd dmul rnd exact]. rewrite !div_fin by lra. cbn [dsub dadd dmul rnd exact].
  replace ((1 / 10 - 1 / 10) / (2 / 5 - 1 / 10)) with 0 by field. replace ((17 / 50 - 1 / 10) / (2 / 5 - 1 / 10)) with (4 / 5) by field.
  replace (3 + 1 / 1) with 4 by field. rewrite pow_zero by lra. rewrite pow_pos by lra.
  replace (Rpower (4 / 5) 4) with (4 / 5 * (4 / 5) * (4 / 5 * (4 / 5))).
  2: { change (Rpower (4 / 5) 4) with (Rpower (4 / 5) (IZR 4)). assert (E4 : forall x, Rpower x 4 = Rpower x (2 + 2)) by (intro x; f_equal; lra). rewrite E4, Rpower_plus, Rpower_2 by lra. reflexivity. }
  cbn [dsub dmul rnd exact]. rewrite div_fin by lra. cbn [disinf disnan]. f_equal. f_equal. field.
Qed.

Lemma ex_aet : calc_aet ex_env (Fin 1) (Fin 1) (Fin 75) (Fin 75) [un_front] = Ok (Fin (1 / 2)).
Proof.
  unfold calc_aet. cbn [lget nth_error bind]. change (soil_of ex_env (f_layer un_front)) with (Ok ex_soil). cbn [bind].
  rewrite un_theta. change (lit 1) with (Fin 1). change (lit 2) with (Fin 2). change (lit 3) with (Fin 3).
  replace ((Fin (17 / 50) - Fin (17 / 50)) * Fin 1 / Fin 2 + Fin (17 / 50))%d with (Fin (17 / 50))
    by (cbn; destruct (Req_EM_T 2 0); [lra|cbn; f_equal; field]).
  rewrite un_psi. change (f_psi un_front) with (Fin 75). rewrite div_fin by lra. replace (75 / 75) with 1 by field. rewrite pow_one.
  cbn [dadd rnd exact]. rewrite div_fin by lra. cbn [dmul rnd exact]. unfold dgtb. rewrite !ltb_f by lra. f_equal. f_equal. field.
Qed.

(** Two layers of 10 cm; cells at 5 and 10 cm (mean 280 K) and at 15 cm (270 K). *)
Lemma ex_frozen : layered [10; 20] [[(5, 279); (10, 281)]; [(15, 270)]] [] /\
  frozen_factor 2 [Fin 0; Fin 10; Fin 20] [Fin 5; Fin 10; Fin 15] [Fin 279; Fin 281; Fin 270] 3 [Fin 1; Fin 1; Fin 1] = Ok [Fin 1; Fin 1; Fin (5 / 100)].
Proof.
  assert (L : layered [10; 20] [[(5, 279); (10, 281)]; [(15, 270)]] []).
  { cbn. repeat split; try discriminate; repeat constructor; cbn; lra. }
  split; [exact L|].
  pose proof (frozen_layers (Fin 1) [10; 20] [[(5, 279); (10, 281)]; [(15, 270)]] [] [Fin 1; Fin 1] L eq_refl) as F. cbn in F.
  change (Pos.to_nat 2) with 2%nat in F. etransitivity; [exact F|]. f_equal. unfold reduction, mean. cbn.
  assert (1 <= exp (-10 * (273.15 - (279 + (281 + 0)) / (1 + 1)))).
  { pose proof (exp_ineq1_le (-10 * (273.15 - (279 + (281 + 0)) / (1 + 1)))). lra. }
  assert (exp (-10 * (273.15 - (270 + 0) / 1)) <= 0.05).
  { apply Rle_trans with (exp (Ropp 31)); [left; apply exp_increasing; lra|].
    rewrite exp_Ropp. apply Rle_trans with (/ 20); [|lra]. apply Rinv_le_contravar; [lra|].
    pose proof (exp_ineq1_le 31). lra. }
  f_equal. f_equal; [|f_equal]; unfold Rmax, Rmin; f_equal; repeat destruct (Rle_dec _ _); lra.
Qed.
End Run.
