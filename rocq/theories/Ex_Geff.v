(** Two heads in a soil whose conductivities differ by less than 2 %, and an evapotranspiration demand. *)

From Coq Require Import Reals Lra ZArith List.
From Coquelicot Require Import Coquelicot.
From Verif Require Import Outcome Dbl Exact Types Soil Spec_Common Spec_Soil Spec_Geff Pf_Pow Pf_Soil Pf_GeffInt Pf_Aet Ex_Saturated Ex_Unsaturated Ex_Soil.
Import ListNotations.
Open Scope R_scope.

(** With alpha 1/100, n 2, m 1/2 and 1 + (h/100)^2 = q^2, 1 - 1/q^2 = p^2. *)
Lemma half_K : forall h p q, 0 < h -> 0 < p -> 0 < q -> 1 + (h / 100) ^ 2 = q * q -> 1 - / (q * q) = p * p -> relative_K (1 / 100) 2 (1 / 2) h = sqrt (/ q) * (1 - p) ^ 2.
Proof.
  intros h p q Hh Hp Hq E1 E2. unfold relative_K, vg_Se, vg_K. rewrite (pw_pos (1 / 100 * h)) by lra. rewrite Rpower_2 by lra.
  replace (1 + 1 / 100 * h * (1 / 100 * h)) with (q * q) by (rewrite <- E1; field). rewrite Rpower_Ropp, Rpower_half by assumption.
  assert (I : 0 < / q) by (apply Rinv_0_lt_compat; assumption). rewrite (pw_pos (/ q)) by assumption. replace (/ (1 / 2)) with 2 by field. rewrite Rpower_2 by assumption.
  replace (1 - / q * / q) with (p * p) by (rewrite <- E2; field; lra). rewrite pw_pos by nra. rewrite Rpower_half by assumption. ring.
Qed.

Definition ge_hi : R := 100 * (59800 / 79401).
Lemma ge_close : vg_soil ex_soil (1 / 10) (2 / 5) (1 / 100) 2 (1 / 2) 1 /\ 1 / 10000000000 <= 75 < ge_hi /\
  relative_K (1 / 100) 2 (1 / 2) 75 <= 102 / 100 * relative_K (1 / 100) 2 (1 / 2) ge_hi.
Proof.
  split; [exact (proj1 ex_curve)|]. unfold ge_hi. split; [lra|].
  rewrite (half_K 75 (3 / 5) (5 / 4)) by lra. rewrite (half_K _ (59800 / 99401) (99401 / 79401)) by lra.
  assert (S : sqrt (/ (5 / 4)) <= 1001 / 1000 * sqrt (/ (99401 / 79401))).
  { replace (1001 / 1000) with (sqrt (1001 / 1000 * (1001 / 1000))) by (apply sqrt_square; lra). rewrite <- sqrt_mult by lra. apply sqrt_le_1; lra. }
  pose proof (sqrt_pos (/ (99401 / 79401))). nra.
Qed.
Lemma ge_drive : exists I, drive (1 / 100) 2 (1 / 2) 75 ge_hi I.
Proof. apply drive_exists; lra. Qed.

Lemma half_Se : forall h q, 0 < h -> 0 < q -> 1 + (h / 100) ^ 2 = q * q -> vg_theta (1 / 10) (2 / 5) (1 / 100) 2 (1 / 2) h = 1 / 10 + 3 / 10 * / q.
Proof.
  intros h q Hh Hq E. unfold vg_theta, vg_Se. rewrite (pw_pos (1 / 100 * h)) by lra. rewrite Rpower_2 by lra.
  replace (1 + 1 / 100 * h * (1 / 100 * h)) with (q * q) by (rewrite <- E; field). rewrite Rpower_Ropp, Rpower_half by assumption. field. lra.
Qed.

(** Field capacity at 160/3 cm, wilting point at 240 cm, half demand at 855/7 cm. *)
Lemma ge_half : vg_theta (1 / 10) (2 / 5) (1 / 100) 2 (1 / 2) (855 / 7)
  = (vg_theta (1 / 10) (2 / 5) (1 / 100) 2 (1 / 2) (160 / 3) + vg_theta (1 / 10) (2 / 5) (1 / 100) 2 (1 / 2) 240) / 2.
Proof. rewrite (half_Se _ (221 / 140)), (half_Se _ (17 / 15)), (half_Se _ (13 / 5)) by lra. lra. Qed.

Lemma ge_demand : @calc_aet exact ex_env (Fin 1) (Fin 1) (Fin 240) (Fin (160 / 3)) [un_front] = Ok (Fin (reduced_demand 1 1 75 (855 / 7))).
Proof. apply (aet_is ex_env ex_soil (1 / 10) (2 / 5) (1 / 100) 2 (1 / 2) 1); try reflexivity; try lra; [exact (proj1 ex_curve)|exact ge_half]. Qed.
