(** A soil of data/vG_default_params_HYDRUS.dat in binary64: silt, with residual and saturated water contents 0.034 and 0.46. *)

From Coq Require Import Reals Lra ZArith List Bool Lia.
From Flocq Require Import Core.
From Verif Require Import Outcome Dbl Binary64 Types Soil Spec_Soil Spec_RoundMono Pf_Binary64 Pf_Counts Pf_RoundMono.
Import ListNotations.
Open Scope R_scope.

Section B64.
Local Existing Instance binary64.

(** Half way between two doubles the even one is taken. *)
Lemma near_tie : forall x k e, (e <= 1074)%Z -> bpow radix2 (52 - e) <= x < bpow radix2 (53 - e) -> x * bpow radix2 e = IZR k + / 2 -> Z.even k = false -> b64_near x = IZR (k + 1) * bpow radix2 (- e).
Proof.
  intros x k e E B H K. unfold b64_near, round, F2R, scaled_mantissa, cexp. cbn [Fnum Fexp].
  assert (X : 0 < x) by (pose proof (bpow_gt_0 radix2 (52 - e)); lra).
  assert (M : mag radix2 x = (53 - e)%Z :> Z). { apply mag_unique. rewrite Rabs_pos_eq by lra. replace (53 - e - 1)%Z with (52 - e)%Z by lia. exact B. }
  rewrite M. assert (Q : b64_exp (53 - e) = (- e)%Z) by (unfold b64_exp, FLT_exp; lia). rewrite Q, Z.opp_involutive, H. f_equal. f_equal.
  assert (F : Zfloor (IZR k + / 2) = k) by (apply Zfloor_imp; rewrite plus_IZR; lra).
  unfold Znearest. rewrite F. replace (IZR k + / 2 - IZR k) with (/ 2) by lra. rewrite Rcompare_Eq by reflexivity. rewrite K. cbn [negb].
  apply Zceil_imp. replace (k + 1 - 1)%Z with k by lia. rewrite plus_IZR. lra.
Qed.

Definition sl_r : R := 1224979098644775 / 36028797018963968.
Definition sl_e : R := 8286623314361713 / 18014398509481984.
Definition sl_d : R := 3837066882519663 / 9007199254740992.
Definition sl_t : R := 4143311657180857 / 9007199254740992.
Definition sl_soil (a n m : R) : soil := mkSoil (Fin sl_r) (Fin sl_e) (Fin a) (Fin n) (Fin m) (Fin 1) (Fin 10) (Fin 0) (Fin (1 / 4)).

Lemma sl_lit_r : lit (34 / 1000) = Fin sl_r.
Proof.
  unfold lit. rewrite rnd_small by (apply fits; lra). rewrite (near_is (34 / 1000) 4899916394579100 57).
  - f_equal. replace (bpow radix2 (- (57))) with (/ 144115188075855872) by reflexivity. unfold sl_r. lra.
  - lia.
  - replace (bpow radix2 (52 - 57)) with (/ 32) by reflexivity. replace (bpow radix2 (53 - 57)) with (/ 16) by reflexivity. lra.
  - replace (bpow radix2 57) with 144115188075855872 by reflexivity. apply Rabs_def1; lra.
Qed.
Lemma sl_lit_e : lit (46 / 100) = Fin sl_e.
Proof.
  unfold lit. rewrite rnd_small by (apply fits; lra). rewrite (near_is (46 / 100) 8286623314361713 54).
  - f_equal.
  - lia.
  - replace (bpow radix2 (52 - 54)) with (/ 4) by reflexivity. replace (bpow radix2 (53 - 54)) with (/ 2) by reflexivity. lra.
  - replace (bpow radix2 54) with 18014398509481984 by reflexivity. apply Rabs_def1; lra.
Qed.
Lemma sl_rounded : forall a n m, 0 < a -> 1 < n -> 0 < m < 1 -> rounded_soil (sl_soil a n m) sl_r sl_e.
Proof.
  intros a n m Ha Hn Hm. unfold rounded_soil. cbn [sl_soil s_theta_r s_theta_e s_alpha s_n s_m]. repeat split; try (unfold sl_r, sl_e; lra); eauto.
  eapply rnd_idem. exact sl_lit_r.
Qed.
Lemma sl_diff : (Fin sl_e - Fin sl_r)%d = Fin sl_d.
Proof.
  cbn [dsub]. rewrite rnd_small by (apply fits; unfold sl_e, sl_r; lra). rewrite (near_tie (sl_e - sl_r) 7674133765039325 54).
  - f_equal. replace (bpow radix2 (- (54))) with (/ 18014398509481984) by reflexivity. rewrite plus_IZR. unfold sl_d. lra.
  - lia.
  - replace (bpow radix2 (52 - 54)) with (/ 4) by reflexivity. replace (bpow radix2 (53 - 54)) with (/ 2) by reflexivity. unfold sl_e, sl_r. lra.
  - replace (bpow radix2 54) with 18014398509481984 by reflexivity. unfold sl_e, sl_r. lra.
  - reflexivity.
Qed.
Lemma sl_sum : (Fin sl_d + Fin sl_r)%d = Fin sl_t.
Proof.
  cbn [dadd]. rewrite rnd_small by (apply fits; unfold sl_d, sl_r; lra). rewrite (near_tie (sl_d + sl_r) 8286623314361713 54).
  - f_equal. replace (bpow radix2 (- (54))) with (/ 18014398509481984) by reflexivity. rewrite plus_IZR. unfold sl_t. lra.
  - lia.
  - replace (bpow radix2 (52 - 54)) with (/ 4) by reflexivity. replace (bpow radix2 (53 - 54)) with (/ 2) by reflexivity. unfold sl_d, sl_r. lra.
  - replace (bpow radix2 54) with 18014398509481984 by reflexivity. unfold sl_d, sl_r. lra.
  - reflexivity.
Qed.
Lemma sl_saturated : forall a n m, 0 < a -> 1 < n -> 0 < m < 1 -> theta_of_h (sl_soil a n m) (Fin 0) = Fin sl_t.
Proof.
  intros a n m Ha Hn Hm. unfold theta_of_h, calc_theta_from_h. cbn [sl_soil s_theta_r s_theta_e s_alpha s_n s_m]. rewrite sl_diff. cbn [dmul]. rewrite Rmult_0_r, rnd_zero.
  rewrite pow_fin, Pf_Soil.pw_0, rnd_zero by lra. unfold lit. rewrite rnd_one. cbn [dadd]. rewrite Rplus_0_r, rnd_one, pow_fin, Pf_Soil.pw_1, rnd_one by lra. cbn [ddiv].
  destruct (Req_EM_T 1 0); [lra|]. replace (1 / 1) with 1 by lra. rewrite rnd_one. cbn [dmul]. rewrite Rmult_1_l. rewrite (rnd_idem (sl_e - sl_r) sl_d sl_diff). exact sl_sum.
Qed.
End B64.
