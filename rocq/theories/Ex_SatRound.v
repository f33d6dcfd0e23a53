(** A soil in binary64 with residual and saturated water contents 0.09 and 0.34: saturated by its head it is not saturated by its water content. *)

From Coq Require Import Reals Lra ZArith List Bool Lia.
From Flocq Require Import Core.
From Verif Require Import Outcome Dbl Binary64 Types Soil Spec_Soil Spec_RoundMono Pf_Binary64 Pf_Counts Pf_RoundMono Pf_SatRound.
Import ListNotations.
Open Scope R_scope.

Section B64.
Local Existing Instance binary64.

(** Half way between two doubles the even one is taken. *)
Lemma near_tie_down : forall x k e, (e <= 1074)%Z -> bpow radix2 (52 - e) <= x < bpow radix2 (53 - e) -> x * bpow radix2 e = IZR k + / 2 -> Z.even k = true -> b64_near x = IZR k * bpow radix2 (- e).
Proof.
  intros x k e E B H K. unfold b64_near, round, F2R, scaled_mantissa, cexp. cbn [Fnum Fexp].
  assert (X : 0 < x) by (pose proof (bpow_gt_0 radix2 (52 - e)); lra).
  assert (M : mag radix2 x = (53 - e)%Z :> Z). { apply mag_unique. rewrite Rabs_pos_eq by lra. replace (53 - e - 1)%Z with (52 - e)%Z by lia. exact B. }
  rewrite M. assert (Q : b64_exp (53 - e) = (- e)%Z) by (unfold b64_exp, FLT_exp; lia). rewrite Q, Z.opp_involutive, H. f_equal. f_equal.
  unfold Znearest. rewrite floor_half. replace (IZR k + / 2 - IZR k) with (/ 2) by lra. rewrite Rcompare_Eq by reflexivity. rewrite K. reflexivity.
Qed.

Definition qr_r : R := 3242591731706757 / 36028797018963968.
Definition qr_e : R := 6124895493223875 / 18014398509481984.
Definition qr_t : R := 6124895493223874 / 18014398509481984.
Definition qr_S : R := 9007199254740991 / 9007199254740992.
(** alpha = 1/64, n = 2, m = 1/2. *)
Definition qr_soil : soil := mkSoil (Fin qr_r) (Fin qr_e) (Fin (1 / 64)) (Fin 2) (Fin (1 / 2)) (Fin 1) (Fin 10) (Fin 0) (Fin (1 / 4)).

Lemma qr_lit_r : lit (9 / 100) = Fin qr_r.
Proof.
  unfold lit. rewrite rnd_small by (apply fits; lra). rewrite (near_is (9 / 100) 6485183463413514 56).
  - f_equal. replace (bpow radix2 (- (56))) with (/ 72057594037927936) by reflexivity. unfold qr_r. lra.
  - lia.
  - replace (bpow radix2 (52 - 56)) with (/ 16) by reflexivity. replace (bpow radix2 (53 - 56)) with (/ 8) by reflexivity. lra.
  - replace (bpow radix2 56) with 72057594037927936 by reflexivity. apply Rabs_def1; lra.
Qed.
Lemma qr_lit_e : lit (34 / 100) = Fin qr_e.
Proof.
  unfold lit. rewrite rnd_small by (apply fits; lra). rewrite (near_is (34 / 100) 6124895493223875 54).
  - f_equal.
  - lia.
  - replace (bpow radix2 (52 - 54)) with (/ 4) by reflexivity. replace (bpow radix2 (53 - 54)) with (/ 2) by reflexivity. lra.
  - replace (bpow radix2 54) with 18014398509481984 by reflexivity. apply Rabs_def1; lra.
Qed.
Lemma qr_rounded : rounded_soil qr_soil qr_r qr_e.
Proof.
  unfold rounded_soil. cbn [qr_soil s_theta_r s_theta_e s_alpha s_n s_m]. repeat split; try (unfold qr_r, qr_e; lra).
  - eapply rnd_idem. exact qr_lit_r.
  - exists (1 / 64). split; [reflexivity|lra].
  - exists 2. split; [reflexivity|lra].
  - exists (1 / 2). split; [reflexivity|lra].
Qed.
Lemma qr_diff : (Fin qr_e - Fin qr_r)%d = Fin (1 / 4).
Proof.
  cbn [dsub]. rewrite rnd_small by (apply fits; unfold qr_e, qr_r; lra). rewrite (near_tie_down (qr_e - qr_r) 4503599627370496 54).
  - f_equal. replace (bpow radix2 (- (54))) with (/ 18014398509481984) by reflexivity. lra.
  - lia.
  - replace (bpow radix2 (52 - 54)) with (/ 4) by reflexivity. replace (bpow radix2 (53 - 54)) with (/ 2) by reflexivity. unfold qr_e, qr_r. lra.
  - replace (bpow radix2 54) with 18014398509481984 by reflexivity. unfold qr_e, qr_r. lra.
  - reflexivity.
Qed.
Lemma qr_sum : (Fin (1 / 4) + Fin qr_r)%d = Fin qr_t.
Proof.
  cbn [dadd]. rewrite rnd_small by (apply fits; unfold qr_r; lra). rewrite (near_tie_down (1 / 4 + qr_r) 6124895493223874 54).
  - f_equal.
  - lia.
  - replace (bpow radix2 (52 - 54)) with (/ 4) by reflexivity. replace (bpow radix2 (53 - 54)) with (/ 2) by reflexivity. unfold qr_r. lra.
  - replace (bpow radix2 54) with 18014398509481984 by reflexivity. unfold qr_r. lra.
  - reflexivity.
Qed.
Lemma qr_saturated : theta_of_h qr_soil (Fin 0) = Fin qr_t.
Proof.
  unfold theta_of_h, calc_theta_from_h. cbn [qr_soil s_theta_r s_theta_e s_alpha s_n s_m]. rewrite qr_diff. cbn [dmul]. rewrite Rmult_0_r, rnd_zero.
  rewrite pow_fin, Pf_Soil.pw_0, rnd_zero by lra. unfold lit. rewrite rnd_one. cbn [dadd]. rewrite Rplus_0_r, rnd_one, pow_fin, Pf_Soil.pw_1, rnd_one by lra. cbn [ddiv].
  destruct (Req_EM_T 1 0); [lra|]. replace (1 / 1) with 1 by lra. rewrite rnd_one. cbn [dmul]. rewrite Rmult_1_l. rewrite (rnd_idem (qr_e - qr_r) (1 / 4) qr_diff). exact qr_sum.
Qed.
Lemma exact_is : forall x m e, (0 <= m < 2 ^ 53)%Z -> (0 <= e <= 1074)%Z -> x = IZR m * bpow radix2 (- e) -> rnd x = Fin x.
Proof.
  intros x m e M E H. rewrite rnd_small; [f_equal; rewrite H; apply near_format; lia|]. pose proof (bpow_gt_0 radix2 (- e)). assert (bpow radix2 (- e) <= 1) by (change 1 with (bpow radix2 0); apply bpow_le; lia).
  assert (0 <= IZR m) by (apply IZR_le; lia). assert (IZR m <= 9007199254740992) by (apply IZR_le; lia). apply fits. rewrite H. split; [apply Rmult_le_pos; lra|nra].
Qed.
Lemma qr_Se : Se_of_theta qr_soil (Fin qr_t) = Fin qr_S.
Proof.
  unfold Se_of_theta, calc_Se_from_theta. cbn [qr_soil s_theta_r s_theta_e]. rewrite qr_diff. cbn [dsub].
  rewrite (exact_is (qr_t - qr_r) 9007199254740991 55); [|lia|lia|replace (bpow radix2 (- (55))) with (/ 36028797018963968) by reflexivity; unfold qr_t, qr_r; lra].
  cbn [ddiv]. destruct (Req_EM_T (1 / 4) 0); [lra|]. replace ((qr_t - qr_r) / (1 / 4)) with qr_S by (unfold qr_t, qr_r, qr_S; field).
  apply (exact_is qr_S 9007199254740991 53); [lia|lia|]. replace (bpow radix2 (- (53))) with (/ 9007199254740992) by reflexivity. unfold qr_S. lra.
Qed.
Lemma qr_head : h_of_Se qr_soil (Fin qr_S) = Fin (/ 1048576).
Proof.
  assert (L1 : lit 1 = Fin 1) by (unfold lit; apply rnd_one). assert (Lm : lit (-1) = Fin (-1)) by (unfold lit; replace (-1) with (- (1)) by lra; rewrite rnd_opp, rnd_one; cbn; f_equal; lra).
  unfold h_of_Se, calc_h_from_Se. cbn [qr_soil s_alpha s_n s_m]. rewrite L1, Lm. cbn [ddiv]. destruct (Req_EM_T (1 / 64) 0); [lra|]. destruct (Req_EM_T (1 / 2) 0); [lra|]. destruct (Req_EM_T 2 0); [lra|].
  replace (1 / (1 / 64)) with (IZR 64) by lra. rewrite rnd_IZR by lia. replace (-1 / (1 / 2)) with (- (IZR 2)) by lra. rewrite rnd_opp, rnd_IZR by lia. cbn [dopp].
  rewrite (exact_is (1 / 2) 1 1) by (try lia; change (bpow radix2 (- (1))) with (/ 2); lra).
  assert (P : dpow (Fin qr_S) (Fin (- (2))) = Fin (4503599627370497 / 4503599627370496)).
  { unfold dpow. cbn [deqb]. unfold Reqb. destruct (Req_EM_T (- (2)) 0); [lra|]. destruct (Req_EM_T qr_S 1); [unfold qr_S in *; lra|]. assert (0 < qr_S) by (unfold qr_S; lra). destruct (Rlt_dec 0 qr_S); [|contradiction].
    rewrite Rpower_Ropp. replace 2 with (INR 2) by (cbn; lra). rewrite Rpower_pow by assumption. cbn [pow]. rewrite Rmult_1_r.
    assert (V : / (qr_S * qr_S) = 81129638414606681695789005144064 / 81129638414606663681390495662081) by (unfold qr_S; field).
    rewrite V. rewrite rnd_small by (apply fits; lra). rewrite (near_is _ 4503599627370497 52).
    - f_equal.
    - lia.
    - change (bpow radix2 (52 - 52)) with 1. change (bpow radix2 (53 - 52)) with 2. lra.
    - replace (bpow radix2 52) with 4503599627370496 by reflexivity. apply Rabs_def1; lra. }
  rewrite P. cbn [dsub]. replace (4503599627370497 / 4503599627370496 - 1) with (/ 4503599627370496) by lra.
  rewrite (exact_is (/ 4503599627370496) 1 52) by (try lia; replace (bpow radix2 (- (52))) with (/ 4503599627370496) by reflexivity; lra).
  rewrite pow_fin by lra. unfold pw. destruct (Rlt_dec 0 (/ 4503599627370496)); [|lra].
  replace (/ 4503599627370496) with (/ 67108864 * / 67108864) by lra.
  assert (Q : Rpower (/ 67108864 * / 67108864) (1 / 2) = / 67108864).
  { replace (1 / 2) with (/ 2) by lra. rewrite Rpower_sqrt by lra. apply sqrt_square. lra. }
  rewrite Q. rewrite (exact_is (/ 67108864) 1 26) by (try lia; replace (bpow radix2 (- (26))) with (/ 67108864) by reflexivity; lra). cbn [dmul].
  replace (64 * / 67108864) with (/ 1048576) by lra. apply (exact_is _ 1 20); try lia. replace (bpow radix2 (- (20))) with (/ 1048576) by reflexivity. lra.
Qed.
End B64.
