(** Rounding to binary64: error bounds, integers, and quotients of whole numbers of seconds. *)

From Coq Require Import Reals Lra ZArith Lia List Bool Psatz.
From Flocq Require Import Core Relative.
From Verif Require Import Outcome Dbl Binary64 Spec_Binary64.
Import ListNotations.
Open Scope R_scope.

Lemma bpow_IZR : forall e, (0 <= e)%Z -> bpow radix2 e = IZR (2 ^ e).
Proof. intros e H. symmetry. exact (IZR_Zpower radix2 e H). Qed.
Lemma bpow_neg : forall e, bpow radix2 (- e) = / bpow radix2 e.
Proof. intro e. apply bpow_opp. Qed.

(** Numbers with 53 bits are not changed. *)
Lemma near_format : forall m e, (Z.abs m < 2 ^ 53)%Z -> (-1074 <= e)%Z -> b64_near (IZR m * bpow radix2 e) = IZR m * bpow radix2 e.
Proof.
  intros m e M E. apply round_generic; [apply valid_rnd_N|]. apply generic_format_FLT. exists (Float radix2 m e); [reflexivity|exact M|exact E].
Qed.
Lemma near_IZR : forall m, (Z.abs m < 2 ^ 53)%Z -> b64_near (IZR m) = IZR m.
Proof. intros m M. pose proof (near_format m 0 M ltac:(lia)) as H. cbn [bpow] in H. rewrite Rmult_1_r in H. exact H. Qed.

(** The number with 53 bits [m * 2^-e] is the nearest to a positive [x]. *)
Lemma near_is : forall x m e, (e <= 1074)%Z -> bpow radix2 (52 - e) <= x < bpow radix2 (53 - e) -> Rabs (x * bpow radix2 e - IZR m) < / 2 -> b64_near x = IZR m * bpow radix2 (- e).
Proof.
  intros x m e E B H. unfold b64_near, round, F2R, scaled_mantissa, cexp. cbn [Fnum Fexp].
  assert (X : 0 < x) by (pose proof (bpow_gt_0 radix2 (52 - e)); lra).
  assert (M : mag radix2 x = (53 - e)%Z :> Z). { apply mag_unique. rewrite Rabs_pos_eq by lra. replace (53 - e - 1)%Z with (52 - e)%Z by lia. exact B. }
  rewrite M. assert (Q : b64_exp (53 - e) = (- e)%Z) by (unfold b64_exp, FLT_exp; lia). rewrite Q. f_equal. f_equal. apply Znearest_imp. rewrite Z.opp_involutive. exact H.
Qed.

(** Half a unit in the last place. *)
Lemma near_error : forall x, bpow radix2 (-1022) <= Rabs x -> Rabs (b64_near x - x) <= bpow radix2 (-53) * Rabs x.
Proof.
  intros x H. pose proof (relative_error_N_FLT radix2 (-1074) 53 ltac:(unfold Prec_gt_0; lia) (fun z => negb (Z.even z)) x) as Q.
  assert (Q' : Rabs (b64_near x - x) <= / 2 * bpow radix2 (-53 + 1) * Rabs x) by (apply Q; exact H).
  replace (bpow radix2 (-53)) with (/ 2 * bpow radix2 (-53 + 1)); [exact Q'|]. change (/ 2) with (bpow radix2 (-1)). rewrite <- bpow_plus. reflexivity.
Qed.

Definition eps : R := / 9007199254740992.
Lemma eps_is : bpow radix2 (-53) = eps.
Proof. reflexivity. Qed.
Lemma tiny : bpow radix2 (-1022) <= / 1000000000000.
Proof. apply Rle_trans with (bpow radix2 (-53)); [apply bpow_le; lia|rewrite eps_is; unfold eps; lra]. Qed.
Lemma near_bounds : forall x, / 1000000000000 <= x -> x * (1 - eps) <= b64_near x <= x * (1 + eps).
Proof.
  intros x H. pose proof tiny. assert (A : Rabs x = x) by (apply Rabs_pos_eq; lra).
  pose proof (near_error x) as Q. rewrite A, eps_is in Q. specialize (Q ltac:(lra)). unfold Rabs in Q. destruct (Rcase_abs _) in Q; lra.
Qed.
Lemma rnd_small : forall x, Rabs x <= IZR (2 ^ 53) -> @rnd binary64 x = Fin (b64_near x).
Proof.
  intros x H. change (@rnd binary64 x) with (b64_rnd x). unfold b64_rnd.
  assert (B : IZR (2 ^ 53) < bpow radix2 1024). { rewrite <- bpow_IZR by lia. apply bpow_lt. lia. }
  assert (N : b64_near (IZR (2 ^ 53)) = IZR (2 ^ 53)).
  { rewrite <- bpow_IZR by lia. apply round_generic; [apply valid_rnd_N|]. apply generic_format_bpow. unfold b64_exp, FLT_exp. lia. }
  assert (U : b64_near x <= IZR (2 ^ 53)). { rewrite <- N. apply near_mono. unfold Rabs in H; destruct (Rcase_abs _) in H; lra. }
  assert (L : - IZR (2 ^ 53) <= b64_near x). { rewrite <- N, <- near_opp. apply near_mono. unfold Rabs in H. destruct (Rcase_abs _) in H; lra. }
  destruct (Rlt_dec (b64_near x) _); [|lra]. destruct (Rlt_dec _ (b64_near x)); [reflexivity|lra].
Qed.

Lemma div_near : forall a b, b <> 0 -> Rabs (a / b) <= IZR (2 ^ 53) -> @ddiv binary64 (Fin a) (Fin b) = Fin (b64_near (a / b)).
Proof. intros a b B H. unfold ddiv. destruct (Req_EM_T b 0); [contradiction|]. apply rnd_small. exact H. Qed.

Lemma trunc_between : forall x k, IZR k <= x < IZR k + 1 -> (0 <= k)%Z -> trunc x = k.
Proof.
  intros x k H K. apply IZR_le in K. unfold trunc. destruct (Rlt_dec x 0); [lra|]. destruct (base_Int_part x) as [B1 B2].
  assert (A : IZR (Int_part x) < IZR (k + 1)) by (rewrite plus_IZR; lra). apply lt_IZR in A. assert (B : IZR k < IZR (Int_part x + 1)) by (rewrite plus_IZR; lra). apply lt_IZR in B. lia.
Qed.
Lemma d2i_between : forall x k, IZR k <= x < IZR k + 1 -> (0 <= k <= 2147483647)%Z -> d2i (Fin x) = Ok k.
Proof.
  intros x k H K. unfold d2i. rewrite (trunc_between x k H) by lia.
  destruct (Z.leb_spec (-2147483648) k); [|lia]. destruct (Z.leb_spec k 2147483647); [reflexivity|lia].
Qed.

Lemma hours64_bounds : forall s, (1 <= s)%Z -> IZR s / 3600 * (1 - eps) <= hours64 s <= IZR s / 3600 * (1 + eps).
Proof. intros s H. apply near_bounds. apply IZR_le in H. lra. Qed.

(** The guard 1e-8 makes up for the rounding of three divisions. *)
Lemma guarded : forall F T k, (1 <= T)%Z -> (1 <= k <= 10000000)%Z -> F = (k * T)%Z ->
  d2i (@dadd binary64 (@ddiv binary64 (Fin (hours64 F)) (Fin (hours64 T))) (@lit binary64 (1 / 100000000))) = Ok k.
Proof.
  intros F T k HT HK ->. pose proof (hours64_bounds T HT) as BT. pose proof (hours64_bounds (k * T) ltac:(nia)) as BF. rewrite mult_IZR in BF.
  set (t := IZR T) in *. set (r := IZR k) in *. assert (t1 : 1 <= t) by (apply IZR_le in HT; exact HT).
  assert (r1 : 1 <= r <= 10000000) by (destruct HK as [K1 K2]; apply IZR_le in K1; apply IZR_le in K2; split; assumption).
  set (a := hours64 (k * T)) in *. set (b := hours64 T) in *. clearbody a b t.
  assert (e1 : eps = / 9007199254740992) by reflexivity. set (h := t / 3600) in *. assert (h1 : / 3600 <= h) by (unfold h; lra). replace (r * t / 3600) with (r * h) in BF by (unfold h; field). clearbody h.
  assert (b0 : 0 < b) by (rewrite e1 in BT; nra).
  assert (q1 : r * (1 - 3 * eps) <= a / b <= r * (1 + 3 * eps)).
  { assert (Z1 : 0 < r * h) by nra. split.
    - apply Rmult_le_reg_r with b; [assumption|]. replace (a / b * b) with a by (field; lra). apply Rle_trans with (r * (1 - 3 * eps) * (h * (1 + eps))).
      + apply Rmult_le_compat_l; [rewrite e1; nra|lra].
      + apply Rle_trans with (r * h * (1 - eps)); [|lra]. replace (r * (1 - 3 * eps) * (h * (1 + eps))) with (r * h * ((1 - 3 * eps) * (1 + eps))) by ring.
        apply Rmult_le_compat_l; [lra|]. rewrite e1. lra.
    - apply Rmult_le_reg_r with b; [assumption|]. replace (a / b * b) with a by (field; lra). apply Rle_trans with (r * (1 + 3 * eps) * (h * (1 - eps))).
      + apply Rle_trans with (r * h * (1 + eps)); [lra|]. replace (r * (1 + 3 * eps) * (h * (1 - eps))) with (r * h * ((1 + 3 * eps) * (1 - eps))) by ring.
        apply Rmult_le_compat_l; [lra|]. rewrite e1. lra.
      + apply Rmult_le_compat_l; [rewrite e1; nra|lra]. }
  assert (q0 : / 2 <= a / b <= 20000000) by (rewrite e1 in q1; lra).
  rewrite div_near; [|lra|rewrite Rabs_pos_eq by lra; change (2 ^ 53)%Z with 9007199254740992%Z; lra].
  pose proof (near_bounds (a / b) ltac:(lra)) as Bq. set (q := b64_near (a / b)) in *. clearbody q. set (x := a / b) in *. clearbody x.
  pose proof (near_bounds (1 / 100000000) ltac:(lra)) as Bc.
  unfold lit. rewrite rnd_small; [|rewrite Rabs_pos_eq by lra; change (2 ^ 53)%Z with 9007199254740992%Z; lra]. set (c := b64_near (1 / 100000000)) in *. clearbody c.
  assert (q2 : r - 45 / 10000000000 <= q <= r + 45 / 10000000000) by (rewrite e1 in *; lra).
  assert (c2 : 99 / 10000000000 <= c <= 101 / 10000000000) by (rewrite e1 in *; lra).
  cbn [dadd]. rewrite rnd_small; [|rewrite Rabs_pos_eq by lra; change (2 ^ 53)%Z with 9007199254740992%Z; lra].
  apply d2i_between; [|lia]. fold r. split.
  - unfold r. rewrite <- (near_IZR k) by lia. apply near_mono. fold r. lra.
  - pose proof (near_bounds (q + c) ltac:(lra)) as B. rewrite e1 in B. lra.
Qed.

(** [a / b], two integers, has the nearest number [m * 2^-e]: all in integers. *)
Definition nearest_is (a b m e : Z) : bool :=
  ((0 <=? e) && (e <=? 1000) && (0 <? b) && (2 ^ 52 * b <=? a * 2 ^ e) && (a * 2 ^ e <? 2 ^ 53 * b) && (2 * Z.abs (a * 2 ^ e - m * b) <? b))%Z%bool.
Lemma nearest_is_near : forall a b m e, nearest_is a b m e = true -> b64_near (IZR a / IZR b) = IZR m / IZR (2 ^ e).
Proof.
  intros a b m e H. unfold nearest_is in H. rewrite !andb_true_iff, !Z.leb_le, !Z.ltb_lt in H. destruct H as (((((E0 & E1) & B) & L) & U) & N).
  assert (P : 0 < IZR (2 ^ e)) by (apply IZR_lt; apply Z.pow_pos_nonneg; lia). assert (B' : 0 < IZR b) by (apply IZR_lt; assumption).
  apply IZR_le in L. apply IZR_lt in U. rewrite !mult_IZR in L, U. assert (N' : Rabs (IZR a * IZR (2 ^ e) - IZR m * IZR b) < IZR b / 2).
  { rewrite <- !mult_IZR, <- minus_IZR, <- abs_IZR. apply IZR_lt in N. rewrite mult_IZR in N. lra. }
  rewrite (near_is (IZR a / IZR b) m e).
  - rewrite bpow_neg, bpow_IZR by lia. reflexivity.
  - lia.
  - unfold Z.sub. rewrite !bpow_plus, !bpow_neg, (bpow_IZR e), (bpow_IZR 52), (bpow_IZR 53) by lia. split.
    + apply Rmult_le_reg_r with (IZR b * IZR (2 ^ e)); [apply Rmult_lt_0_compat; assumption|].
      replace (IZR (2 ^ 52) * / IZR (2 ^ e) * (IZR b * IZR (2 ^ e))) with (IZR (2 ^ 52) * IZR b) by (field; lra).
      replace (IZR a / IZR b * (IZR b * IZR (2 ^ e))) with (IZR a * IZR (2 ^ e)) by (field; lra). exact L.
    + apply Rmult_lt_reg_r with (IZR b * IZR (2 ^ e)); [apply Rmult_lt_0_compat; assumption|].
      replace (IZR (2 ^ 53) * / IZR (2 ^ e) * (IZR b * IZR (2 ^ e))) with (IZR (2 ^ 53) * IZR b) by (field; lra).
      replace (IZR a / IZR b * (IZR b * IZR (2 ^ e))) with (IZR a * IZR (2 ^ e)) by (field; lra). exact U.
  - rewrite bpow_IZR by lia. replace (IZR a / IZR b * IZR (2 ^ e) - IZR m) with ((IZR a * IZR (2 ^ e) - IZR m * IZR b) * / IZR b) by (field; lra).
    rewrite Rabs_mult, (Rabs_pos_eq (/ IZR b)) by (apply Rlt_le, Rinv_0_lt_compat; assumption).
    apply Rmult_lt_reg_r with (IZR b); [assumption|]. rewrite Rmult_assoc, Rinv_l by lra. lra.
Qed.

(** The exponent and the mantissa, found by search. *)
Definition find_exp (a b : Z) : Z := 52 - (if Z.log2 a - Z.log2 b <? 0 then (if a * 2 ^ (Z.log2 b - Z.log2 a) <? b then Z.log2 a - Z.log2 b - 1 else Z.log2 a - Z.log2 b)
  else if a <? b * 2 ^ (Z.log2 a - Z.log2 b) then Z.log2 a - Z.log2 b - 1 else Z.log2 a - Z.log2 b)%Z.
Definition find_mant (a b e : Z) : Z := ((2 * a * 2 ^ e + b) / (2 * b))%Z.

(** For a divisor F of an hour: 1 / (F / 3600) and (F / 3600) * 3600 come out exactly. *)
Definition divisor_ok (F : Z) : bool :=
  let e := find_exp F 3600 in let m := find_mant F 3600 e in
  let q := (3600 / F)%Z in let e2 := find_exp (2 ^ e) m in let e3 := find_exp (m * 3600) (2 ^ e) in
  (nearest_is F 3600 m e && nearest_is (2 ^ e) m (q * 2 ^ e2) e2 && nearest_is (m * 3600) (2 ^ e) (F * 2 ^ e3) e3 && (0 <? m))%Z%bool.
Lemma all_divisors : forallb (fun F => implb (Z.eqb (3600 mod F) 0) (divisor_ok F)) (map Z.of_nat (seq 1 3600)) = true.
Proof. vm_compute. reflexivity. Qed.

Lemma divisor_exact : forall F, (1 <= F)%Z -> (F | 3600)%Z -> 0 < hours64 F /\ b64_near (1 / hours64 F) = IZR (3600 / F) /\ b64_near (hours64 F * 3600) = IZR F.
Proof.
  intros F H D. assert (L : (F <= 3600)%Z) by (apply Z.divide_pos_le; [lia|assumption]). pose proof all_divisors as A. rewrite forallb_forall in A.
  specialize (A F). assert (I : In F (map Z.of_nat (seq 1 3600))).
  { apply in_map_iff. exists (Z.to_nat F). split; [lia|]. apply in_seq. split; [lia|]. apply Nat2Z.inj_lt. rewrite Z2Nat.id by lia. change (Z.of_nat (1 + 3600)) with 3601%Z. lia. }
  specialize (A I). assert (Z0 : (3600 mod F =? 0)%Z = true) by (apply Z.eqb_eq; apply Z.mod_divide; [lia|assumption]). rewrite Z0 in A. cbn [implb] in A.
  unfold divisor_ok in A. cbv zeta in A. set (e := find_exp F 3600) in *. set (m := find_mant F 3600 e) in *. set (e2 := find_exp (2 ^ e) m) in *. set (e3 := find_exp (m * 3600) (2 ^ e)) in *.
  rewrite !andb_true_iff, Z.ltb_lt in A. destruct A as (((A1 & A2) & A3) & M). clearbody e m e2 e3. unfold hours64. rewrite (nearest_is_near _ _ _ _ A1).
  assert (E : forall x y, (0 <= x)%Z -> IZR (y * 2 ^ x) / IZR (2 ^ x) = IZR y). { intros x y X. rewrite mult_IZR. field. apply IZR_neq. pose proof (Z.pow_pos_nonneg 2 x). lia. }
  assert (Ps : forall a b c d, nearest_is a b c d = true -> (0 <= d)%Z). { intros a b c d Q. unfold nearest_is in Q. rewrite !andb_true_iff, !Z.leb_le in Q. tauto. }
  assert (M' : 0 < IZR m) by (apply IZR_lt; assumption). assert (P : 0 < IZR (2 ^ e)) by (apply IZR_lt, Z.pow_pos_nonneg; [lia|eapply Ps; eassumption]).
  split; [apply Rdiv_lt_0_compat; assumption|]. split.
  - replace (1 / (IZR m / IZR (2 ^ e))) with (IZR (2 ^ e) / IZR m) by (field; lra). rewrite (nearest_is_near _ _ _ _ A2). apply E. eapply Ps; eassumption.
  - replace (IZR m / IZR (2 ^ e) * 3600) with (IZR (m * 3600) / IZR (2 ^ e)) by (rewrite mult_IZR; field; lra). rewrite (nearest_is_near _ _ _ _ A3). apply E. eapply Ps; eassumption.
Qed.

(** The number of repetitions of an ordinate. *)
Lemma repetitions : forall F, (1 <= F)%Z -> (F | 3600)%Z -> d2i (@ddiv binary64 (@lit binary64 1) (Fin (hours64 F))) = Ok (3600 / F)%Z.
Proof.
  intros F H D. destruct (divisor_exact F H D) as (P & Q & _). assert (L : (F <= 3600)%Z) by (apply Z.divide_pos_le; [lia|assumption]). unfold lit. rewrite rnd_one.
  pose proof (hours64_bounds F H) as B. assert (B' : / 7200 <= hours64 F). { assert (e1 : eps = / 9007199254740992) by reflexivity. rewrite e1 in B. apply IZR_le in H. lra. }
  rewrite div_near; [|lra|].
  - rewrite Q. assert (0 <= 3600 / F <= 3600)%Z by (split; [apply Z.div_pos; lia|apply Z.div_le_upper_bound; nia]). apply d2i_between; [lra|lia].
  - assert (0 < / hours64 F <= 7200). { split; [apply Rinv_0_lt_compat; assumption|]. rewrite <- (Rinv_involutive 7200) by lra. apply Rinv_le_contravar; lra. }
    unfold Rdiv. rewrite Rmult_1_l, Rabs_pos_eq by lra. change (2 ^ 53)%Z with 9007199254740992%Z. lra.
Qed.

(** The number of steps. *)
Lemma step_count : forall E F, (0 <= E)%Z -> (1 <= F)%Z -> (F | 3600)%Z -> (E <= 2147483647 * F)%Z ->
  d2i (@ddiv binary64 (Fin (IZR E)) (@dmul binary64 (Fin (hours64 F)) (@lit binary64 3600))) = Ok (E / F)%Z.
Proof.
  intros E F E0 H D U. destruct (divisor_exact F H D) as (P & _ & Q). assert (L : (F <= 3600)%Z) by (apply Z.divide_pos_le; [lia|assumption]).
  assert (e1 : eps = / 9007199254740992) by reflexivity. pose proof (hours64_bounds F H) as B. rewrite e1 in B. assert (B' : hours64 F <= 2). { apply IZR_le in L. lra. }
  assert (R3 : @lit binary64 3600 = Fin 3600). { unfold lit. rewrite rnd_small; [f_equal; apply near_IZR; lia|]. rewrite Rabs_pos_eq by lra. change (2 ^ 53)%Z with 9007199254740992%Z. lra. }
  rewrite R3. cbn [dmul]. rewrite rnd_small; [|rewrite Rabs_pos_eq by lra; change (2 ^ 53)%Z with 9007199254740992%Z; lra]. rewrite Q.
  pose proof (Z.div_mod E F ltac:(lia)) as DM. pose proof (Z.mod_pos_bound E F ltac:(lia)) as MB. assert (K0 : (0 <= E / F)%Z) by (apply Z.div_pos; lia). set (k := (E / F)%Z) in *.
  assert (K1 : (k <= 2147483647)%Z) by (apply Z.div_le_upper_bound; lia). clearbody k.
  assert (f1 : 1 <= IZR F <= 3600) by (apply IZR_le in H; apply IZR_le in L; lra).
  assert (M1 : 0 <= IZR (E mod F) <= IZR F - 1). { split; [apply IZR_le; lia|]. rewrite <- minus_IZR. apply IZR_le. lia. }
  assert (Eq : IZR E / IZR F = IZR k + IZR (E mod F) / IZR F). { rewrite DM at 1. rewrite plus_IZR, mult_IZR. field. lra. }
  assert (Fr : 0 <= IZR (E mod F) / IZR F <= 1 - / 3600).
  { split; [apply Rmult_le_pos; [lra|apply Rlt_le, Rinv_0_lt_compat; lra]|]. apply Rmult_le_reg_r with (IZR F); [lra|]. unfold Rdiv. rewrite Rmult_assoc, Rinv_l by lra. lra. }
  assert (k1 : 0 <= IZR k <= 2147483647) by (split; apply IZR_le; lia). set (fr := IZR (E mod F) / IZR F) in *. clearbody fr.
  rewrite div_near; [|lra|rewrite Eq, Rabs_pos_eq by lra; change (2 ^ 53)%Z with 9007199254740992%Z; lra]. rewrite Eq. apply d2i_between; [|lia]. split.
  - rewrite <- (near_IZR k) at 1 by lia. apply near_mono. lra.
  - destruct (Rle_dec (/ 1000000000000) (IZR k + fr)) as [G|G].
    + pose proof (near_bounds _ G) as N. rewrite e1 in N. lra.
    + apply Rle_lt_trans with (b64_near (/ 1000000000000)); [apply near_mono; lra|]. pose proof (near_bounds (/ 1000000000000) ltac:(lra)) as N. rewrite e1 in N. lra.
Qed.

(** 57 seconds: the resolution in seconds comes out larger, and 57 / 57 below 1. *)
Lemma lost_step : d2i (@ddiv binary64 (Fin 57) (@dmul binary64 (Fin (hours64 57)) (@lit binary64 3600))) = Ok 0%Z.
Proof.
  assert (R3 : @lit binary64 3600 = Fin 3600). { unfold lit. rewrite rnd_small; [f_equal; apply near_IZR; lia|]. rewrite Rabs_pos_eq by lra. change (2 ^ 53)%Z with 9007199254740992%Z. lra. }
  assert (H1 : hours64 57 = IZR 4563647622402103 / IZR (2 ^ 58)) by (apply nearest_is_near; vm_compute; reflexivity).
  assert (H2 : b64_near (IZR (4563647622402103 * 3600) / IZR (2 ^ 58)) = IZR 8022036836253697 / IZR (2 ^ 47)) by (apply nearest_is_near; vm_compute; reflexivity).
  assert (H3 : b64_near (IZR (57 * 2 ^ 47) / IZR 8022036836253697) = IZR 9007199254740991 / IZR (2 ^ 53)) by (apply nearest_is_near; vm_compute; reflexivity).
  rewrite R3, H1. cbn [dmul]. replace (IZR 4563647622402103 / IZR (2 ^ 58) * 3600) with (IZR (4563647622402103 * 3600) / IZR (2 ^ 58)) by (rewrite mult_IZR; field; apply IZR_neq; discriminate).
  rewrite rnd_small, H2 by (change (4563647622402103 * 3600)%Z with 16429131440647570800%Z; change (2 ^ 58)%Z with 288230376151711744%Z; change (2 ^ 53)%Z with 9007199254740992%Z; rewrite Rabs_pos_eq; lra).
  assert (Q : 57 / (IZR 8022036836253697 / IZR (2 ^ 47)) = IZR (57 * 2 ^ 47) / IZR 8022036836253697) by (rewrite mult_IZR; field; repeat split; apply IZR_neq; discriminate).
  rewrite div_near; rewrite ?Q.
  - rewrite H3. apply d2i_between; [|lia]. change (2 ^ 53)%Z with 9007199254740992%Z. lra.
  - change (2 ^ 47)%Z with 140737488355328%Z. lra.
  - change (57 * 2 ^ 47)%Z with 8022036836253696%Z. change (2 ^ 53)%Z with 9007199254740992%Z. rewrite Rabs_pos_eq; lra.
Qed.
