(** Lemmas on the soil functions, exact arithmetic. *)

From Coq Require Import Reals Lra ZArith Bool Lia.
From Verif Require Import Outcome Dbl Exact Types ListOps Soil Lib Spec_Common Spec_Soil Pf_Dbl Pf_Pow.
Open Scope R_scope.

(** ** Powers *)

Lemma Rpower_gt0 : forall x y, 0 < Rpower x y.
Proof. intros. unfold Rpower. apply exp_pos. Qed.

Lemma Rpower_1_l : forall y, Rpower 1 y = 1.
Proof. intros. unfold Rpower. rewrite ln_1, Rmult_0_r, exp_0. reflexivity. Qed.

Lemma Rpower_lt_l : forall x y a, 0 < x -> x < y -> 0 < a -> Rpower x a < Rpower y a.
Proof. intros x y a Hx Hy Ha. unfold Rpower. apply exp_increasing. apply Rmult_lt_compat_l; [assumption|]. apply ln_increasing; assumption. Qed.

Lemma Rpower_lt_l_neg : forall x y a, 0 < x -> x < y -> 0 < a -> Rpower y (- a) < Rpower x (- a).
Proof.
  intros x y a Hx Hy Ha. rewrite !Rpower_Ropp. apply Rinv_lt_contravar; [apply Rmult_lt_0_compat; apply Rpower_gt0|]. apply Rpower_lt_l; assumption.
Qed.

Lemma Rpower_root : forall x a, 0 < x -> a <> 0 -> Rpower (Rpower x a) (/ a) = x.
Proof. intros x a Hx Ha. rewrite Rpower_mult, Rinv_r by assumption. apply Rpower_1. assumption. Qed.

Lemma pw_pos : forall x y, 0 < x -> pw x y = Rpower x y.
Proof. intros. unfold pw. destruct (Rlt_dec 0 x); [reflexivity|contradiction]. Qed.
Lemma pw_0 : forall y, pw 0 y = 0.
Proof. intros. unfold pw. destruct (Rlt_dec 0 0); [lra|reflexivity]. Qed.
Lemma pw_1 : forall y, pw 1 y = 1.
Proof. intros. rewrite pw_pos by lra. apply Rpower_1_l. Qed.
Lemma pw_nonneg : forall x y, 0 <= pw x y.
Proof. intros. unfold pw. destruct (Rlt_dec 0 x); [left; apply Rpower_gt0|lra]. Qed.
Lemma pw_lt : forall x y a, 0 <= x -> x < y -> 0 < a -> pw x a < pw y a.
Proof.
  intros x y a Hx Hy Ha. rewrite (pw_pos y) by lra. destruct (Rlt_dec 0 x).
  - rewrite pw_pos by assumption. apply Rpower_lt_l; assumption.
  - replace x with 0 by lra. rewrite pw_0. apply Rpower_gt0.
Qed.
Lemma pw_le : forall x y a, 0 <= x -> x <= y -> 0 < a -> pw x a <= pw y a.
Proof. intros x y a Hx Hy Ha. destruct (Rle_lt_or_eq_dec _ _ Hy) as [H| ->]; [left; apply pw_lt; assumption|lra]. Qed.
Lemma pw_le_1 : forall x a, 0 <= x -> x <= 1 -> 0 < a -> pw x a <= 1.
Proof. intros x a Hx Hy Ha. rewrite <- (pw_1 a). apply pw_le; assumption. Qed.

Section Curves.
Local Existing Instance exact.

Lemma pow_pw : forall x y, 0 <= x -> 0 < y -> dpow (Fin x) (Fin y) = Fin (pw x y).
Proof.
  intros x y Hx Hy. unfold pw. destruct (Rlt_dec 0 x); [apply pow_pos; assumption|]. replace x with 0 by lra. apply pow_zero. assumption.
Qed.

Lemma Se_h_range : forall a n m h, 0 < a -> 0 < n -> 0 < m -> 0 <= h -> 0 < vg_Se a n m h <= 1.
Proof.
  intros a n m h Ha Hn Hm Hh. unfold vg_Se. split; [apply Rpower_gt0|].
  assert (0 <= pw (a * h) n) by apply pw_nonneg. rewrite Rpower_Ropp. apply Rle_trans with (/ 1); [|lra]. apply Rinv_le_contravar; [lra|].
  assert (P : pw 1 m <= pw (1 + pw (a * h) n) m) by (apply pw_le; lra). rewrite pw_1, (pw_pos (1 + _)) in P by lra. exact P.
Qed.

Lemma Se_h_decreasing : forall a n m h h', 0 < a -> 0 < n -> 0 < m -> 0 <= h -> h < h' -> vg_Se a n m h' < vg_Se a n m h.
Proof.
  intros a n m h h' Ha Hn Hm Hh Hlt. unfold vg_Se. apply Rpower_lt_l_neg; [|apply Rplus_lt_compat_l; apply pw_lt|assumption].
  - pose proof (pw_nonneg (a * h) n). lra.
  - nra.
  - nra.
  - assumption.
Qed.

Lemma theta_of_h_is : forall s r e a n m k h, vg_soil s r e a n m k -> 0 <= h -> theta_of_h s (Fin h) = Fin (vg_theta r e a n m h).
Proof.
  intros s r e a n m k h V Hh. destruct V. unfold theta_of_h, calc_theta_from_h. rewrite vg_r, vg_e, vg_a, vg_n, vg_m, !exact_lit.
  replace (Fin a * Fin h)%d with (Fin (a * h)) by reflexivity. rewrite pow_pw by nra.
  assert (0 <= pw (a * h) n) by apply pw_nonneg.
  replace (Fin 1 + Fin (pw (a * h) n))%d with (Fin (1 + pw (a * h) n)) by reflexivity. rewrite pow_pos by lra.
  rewrite div_fin by (apply Rgt_not_eq, Rpower_gt0). cbn. f_equal. unfold vg_theta, vg_Se. rewrite Rpower_Ropp. unfold Rdiv. ring.
Qed.

(** The head of an oversaturated search is negative: the result is above the residual content or not a number. *)
Lemma theta_of_any : forall s r e a n m k h, vg_soil s r e a n m k -> match theta_of_h s (Fin h) with Fin x => r < x | NInf => False | _ => True end.
Proof.
  intros s r e a n m k h V. destruct V. unfold theta_of_h, calc_theta_from_h. rewrite vg_r, vg_e, vg_a, vg_n, vg_m. change (lit 1) with (Fin 1).
  change (Fin a * Fin h)%d with (Fin (a * h)). change (Fin e - Fin r)%d with (Fin (e - r)).
  assert (P1 : (exists x, dpow (Fin (a * h)) (Fin n) = Fin x) \/ dpow (Fin (a * h)) (Fin n) = NaN).
  { unfold dpow. rewrite eqb_f by lra. destruct (Fin (a * h) =? Fin 1)%d; [eauto|]. destruct (Rlt_dec 0 (a * h)); [left; eexists; reflexivity|].
    destruct (Req_EM_T (a * h) 0); [destruct (Rlt_dec 0 n); [eauto|lra]|]. destruct (as_int n); [left; eexists; reflexivity|auto]. }
  destruct P1 as [(x & ->)| ->].
  2:{ change (Fin 1 + NaN)%d with NaN. unfold dpow. rewrite eqb_f by lra. exact I. }
  change (Fin 1 + Fin x)%d with (Fin (1 + x)). set (y := 1 + x).
  assert (P2 : (exists z, dpow (Fin y) (Fin m) = Fin z /\ 0 <= z) \/ dpow (Fin y) (Fin m) = NaN).
  { unfold dpow. rewrite eqb_f by lra. destruct (Fin y =? Fin 1)%d; [left; exists 1; split; [reflexivity|lra]|]. destruct (Rlt_dec 0 y); [left; eexists; split; [reflexivity|left; apply exp_pos]|].
    destruct (Req_EM_T y 0); [destruct (Rlt_dec 0 m); [left; exists 0; split; [reflexivity|lra]|lra]|]. right.
    unfold as_int. destruct (Req_EM_T (IZR (Int_part m)) m) as [E|]; [|reflexivity]. exfalso.
    assert (0 < Int_part m < 1)%Z by (split; apply lt_IZR; lra). lia. }
  destruct P2 as [(z & -> & Hz)| ->]; [|exact I]. destruct (Req_EM_T z 0) as [->|N].
  - unfold ddiv. destruct (Req_EM_T 0 0); [|lra]. unfold inf_sign. destruct (Rlt_dec 0 1); [|lra]. unfold dmul, inf_sign. destruct (Rlt_dec 0 (e - r)); [exact I|lra].
  - rewrite div_fin by assumption. change (Fin (1 / z) * Fin (e - r) + Fin r)%d with (Fin (1 / z * (e - r) + r)).
    assert (0 < 1 / z * (e - r)); [|lra]. apply Rmult_lt_0_compat; [|lra]. apply Rdiv_lt_0_compat; lra.
Qed.

Lemma theta_range : forall r e a n m h, r < e -> 0 < a -> 1 < n -> 0 < m < 1 -> 0 <= h -> r < vg_theta r e a n m h <= e.
Proof.
  intros r e a n m h Hre Ha Hn Hm Hh. pose proof (Se_h_range a n m h Ha ltac:(lra) ltac:(lra) Hh). unfold vg_theta. nra.
Qed.

Lemma retention_bounds : forall s r e a n m k h, vg_soil s r e a n m k -> 0 <= h ->
  exists t, theta_of_h s (Fin h) = Fin t /\ r < t <= e /\ (h = 0 -> t = e) /\ (t = e -> h = 0).
Proof.
  intros s r e a n m k h V Hh. exists (vg_theta r e a n m h). split; [eapply theta_of_h_is; eassumption|]. destruct V.
  split; [apply theta_range; assumption|]. assert (Z : vg_theta r e a n m 0 = e).
  { unfold vg_theta, vg_Se. rewrite Rmult_0_r, pw_0, Rplus_0_r, Rpower_1_l. lra. }
  split; [intros ->; exact Z|]. intro E. destruct (Rlt_dec 0 h) as [P|]; [|lra]. exfalso.
  pose proof (Se_h_decreasing a n m 0 h vg_a0 ltac:(lra) ltac:(lra) (Rle_refl _) P) as D. unfold vg_theta in *. nra.
Qed.

Lemma retention_decreasing : forall s r e a n m k h h', vg_soil s r e a n m k -> 0 <= h -> h < h' ->
  dltb (theta_of_h s (Fin h')) (theta_of_h s (Fin h)) = true.
Proof.
  intros s r e a n m k h h' V Hh Hlt. rewrite !(theta_of_h_is s r e a n m k) by (assumption || lra). apply ltb_t. destruct V.
  unfold vg_theta. pose proof (Se_h_decreasing a n m h h' vg_a0 ltac:(lra) ltac:(lra) Hh Hlt). nra.
Qed.

Lemma Se_of_theta_is : forall s r e a n m k t, vg_soil s r e a n m k -> Se_of_theta s (Fin t) = Fin ((t - r) / (e - r)).
Proof. intros s r e a n m k t V. destruct V. unfold Se_of_theta, calc_Se_from_theta. rewrite vg_r, vg_e. cbn. destruct (Req_EM_T (e - r) 0); [lra|reflexivity]. Qed.

Lemma h_of_Se_is : forall s r e a n m k S, vg_soil s r e a n m k -> 0 < S <= 1 ->
  h_of_Se s (Fin S) = Fin (/ a * pw (Rpower S (- / m) - 1) (/ n)).
Proof.
  intros s r e a n m k S V HS. destruct V. unfold h_of_Se, calc_h_from_Se. rewrite vg_a, vg_n, vg_m, !exact_lit.
  rewrite !div_fin by lra. rewrite pow_pos by lra.
  replace (Fin (Rpower S (-1 / m)) - Fin 1)%d with (Fin (Rpower S (-1 / m) - 1)) by reflexivity.
  replace (-1 / m) with (- / m) by (field; lra). replace (1 / n) with (/ n) by (field; lra).
  assert (1 <= Rpower S (- / m)).
  { rewrite Rpower_Ropp. apply Rle_trans with (/ 1); [lra|]. apply Rinv_le_contravar; [apply Rpower_gt0|].
    rewrite <- (pw_pos S) by lra. apply pw_le_1; try lra. apply Rinv_0_lt_compat. lra. }
  rewrite pow_pw; [|lra|apply Rinv_0_lt_compat; lra]. cbn. f_equal. replace (1 / a) with (/ a) by (field; lra). reflexivity.
Qed.

Lemma h_inverse : forall s r e a n m k h, vg_soil s r e a n m k -> 0 <= h -> h_of_Se s (Se_of_theta s (theta_of_h s (Fin h))) = Fin h.
Proof.
  intros s r e a n m k h V Hh. rewrite (theta_of_h_is s r e a n m k), (Se_of_theta_is s r e a n m k) by assumption. pose proof V as V'. destruct V'.
  replace ((vg_theta r e a n m h - r) / (e - r)) with (vg_Se a n m h) by (unfold vg_theta; field; lra).
  rewrite (h_of_Se_is s r e a n m k) by (assumption || (apply Se_h_range; lra)). f_equal.
  unfold vg_Se. rewrite Rpower_mult. replace (- m * - / m) with 1 by (field; lra).
  assert (0 <= pw (a * h) n) by apply pw_nonneg. rewrite Rpower_1 by lra. replace (1 + pw (a * h) n - 1) with (pw (a * h) n) by ring.
  destruct (Rlt_dec 0 h) as [P|P].
  - rewrite (pw_pos (a * h)) by nra. rewrite pw_pos by apply Rpower_gt0. rewrite Rpower_root by (try nra; lra). field. lra.
  - replace h with 0 by lra. rewrite Rmult_0_r, !pw_0. ring.
Qed.

Lemma theta_inverse : forall s r e a n m k t, vg_soil s r e a n m k -> r <= t <= e -> theta_of_h s (h_of_Se s (Se_of_theta s (Fin t))) = Fin t.
Proof.
  intros s r e a n m k t V Ht. rewrite (Se_of_theta_is s r e a n m k) by assumption. pose proof V as V'. destruct V'.
  destruct (Rlt_dec r t) as [P|P].
  - assert (I : 0 < / (e - r)) by (apply Rinv_0_lt_compat; lra).
    assert (HS : 0 < (t - r) / (e - r) <= 1).
    { unfold Rdiv. split; [nra|]. apply Rmult_le_reg_r with (e - r); [lra|]. rewrite Rmult_assoc, Rinv_l by lra. lra. }
    set (S := (t - r) / (e - r)) in *. assert (ES : t = r + (e - r) * S) by (unfold S; field; lra).
    rewrite (h_of_Se_is s r e a n m k) by assumption.
    assert (G : 1 <= Rpower S (- / m)).
    { rewrite Rpower_Ropp. apply Rle_trans with (/ 1); [lra|]. apply Rinv_le_contravar; [apply Rpower_gt0|].
      rewrite <- (pw_pos S) by lra. apply pw_le_1; try lra. apply Rinv_0_lt_compat. lra. }
    assert (0 < / a) by (apply Rinv_0_lt_compat; assumption). 
    rewrite (theta_of_h_is s r e a n m k); [|assumption|]. 2: { apply Rmult_le_pos; [lra|apply pw_nonneg]. }
    f_equal. rewrite ES. unfold vg_theta. f_equal. f_equal. unfold vg_Se.
    replace (a * (/ a * pw (Rpower S (- / m) - 1) (/ n))) with (pw (Rpower S (- / m) - 1) (/ n)) by (field; lra).
    destruct (Rlt_dec 1 (Rpower S (- / m))) as [Q|Q].
    + rewrite (pw_pos (Rpower S (- / m) - 1)) by lra. rewrite pw_pos by apply Rpower_gt0. rewrite Rpower_mult, Rinv_l by lra. rewrite Rpower_1 by lra.
      replace (1 + (Rpower S (- / m) - 1)) with (Rpower S (- / m)) by ring. rewrite Rpower_mult. replace (- / m * - m) with 1 by (field; lra). apply Rpower_1. lra.
    + assert (E1 : Rpower S (- / m) = 1) by lra. rewrite E1. replace (1 - 1) with 0 by ring. rewrite !pw_0, Rplus_0_r, Rpower_1_l.
      rewrite <- (Rpower_1 S) by lra. replace 1 with (- / m * - m) at 2 by (field; lra). rewrite <- Rpower_mult, E1, Rpower_1_l. reflexivity.
  - assert (t = r) as -> by lra. replace ((r - r) / (e - r)) with 0 by (field; lra).
    unfold h_of_Se, calc_h_from_Se, theta_of_h, calc_theta_from_h. rewrite vg_r, vg_e, vg_a, vg_n, vg_m, !exact_lit, !div_fin by lra.
    rewrite pow_zero_neg; [|replace (-1 / m) with (- / m) by (field; lra); assert (0 < / m) by (apply Rinv_0_lt_compat; lra); lra].
    cbn [dsub]. assert (0 < / n) by (apply Rinv_0_lt_compat; lra).
    assert (X1 : dpow PInf (Fin (1 / n)) = PInf). { unfold dpow. cbn [deqb]. unfold Reqb. destruct (Req_EM_T (1 / n) 0); [lra|]. destruct (Rlt_dec 0 (1 / n)); [reflexivity|lra]. }
    rewrite X1. assert (0 < / a) by (apply Rinv_0_lt_compat; assumption).
    assert (X2 : (Fin (1 / a) * PInf)%d = PInf) by (cbn; unfold inf_sign; destruct (Rlt_dec 0 (1 / a)); [reflexivity|lra]). rewrite X2.
    assert (X3 : (Fin a * PInf)%d = PInf) by (cbn; unfold inf_sign; destruct (Rlt_dec 0 a); [reflexivity|lra]). rewrite X3.
    assert (X4 : forall y, 0 < y -> dpow PInf (Fin y) = PInf). { intros y Hy. unfold dpow. cbn [deqb]. unfold Reqb. destruct (Req_EM_T y 0); [lra|]. destruct (Rlt_dec 0 y); [reflexivity|lra]. }
    rewrite X4 by lra. cbn [dadd]. rewrite X4 by lra. cbn. f_equal. ring.
Qed.

(** Above saturation the head is not a number. *)
Lemma h_oversaturated : forall s r e a n m k t, vg_soil s r e a n m k -> e < t -> h_of_Se s (Se_of_theta s (Fin t)) = NaN.
Proof.
  intros s r e a n m k t V Ht. rewrite (Se_of_theta_is s r e a n m k) by assumption. destruct V.
  assert (I : 0 < / (e - r)) by (apply Rinv_0_lt_compat; lra).
  assert (HS : 1 < (t - r) / (e - r)).
  { apply Rmult_lt_reg_r with (e - r); [lra|]. unfold Rdiv. rewrite Rmult_assoc, Rinv_l by lra. lra. }
  set (S := (t - r) / (e - r)) in *. unfold h_of_Se, calc_h_from_Se. rewrite vg_a, vg_n, vg_m, !exact_lit, !div_fin by lra. rewrite pow_pos by lra.
  replace (Fin (Rpower S (-1 / m)) - Fin 1)%d with (Fin (Rpower S (-1 / m) - 1)) by reflexivity.
  assert (0 < / m) by (apply Rinv_0_lt_compat; lra).
  assert (P : Rpower S (-1 / m) < 1).
  { replace (-1 / m) with (- / m) by (field; lra). rewrite <- (Rpower_1_l (- / m)). apply Rpower_lt_l_neg; lra. }
  pose proof (Rpower_gt0 S (-1 / m)).
  set (x := Rpower S (-1 / m) - 1) in *. assert (Hx : -1 < x < 0) by (unfold x; lra). assert (X : dpow (Fin x) (Fin (1 / n)) = NaN).
  { unfold dpow. cbn [deqb]. unfold Reqb. assert (0 < / n < 1) by (split; [apply Rinv_0_lt_compat; lra|apply Rlt_le_trans with (/ 1); [apply Rinv_lt_contravar; lra|lra]]).
    destruct (Req_EM_T (1 / n) 0); [lra|]. destruct (Req_EM_T x 1); [lra|]. destruct (Rlt_dec 0 x); [lra|]. destruct (Req_EM_T x 0); [lra|].
    unfold as_int. destruct (Req_EM_T (IZR (Int_part (1 / n))) (1 / n)) as [E|]; [|reflexivity]. exfalso.
    assert (0 < Int_part (1 / n) < 1)%Z by (split; apply lt_IZR; rewrite E; lra). lia. }
  rewrite X. reflexivity.
Qed.

(** ** Conductivity *)

Lemma K_of_Se_is : forall Se k m, 0 <= Se <= 1 -> 0 < m -> calc_K_from_Se (Fin Se) (Fin k) (Fin m) = Fin (vg_K k m Se).
Proof.
  intros S k m HS Hm. unfold calc_K_from_Se. change (lit 1) with (Fin 1). change (lit 2) with (Fin 2). rewrite div_fin by lra. assert (0 < / m) by (apply Rinv_0_lt_compat; lra).
  replace (1 / m) with (/ m) by (field; lra). rewrite pow_pw by lra.
  pose proof (pw_nonneg S (/ m)). pose proof (pw_le_1 S (/ m) ltac:(lra) ltac:(lra) ltac:(assumption)).
  replace (Fin 1 - Fin (pw S (/ m)))%d with (Fin (1 - pw S (/ m))) by reflexivity. rewrite pow_pw by lra.
  set (x := 1 - pw S (/ m)) in *. pose proof (pw_nonneg x m). pose proof (pw_le_1 x m ltac:(unfold x; lra) ltac:(unfold x; lra) Hm).
  replace (Fin 1 - Fin (pw x m))%d with (Fin (1 - pw x m)) by reflexivity. rewrite pow_pw by lra.
  replace (dsqrt (Fin S)) with (Fin (sqrt S)) by (cbn; destruct (Rlt_dec S 0); [lra|reflexivity]).
  cbn. f_equal. unfold vg_K. fold x. f_equal. unfold pw at 1. destruct (Rlt_dec 0 (1 - pw x m)) as [P|P].
  - rewrite Rpower_2 by assumption. ring.
  - replace (1 - pw x m) with 0 by lra. ring.
Qed.

Definition K_shape (m S : R) : R := 1 - pw (1 - pw S (/ m)) m.

Lemma K_shape_range : forall m S, 0 <= S <= 1 -> 0 < m -> 0 <= K_shape m S <= 1.
Proof.
  intros m S HS Hm. unfold K_shape. assert (0 < / m) by (apply Rinv_0_lt_compat; lra).
  pose proof (pw_nonneg S (/ m)). pose proof (pw_le_1 S (/ m) ltac:(lra) ltac:(lra) ltac:(assumption)).
  pose proof (pw_nonneg (1 - pw S (/ m)) m). pose proof (pw_le_1 (1 - pw S (/ m)) m ltac:(lra) ltac:(lra) Hm). lra.
Qed.

Lemma K_shape_lt : forall m S S', 0 <= S -> S < S' -> S' <= 1 -> 0 < m -> K_shape m S < K_shape m S'.
Proof.
  intros m S S' HS Hlt HS' Hm. unfold K_shape. assert (0 < / m) by (apply Rinv_0_lt_compat; lra).
  pose proof (pw_lt S S' (/ m) HS Hlt ltac:(assumption)). pose proof (pw_le_1 S' (/ m) ltac:(lra) ltac:(lra) ltac:(assumption)).
  pose proof (pw_lt (1 - pw S' (/ m)) (1 - pw S (/ m)) m ltac:(lra) ltac:(lra) Hm). lra.
Qed.

Lemma vg_K_range : forall k m S, 0 <= S <= 1 -> 0 < m -> 0 <= k -> 0 <= vg_K k m S <= k.
Proof.
  intros k m S HS Hm Hk. unfold vg_K. fold (K_shape m S). pose proof (K_shape_range m S HS Hm).
  assert (0 <= sqrt S <= 1). { split; [apply sqrt_pos|]. rewrite <- sqrt_1. apply sqrt_le_1; lra. }
  assert (0 <= K_shape m S ^ 2 <= 1) by nra. assert (0 <= sqrt S * K_shape m S ^ 2 <= 1) by nra. nra.
Qed.

Lemma vg_K_0 : forall k m, 0 < m -> vg_K k m 0 = 0.
Proof. intros. unfold vg_K. rewrite sqrt_0. ring. Qed.
Lemma vg_K_1 : forall k m, 0 < m -> vg_K k m 1 = k.
Proof. intros k m H. unfold vg_K. rewrite pw_1, sqrt_1. replace (1 - 1) with 0 by ring. rewrite pw_0. ring. Qed.

Lemma vg_K_lt : forall k m S S', 0 <= S -> S < S' -> S' <= 1 -> 0 < m -> 0 < k -> vg_K k m S < vg_K k m S'.
Proof.
  intros k m S S' HS Hlt HS' Hm Hk. unfold vg_K. fold (K_shape m S) (K_shape m S').
  pose proof (K_shape_range m S ltac:(lra) Hm). pose proof (K_shape_lt m S S' HS Hlt HS' Hm).
  assert (0 <= sqrt S) by apply sqrt_pos. assert (sqrt S < sqrt S') by (apply sqrt_lt_1; lra).
  assert (K_shape m S ^ 2 < K_shape m S' ^ 2) by nra. assert (0 <= K_shape m S ^ 2) by nra.
  assert (sqrt S * K_shape m S ^ 2 < sqrt S' * K_shape m S' ^ 2) by nra. nra.
Qed.

Lemma conductivity_bounds : forall k m S, 0 < m -> 0 <= k -> 0 <= S <= 1 ->
  exists K, calc_K_from_Se (Fin S) (Fin k) (Fin m) = Fin K /\ 0 <= K <= k /\ (S = 0 -> K = 0) /\ (S = 1 -> K = k).
Proof.
  intros k m S Hm Hk HS. exists (vg_K k m S). split; [apply K_of_Se_is; assumption|]. split; [apply vg_K_range; assumption|].
  split; intros ->; [apply vg_K_0|apply vg_K_1]; assumption.
Qed.

Lemma conductivity_increasing : forall k m S S', 0 < m -> 0 < k -> 0 <= S -> S < S' -> S' <= 1 ->
  dltb (calc_K_from_Se (Fin S) (Fin k) (Fin m)) (calc_K_from_Se (Fin S') (Fin k) (Fin m)) = true.
Proof. intros k m S S' Hm Hk HS Hlt HS'. rewrite !K_of_Se_is by lra. apply ltb_t. apply vg_K_lt; assumption. Qed.
End Curves.
