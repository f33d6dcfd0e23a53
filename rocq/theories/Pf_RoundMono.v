(** Rounding keeps the soil functions monotone: every operation is monotone after rounding, and the signs exclude NaN. *)

From Coq Require Import Reals Lra ZArith Bool List Lia.
From Verif Require Import Outcome Dbl Exact Types ListOps Soil Infil Lib Spec_Common Spec_Soil Spec_RoundMono Pf_Dbl Pf_Soil Pf_SoilAny.
Import ListNotations.
Open Scope R_scope.

Section Any.
Context {fp : Fp} {cfg : Cfg}.
Notation nn a := (below (Fin 0) a).

Lemma below_refl : forall a, a <> NaN -> below a a.
Proof. intros [x| | |] H; unfold below; cbn; try reflexivity; [|congruence]. unfold Rleb. destruct (Rle_dec x x); [reflexivity|lra]. Qed.
Lemma below_fin : forall x y, below (Fin x) (Fin y) <-> x <= y.
Proof. intros x y. unfold below. cbn. unfold Rleb. destruct (Rle_dec x y); split; intro H; try reflexivity; try assumption; try discriminate; contradiction. Qed.
Lemma below_trans : forall a b c, below a b -> below b c -> below a c.
Proof.
  intros a b c H K. destruct a as [x| | |], b as [y| | |], c as [z| | |]; try reflexivity; try discriminate.
  apply below_fin in H. apply below_fin in K. apply below_fin. lra.
Qed.
Lemma below_rnd : forall x y, x <= y -> below (rnd x) (rnd y).
Proof. exact rnd_mono. Qed.
Lemma nn_rnd : forall x, 0 <= x -> nn (rnd x).
Proof. intros x H. rewrite <- rnd_zero. apply below_rnd. assumption. Qed.
Lemma below_right : forall a b, below a b -> b <> NaN.
Proof. intros [x| | |] [y| | |] H; congruence || discriminate. Qed.
Lemma nn_cases : forall a, nn a -> a = PInf \/ exists x, a = Fin x /\ 0 <= x.
Proof. intros [x| | |] H; try discriminate; [right|left; reflexivity]. exists x. split; [reflexivity|]. apply below_fin. assumption. Qed.
Lemma below_PInf : forall a, below PInf a -> a = PInf.
Proof. intros [x| | |] H; try discriminate; reflexivity. Qed.
Lemma to_PInf : forall a, a <> NaN -> below a PInf.
Proof. intros [x| | |] H; try reflexivity. congruence. Qed.

(** pow with a positive exponent. *)
Lemma pow_fin : forall x y, 0 <= x -> 0 < y -> dpow (Fin x) (Fin y) = rnd (pw x y).
Proof.
  intros x y Hx Hy. unfold dpow. cbn [deqb]. unfold Reqb. destruct (Req_EM_T y 0); [lra|]. destruct (Req_EM_T x 1) as [->|N]; [rewrite pw_1, rnd_one; reflexivity|].
  destruct (Rlt_dec 0 x); [rewrite pw_pos by assumption; reflexivity|]. destruct (Req_EM_T x 0) as [->|]; [|lra]. destruct (Rlt_dec 0 y); [|lra]. rewrite pw_0, rnd_zero. reflexivity.
Qed.
Lemma pow_PInf : forall y, 0 < y -> dpow PInf (Fin y) = PInf.
Proof. intros y Hy. unfold dpow. cbn [deqb]. unfold Reqb. destruct (Req_EM_T y 0); [lra|]. destruct (Rlt_dec 0 y); [reflexivity|lra]. Qed.
Lemma pow_mono : forall a b p, nn a -> below a b -> nn p -> below (dpow a p) (dpow b p) /\ nn (dpow a p).
Proof.
  intros a b p Ha Hab Hp. pose proof (below_trans _ _ _ Ha Hab) as Hb. destruct (nn_cases _ Hp) as [->|(y & -> & Hy)].
  - unfold dpow. cbn [deqb]. destruct (nn_cases _ Ha) as [->|(x & -> & Hx)].
    + apply below_PInf in Hab. subst b. split; reflexivity.
    + destruct (nn_cases _ Hb) as [->|(z & -> & Hz)]; [|apply below_fin in Hab]; cbn [deqb]; unfold Reqb; rewrite ?(Rabs_right x), ?(Rabs_right z) by lra;
        rcases; split; try reflexivity; try (apply below_fin; lra); exfalso; lra.
  - destruct (Req_dec y 0) as [->|Y].
    + unfold dpow. cbn [deqb]. unfold Reqb. destruct (Req_EM_T 0 0); [|lra]. split; apply below_fin; lra.
    + assert (Y0 : 0 < y) by lra. destruct (nn_cases _ Ha) as [->|(x & -> & Hx)].
      * apply below_PInf in Hab. subst b. rewrite pow_PInf by assumption. split; reflexivity.
      * rewrite (pow_fin x) by lra. split; [|apply nn_rnd, pw_nonneg]. destruct (nn_cases _ Hb) as [->|(z & -> & Hz)].
        -- rewrite pow_PInf by assumption. apply to_PInf, rnd_not_nan.
        -- apply below_fin in Hab. rewrite pow_fin by lra. apply below_rnd. apply pw_le; lra.
Qed.
(** With an exponent that is not positive it falls. *)
Lemma Rpower_anti : forall x z y, 0 < x -> x <= z -> y <= 0 -> Rpower z y <= Rpower x y.
Proof.
  intros x z y Hx Hz Hy. unfold Rpower. assert (L : ln x <= ln z) by (destruct (Rle_lt_or_eq_dec _ _ Hz) as [M| ->]; [left; apply ln_increasing; assumption|lra]).
  assert (Q : y * ln z <= y * ln x) by nra. destruct (Rle_lt_or_eq_dec _ _ Q) as [M| ->]; [left; apply exp_increasing; assumption|lra].
Qed.
Lemma pow_anti : forall x z p, 0 < x -> x <= z -> z <= 1 -> below p (Fin 0) -> below (dpow (Fin z) p) (dpow (Fin x) p) /\ below (Fin 1) (dpow (Fin z) p).
Proof.
  intros x z p Hx Hz H1 Hp. unfold dpow. destruct p as [y| | |]; try discriminate.
  - apply below_fin in Hp. cbn [deqb]. unfold Reqb. destruct (Req_EM_T y 0); [split; apply below_fin; lra|].
    assert (PP : Rpower z y <= Rpower x y) by (apply Rpower_anti; lra). assert (QQ : 1 <= Rpower z y) by (rewrite <- (Rpower_1_l y); apply Rpower_anti; lra).
    destruct (Req_EM_T z 1) as [->|Z1]; destruct (Req_EM_T x 1) as [->|X1]; repeat (destruct (Rlt_dec _ _); [|lra]); split; try (apply below_fin; lra); try (exfalso; lra).
    + rewrite <- rnd_one. apply below_rnd. lra.
    + apply below_rnd. assumption.
    + rewrite <- rnd_one. apply below_rnd. assumption.
  - cbn [deqb]. unfold Reqb. rewrite !Rabs_right by lra. rcases; split; try reflexivity; try (apply below_fin; lra); exfalso; lra.
Qed.

(** Adding, subtracting, dividing, multiplying. *)
Lemma add_mono : forall c a b, below a b -> a <> NInf -> below (Fin c + a)%d (Fin c + b)%d.
Proof.
  intros c [x| | |] [y| | |] H N; try discriminate; try reflexivity; try congruence.
  - apply below_fin in H. cbn. apply below_rnd. lra.
  - cbn. apply to_PInf, rnd_not_nan.
Qed.
Lemma add_mono_r : forall c x y, x <= y -> below (Fin x + Fin c)%d (Fin y + Fin c)%d.
Proof. intros c x y H. cbn. apply below_rnd. lra. Qed.
Lemma sub_mono_r : forall c a b, nn a -> below a b -> below (a - Fin c)%d (b - Fin c)%d.
Proof.
  intros c [x| | |] [y| | |] N H; try discriminate; try reflexivity.
  - apply below_fin in H. cbn. apply below_rnd. lra.
  - cbn. apply to_PInf, rnd_not_nan.
Qed.
Lemma div_anti : forall a b, below (Fin 1) a -> below a b -> below (Fin 1 / b)%d (Fin 1 / a)%d /\ unit_range (Fin 1 / a)%d /\ unit_range (Fin 1 / b)%d.
Proof.
  assert (D : forall a, below (Fin 1) a -> unit_range (Fin 1 / a)%d).
  { intros a Ha. destruct a as [x| | |]; try discriminate; [|exists 0; split; [reflexivity|lra]]. apply below_fin in Ha. cbn. destruct (Req_EM_T x 0); [lra|].
    apply rnd_unit. split; [left; apply Rdiv_lt_0_compat; lra|]. apply Rmult_le_reg_r with x; [lra|]. field_simplify; lra. }
  intros a b Ha H. pose proof (D a Ha) as U1. pose proof (D b (below_trans _ _ _ Ha H)) as U2. split; [|split; assumption].
  destruct a as [x| | |], b as [y| | |]; try discriminate.
  - apply below_fin in H. apply below_fin in Ha. cbn. destruct (Req_EM_T x 0); [lra|]. destruct (Req_EM_T y 0); [lra|]. apply below_rnd.
    unfold Rdiv. rewrite !Rmult_1_l. apply Rinv_le_contravar; lra.
  - destruct U1 as (q & -> & Hq). cbn. apply below_fin. lra.
  - cbn. apply below_fin. lra.
Qed.
Lemma unit_nn : forall a, unit_range a -> nn a.
Proof. intros a (x & -> & Hx). apply below_fin. lra. Qed.
Lemma unit_sub_anti : forall a b, unit_range a -> unit_range b -> below a b -> below (lit 1 - b)%d (lit 1 - a)%d.
Proof. intros a b (x & -> & Hx) (y & -> & Hy) H. apply below_fin in H. unfold lit. rewrite rnd_one. cbn. apply below_rnd. lra. Qed.
Lemma unit_sqrt_mono : forall a b, unit_range a -> unit_range b -> below a b -> below (dsqrt a) (dsqrt b).
Proof. intros a b (x & -> & Hx) (y & -> & Hy) H. apply below_fin in H. unfold dsqrt. destruct (Rlt_dec x 0); [lra|]. destruct (Rlt_dec y 0); [lra|]. apply below_rnd. apply sqrt_le_1; lra. Qed.

(** 1 / (1 + x^n)^m falls with x. *)
Lemma curve_anti : forall a b n m, nn a -> below a b -> nn n -> nn m ->
  below (lit 1 / dpow (lit 1 + dpow b n) m)%d (lit 1 / dpow (lit 1 + dpow a n) m)%d /\ unit_range (lit 1 / dpow (lit 1 + dpow a n) m)%d /\ unit_range (lit 1 / dpow (lit 1 + dpow b n) m)%d.
Proof.
  intros a b n m Ha Hab Hn Hm. unfold lit. rewrite rnd_one. destruct (pow_mono a b n Ha Hab Hn) as (P & Q).
  assert (P' : below (Fin 1 + dpow a n)%d (Fin 1 + dpow b n)%d) by (apply add_mono; [assumption|intro X; rewrite X in Q; discriminate]).
  assert (Q' : below (Fin 1) (Fin 1 + dpow a n)%d).
  { apply below_trans with (Fin 1 + Fin 0)%d; [cbn; rewrite Rplus_0_r, rnd_one; apply below_fin; lra|]. apply add_mono; [assumption|discriminate]. }
  assert (Q0 : nn (Fin 1 + dpow a n)%d) by (eapply below_trans; [|exact Q']; apply below_fin; lra).
  destruct (pow_mono _ _ m Q0 P' Hm) as (P2 & _). apply div_anti; [|exact P2].
  destruct (pow_mono (Fin 1) _ m ltac:(apply below_fin; lra) Q' Hm) as (P3 & _). eapply below_trans; [|exact P3].
  unfold dpow. destruct (m =? Fin 0)%d; [apply below_fin; lra|]. cbn [deqb]. unfold Reqb. destruct (Req_EM_T 1 1); [apply below_fin; lra|lra].
Qed.
Lemma scale_mono : forall k a b, 0 < k -> nn a -> below a b -> below (Fin k * a)%d (Fin k * b)%d /\ nn (Fin k * a)%d.
Proof.
  intros k a b Hk Ha H. destruct (nn_cases _ Ha) as [->|(x & -> & Hx)].
  - apply below_PInf in H. subst b. cbn. unfold inf_sign. destruct (Rlt_dec 0 k); [|lra]. split; reflexivity.
  - split; [|cbn; apply nn_rnd; nra]. destruct b as [y| | |]; try discriminate.
    + apply below_fin in H. cbn. apply below_rnd. nra.
    + cbn. unfold inf_sign. destruct (Rlt_dec 0 k); [|lra]. apply to_PInf, rnd_not_nan.
Qed.

(** Water content. *)
Lemma theta_mono : forall s r e h h', rounded_soil s r e -> nn h -> below h h' ->
  below (theta_of_h s h') (theta_of_h s h) /\ below (Fin r) (theta_of_h s h') /\ below (theta_of_h s h) ((Fin e - Fin r) + Fin r)%d.
Proof.
  intros s r e h h' (Hr & He & Hre & H1 & Rr & (a & Ea & Ha) & (n & En & Hn) & (m & Em & Hm)) H0 H. unfold theta_of_h, calc_theta_from_h. rewrite Hr, He, Ea, En, Em.
  destruct (scale_mono a h h' Ha H0 H) as (P & Q).
  destruct (curve_anti _ _ (Fin n) (Fin m) Q P ltac:(apply below_fin; lra) ltac:(apply below_fin; lra)) as (C & (q & Eq & Hq) & (q' & Eq' & Hq')). rewrite Eq, Eq' in C |- *. apply below_fin in C.
  destruct (rnd_unit (e - r) ltac:(lra)) as (d & Ed & Hd). cbn [dsub]. rewrite Ed. cbn [dmul].
  assert (Rd : rnd d = Fin d) by (eapply rnd_idem; exact Ed).
  destruct (rnd_between d (q * d) Rd ltac:(nra)) as (t & Et & Ht). destruct (rnd_between d (q' * d) Rd ltac:(nra)) as (t' & Et' & Ht').
  assert (T : t' <= t) by (apply below_fin; rewrite <- Et, <- Et'; apply below_rnd; nra). rewrite Et, Et'.
  split; [apply add_mono_r; assumption|]. split; [|apply add_mono_r; lra]. change (below (Fin r) (rnd (t' + r))). rewrite <- Rr at 1. apply below_rnd. lra.
Qed.

(** Saturation from head: 1 for heads below 1e-10. *)
Lemma Se_h_mono : forall s r e h h', rounded_soil s r e -> nn h -> below h h' ->
  below (calc_Se_from_h h' (s_alpha s) (s_m s) (s_n s)) (calc_Se_from_h h (s_alpha s) (s_m s) (s_n s)) /\ unit_range (calc_Se_from_h h (s_alpha s) (s_m s) (s_n s)).
Proof.
  intros s r e h h' (Hr & He & Hre & H1 & Rr & (a & Ea & Ha) & (n & En & Hn) & (m & Em & Hm)) H0 H. unfold calc_Se_from_h. rewrite Ea, En, Em.
  destruct (scale_mono a h h' Ha H0 H) as (P & Q).
  destruct (curve_anti _ _ (Fin n) (Fin m) Q P ltac:(apply below_fin; lra) ltac:(apply below_fin; lra)) as (C & (q & Eq & Hq) & (q' & Eq' & Hq')). rewrite Eq, Eq' in C |- *.
  unfold is_epsilon_less_than. generalize (lit (1 / 10000000000)). intro t. unfold lit. rewrite rnd_one.
  assert (AB : forall u, nn u -> dabs u = u) by (intros u Hu; destruct (nn_cases _ Hu) as [->|(v & -> & Hv)]; [reflexivity|]; cbn; rewrite Rabs_right by lra; reflexivity).
  rewrite (AB h H0), (AB h' (below_trans _ _ _ H0 H)).
  assert (M : (h' <? t)%d = true -> (h <? t)%d = true).
  { intro X. destruct h as [x| | |], h' as [y| | |], t as [z| | |]; try discriminate; try reflexivity. apply below_fin in H. revert X. cbn. unfold Rltb. rcases; try reflexivity; try discriminate. lra. }
  destruct (h' <? t)%d; [rewrite M by reflexivity; split; [apply below_fin; lra|exists 1; split; [reflexivity|lra]]|].
  destruct (h <? t)%d; split; try (apply below_fin; lra); try exact C; [exists 1; split; [reflexivity|lra]|exists q; split; [reflexivity|assumption]].
Qed.

(** Saturation from water content. *)
Lemma Se_theta_mono : forall s r e t t', rounded_soil s r e -> (Fin e - Fin r)%d <> Fin 0 -> t <= t' -> below (Se_of_theta s (Fin t)) (Se_of_theta s (Fin t')).
Proof.
  intros s r e t t' (Hr & He & Hre & H1 & Rr & _) N H. unfold Se_of_theta, calc_Se_from_theta. rewrite Hr, He.
  destruct (rnd_unit (e - r) ltac:(lra)) as (d & Ed & Hd). cbn [dsub] in N |- *. rewrite Ed in N |- *.
  assert (D : 0 < d) by (destruct (Rle_lt_or_eq_dec _ _ (proj1 Hd)) as [M|M]; [assumption|subst d; congruence]).
  pose proof (below_rnd (t - r) (t' - r) ltac:(lra)) as B. pose proof (rnd_not_nan (t - r)) as N1. pose proof (rnd_not_nan (t' - r)) as N2.
  destruct (rnd (t - r)) as [x| | |], (rnd (t' - r)) as [y| | |]; try discriminate; try congruence; cbn [ddiv]; (destruct (Req_EM_T d 0); [lra|]); (destruct (Rlt_dec d 0); [lra|]); try reflexivity.
  - apply below_fin in B. apply below_rnd. unfold Rdiv. apply Rmult_le_compat_r; [left; apply Rinv_0_lt_compat; assumption|assumption].
  - apply to_PInf, rnd_not_nan.
  - pose proof (rnd_not_nan (y / d)). unfold below. destruct (rnd (y / d)); try reflexivity. congruence.
Qed.

(** Conductivity. *)
Lemma K_mono : forall S S' k m, unit_range S -> unit_range S' -> below S S' -> rnd k = Fin k -> 0 <= k -> 0 < m <= 1 ->
  below (calc_K_from_Se S (Fin k) (Fin m)) (calc_K_from_Se S' (Fin k) (Fin m)).
Proof.
  intros S S' k m U U' H Hk H0 Hm. unfold calc_K_from_Se.
  assert (E1 : (lit 1 / Fin m)%d = PInf \/ exists y, (lit 1 / Fin m)%d = Fin y /\ 0 < y).
  { unfold lit. rewrite rnd_one. cbn. destruct (Req_EM_T m 0); [lra|]. apply lit_ge_1.
    apply Rmult_le_reg_r with m; [lra|]. unfold Rdiv. rewrite Rmult_assoc, Rinv_l by lra. lra. }
  assert (E2 : (Fin m) = PInf \/ exists y, Fin m = Fin y /\ 0 < y) by (right; exists m; split; [reflexivity|lra]).
  pose proof (lit_ge_1 2 ltac:(lra)) as E3.
  assert (NN : forall p, (p = PInf \/ exists y, p = Fin y /\ 0 < y) -> nn p) by (intros p [->|(y & -> & Hy)]; [reflexivity|apply below_fin; lra]).
  pose proof (unit_pow _ _ U E1) as A1. pose proof (unit_pow _ _ U' E1) as A1'. destruct (pow_mono _ _ _ (unit_nn _ U) H (NN _ E1)) as (B1 & _).
  pose proof (unit_sub _ A1) as A2. pose proof (unit_sub _ A1') as A2'. pose proof (unit_sub_anti _ _ A1 A1' B1) as B2.
  pose proof (unit_pow _ _ A2 E2) as A3. pose proof (unit_pow _ _ A2' E2) as A3'. destruct (pow_mono _ _ _ (unit_nn _ A2') B2 (NN _ E2)) as (B3 & _).
  pose proof (unit_sub _ A3) as A4. pose proof (unit_sub _ A3') as A4'. pose proof (unit_sub_anti _ _ A3' A3 B3) as B4.
  destruct (pow_mono _ _ _ (unit_nn _ A4) B4 (NN _ E3)) as (B5 & _). destruct (unit_pow _ _ A4 E3) as (p & Ep & Hp). destruct (unit_pow _ _ A4' E3) as (p' & Ep' & Hp').
  rewrite Ep, Ep' in B5 |- *. apply below_fin in B5.
  pose proof (unit_sqrt_mono _ _ U U' H) as B6. destruct (unit_sqrt _ U) as (w & Ew & Hw). destruct (unit_sqrt _ U') as (w' & Ew' & Hw'). rewrite Ew, Ew' in B6 |- *. apply below_fin in B6. cbn [dmul].
  destruct (rnd_between k (k * w) Hk ltac:(nra)) as (g & Eg & Hg). destruct (rnd_between k (k * w') Hk ltac:(nra)) as (g' & Eg' & Hg').
  assert (G : g <= g') by (apply below_fin; rewrite <- Eg, <- Eg'; apply below_rnd; nra). rewrite Eg, Eg'. cbn [dmul]. apply below_rnd. nra.
Qed.

(** Head. *)
Lemma h_mono : forall s r e x y ia, rounded_soil s r e -> (lit 1 / s_alpha s)%d = Fin ia -> 0 < ia -> 0 < x <= y -> y <= 1 ->
  below (h_of_Se s (Fin y)) (h_of_Se s (Fin x)) /\ nn (h_of_Se s (Fin y)).
Proof.
  intros s r e x y ia (Hr & He & Hre & H1 & Rr & _ & (n & En & Hn) & (m & Em & Hm)) Ei Hi Hx Hy. unfold h_of_Se, calc_h_from_Se. rewrite Ei, En, Em.
  assert (P1 : below (lit (-1) / Fin m)%d (Fin 0)).
  { unfold lit. replace (-1) with (- (1)) by lra. rewrite rnd_opp, rnd_one. cbn [ddiv]. destruct (Req_EM_T m 0); [lra|]. rewrite <- rnd_zero. apply below_rnd.
    unfold Rdiv. assert (0 < / m) by (apply Rinv_0_lt_compat; lra). lra. }
  assert (P2 : nn (lit 1 / Fin n)%d).
  { unfold lit. rewrite rnd_one. cbn [ddiv]. destruct (Req_EM_T n 0); [lra|]. apply nn_rnd. left. apply Rdiv_lt_0_compat; lra. }
  destruct (pow_anti x y _ ltac:(lra) ltac:(lra) Hy P1) as (A & B).
  assert (B0 : nn (dpow (Fin y) (lit (-1) / Fin m))) by (eapply below_trans; [|exact B]; apply below_fin; lra).
  pose proof (sub_mono_r 1 _ _ B0 A) as C. change (lit 1) with (rnd 1). rewrite rnd_one.
  assert (D : nn (dpow (Fin y) (lit (-1) / Fin m) - Fin 1)%d).
  { apply below_trans with (Fin 1 - Fin 1)%d; [cbn; replace (1 - 1) with 0 by lra; rewrite rnd_zero; apply below_fin; lra|]. apply sub_mono_r; [apply below_fin; lra|exact B]. }
  unfold lit in P2. rewrite rnd_one in P2. destruct (pow_mono _ _ _ D C P2) as (F & G). apply scale_mono; assumption.
Qed.

(** Demand for evapotranspiration. *)
Lemma div_pos_mono : forall x y w, 0 <= x <= y -> dltb (Fin 0) w = true -> below (Fin x / w)%d (Fin y / w)%d /\ nn (Fin x / w)%d.
Proof.
  intros x y w H W. destruct w as [z| | |]; try discriminate; [|split; cbn; apply below_fin; lra]. cbn in W. apply Rltb_true in W. cbn [ddiv]. destruct (Req_EM_T z 0); [lra|].
  assert (0 < / z) by (apply Rinv_0_lt_compat; assumption). split; [apply below_rnd|apply nn_rnd]; unfold Rdiv; nra.
Qed.
Lemma aet_mono : forall e pet pet' dt wp fc c r c' r' s x y a a', soil_of e (f_layer c) = Ok s -> f_layer c' = f_layer c -> dltb (Fin 0) (half_point s wp fc) = true ->
  f_psi c = Fin x -> f_psi c' = Fin y -> 0 <= x <= y -> rnd pet = Fin pet -> rnd pet' = Fin pet' -> 0 <= pet' <= pet -> 0 <= dt ->
  calc_aet e (Fin pet) (Fin dt) wp fc (c :: r) = Ok a -> calc_aet e (Fin pet') (Fin dt) wp fc (c' :: r') = Ok a' -> below a' a.
Proof.
  intros e pet pet' dt wp fc c r c' r' s x y a a' Es Ly Hw Ex Ey Hxy Rp Rp' Hp Hd H H'. unfold calc_aet in H, H'.
  change (lget (c :: r) 0) with (Ok c) in H. change (lget (c' :: r') 0) with (Ok c') in H'. cbn [bind] in H, H'. rewrite Ly in H'. rewrite Es in H, H'. cbn [bind] in H, H'. cbv zeta in H, H'.
  rewrite Ex in H. rewrite Ey in H'. fold (half_point s wp fc) in H, H'. destruct (div_pos_mono x y _ Hxy Hw) as (D & D0).
  assert (P3 : nn (lit 3)) by (apply nn_rnd; lra). destruct (pow_mono _ _ _ D0 D P3) as (P & Q).
  assert (P' : below (Fin 1 + dpow (Fin x / half_point s wp fc) (lit 3))%d (Fin 1 + dpow (Fin y / half_point s wp fc) (lit 3))%d) by (apply add_mono; [assumption|intro X; rewrite X in Q; discriminate]).
  assert (Q' : below (Fin 1) (Fin 1 + dpow (Fin x / half_point s wp fc) (lit 3))%d).
  { apply below_trans with (Fin 1 + Fin 0)%d; [cbn; rewrite Rplus_0_r, rnd_one; apply below_fin; lra|]. apply add_mono; [assumption|discriminate]. }
  destruct (div_anti _ _ Q' P') as (F & (q & Eq & Hq) & (q' & Eq' & Hq')). change (lit 1) with (rnd 1) in H, H'. rewrite rnd_one in H, H'. rewrite Eq in H, F. rewrite Eq' in H', F. apply below_fin in F.
  cbn [dmul] in H, H'. destruct (rnd_between pet (pet * q) Rp ltac:(nra)) as (g & Eg & Hg). destruct (rnd_between pet' (pet' * q') Rp' ltac:(nra)) as (g' & Eg' & Hg').
  assert (G : g' <= g) by (apply below_fin; rewrite <- Eg, <- Eg'; apply below_rnd; nra). rewrite Eg in H. rewrite Eg' in H'. cbn [dmul] in H, H'.
  pose proof (below_rnd (g' * dt) (g * dt) ltac:(nra)) as V. pose proof (below_rnd (pet' * dt) (pet * dt) ltac:(nra)) as W.
  pose proof (nn_rnd (g * dt) ltac:(nra)) as N. pose proof (nn_rnd (g' * dt) ltac:(nra)) as N'. pose proof (nn_rnd (pet * dt) ltac:(nra)) as Z. pose proof (nn_rnd (pet' * dt) ltac:(nra)) as Z'.
  assert (LT : forall u, nn u -> (u <? Fin 0)%d = false) by (intros u Hu; destruct (nn_cases _ Hu) as [->|(v & -> & Hv)]; [reflexivity|]; cbn; unfold Rltb; destruct (Rlt_dec v 0); [lra|reflexivity]).
  rewrite (LT _ N) in H. rewrite (LT _ N') in H'. apply Ok_inj in H. apply Ok_inj in H'.
  pose proof (below_rnd (g * dt) (pet * dt) ltac:(nra)) as Y. pose proof (below_rnd (g' * dt) (pet' * dt) ltac:(nra)) as Y'.
  assert (GT : forall u v, below u v -> (u >? v)%d = false).
  { intros u v B. unfold dgtb. destruct u as [u| | |], v as [v| | |]; try discriminate; try reflexivity. apply below_fin in B. cbn. unfold Rltb. destruct (Rlt_dec v u); [lra|reflexivity]. }
  rewrite (GT _ _ Y) in H. rewrite (GT _ _ Y') in H'. subst a a'. exact V.
Qed.

(** Frost. *)
Lemma exp_mono : forall a b, below a b -> below (dexp a) (dexp b) /\ nn (dexp a).
Proof.
  assert (L : forall x, nn (rnd (exp x))) by (intro x; apply nn_rnd; left; apply exp_pos).
  intros [x| | |] [y| | |] H; try discriminate; cbn [dexp]; split; try apply L; try reflexivity; try (apply below_fin; lra).
  - apply below_fin in H. apply below_rnd. destruct (Rle_lt_or_eq_dec _ _ H) as [M| ->]; [left; apply exp_increasing; assumption|lra].
  - apply to_PInf, rnd_not_nan.
Qed.
Lemma clip_mono : forall a b t, nn a -> below a b -> below (Fin t) (Fin 1) -> below (dfmax (dfmin a (Fin 1)) (Fin t)) (dfmax (dfmin b (Fin 1)) (Fin t)).
Proof.
  intros a b t Ha H Ht. apply below_fin in Ht. destruct a as [x| | |], b as [y| | |]; try discriminate; try (apply below_fin in H); cbn; unfold Rltb; rcases; cbn; unfold Rltb; rcases; apply below_fin; lra.
Qed.
Lemma below_PInf_sub : forall c T T', c <> NaN -> T <= T' -> below (c - Fin T')%d (c - Fin T)%d.
Proof. intros [c| | |] T T' N H; try reflexivity; [|congruence]. cbn. apply below_rnd. lra. Qed.
Lemma frozen_any : forall T T', T <= T' -> below (frozen_of_temp (Fin T)) (frozen_of_temp (Fin T')).
Proof.
  intros T T' H. unfold frozen_of_temp, lit. replace (-10) with (- (10)) by lra. rewrite rnd_opp. pose proof (below_rnd 1 10 ltac:(lra)) as B10. rewrite rnd_one in *.
  destruct (rnd_unit (5 / 100) ltac:(lra)) as (t & -> & Ht). pose proof (below_PInf_sub (rnd (27315 / 100)) T T' (rnd_not_nan _) H) as D.
  set (u := (rnd (27315 / 100) - Fin T')%d) in *. set (v := (rnd (27315 / 100) - Fin T)%d) in *. clearbody u v.
  assert (T1 : below (Fin t) (Fin 1)) by (apply below_fin; lra).
  destruct (rnd 10) as [k| | |]; try discriminate.
  - apply below_fin in B10. assert (M : below (Fin (- k) * v)%d (Fin (- k) * u)%d).
    { destruct u as [x| | |], v as [y| | |]; try discriminate; cbn; unfold inf_sign; (destruct (Rlt_dec 0 (- k)); [lra|]); (destruct (Rlt_dec (- k) 0); [|lra]); cbn; try reflexivity.
      - apply below_fin in D. apply below_rnd. nra.
      - pose proof (rnd_not_nan (- k * x)). unfold below. destruct (rnd (- k * x)); try reflexivity. congruence.
      - apply to_PInf, rnd_not_nan. }
    destruct (exp_mono _ _ M) as (A & B). apply clip_mono; assumption.
  - destruct u as [x| | |], v as [y| | |]; try discriminate; try (apply below_fin in D); cbn; unfold inf_sign; rcases; cbn; unfold Rltb; rcases; cbn; unfold Rltb; rcases; try (apply below_fin; lra).
Qed.
End Any.
