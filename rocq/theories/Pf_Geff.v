(** Capillary drive: sign, bounds and termination of the integration. *)

From Coq Require Import Reals Lra ZArith Bool List Lia.
From Verif Require Import Outcome Dbl Exact Types ListOps Soil Lib Spec_Common Spec_Soil Pf_Dbl Pf_Pow Pf_Soil Pf_SoilAny.
Import ListNotations.
Open Scope R_scope.

(** ** Every rounding *)
Section Any.
Context {fp : Fp} {cfg : Cfg}.

Lemma geff_integral_nn : forall t1 t2 s k nint g, calc_Geff false t1 t2 s k nint = Ok g -> not_negative g.
Proof. intros t1 t2 s k nint g H. unfold calc_Geff in H. cbn [negb] in H. bind_inv H G EG. apply Ok_inj in H. subst g. apply dabs_nn. Qed.

Lemma dle_mul_l : forall x y z, 0 <= z -> x <= y -> dleb (rnd (z * x)) (rnd (z * y)) = true.
Proof. intros. apply rnd_mono. nra. Qed.

Lemma unit_pow_mono : forall x y b, 0 <= x -> x <= y -> y <= 1 -> (b = PInf \/ exists z, b = Fin z /\ 0 < z) ->
  dltb (dpow (Fin y) b) (dpow (Fin x) b) = false.
Proof.
  intros x y b Hx Hxy Hy Hb.
  assert (ULT : forall u v, dleb u v = true -> dltb v u = false).
  { intros [u| | |] [v| | |] M; cbn in *; try discriminate; try reflexivity. apply Rleb_true in M. apply Rltb_false. assumption. }
  unfold dpow. destruct (deqb b (Fin 0)) eqn:B0; [apply dltb_irrefl|]. cbn [deqb]. unfold Reqb.
  destruct (Req_EM_T y 1) as [->|Ny].
  - destruct (Req_EM_T x 1) as [->|Nx]; [apply dltb_irrefl|]. apply ULT.
    assert (U : unit_range (dpow (Fin x) b)) by (apply unit_pow; [exists x; split; [reflexivity|lra]|assumption]).
    unfold dpow in U. rewrite B0 in U. cbn [deqb] in U. unfold Reqb in U. destruct (Req_EM_T x 1); [lra|].
    destruct U as (u & -> & Hu). cbn. apply Rleb_true. lra.
  - destruct (Req_EM_T x 1); [lra|]. destruct Hb as [->|(z & -> & Hz)].
    + rewrite !Rabs_right by lra. rcases; try (exfalso; lra); cbn; apply Rltb_false; lra.
    + destruct (Rlt_dec 0 y) as [Py|Py].
      * destruct (Rlt_dec 0 x) as [Px|Px].
        { apply ULT, rnd_mono. rewrite <- !pw_pos by assumption. apply pw_le; lra. }
        destruct (Req_EM_T x 0); [|lra]. destruct (Rlt_dec 0 z); [|lra]. apply rnd_nonneg. left. apply Rpower_gt0.
      * assert (y = 0) as -> by lra. assert (x = 0) as -> by lra. destruct (Rlt_dec 0 0); [lra|]. apply dltb_irrefl.
Qed.

(** Effective saturation of a water content inside the range. *)
Lemma Se_unit : forall r e t, r < e -> dltb (Fin 0) (rnd (e - r)) = true -> finite (rnd (e - r)) -> r <= t <= e -> unit_range (calc_Se_from_theta (Fin t) (Fin e) (Fin r)).
Proof.
  intros r e t Hre Hp (d & Hd) Ht. unfold calc_Se_from_theta. cbn [dsub]. rewrite Hd in *. cbn in Hp. apply Rltb_true in Hp.
  assert (X : exists y, rnd (t - r) = Fin y /\ 0 <= y <= d).
  { pose proof (rnd_mono 0 (t - r) ltac:(lra)) as L. pose proof (rnd_mono (t - r) (e - r) ltac:(lra)) as U. rewrite rnd_zero in L. rewrite Hd in U.
    destruct (rnd (t - r)) as [y| | |]; cbn in L, U; try discriminate. apply Rleb_true in L. apply Rleb_true in U. eauto. }
  destruct X as (y & -> & Hy). cbn. destruct (Req_EM_T d 0); [lra|]. apply rnd_unit. split.
  - apply Rmult_le_pos; [lra|left; apply Rinv_0_lt_compat; lra].
  - apply Rmult_le_reg_r with d; [lra|]. unfold Rdiv. rewrite Rmult_assoc, Rinv_l by lra. lra.
Qed.

Lemma Se_mono : forall r e t t' x x', dltb (Fin 0) (rnd (e - r)) = true -> finite (rnd (e - r)) -> t <= t' ->
  calc_Se_from_theta (Fin t) (Fin e) (Fin r) = Fin x -> calc_Se_from_theta (Fin t') (Fin e) (Fin r) = Fin x' -> x <= x'.
Proof.
  intros r e t t' x x' Hp (d & Hd) Ht H1 H2. unfold calc_Se_from_theta in *. cbn [dsub] in *. rewrite Hd in *. cbn in Hp. apply Rltb_true in Hp.
  pose proof (rnd_mono (t - r) (t' - r) ltac:(lra)) as M.
  destruct (rnd (t - r)) as [y| | |]; cbn in H1; try discriminate; destruct (rnd (t' - r)) as [y'| | |]; cbn in H2, M; try discriminate;
    try (destruct (Rlt_dec d 0); discriminate).
  apply Rleb_true in M. destruct (Req_EM_T d 0); [lra|]. eapply rnd_mono_fin; [|exact H1|exact H2].
  apply Rmult_le_compat_r; [left; apply Rinv_0_lt_compat; lra|assumption].
Qed.

Lemma geff_closed_nn : forall t1 t2 s ks nint r e lam pb g,
  s_theta_r s = Fin r -> s_theta_e s = Fin e -> s_lambda s = Fin lam -> s_psib s = pb -> 0 < lam -> not_negative pb ->
  r < e -> dltb (Fin 0) (rnd (e - r)) = true -> finite (rnd (e - r)) -> r <= t1 -> t1 <= t2 -> t2 <= e ->
  calc_Geff true (Fin t1) (Fin t2) s ks nint = Ok g -> not_negative g.
Proof.
  intros t1 t2 s ks nint r e lam pb g Hr He Hl Hb Hl0 Hb0 Hre Hp Hf H1 H12 H2 H. unfold calc_Geff, Se_of_theta in H. cbn [negb] in H. rewrite Hr, He, Hl, Hb in H.
  destruct (Se_unit r e t1 Hre Hp Hf ltac:(lra)) as (x & Ex & Hx). destruct (Se_unit r e t2 Hre Hp Hf ltac:(lra)) as (y & Ey & Hy).
  pose proof (Se_mono _ _ _ _ _ _ Hp Hf H12 Ex Ey) as Hxy. rewrite Ex, Ey in H.
  set (Hc := (pb * ((lit 2 + lit 3 * Fin lam) / (lit 1 + lit 3 * Fin lam)))%d) in *.
  assert (NH : not_negative Hc).
  { unfold Hc. apply nn_mul; [assumption|]. assert (not_negative (Fin lam)) by (apply nn_Fin; lra).
    apply nn_div; apply nn_add; try (apply nn_lit; lra); apply nn_mul; auto; apply nn_lit; lra. }
  assert (Q : exists ex, (lit 3 + lit 1 / Fin lam)%d = ex /\ (ex = PInf \/ exists z, ex = Fin z /\ 0 < z)).
  { eexists. split; [reflexivity|].
    assert (N : not_negative (lit 1 / Fin lam)%d) by (apply nn_div; [apply nn_lit; lra|apply nn_Fin; lra]).
    assert (NN : (lit 1 / Fin lam)%d <> NaN).
    { unfold lit. rewrite rnd_one. cbn. destruct (Req_EM_T lam 0); [lra|]. apply rnd_not_nan. }
    destruct (lit_ge_1 3 ltac:(lra)) as [->|(z & Ez & Hz)].
    - destruct (lit 1 / Fin lam)%d; cbn in *; auto; try congruence; discriminate.
    - rewrite Ez. destruct (lit 1 / Fin lam)%d as [w| | |]; cbn in *; auto; try discriminate; [|congruence].
      apply nn_Fin_inv in N. pose proof (rnd_mono z (z + w) ltac:(lra)) as M. unfold lit in Ez. rewrite (rnd_idem _ _ Ez) in M.
      pose proof (rnd_not_nan (z + w)). destruct (rnd (z + w)) as [v| | |]; cbn in M; try discriminate; auto. apply Rleb_true in M. right. exists v. split; [reflexivity|lra]. }
  destruct Q as (ex & Eex & Hex). rewrite Eex in H.
  pose proof (unit_pow_mono x y ex ltac:(lra) Hxy ltac:(lra) Hex) as M.
  destruct (unit_pow (Fin x) ex ltac:(exists x; auto) Hex) as (px & Epx & Hpx). destruct (unit_pow (Fin y) ex ltac:(exists y; auto) Hex) as (py & Epy & Hpy).
  rewrite Epx, Epy in *.
  set (G := (Hc * (Fin py - Fin px) / (lit 1 - Fin px))%d) in *.
  assert (NG : not_negative G).
  { unfold G. apply nn_div; [apply nn_mul; [assumption|apply nn_sub; assumption]|]. apply nn_sub. unfold lit. rewrite rnd_one. cbn. apply Rltb_false. lra. }
  apply Ok_inj in H. subst g. destruct (disinf G); destruct (disnan _); assumption.
Qed.
End Any.

(** ** Exact arithmetic *)
Section Exactly.
Local Existing Instance exact.

Lemma geff_closed_bounds : forall (cfg : Cfg) t1 t2 s ks nint r e lam pb,
  s_theta_r s = Fin r -> s_theta_e s = Fin e -> s_lambda s = Fin lam -> s_psib s = Fin pb -> 0 < lam -> 0 <= pb ->
  r < e -> r <= t1 -> t1 <= t2 -> t2 <= e ->
  exists g, calc_Geff true (Fin t1) (Fin t2) s ks nint = Ok (Fin g) /\ 0 <= g <= pb * ((2 + 3 * lam) / (1 + 3 * lam)) /\ (t1 = t2 -> t1 < e -> g = 0).
Proof.
  intros cfg t1 t2 s ks nint r e lam pb Hr He Hl Hb Hl0 Hb0 Hre H1 H12 H2. unfold calc_Geff, Se_of_theta, calc_Se_from_theta. cbn [negb]. rewrite Hr, He, Hl, Hb.
  change (lit 1) with (Fin 1). change (lit 2) with (Fin 2). change (lit 3) with (Fin 3). cbn [dsub dadd dmul rnd exact]. rewrite !div_fin by lra. cbn [dsub dadd dmul rnd exact].
  assert (I : 0 < / (e - r)) by (apply Rinv_0_lt_compat; lra).
  set (x := (t1 - r) / (e - r)). set (y := (t2 - r) / (e - r)).
  assert (Hx : 0 <= x) by (unfold x, Rdiv; nra). assert (Hxy : x <= y) by (unfold x, y, Rdiv; nra).
  assert (Hy : y <= 1). { unfold y. apply Rmult_le_reg_r with (e - r); [lra|]. unfold Rdiv. rewrite Rmult_assoc, Rinv_l by lra. lra. }
  set (Hc := pb * ((2 + 3 * lam) / (1 + 3 * lam))).
  assert (HHc : 0 <= Hc). { unfold Hc. apply Rmult_le_pos; [assumption|]. apply Rmult_le_pos; [lra|left; apply Rinv_0_lt_compat; lra]. }
  assert (Hex : 0 < 3 + 1 / lam). { assert (0 < / lam) by (apply Rinv_0_lt_compat; lra). lra. }
  set (ex := 3 + 1 / lam) in *. rewrite !pow_pw by lra. cbn [dsub dmul rnd exact].
  pose proof (pw_le x y ex Hx Hxy Hex) as P1. pose proof (pw_le_1 y ex ltac:(lra) Hy Hex) as P2. pose proof (pw_nonneg x ex) as P0.
  destruct (Rlt_dec (pw x ex) 1) as [L|L].
  - rewrite div_fin by lra. cbn [disinf disnan]. eexists. split; [reflexivity|].
    assert (J : 0 < / (1 - pw x ex)) by (apply Rinv_0_lt_compat; lra).
    assert (0 <= (pw y ex - pw x ex) / (1 - pw x ex) <= 1).
    { split; [unfold Rdiv; nra|]. apply Rmult_le_reg_r with (1 - pw x ex); [lra|]. unfold Rdiv. rewrite Rmult_assoc, Rinv_l by lra. lra. }
    split; [unfold Rdiv in *; rewrite Rmult_assoc; nra|]. intros <- _. unfold y. fold x. replace (pw x ex - pw x ex) with 0 by ring. unfold Rdiv. ring.
  - assert (E1 : pw x ex = 1) by lra. assert (E2 : pw y ex = 1) by lra. rewrite E1, E2. cbn [ddiv]. replace (1 - 1) with 0 by ring.
    destruct (Req_EM_T 0 0); [|lra]. rewrite Rmult_0_r. unfold inf_sign. destruct (Rlt_dec 0 0); [lra|]. cbn [disinf disnan].
    exists Hc. split; [reflexivity|]. split; [lra|]. intros <- Hlt. exfalso.
    assert (x < 1). { unfold x. apply Rmult_lt_reg_r with (e - r); [lra|]. unfold Rdiv. rewrite Rmult_assoc, Rinv_l by lra. lra. }
    pose proof (pw_lt x 1 ex Hx ltac:(assumption) Hex) as Q. rewrite pw_1 in Q. lra.
Qed.

(** *** Termination *)
Lemma INR_beyond : forall x, exists N, x < INR N.
Proof.
  intro x. exists (Z.to_nat (up x)). rewrite INR_IZR_INZ. destruct (archimed x) as [A _]. apply Rlt_le_trans with (IZR (up x)); [assumption|].
  apply IZR_le. lia.
Qed.

Definition Kh (k a n m h : R) : R := if Rlt_dec (Rabs h) (1 / 10000000000) then k else vg_K k m (vg_Se a n m h).

Lemma Se_from_h_is : forall s r e a n m k h, vg_soil s r e a n m k -> 0 <= h ->
  exists S, calc_Se_from_h (Fin h) (s_alpha s) (s_m s) (s_n s) = Fin S /\ 0 < S <= 1 /\ forall kk, vg_K kk m S = Kh kk a n m h.
Proof.
  intros s r e a n m k h V Hh. destruct V. unfold calc_Se_from_h, is_epsilon_less_than, Kh. rewrite vg_a, vg_m, vg_n. change (lit (1 / 10000000000)) with (Fin (1 / 10000000000)).
  cbn [dabs dltb]. unfold Rltb. destruct (Rlt_dec (Rabs h) (1 / 10000000000)).
  - exists 1. split; [reflexivity|]. split; [lra|]. intro kk. apply vg_K_1. lra.
  - change (lit 1) with (Fin 1). exists (vg_Se a n m h). split; [|split; [apply Se_h_range; lra|reflexivity]].
    replace (Fin a * Fin h)%d with (Fin (a * h)) by reflexivity. rewrite pow_pw by nra. assert (0 <= pw (a * h) n) by apply pw_nonneg.
    replace (Fin 1 + Fin (pw (a * h) n))%d with (Fin (1 + pw (a * h) n)) by reflexivity. rewrite pow_pos by lra.
    rewrite div_fin by (apply Rgt_not_eq, Rpower_gt0). f_equal. unfold vg_Se. rewrite Rpower_Ropp. unfold Rdiv. ring.
Qed.

Lemma Kh_pos : forall k a n m h, 0 < k -> 0 < a -> 0 < n -> 0 < m -> 0 <= h -> 0 < Kh k a n m h.
Proof.
  intros k a n m h Hk Ha Hn Hm Hh. unfold Kh. destruct (Rlt_dec _ _); [assumption|]. rewrite <- (vg_K_0 k m Hm).
  pose proof (Se_h_range a n m h Ha Hn Hm Hh). apply vg_K_lt; lra.
Qed.

Lemma cont_Rpower : forall f y x, continuity_pt f x -> 0 < f x -> continuity_pt (fun t => Rpower (f t) y) x.
Proof.
  intros f y x Hf Hp. apply (continuity_pt_comp f (fun z => Rpower z y)); [assumption|].
  apply derivable_continuous_pt. exists (y * Rpower (f x) (y - 1)). apply derivable_pt_lim_power. assumption.
Qed.

Definition fSe (a n m h : R) : R := Rpower (1 + Rpower (a * h) n) (- m).
Definition fK (k a n m h : R) : R := k * sqrt (fSe a n m h) * (1 - Rpower (1 - Rpower (fSe a n m h) (/ m)) m) ^ 2.

Lemma fSe_is : forall a n m h, 0 < a -> 0 < h -> vg_Se a n m h = fSe a n m h.
Proof. intros. unfold vg_Se, fSe. rewrite pw_pos by nra. reflexivity. Qed.

Lemma fSe_lt1 : forall a n m h, 0 < a -> 0 < n -> 0 < m -> 0 < h -> 0 < fSe a n m h < 1.
Proof.
  intros a n m h Ha Hn Hm Hh. rewrite <- fSe_is by assumption. pose proof (Se_h_range a n m h Ha Hn Hm ltac:(lra)). split; [lra|].
  pose proof (Se_h_decreasing a n m 0 h Ha Hn Hm ltac:(lra) Hh) as D. pose proof (Se_h_range a n m 0 Ha Hn Hm ltac:(lra)). lra.
Qed.

Lemma fK_is : forall k a n m h, 0 < a -> 0 < n -> 0 < m -> 0 < h -> vg_K k m (vg_Se a n m h) = fK k a n m h.
Proof.
  intros k a n m h Ha Hn Hm Hh. rewrite fSe_is by assumption. unfold vg_K, fK. pose proof (fSe_lt1 a n m h Ha Hn Hm Hh) as [P Q].
  assert (0 < / m) by (apply Rinv_0_lt_compat; lra).
  rewrite (pw_pos (fSe a n m h)) by assumption.
  pose proof (pw_lt (fSe a n m h) 1 (/ m) ltac:(lra) Q ltac:(assumption)) as W. rewrite pw_1, pw_pos in W by assumption.
  rewrite pw_pos by lra. reflexivity.
Qed.

Lemma fK_cont : forall k a n m h, 0 < a -> 0 < n -> 0 < m -> 0 < h -> continuity_pt (fK k a n m) h.
Proof.
  intros k a n m h Ha Hn Hm Hh. pose proof (fSe_lt1 a n m h Ha Hn Hm Hh) as [P Q]. assert (0 < / m) by (apply Rinv_0_lt_compat; lra).
  assert (C1 : continuity_pt (fun h => Rpower (a * h) n) h).
  { apply (cont_Rpower (fun h => a * h)); [|nra]. apply (continuity_pt_scal (fun h => h)). apply derivable_continuous_pt, derivable_pt_id. }
  assert (CS : continuity_pt (fSe a n m) h).
  { unfold fSe. apply (cont_Rpower (fun h => 1 + Rpower (a * h) n)).
    - apply (continuity_pt_plus (fun _ => 1)); [apply continuity_pt_const; intros ? ?; reflexivity|assumption].
    - pose proof (Rpower_gt0 (a * h) n). lra. }
  pose proof (pw_lt (fSe a n m h) 1 (/ m) ltac:(lra) Q ltac:(assumption)) as W. rewrite pw_1, pw_pos in W by assumption.
  assert (C2 : continuity_pt (fun h => 1 - Rpower (1 - Rpower (fSe a n m h) (/ m)) m) h).
  { apply (continuity_pt_minus (fun _ => 1)); [apply continuity_pt_const; intros ? ?; reflexivity|].
    apply (cont_Rpower (fun h => 1 - Rpower (fSe a n m h) (/ m))); [|lra].
    apply (continuity_pt_minus (fun _ => 1)); [apply continuity_pt_const; intros ? ?; reflexivity|]. apply cont_Rpower; assumption. }
  unfold fK. apply (continuity_pt_mult (fun h => k * sqrt (fSe a n m h)) (fun h => (1 - Rpower (1 - Rpower (fSe a n m h) (/ m)) m) ^ 2)).
  - apply (continuity_pt_scal (fun h => sqrt (fSe a n m h))). apply (continuity_pt_comp (fSe a n m) sqrt); [assumption|]. apply continuity_pt_sqrt. lra.
  - cbn [pow]. apply (continuity_pt_mult (fun h => 1 - Rpower (1 - Rpower (fSe a n m h) (/ m)) m) (fun h => (1 - Rpower (1 - Rpower (fSe a n m h) (/ m)) m) * 1)); [assumption|].
    apply (continuity_pt_mult (fun h => 1 - Rpower (1 - Rpower (fSe a n m h) (/ m)) m) (fun _ => 1)); [assumption|]. apply continuity_pt_const; intros ? ?; reflexivity.
Qed.

Lemma K_mono_h : forall k a n m h h', 0 < k -> 0 < a -> 0 < n -> 0 < m -> 0 <= h -> h <= h' -> vg_K k m (vg_Se a n m h') <= vg_K k m (vg_Se a n m h).
Proof.
  intros k a n m h h' Hk Ha Hn Hm Hh Hle. destruct (Rle_lt_or_eq_dec _ _ Hle) as [L| ->]; [|lra]. left.
  pose proof (Se_h_range a n m h Ha Hn Hm Hh). pose proof (Se_h_range a n m h' Ha Hn Hm ltac:(lra)). pose proof (Se_h_decreasing a n m h h' Ha Hn Hm Hh L).
  apply vg_K_lt; lra.
Qed.

(** Steps shorter than some delta change the conductivity by at most 2 %, on both sides of the jump at 1e-10. *)
Lemma K_step : forall k a n m hi, 0 < k -> 0 < a -> 0 < n -> 0 < m -> 0 < hi ->
  exists delta, 0 < delta /\ forall h1 h2, 1 / 10000000000 <= h1 -> h1 <= h2 -> h2 <= hi -> h2 - h1 < delta ->
    (Kh k a n m h1 - Kh k a n m h2) / Kh k a n m h2 <= 2 / 100.
Proof.
  intros k a n m hi Hk Ha Hn Hm Hhi. destruct (Rle_dec hi (1 / 10000000000)) as [S|S].
  - exists 1. split; [lra|]. intros h1 h2 H1 H12 H2 _. assert (h1 = h2) as -> by lra. unfold Rminus, Rdiv. rewrite Rplus_opp_r. lra.
  - set (eps := 2 / 100 * vg_K k m (vg_Se a n m hi)).
    assert (E0 : 0 < vg_K k m (vg_Se a n m hi)).
    { rewrite <- (vg_K_0 k m Hm). pose proof (Se_h_range a n m hi Ha Hn Hm ltac:(lra)). apply vg_K_lt; lra. }
    assert (Heps : 0 < eps) by (unfold eps; lra).
    assert (HC : forall x, 1 / 10000000000 <= x <= hi -> continuity_pt (fK k a n m) x) by (intros x Hx; apply fK_cont; lra).
    destruct (Heine_cor2 HC (mkposreal eps Heps)) as [[d Hd] HD].
    + exists d. split; [exact Hd|]. intros h1 h2 H1 H12 H2 Hlt.
      assert (U : forall h, 1 / 10000000000 <= h -> Kh k a n m h = fK k a n m h).
      { intros h Hh. unfold Kh. rewrite Rabs_right by lra. destruct (Rlt_dec _ _); [lra|]. apply fK_is; lra. }
      rewrite !U by lra. specialize (HD h1 h2 ltac:(lra) ltac:(lra)). cbn in HD. rewrite Rabs_minus_sym in HD.
      rewrite (Rabs_right (h2 - h1)) in HD by lra. specialize (HD Hlt).
      assert (L : vg_K k m (vg_Se a n m hi) <= fK k a n m h2) by (rewrite <- fK_is by lra; apply K_mono_h; lra).
      apply Rmult_le_reg_r with (fK k a n m h2); [lra|]. unfold Rdiv. rewrite Rmult_assoc, Rinv_l by lra. rewrite Rmult_1_r.
      apply Rle_trans with eps; [|unfold eps; lra]. apply Rabs_def2 in HD. lra.
Qed.

Lemma geff_loop_step : forall s r e a n m k ks j hi h2 dh K1 G, vg_soil s r e a n m k -> 0 < ks -> 0 <= h2 -> h2 < hi ->
  exists dh' G', geff_loop (S j) s (Fin ks) (Fin hi) (Fin h2) (Fin dh) (Fin K1) (Fin G)
      = geff_loop j s (Fin ks) (Fin hi) (Fin (h2 + dh')) (Fin dh') (Fin (Kh ks a n m h2)) (Fin G') /\
    (dh' = dh * 10 \/ dh' = dh / 2) /\ ((K1 - Kh ks a n m h2) / Kh ks a n m h2 <= 2 / 100 -> dh' = dh * 10).
Proof.
  intros s r e a n m k ks j hi h2 dh K1 G V Hks Hh Hlt. cbn [geff_loop]. rewrite ltb_t by assumption.
  destruct (Se_from_h_is s r e a n m k h2 V Hh) as (S & ES & HS & EK). rewrite ES. pose proof V as V'. destruct V'. rewrite vg_m.
  rewrite K_of_Se_is by lra. rewrite EK. pose proof (Kh_pos ks a n m h2 Hks vg_a0 ltac:(lra) ltac:(lra) Hh) as KP.
  set (K2 := Kh ks a n m h2) in *. change (lit (2 / 100)) with (Fin (2 / 100)). change (lit (1 / 2)) with (Fin (1 / 2)). change (lit 10) with (Fin 10). change (lit 2) with (Fin 2).
  cbn [dsub rnd exact]. rewrite div_fin by lra. unfold dgtb.
  destruct (Rlt_dec (2 / 100) ((K1 - K2) / K2)) as [L|L].
  - rewrite ltb_t by assumption. cbn [dmul dadd rnd exact]. rewrite div_fin by lra. cbn [dmul dadd rnd exact]. do 2 eexists. split; [reflexivity|]. split; [right; field|]. intro. lra.
  - rewrite ltb_f by lra. cbn [dmul dadd rnd exact]. rewrite div_fin by lra. cbn [dmul dadd rnd exact]. do 2 eexists. split; [reflexivity|]. split; [left; reflexivity|]. reflexivity.
Qed.

Lemma geff_loop_end : forall s ks j hi h2 dh K1 G, (1 <= j)%nat -> hi <= h2 -> geff_loop j s ks (Fin hi) (Fin h2) dh K1 G = Ok G.
Proof. intros s ks j hi h2 dh K1 G Hj H. destruct j; [lia|]. cbn [geff_loop]. rewrite ltb_f by assumption. reflexivity. Qed.

Lemma geff_loop_terminates : forall s r e a n m k ks hi c delta, vg_soil s r e a n m k -> 0 < ks -> 0 < hi -> 0 < c -> c <= delta ->
  (forall h1 h2, 1 / 10000000000 <= h1 -> h1 <= h2 -> h2 <= hi -> h2 - h1 < delta -> (Kh ks a n m h1 - Kh ks a n m h2) / Kh ks a n m h2 <= 2 / 100) ->
  forall N h1 dh G j, (S N <= j)%nat -> 0 <= h1 -> c / 2 <= dh -> (h1 < 1 / 10000000000 -> c <= dh) -> hi - (h1 + dh) <= INR N * (c / 2) ->
  exists G', geff_loop j s (Fin ks) (Fin hi) (Fin (h1 + dh)) (Fin dh) (Fin (Kh ks a n m h1)) (Fin G) = Ok (Fin G').
Proof.
  intros s r e a n m k ks hi c delta V Hks Hhi Hc Hcd HD. induction N as [|N IH]; intros h1 dh G j Hj Hh1 Hdh Hsmall Hm.
  - rewrite geff_loop_end; [eauto|lia|]. cbn in Hm. lra.
  - destruct (Rle_dec hi (h1 + dh)) as [L|L]; [rewrite geff_loop_end; [eauto|lia|assumption]|].
    destruct j as [|j]; [lia|].
    destruct (geff_loop_step s r e a n m k ks j hi (h1 + dh) dh (Kh ks a n m h1) G V Hks ltac:(lra) ltac:(lra)) as (dh' & G' & E & Hcase & Hgrow).
    rewrite E. rewrite S_INR in Hm.
    assert (K0 : forall h, 0 <= h -> h < 1 / 10000000000 -> Kh ks a n m h = ks).
    { intros h A B. unfold Kh. rewrite Rabs_right by lra. destruct (Rlt_dec _ _); [reflexivity|lra]. }
    assert (B1 : c / 2 <= dh').
    { destruct (Rlt_dec h1 (1 / 10000000000)) as [S1|S1]; [specialize (Hsmall S1); destruct Hcase; lra|].
      destruct (Rlt_dec dh delta) as [S2|S2]; [|destruct Hcase; lra].
      rewrite (Hgrow ltac:(apply HD; lra)). lra. }
    assert (B2 : h1 + dh < 1 / 10000000000 -> c <= dh').
    { intro S1. assert (S0 : h1 < 1 / 10000000000) by lra. specialize (Hsmall S0). rewrite Hgrow; [lra|].
      rewrite (K0 h1), (K0 (h1 + dh)) by lra. unfold Rminus, Rdiv. rewrite Rplus_opp_r. lra. }
    apply IH; try lra; try lia; assumption.
Qed.

Lemma h_of_theta : forall s r e a n m k t, vg_soil s r e a n m k -> r < t <= e -> exists h, h_of_Se s (Se_of_theta s (Fin t)) = Fin h /\ 0 <= h.
Proof.
  intros s r e a n m k t V Ht. rewrite (Se_of_theta_is s r e a n m k) by assumption. pose proof V as V'. destruct V'.
  assert (I : 0 < / (e - r)) by (apply Rinv_0_lt_compat; lra).
  assert (HS : 0 < (t - r) / (e - r) <= 1).
  { unfold Rdiv. split; [nra|]. apply Rmult_le_reg_r with (e - r); [lra|]. rewrite Rmult_assoc, Rinv_l by lra. lra. }
  rewrite (h_of_Se_is s r e a n m k) by assumption. eexists. split; [reflexivity|]. apply Rmult_le_pos; [left; apply Rinv_0_lt_compat; assumption|apply pw_nonneg].
Qed.

Lemma h_residual : forall s r e a n m k, vg_soil s r e a n m k -> h_of_Se s (Se_of_theta s (Fin r)) = PInf.
Proof.
  intros s r e a n m k V. rewrite (Se_of_theta_is s r e a n m k) by assumption. destruct V. replace ((r - r) / (e - r)) with 0 by (field; lra).
  unfold h_of_Se, calc_h_from_Se. rewrite vg_a, vg_n, vg_m, !exact_lit, !div_fin by lra.
  rewrite pow_zero_neg; [|replace (-1 / m) with (- / m) by (field; lra); assert (0 < / m) by (apply Rinv_0_lt_compat; lra); lra].
  cbn [dsub]. assert (0 < / n) by (apply Rinv_0_lt_compat; lra). unfold dpow. cbn [deqb]. unfold Reqb. destruct (Req_EM_T (1 / n) 0); [lra|]. destruct (Rlt_dec 0 (1 / n)); [|lra].
  assert (0 < / a) by (apply Rinv_0_lt_compat; assumption). cbn. unfold inf_sign. destruct (Rlt_dec 0 (1 / a)); [reflexivity|lra].
Qed.

Lemma geff_terminates : forall s r e a n m k ks t1 t2 nint, vg_soil s r e a n m k -> 0 < ks -> r <= t1 <= e -> r <= t2 <= e -> (1 <= nint)%Z ->
  exists N, forall cfg : Cfg, (N <= fuel)%nat -> exists g, calc_Geff false (Fin t1) (Fin t2) s (Fin ks) nint = Ok (Fin g) /\ 0 <= g /\ (t2 <= t1 \/ t1 = r -> g = 0).
Proof.
  intros s r e a n m k ks t1 t2 nint V Hks H1 H2 Hn.
  assert (Kfin : exists K1, calc_K_from_Se (Se_of_theta s (Fin t1)) (Fin ks) (s_m s) = Fin K1).
  { rewrite (Se_of_theta_is s r e a n m k) by assumption. pose proof V as V'. destruct V'. rewrite vg_m. rewrite K_of_Se_is; [eauto| |lra].
    assert (I : 0 < / (e - r)) by (apply Rinv_0_lt_compat; lra). split; [unfold Rdiv; nra|]. apply Rmult_le_reg_r with (e - r); [lra|]. unfold Rdiv. rewrite Rmult_assoc, Rinv_l by lra. lra. }
  destruct Kfin as (K1 & EK1).
  assert (Nn : 1 <= IZR nint) by (apply IZR_le in Hn; lra).
  assert (Fine : forall G, exists g, dabs (Fin G / Fin ks)%d = Fin g /\ 0 <= g /\ (G = 0 -> g = 0)).
  { intro G. rewrite div_fin by lra. eexists. split; [reflexivity|]. split; [apply Rabs_pos|]. intros ->. unfold Rdiv. rewrite Rmult_0_l. apply Rabs_R0. }
  assert (Stop0 : forall (hi hf : dbl), h_of_Se s (Se_of_theta s (Fin t1)) = hi -> h_of_Se s (Se_of_theta s (Fin t2)) = hf ->
     dltb (hf + (hi - hf) / dofZ nint * lit (1 / 100))%d hi = false ->
     exists N, forall cfg : Cfg, (N <= fuel)%nat -> exists g, calc_Geff false (Fin t1) (Fin t2) s (Fin ks) nint = Ok (Fin g) /\ 0 <= g /\ (t2 <= t1 \/ t1 = r -> g = 0)).
  { intros hi hf E1 E2 L. exists 1%nat. intros cfg Hf. destruct (Fine 0) as (g & Eg & Hg & Hg0). exists g.
    unfold calc_Geff. cbn [negb]. rewrite E1, E2, EK1. destruct fuel as [|j]; [lia|]. cbn [geff_loop]. rewrite L. cbn [bind]. rewrite Eg. auto. }
  destruct (Rlt_dec r t1) as [P1|P1].
  - destruct (h_of_theta s r e a n m k t1 V ltac:(lra)) as (hi & Ehi & Hhi).
    destruct (Rlt_dec r t2) as [P2|P2].
    + destruct (h_of_theta s r e a n m k t2 V ltac:(lra)) as (hf & Ehf & Hhf).
      destruct (Rle_dec hi hf) as [L|L].
      * apply (Stop0 _ _ Ehi Ehf). unfold dofZ. change (lit (1 / 100)) with (Fin (1 / 100)). cbn [dsub rnd exact]. rewrite div_fin by lra. cbn [dmul dadd rnd exact]. apply ltb_f.
        assert (0 < / IZR nint <= 1). { split; [apply Rinv_0_lt_compat; lra|]. apply Rle_trans with (/ 1); [apply Rinv_le_contravar; lra|lra]. } unfold Rdiv. nra.
      * assert (Horder : t1 < t2).
        { destruct (Rlt_dec t1 t2) as [|Hge]; [assumption|exfalso]. 
          assert (X1 : theta_of_h s (Fin hi) = Fin t1) by (rewrite <- Ehi; apply (theta_inverse s r e a n m k); [assumption|lra]).
          assert (X2 : theta_of_h s (Fin hf) = Fin t2) by (rewrite <- Ehf; apply (theta_inverse s r e a n m k); [assumption|lra]).
          pose proof (retention_decreasing s r e a n m k hf hi V Hhf ltac:(lra)) as D. rewrite X1, X2 in D. cbn in D. apply Rltb_true in D. lra. }
        pose proof V as V'. destruct V'.
        set (dh0 := (hi - hf) / IZR nint * (1 / 100)).
        assert (D0 : 0 < dh0). { unfold dh0. assert (0 < / IZR nint) by (apply Rinv_0_lt_compat; lra). unfold Rdiv. nra. }
        destruct (K_step ks a n m hi Hks vg_a0 ltac:(lra) ltac:(lra) ltac:(lra)) as (delta & Hd & HD).
        set (c := Rmin (dh0 / 2) delta). assert (Hc : 0 < c /\ c <= dh0 / 2 /\ c <= delta).
        { unfold c, Rmin. destruct (Rle_dec _ _); lra. }
        destruct (INR_beyond ((hi - hf) / (c / 2))) as (N & HN).
        exists (S (S N)). intros cfg Hf.
        assert (LL : exists G, geff_loop fuel s (Fin ks) (Fin hi) (Fin (hf + dh0)) (Fin dh0) (Fin K1) (Fin 0) = Ok (Fin G)).
        { destruct (Rle_dec hi (hf + dh0)) as [Q|Q]; [rewrite geff_loop_end; [eauto|lia|assumption]|].
          destruct fuel as [|j]; [lia|].
          destruct (geff_loop_step s r e a n m k ks j hi (hf + dh0) dh0 K1 0 V Hks ltac:(lra) ltac:(lra)) as (dh' & G' & E & Hcase & _). rewrite E.
          apply (geff_loop_terminates s r e a n m k ks hi c delta V Hks ltac:(lra) ltac:(lra) ltac:(lra) HD N); try lra; try lia; try (destruct Hcase; lra).
          assert (hi - hf <= INR N * (c / 2)). { left. apply Rmult_lt_reg_r with (/ (c / 2)); [apply Rinv_0_lt_compat; lra|]. rewrite Rmult_assoc, Rinv_r by lra. unfold Rdiv in HN. lra. }
          destruct Hcase; lra. }
        destruct LL as (G & EG). destruct (Fine G) as (g & Eg & Hg & _). exists g.
        unfold calc_Geff. cbn [negb]. rewrite Ehi, Ehf, EK1. unfold dofZ. change (lit (1 / 100)) with (Fin (1 / 100)). cbn [dsub rnd exact]. rewrite div_fin by lra. cbn [dmul dadd rnd exact].
        fold dh0. rewrite EG. cbn [bind]. rewrite Eg. split; [reflexivity|]. split; [assumption|]. intros [?|?]; lra.
    + assert (t2 = r) as -> by lra. apply (Stop0 _ _ Ehi (h_residual s r e a n m k V)).
      unfold dofZ. change (lit (1 / 100)) with (Fin (1 / 100)). cbn [dsub ddiv rnd exact]. destruct (Rlt_dec (IZR nint) 0); [lra|]. cbn. unfold inf_sign. destruct (Rlt_dec 0 (1 / 100)); [|lra]. reflexivity.
  - assert (t1 = r) as -> by lra. destruct (Rlt_dec r t2) as [P2|P2].
    + destruct (h_of_theta s r e a n m k t2 V ltac:(lra)) as (hf & Ehf & Hhf). apply (Stop0 _ _ (h_residual s r e a n m k V) Ehf). 
      unfold dofZ. change (lit (1 / 100)) with (Fin (1 / 100)). cbn [dsub ddiv rnd exact]. destruct (Rlt_dec (IZR nint) 0); [lra|]. cbn. unfold inf_sign. destruct (Rlt_dec 0 (1 / 100)); [|lra]. reflexivity.
    + assert (t2 = r) as -> by lra. apply (Stop0 _ _ (h_residual s r e a n m k V) (h_residual s r e a n m k V)). reflexivity.
Qed.
End Exactly.
