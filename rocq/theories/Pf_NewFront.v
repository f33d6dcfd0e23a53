(** The depth of a new front, in exact arithmetic. *)

From Coq Require Import Reals Lra ZArith List Bool Lia Psatz.
From Verif Require Import Outcome Dbl Types ListOps Soil Fronts Infil Exact Lib Spec_Common Spec_Soil Pf_Dbl Pf_Pow Pf_Soil Pf_Single Spec_NewFront.
Import ListNotations.
Open Scope R_scope.

(** The positive root of z^2 = t (z + G). *)
Definition root (tau G : R) : R := 1 / 2 * (tau + sqrt (tau * tau + 4 * tau * G)).

Lemma root_in : forall tau G, 0 < tau -> 0 <= G -> 0 <= tau * tau + 4 * tau * G.
Proof. intros tau G Ht HG. assert (0 <= tau * G) by (apply Rmult_le_pos; lra). assert (0 < tau * tau) by (apply Rmult_lt_0_compat; lra). lra. Qed.
Lemma root_pos : forall tau G, 0 < tau -> 0 <= G -> tau <= root tau G.
Proof.
  intros tau G Ht HG. unfold root. assert (tau <= sqrt (tau * tau + 4 * tau * G)); [|lra]. rewrite <- (sqrt_square tau) at 1 by lra. apply sqrt_le_1_alt. assert (0 <= tau * G) by (apply Rmult_le_pos; lra). lra.
Qed.
Lemma root_sq : forall tau G, 0 < tau -> 0 <= G -> root tau G * root tau G = tau * (root tau G + G).
Proof.
  intros tau G Ht HG. unfold root. pose proof (sqrt_sqrt _ (root_in tau G Ht HG)) as S. set (q := sqrt _) in *. nra.
Qed.
Lemma root_one : forall tau G z, 0 < tau -> 0 <= G -> 0 < z -> z * z = tau * (z + G) -> z = root tau G.
Proof.
  intros tau G z Ht HG Hz E. pose proof (root_sq tau G Ht HG) as S. pose proof (root_pos tau G Ht HG) as P. set (y := root tau G) in *.
  assert (F : (z - y) * (z + y - tau) = 0) by nra. apply Rmult_integral in F as [F|F]; [lra|]. exfalso. assert (z <= 0) by lra. lra.
Qed.

Lemma eq_root : forall K D t G, 0 < K -> 0 < D -> 0 < t -> 0 <= G -> dry_depth_eq K D t G (root (t * K / D) G) /\ (forall z, dry_depth_eq K D t G z -> z = root (t * K / D) G).
Proof.
  intros K D t G HK HD Ht HG. assert (T : 0 < t * K / D) by (apply Rdiv_lt_0_compat; [apply Rmult_lt_0_compat|]; assumption). split.
  - pose proof (root_pos _ G T HG) as P. pose proof (root_sq _ G T HG) as S. set (z := root (t * K / D) G) in *. split; [lra|].
    apply (Rmult_eq_reg_r z); [|lra]. rewrite S. field. split; lra.
  - intros z [Hz E]. apply root_one; try assumption. rewrite E at 1. field. split; lra.
Qed.

Section Exactly.
Local Existing Instance exact.
Context {cfg : Cfg}.

Lemma dry_is : forall e closed nint dt c l s r te a n m k x t1 ck g, soil_of e (f_layer c) = Ok s -> vg_soil s r te a n m k -> aget (e_frozen e) (f_layer c) = Ok (Fin x) -> 0 < x ->
  f_theta c = Fin t1 -> t1 < te -> 0 < dt -> aget (e_cum e) (f_layer c) = Ok (Fin ck) -> calc_Geff closed (Fin t1) (Fin te) s (Fin (k * x)) nint = Ok (Fin g) -> 0 <= g ->
  lgar_calc_dry_depth e closed nint (Fin dt) (c :: l) = Ok (Fin (Rmin ck (root (dt * (k * x) / (te - t1)) g)), Fin (te - t1)).
Proof.
  intros e closed nint dt c l s r te a n m k x t1 ck g Es V Ex Hx Et Ht Hdt Eck EG Hg. unfold lgar_calc_dry_depth. cbn [lget nth_error bind]. rewrite Es. cbn [bind]. rewrite Ex. cbn [bind].
  rewrite (vg_k _ _ _ _ _ _ _ V), (vg_e _ _ _ _ _ _ _ V), Et. change (Fin k * Fin x)%d with (Fin (k * x)). rewrite EG. cbn [bind]. rewrite Eck. cbn [bind].
  change (Fin te - Fin t1)%d with (Fin (te - t1)). change (Fin dt * Fin (k * x))%d with (Fin (dt * (k * x))). rewrite div_fin by lra. set (tau := dt * (k * x) / (te - t1)).
  assert (T : 0 < tau). { apply Rdiv_lt_0_compat; [|lra]. apply Rmult_lt_0_compat; [lra|]. apply Rmult_lt_0_compat; [apply (vg_k0 _ _ _ _ _ _ _ V)|lra]. }
  change (lit 4) with (Fin 4). change (lit (1 / 2)) with (Fin (1 / 2)). cbn [dmul dadd rnd exact]. pose proof (root_in tau g T Hg) as Q.
  replace (dsqrt (Fin (tau * tau + 4 * tau * g))) with (Fin (sqrt (tau * tau + 4 * tau * g))).
  2: { unfold dsqrt. destruct (Rlt_dec (tau * tau + 4 * tau * g) 0); [lra|reflexivity]. }
  cbn [dmul dadd rnd exact]. rewrite fmin_fin. reflexivity.
Qed.

Lemma depth_is : forall e closed nint dt c l s r te a n m k x t1 ck g, soil_of e (f_layer c) = Ok s -> vg_soil s r te a n m k -> aget (e_frozen e) (f_layer c) = Ok (Fin x) -> 0 < x ->
  f_theta c = Fin t1 -> t1 < te -> 0 < dt -> aget (e_cum e) (f_layer c) = Ok (Fin ck) -> calc_Geff closed (Fin t1) (Fin te) s (Fin (k * x)) nint = Ok (Fin g) -> 0 <= g ->
  exists z, dry_depth_eq (k * x) (te - t1) dt g z /\ (forall z', dry_depth_eq (k * x) (te - t1) dt g z' -> z' = z) /\
    lgar_calc_dry_depth e closed nint (Fin dt) (c :: l) = Ok (Fin (Rmin ck z), Fin (te - t1)).
Proof.
  intros e closed nint dt c l s r te a n m k x t1 ck g Es V Ex Hx Et Ht Hdt Eck EG Hg. exists (root (dt * (k * x) / (te - t1)) g).
  destruct (eq_root (k * x) (te - t1) dt g) as [A B]; [apply Rmult_lt_0_compat; [apply (vg_k0 _ _ _ _ _ _ _ V)|lra]|lra|lra|lra|].
  split; [exact A|]. split; [exact B|]. eapply dry_is; eassumption.
Qed.

(** The closed form towards saturation. *)
Lemma closed_drive : forall s r te a n m k lam pb t1 ks nint, vg_soil s r te a n m k -> s_lambda s = Fin lam -> s_psib s = Fin pb -> 0 < lam -> 0 <= pb ->
  calc_Geff true t1 (Fin te) s ks nint = Ok (Fin (bc_drive pb lam)).
Proof.
  intros s r te a n m k lam pb t1 ks nint V El Eb L0 P0.
  unfold calc_Geff, Se_of_theta, calc_Se_from_theta. cbn [negb]. cbv zeta. rewrite (vg_e _ _ _ _ _ _ _ V), (vg_r _ _ _ _ _ _ _ V), El, Eb. pose proof (vg_re _ _ _ _ _ _ _ V) as R0.
  assert (E1 : ((Fin te - Fin r) / (Fin te - Fin r))%d = Fin 1). { cbn. destruct (Req_EM_T (te - r) 0); [lra|]. cbn. f_equal. field. lra. } rewrite E1, pow_one.
  assert (E2 : (Fin pb * ((lit 2 + lit 3 * Fin lam) / (lit 1 + lit 3 * Fin lam)))%d = Fin (bc_drive pb lam)). { cbn. destruct (Req_EM_T (1 + 3 * lam) 0); [lra|]. cbn. f_equal. unfold bc_drive. field. lra. } rewrite E2.
  set (h := bc_drive pb lam). generalize (dpow ((t1 - Fin r) / (Fin te - Fin r)) (lit 3 + lit 1 / Fin lam))%d as X.
  intros [x| | |]; change (lit 1) with (Fin 1); cbn.
  - destruct (Req_EM_T (1 - x) 0) as [Q|Q].
    + rewrite Q, Rmult_0_r. unfold inf_sign. destruct (Rlt_dec 0 0); [lra|]. reflexivity.
    + cbn. do 2 f_equal. field. exact Q.
  - unfold inf_sign. destruct (Rlt_dec 0 h); cbn; [reflexivity|]. destruct (Rlt_dec h 0); cbn; reflexivity.
  - unfold inf_sign. destruct (Rlt_dec 0 h); cbn; [reflexivity|]. destruct (Rlt_dec h 0); cbn; reflexivity.
  - reflexivity.
Qed.

(** A longer step. *)
Lemma root_mono : forall tau tau' G, 0 < tau <= tau' -> 0 <= G -> root tau G <= root tau' G.
Proof.
  intros tau tau' G H HG. unfold root. assert (sqrt (tau * tau + 4 * tau * G) <= sqrt (tau' * tau' + 4 * tau' * G)); [|lra]. apply sqrt_le_1_alt.
  assert (tau * tau <= tau' * tau') by (apply Rmult_le_compat; lra). assert (tau * G <= tau' * G) by (apply Rmult_le_compat_r; lra). lra.
Qed.
Lemma root_conc : forall tau c G, 0 < tau -> 1 <= c -> 0 <= G -> root (c * tau) G <= c * root tau G.
Proof.
  intros tau c G Ht Hc HG. unfold root. assert (sqrt (c * tau * (c * tau) + 4 * (c * tau) * G) <= c * sqrt (tau * tau + 4 * tau * G)); [|lra].
  replace (c * sqrt (tau * tau + 4 * tau * G)) with (sqrt (c * c * (tau * tau + 4 * tau * G))) by (rewrite sqrt_mult, sqrt_square; [reflexivity|lra|nra|apply root_in; assumption]). apply sqrt_le_1_alt.
  assert (0 <= tau * G) by (apply Rmult_le_pos; lra). assert (c * (tau * G) <= c * c * (tau * G)) by (apply Rmult_le_compat_r; nra). lra.
Qed.
Lemma longer : forall e closed nint dt dt' c l s r te a n m k x t1 ck g d d' y y', soil_of e (f_layer c) = Ok s -> vg_soil s r te a n m k -> aget (e_frozen e) (f_layer c) = Ok (Fin x) -> 0 < x ->
  f_theta c = Fin t1 -> t1 < te -> 0 < dt <= dt' -> aget (e_cum e) (f_layer c) = Ok (Fin ck) -> 0 <= ck -> calc_Geff closed (Fin t1) (Fin te) s (Fin (k * x)) nint = Ok (Fin g) -> 0 <= g ->
  lgar_calc_dry_depth e closed nint (Fin dt) (c :: l) = Ok (Fin d, y) -> lgar_calc_dry_depth e closed nint (Fin dt') (c :: l) = Ok (Fin d', y') -> d <= d' <= dt' / dt * d.
Proof.
  intros e closed nint dt dt' c l s r te a n m k x t1 ck g d d' y y' Es V Ex Hx Et Ht Hdt Eck Hck EG Hg H H'.
  rewrite (dry_is e closed nint dt c l s r te a n m k x t1 ck g) in H by (assumption || lra). rewrite (dry_is e closed nint dt' c l s r te a n m k x t1 ck g) in H' by (assumption || lra).
  apply Ok_inj, pair_equal_spec in H as [H _]. apply Ok_inj, pair_equal_spec in H' as [H' _]. injection H as <-. injection H' as <-.
  assert (KX : 0 < k * x) by (apply Rmult_lt_0_compat; [apply (vg_k0 _ _ _ _ _ _ _ V)|lra]). set (tau := dt * (k * x) / (te - t1)).
  assert (T : 0 < tau) by (apply Rdiv_lt_0_compat; [apply Rmult_lt_0_compat; lra|lra]).
  replace (dt' * (k * x) / (te - t1)) with (dt' / dt * tau) by (unfold tau; field; lra).
  assert (C : 1 <= dt' / dt). { apply (Rmult_le_reg_r dt); [lra|]. replace (dt' / dt * dt) with dt' by (field; lra). lra. }
  pose proof (root_mono tau (dt' / dt * tau) g ltac:(split; [lra|]; rewrite <- (Rmult_1_l tau) at 1; apply Rmult_le_compat_r; lra) Hg) as M. pose proof (root_conc tau (dt' / dt) g T C Hg) as N.
  set (y1 := root tau g) in *. set (y2 := root (dt' / dt * tau) g) in *. set (q := dt' / dt) in *. split; [unfold Rmin; repeat destruct (Rle_dec _ _); lra|].
  unfold Rmin. destruct (Rle_dec ck y1), (Rle_dec ck y2); try lra; nra.
Qed.

(** A drier soil. *)
Lemma intake : forall K D dt G, 0 < K -> 0 < D -> 0 < dt -> 0 <= G -> root (dt * K / D) G * D = 1 / 2 * (dt * K + sqrt (dt * K * (dt * K) + 4 * (dt * K) * G * D)).
Proof.
  intros K D dt G HK HD Hdt HG. unfold root. assert (TK : 0 < dt * K) by (apply Rmult_lt_0_compat; assumption). set (T := dt * K) in *. assert (0 < T / D) by (apply Rdiv_lt_0_compat; assumption).
  replace (1 / 2 * (T / D + sqrt (T / D * (T / D) + 4 * (T / D) * G)) * D) with (1 / 2 * (T + sqrt (T / D * (T / D) + 4 * (T / D) * G) * D)) by (field; lra). do 2 f_equal.
  rewrite Rmult_comm. replace (D * sqrt (T / D * (T / D) + 4 * (T / D) * G)) with (sqrt (D * D * (T / D * (T / D) + 4 * (T / D) * G))) by (rewrite sqrt_mult, sqrt_square; [reflexivity|lra|nra|apply root_in; assumption]).
  f_equal. field. lra.
Qed.
Lemma drier_takes_more : forall e nint dt c c' l l' s r te a n m k x t1 t2 ck lam pb w i i' m1 m2 p p' d d' y y', soil_of e 1 = Ok s -> vg_soil s r te a n m k -> aget (e_frozen e) 1 = Ok (Fin x) -> 0 < x ->
  s_lambda s = Fin lam -> s_psib s = Fin pb -> 0 < lam -> 0 <= pb -> aget (e_cum e) 1 = Ok (Fin ck) -> 0 < ck -> 0 < dt ->
  f_layer c = 1%Z -> f_layer c' = 1%Z -> f_theta c = Fin t1 -> f_theta c' = Fin t2 -> t1 <= t2 < te ->
  lgar_calc_dry_depth e true nint (Fin dt) (c :: l) = Ok (d, y) -> lgar_calc_dry_depth e true nint (Fin dt) (c' :: l') = Ok (d', y') ->
  lgar_create_surficial_front e (Fin w) d (f_theta c) (c :: l) = Ok (m1, p, Fin i) -> lgar_create_surficial_front e (Fin w) d' (f_theta c') (c' :: l') = Ok (m2, p', Fin i') -> i' <= i.
Proof.
  intros e nint dt c c' l l' s r te a n m k x t1 t2 ck lam pb w i i' m1 m2 p p' d d' y y' Es V Ex Hx El Eb L0 P0 Eck Hck Hdt Lc Lc' Et Et' Ht H H' C C'.
  assert (G0 : 0 <= bc_drive pb lam). { unfold bc_drive. apply Rmult_le_pos; [apply Rmult_le_pos; lra|]. left. apply Rinv_0_lt_compat. lra. } set (g := bc_drive pb lam) in *.
  assert (KX : 0 < k * x) by (apply Rmult_lt_0_compat; [apply (vg_k0 _ _ _ _ _ _ _ V)|lra]).
  rewrite (dry_is e true nint dt c l s r te a n m k x t1 ck g) in H by (rewrite ?Lc; try assumption; try lra; eapply closed_drive; eassumption).
  rewrite (dry_is e true nint dt c' l' s r te a n m k x t2 ck g) in H' by (rewrite ?Lc'; try assumption; try lra; eapply closed_drive; eassumption).
  apply Ok_inj, pair_equal_spec in H as [<- _]. apply Ok_inj, pair_equal_spec in H' as [<- _].
  assert (J : forall th dd hd lo po io, lgar_create_surficial_front e (Fin w) (Fin dd) (Fin th) hd = Ok (lo, po, Fin io) -> io = if Rlt_dec w (dd * (te - th)) then w else dd * (te - th)).
  { intros th dd hd lo po io Q. unfold lgar_create_surficial_front in Q. rewrite Es in Q. cbn [bind] in Q. cbv zeta in Q. bind_inv Q xx Exx. bind_inv Q ff Eff. bind_inv Q lm Elm.
    apply Ok_inj, pair_equal_spec in Q as [_ Q]. rewrite (vg_e _ _ _ _ _ _ _ V) in Q. change (Fin te - Fin th)%d with (Fin (te - th)) in Q. change (Fin dd * Fin (te - th))%d with (Fin (dd * (te - th))) in Q.
    unfold dgtb in Q. destruct (Rlt_dec w (dd * (te - th))) as [L|L]; [rewrite ltb_t in Q by exact L|rewrite ltb_f in Q by lra]; injection Q as <-; reflexivity. }
  rewrite Et in C. rewrite Et' in C'. apply J in C, C'.
  assert (W : Rmin ck (root (dt * (k * x) / (te - t2)) g) * (te - t2) <= Rmin ck (root (dt * (k * x) / (te - t1)) g) * (te - t1)).
  { 
    pose proof (intake (k * x) (te - t1) dt g KX ltac:(lra) Hdt G0) as I1. pose proof (intake (k * x) (te - t2) dt g KX ltac:(lra) Hdt G0) as I2.
    set (z1 := root (dt * (k * x) / (te - t1)) g) in *. set (z2 := root (dt * (k * x) / (te - t2)) g) in *.
    assert (Q : z2 * (te - t2) <= z1 * (te - t1)).
    { rewrite I1, I2. apply Rmult_le_compat_l; [lra|]. apply Rplus_le_compat_l. apply sqrt_le_1_alt. apply Rplus_le_compat_l. apply Rmult_le_compat_l; [|lra].
      apply Rmult_le_pos; [|exact G0]. apply Rmult_le_pos; [lra|]. left. apply Rmult_lt_0_compat; assumption. }
    assert (Q2 : ck * (te - t2) <= ck * (te - t1)) by (apply Rmult_le_compat_l; lra).
    unfold Rmin. destruct (Rle_dec ck z1), (Rle_dec ck z2); try lra.
    - assert (z2 * (te - t2) <= ck * (te - t2)) by (apply Rmult_le_compat_r; lra). lra.
    - assert (ck * (te - t2) <= z2 * (te - t2)) by (apply Rmult_le_compat_r; lra). lra. }
  subst i i'. repeat destruct (Rlt_dec _ _); lra.
Qed.
End Exactly.
