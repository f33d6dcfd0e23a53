(** The evapotranspiration demand as a function of the head. *)

From Coq Require Import Reals Lra ZArith Bool List.
From Verif Require Import Outcome Dbl Exact Types ListOps Soil Lib Spec_Common Spec_Soil Spec_Geff Pf_Dbl Pf_Pow Pf_Soil.
Import ListNotations.
Open Scope R_scope.

Section Exactly.
Local Existing Instance exact.

Lemma pow_cube : forall x, 0 <= x -> dpow (Fin x) (Fin 3) = Fin (x ^ 3).
Proof.
  intros x Hx. rewrite pow_pw by lra. f_equal. destruct (Rle_lt_or_eq_dec 0 x Hx) as [P|<-].
  - rewrite pw_pos by assumption. rewrite <- Rpower_pow by assumption. f_equal. cbn. lra.
  - rewrite pw_0. ring.
Qed.

Theorem aet_is : forall e s r te a n m k c l pet dt wp fc psi h50, soil_of e (f_layer c) = Ok s -> vg_soil s r te a n m k -> f_psi c = Fin psi ->
  0 <= psi -> 0 <= wp -> 0 <= fc -> 0 <= pet -> 0 <= dt -> 0 < h50 -> vg_theta r te a n m h50 = (vg_theta r te a n m fc + vg_theta r te a n m wp) / 2 ->
  calc_aet e (Fin pet) (Fin dt) (Fin wp) (Fin fc) (c :: l) = Ok (Fin (reduced_demand pet dt psi h50)).
Proof.
  intros e s r te a n m k c l pet dt wp fc psi h50 Es V Ec Hp Hw Hf Hpet Hdt H5 E. unfold calc_aet. cbn [lget nth_error bind]. rewrite Es. cbn [bind]. cbv zeta.
  rewrite !(theta_of_h_is s r te a n m k) by assumption. change (lit 1) with (Fin 1). change (lit 2) with (Fin 2). change (lit 3) with (Fin 3).
  cbn [dsub dmul rnd exact]. rewrite div_fin by lra. cbn [dadd rnd exact].
  replace ((vg_theta r te a n m fc - vg_theta r te a n m wp) * 1 / 2 + vg_theta r te a n m wp) with (vg_theta r te a n m h50) by (rewrite E; field).
  rewrite <- (theta_of_h_is s r te a n m k h50 V (Rlt_le _ _ H5)), (h_inverse s r te a n m k h50 V (Rlt_le _ _ H5)). rewrite Ec, div_fin by lra.
  assert (Q : 0 <= psi / h50) by (apply Rmult_le_pos; [assumption|left; apply Rinv_0_lt_compat; assumption]).
  rewrite pow_cube by assumption. cbn [dadd rnd exact]. pose proof (pow_le (psi / h50) 3 Q) as P. rewrite div_fin by lra. cbn [dmul rnd exact]. unfold reduced_demand.
  set (w := (psi / h50) ^ 3) in *. clearbody w.
  assert (I : 0 < / (1 + w) <= 1). { split; [apply Rinv_0_lt_compat; lra|]. rewrite <- Rinv_1. apply Rinv_le_contravar; lra. }
  replace (pet * (1 / (1 + w)) * dt) with (pet * dt / (1 + w)) by (field; lra).
  assert (0 <= pet * dt) by (apply Rmult_le_pos; assumption).
  unfold dgtb. rewrite ltb_f by (unfold Rdiv; nra). rewrite ltb_f by (unfold Rdiv; nra). reflexivity.
Qed.

(** The head of half demand exists for every pair of heads. *)
Theorem half_head : forall r te a n m fc wp, r < te -> 0 < a -> 1 < n -> 0 < m < 1 -> 0 <= fc -> 0 <= wp -> 0 < fc + wp ->
  exists h50, 0 < h50 /\ vg_theta r te a n m h50 = (vg_theta r te a n m fc + vg_theta r te a n m wp) / 2.
Proof.
  intros r te a n m fc wp Hre Ha Hn Hm Hf Hw Hs.
  pose (s := mkSoil (Fin r) (Fin te) (Fin a) (Fin n) (Fin m) (Fin 1) (Fin 1) (Fin 1) (Fin 1)).
  assert (V : vg_soil s r te a n m 1) by (constructor; try reflexivity; lra).
  pose proof (theta_range r te a n m fc Hre Ha Hn Hm Hf) as Tf. pose proof (theta_range r te a n m wp Hre Ha Hn Hm Hw) as Tw.
  set (t := (vg_theta r te a n m fc + vg_theta r te a n m wp) / 2).
  assert (Ht : r < t < te).
  { unfold t. split; [lra|]. 
    assert (D : forall h, 0 < h -> vg_theta r te a n m h < te).
    { intros h Hh. pose proof (retention_bounds s r te a n m 1 h V ltac:(lra)) as (x & Ex & Hx & _ & Hz). rewrite (theta_of_h_is s r te a n m 1) in Ex by (try assumption; lra). injection Ex as <-.
      destruct (Req_dec (vg_theta r te a n m h) te) as [Q|Q]; [apply Hz in Q; lra|lra]. }
    destruct (Rlt_dec 0 fc) as [F|F]; [pose proof (D fc F); lra|]. pose proof (D wp ltac:(lra)). lra. }
  assert (I : 0 < / (te - r)) by (apply Rinv_0_lt_compat; lra).
  assert (HS : 0 < (t - r) / (te - r) <= 1).
  { unfold Rdiv. split; [nra|]. apply Rmult_le_reg_r with (te - r); [lra|]. rewrite Rmult_assoc, Rinv_l by lra. lra. }
  pose proof (theta_inverse s r te a n m 1 t V ltac:(lra)) as T. rewrite (Se_of_theta_is s r te a n m 1) in T by assumption. rewrite (h_of_Se_is s r te a n m 1) in T by assumption.
  match type of T with theta_of_h s (Fin ?h) = _ => set (h5 := h) in * end.
  assert (P : 0 <= h5) by (unfold h5; apply Rmult_le_pos; [left; apply Rinv_0_lt_compat; assumption|apply pw_nonneg]).
  rewrite (theta_of_h_is s r te a n m 1) in T by assumption. injection T as T. exists h5. split; [|exact T].
  destruct (Rle_lt_or_eq_dec 0 h5 P) as [|E0]; [assumption|exfalso]. rewrite <- E0 in T.
  pose proof (retention_bounds s r te a n m 1 0 V (Rle_refl 0)) as (x & Ex & _ & Hz & _). rewrite (theta_of_h_is s r te a n m 1) in Ex by (try assumption; lra). injection Ex as <-. specialize (Hz eq_refl). lra.
Qed.

(** Consequences: full demand at head 0, half at [h50], decreasing in the head. *)
Theorem demand_shape : forall pet dt h50, 0 < h50 -> 0 <= pet * dt ->
  reduced_demand pet dt 0 h50 = pet * dt /\ reduced_demand pet dt h50 h50 = pet * dt / 2 /\
  forall p q, 0 <= p <= q -> reduced_demand pet dt q h50 <= reduced_demand pet dt p h50.
Proof.
  intros pet dt h50 H D. unfold reduced_demand. split; [field; lra|]. split; [field; lra|]. intros p q Hpq.
  assert (I : 0 < / h50) by (apply Rinv_0_lt_compat; assumption). assert (0 <= p / h50 <= q / h50) by (unfold Rdiv; nra).
  pose proof (pow_incr (p / h50) (q / h50) 3 ltac:(lra)). pose proof (pow_le (p / h50) 3 ltac:(lra)).
  unfold Rdiv. apply Rmult_le_compat_l; [assumption|]. apply Rinv_le_contravar; lra.
Qed.
End Exactly.
