(** The integration mode of the capillary drive against the integral. *)

From Coq Require Import Reals Lra ZArith Bool List Lia.
From Coquelicot Require Import Coquelicot.
From Verif Require Import Outcome Dbl Exact Types ListOps Soil Lib Spec_Common Spec_Soil Spec_Geff Pf_Dbl Pf_Pow Pf_Soil Pf_SoilAny Pf_Geff.
Import ListNotations.
Open Scope R_scope.

(** ** Continuity *)
Lemma pw_cont : forall b x, 0 < b -> continuity_pt (fun x => pw x b) x.
Proof.
  intros b x Hb. destruct (Rtotal_order x 0) as [L|[->|L]].
  - apply (continuity_pt_ext_loc (fun _ => 0)); [|apply continuity_pt_const; intros ? ?; reflexivity].
    assert (Q : 0 < - x) by lra. exists (mkposreal _ Q). intros y Hy. apply Rabs_def2 in Hy. cbn in Hy. unfold minus, plus, opp in Hy; cbn in Hy. unfold pw. destruct (Rlt_dec 0 y); [lra|reflexivity].
  - intros eps He. exists (Rpower eps (/ b)). split; [apply Rpower_gt0|]. intros y [_ Hy]. cbn in Hy |- *. unfold R_dist in *. rewrite pw_0, Rminus_0_r in *.
    unfold pw. destruct (Rlt_dec 0 y) as [Y|Y]; [|rewrite Rabs_R0; exact He].
    rewrite Rabs_right in Hy by lra. rewrite Rabs_right by (left; apply Rpower_gt0).
    replace eps with (Rpower (Rpower eps (/ b)) b).
    + apply Rpower_lt_l; assumption.
    + rewrite Rpower_mult, Rinv_l by lra. apply Rpower_1. exact He.
  - apply (continuity_pt_ext_loc (fun x => Rpower x b)).
    + exists (mkposreal _ L). intros y Hy. apply Rabs_def2 in Hy. cbn in Hy. unfold minus, plus, opp in Hy; cbn in Hy. symmetry. apply pw_pos. lra.
    + apply (cont_Rpower (fun x => x)); [apply derivable_continuous_pt, derivable_pt_id|exact L].
Qed.

Lemma Se_cont : forall a n m h, 0 < n -> continuity_pt (vg_Se a n m) h.
Proof.
  intros a n m h Hn. unfold vg_Se. apply (cont_Rpower (fun h => 1 + pw (a * h) n)).
  - apply (continuity_pt_plus (fun _ => 1)); [apply continuity_pt_const; intros ? ?; reflexivity|].
    apply (continuity_pt_comp (fun h => a * h) (fun x => pw x n)); [apply (continuity_pt_scal (fun h => h)), derivable_continuous_pt, derivable_pt_id|apply pw_cont; assumption].
  - pose proof (pw_nonneg (a * h) n). lra.
Qed.

Lemma K_cont : forall a n m h, 0 < n -> 0 < m -> continuity_pt (relative_K a n m) h.
Proof.
  intros a n m h Hn Hm. unfold relative_K, vg_K. assert (0 < / m) by (apply Rinv_0_lt_compat; assumption). pose proof (Se_cont a n m h Hn) as CS.
  assert (C1 : continuity_pt (fun h => 1 - pw (1 - pw (vg_Se a n m h) (/ m)) m) h).
  { apply (continuity_pt_minus (fun _ => 1)); [apply continuity_pt_const; intros ? ?; reflexivity|].
    apply (continuity_pt_comp (fun h => 1 - pw (vg_Se a n m h) (/ m)) (fun x => pw x m)); [|apply pw_cont; assumption].
    apply (continuity_pt_minus (fun _ => 1)); [apply continuity_pt_const; intros ? ?; reflexivity|].
    apply (continuity_pt_comp (vg_Se a n m) (fun x => pw x (/ m))); [assumption|apply pw_cont; assumption]. }
  apply (continuity_pt_mult (fun h => 1 * sqrt (vg_Se a n m h)) (fun h => (1 - pw (1 - pw (vg_Se a n m h) (/ m)) m) ^ 2)).
  - apply (continuity_pt_scal (fun h => sqrt (vg_Se a n m h))). apply (continuity_pt_comp (vg_Se a n m) sqrt); [assumption|]. apply continuity_pt_sqrt. unfold vg_Se. left. apply Rpower_gt0.
  - cbn [pow]. apply (continuity_pt_mult (fun h => 1 - pw (1 - pw (vg_Se a n m h) (/ m)) m) (fun h => (1 - pw (1 - pw (vg_Se a n m h) (/ m)) m) * 1)); [assumption|].
    apply (continuity_pt_mult (fun h => 1 - pw (1 - pw (vg_Se a n m h) (/ m)) m) (fun _ => 1)); [assumption|]. apply continuity_pt_const; intros ? ?; reflexivity.
Qed.

Theorem drive_exists : forall a n m hf hi, 0 < n -> 0 < m -> exists I, drive a n m hf hi I.
Proof.
  intros a n m hf hi Hn Hm. apply (ex_RInt_continuous (V := R_CompleteNormedModule) (relative_K a n m) hf hi). intros z _. apply continuity_pt_filterlim. apply K_cont; assumption.
Qed.

Definition area (a n m h : R) : R := RInt (relative_K a n m) 0 h.
Lemma area_integral : forall a n m x y, 0 < n -> 0 < m -> drive a n m x y (area a n m y - area a n m x).
Proof.
  intros a n m x y Hn Hm. assert (E : forall u v, ex_RInt (relative_K a n m) u v) by (intros; apply drive_exists; assumption).
  assert (A : forall h, is_RInt (relative_K a n m) 0 h (area a n m h)) by (intro h; exact (RInt_correct (V := R_CompleteNormedModule) (relative_K a n m) 0 h (E 0 h))).
  pose proof (is_RInt_Chasles (V := R_NormedModule) (relative_K a n m) x 0 y _ _ (is_RInt_swap (V := R_NormedModule) _ _ _ _ (A x)) (A y)) as Q.
  unfold plus, opp in Q. cbn in Q. unfold drive. replace (area a n m y - area a n m x) with (- area a n m x + area a n m y) by ring. exact Q.
Qed.
Lemma area_bounds : forall a n m x y, 0 < a -> 0 < n -> 0 < m -> 0 <= x <= y ->
  relative_K a n m y * (y - x) <= area a n m y - area a n m x <= relative_K a n m x * (y - x).
Proof.
  intros a n m x y Ha Hn Hm [H0 Hxy]. pose proof (area_integral a n m x y Hn Hm) as A. split.
  - apply (is_RInt_le (fun _ => relative_K a n m y) (relative_K a n m) x y); [assumption| |exact A|].
    + replace (relative_K a n m y * (y - x)) with (scal (y - x) (relative_K a n m y)) by (unfold scal; cbn; unfold mult; cbn; ring). apply (is_RInt_const (V := R_NormedModule)).
    + intros h Hh. apply K_mono_h; lra.
  - apply (is_RInt_le (relative_K a n m) (fun _ => relative_K a n m x) x y); [assumption|exact A| |].
    + replace (relative_K a n m x * (y - x)) with (scal (y - x) (relative_K a n m x)) by (unfold scal; cbn; unfold mult; cbn; ring). apply (is_RInt_const (V := R_NormedModule)).
    + intros h Hh. apply K_mono_h; lra.
Qed.
Lemma drive_area : forall a n m hf hi I, 0 < n -> 0 < m -> drive a n m hf hi I -> I = area a n m hi - area a n m hf.
Proof. intros a n m hf hi I Hn Hm D. rewrite <- (is_RInt_unique (V := R_CompleteNormedModule) _ _ _ _ D). apply (is_RInt_unique (V := R_CompleteNormedModule)). apply area_integral; assumption. Qed.

(** ** The loop *)
Section Exactly.
Local Existing Instance exact.

Lemma scale_K : forall ks m S, vg_K ks m S = ks * vg_K 1 m S.
Proof. intros. unfold vg_K. ring. Qed.

(** Conductivities that the code computes. *)
Lemma Kh_bounds : forall ks a n m h, 0 < ks -> 0 < a -> 0 < n -> 0 < m -> 0 <= h -> ks * relative_K a n m h <= Kh ks a n m h <= ks.
Proof.
  intros ks a n m h Hk Ha Hn Hm Hh. unfold relative_K. rewrite <- scale_K. pose proof (Se_h_range a n m h Ha Hn Hm Hh) as Q.
  pose proof (vg_K_range ks m (vg_Se a n m h) ltac:(lra) Hm ltac:(lra)). unfold Kh. destruct (Rlt_dec _ _); lra.
Qed.
Lemma Kh_far : forall ks a n m h, 1 / 10000000000 <= h -> Kh ks a n m h = ks * relative_K a n m h.
Proof. intros ks a n m h H. unfold Kh, relative_K. rewrite <- scale_K, Rabs_right by lra. destruct (Rlt_dec _ _); [lra|reflexivity]. Qed.
Lemma Kh_mono : forall ks a n m h h', 0 < ks -> 0 < a -> 0 < n -> 0 < m -> 0 <= h -> h <= h' -> Kh ks a n m h' <= Kh ks a n m h.
Proof.
  intros ks a n m h h' Hk Ha Hn Hm Hh L. unfold Kh. rewrite !Rabs_right by lra. destruct (Rlt_dec h' _); destruct (Rlt_dec h _); try lra.
  - pose proof (Se_h_range a n m h' Ha Hn Hm ltac:(lra)) as Q. pose proof (vg_K_range ks m (vg_Se a n m h') ltac:(lra) Hm ltac:(lra)). lra.
  - apply K_mono_h; assumption.
Qed.

Definition next_dh (K1 K2 dh : R) : R := if Rlt_dec (2 / 100) ((K1 - K2) / K2) then dh / 2 else dh * 10.
Lemma loop_step : forall s r e a n m k ks j hi h2 dh K1 G, vg_soil s r e a n m k -> 0 < ks -> 0 <= h2 -> h2 < hi ->
  let K2 := Kh ks a n m h2 in let dh' := next_dh K1 K2 dh in
  geff_loop (S j) s (Fin ks) (Fin hi) (Fin h2) (Fin dh) (Fin K1) (Fin G)
  = geff_loop j s (Fin ks) (Fin hi) (Fin (h2 + dh')) (Fin dh') (Fin K2) (Fin (G + (K1 + K2) * dh' / 2)).
Proof.
  intros s r e a n m k ks j hi h2 dh K1 G V Hks Hh Hlt K2 dh'. cbn [geff_loop]. rewrite ltb_t by assumption.
  destruct (Se_from_h_is s r e a n m k h2 V Hh) as (S & ES & HS & EK). rewrite ES. pose proof V as V'. destruct V'. rewrite vg_m.
  rewrite K_of_Se_is by lra. rewrite EK. pose proof (Kh_pos ks a n m h2 Hks vg_a0 ltac:(lra) ltac:(lra) Hh) as KP.
  fold K2 in KP |- *. change (lit (2 / 100)) with (Fin (2 / 100)). change (lit (1 / 2)) with (Fin (1 / 2)). change (lit 10) with (Fin 10). change (lit 2) with (Fin 2).
  cbn [dsub rnd exact]. rewrite div_fin by lra. unfold dgtb, dh', next_dh.
  destruct (Rlt_dec (2 / 100) ((K1 - K2) / K2)) as [L|L].
  - rewrite ltb_t by assumption. cbn [dmul dadd rnd exact]. rewrite div_fin by lra. cbn [dmul dadd rnd exact]. replace (dh * (1 / 2)) with (dh / 2) by field. reflexivity.
  - rewrite ltb_f by lra. cbn [dmul dadd rnd exact]. rewrite div_fin by lra. reflexivity.
Qed.
Lemma next_pos : forall K1 K2 dh, 0 < dh -> 0 < next_dh K1 K2 dh <= 10 * dh.
Proof. intros. unfold next_dh. destruct (Rlt_dec _ _); lra. Qed.
Lemma next_grow : forall K1 K2 dh, 0 < K2 -> K1 <= 102 / 100 * K2 -> next_dh K1 K2 dh = dh * 10.
Proof.
  intros K1 K2 dh P L. unfold next_dh. destruct (Rlt_dec _ _) as [Q|Q]; [|reflexivity]. exfalso. apply (Rmult_lt_compat_r K2) in Q; [|assumption].
  unfold Rdiv in Q. rewrite (Rmult_assoc (K1 - K2)), Rinv_l in Q by lra. lra.
Qed.

(** From the second trapezoid on every contribution is at least the area to the right of its node. *)
Lemma loop_lower : forall s r e a n m k ks hi, vg_soil s r e a n m k -> 0 < ks -> forall j h1 dh G G', 0 <= h1 -> 0 < dh ->
  geff_loop j s (Fin ks) (Fin hi) (Fin (h1 + dh)) (Fin dh) (Fin (Kh ks a n m h1)) (Fin G) = Ok (Fin G') ->
  0 <= hi -> G + ks * (area a n m hi - area a n m (h1 + dh)) <= G'.
Proof.
  intros s r e a n m k ks hi V Hks. pose proof V as V'. destruct V'. induction j as [|j IH]; intros h1 dh G G' H1 Hd E Hhi; [discriminate|].
  destruct (Rlt_dec (h1 + dh) hi) as [L|L].
  - rewrite (loop_step s r e a n m k) in E by (try assumption; lra). cbv zeta in E. set (K2 := Kh ks a n m (h1 + dh)) in *. set (d := next_dh (Kh ks a n m h1) K2 dh) in *.
    pose proof (next_pos (Kh ks a n m h1) K2 dh Hd) as Hn'. fold d in Hn'. apply IH in E; [|lra|lra|assumption].
    pose proof (Kh_mono ks a n m h1 (h1 + dh) Hks vg_a0 ltac:(lra) ltac:(lra) H1 ltac:(lra)) as M. fold K2 in M.
    pose proof (Kh_bounds ks a n m (h1 + dh) Hks vg_a0 ltac:(lra) ltac:(lra) ltac:(lra)) as B. fold K2 in B.
    pose proof (area_bounds a n m (h1 + dh) (h1 + dh + d) vg_a0 ltac:(lra) ltac:(lra) ltac:(lra)) as A.
    replace (h1 + dh + d - (h1 + dh)) with d in A by ring. set (k2 := relative_K a n m (h1 + dh)) in *.
    assert (ks * (area a n m (h1 + dh + d) - area a n m (h1 + dh)) <= ks * (k2 * d)) by (apply Rmult_le_compat_l; lra).
    assert (ks * k2 * d <= (Kh ks a n m h1 + K2) * d / 2) by nra. lra.
  - cbn [geff_loop] in E. rewrite ltb_f in E by lra. apply Ok_inj in E. assert (G = G') as <- by congruence.
    pose proof (area_bounds a n m hi (h1 + dh) vg_a0 ltac:(lra) ltac:(lra) ltac:(lra)) as A.
    assert (0 <= relative_K a n m (h1 + dh)). { pose proof (Se_h_range a n m (h1 + dh) vg_a0 ltac:(lra) ltac:(lra) ltac:(lra)). apply vg_K_range; lra. }
    assert (0 <= relative_K a n m (h1 + dh) * (h1 + dh - hi)) by (apply Rmult_le_pos; lra).
    assert (0 <= ks * (area a n m (h1 + dh) - area a n m hi)) by (apply Rmult_le_pos; lra). lra.
Qed.

Lemma loop_upper : forall s r e a n m k ks hi hf U, vg_soil s r e a n m k -> 0 < ks -> 0 <= U -> (forall h, hf <= h -> 0 <= h -> Kh ks a n m h <= U) ->
  forall j h1 dh K1 G G', 0 <= hf -> hf <= h1 -> 0 < dh -> K1 <= U -> h1 + dh < hi ->
  geff_loop j s (Fin ks) (Fin hi) (Fin (h1 + dh)) (Fin dh) (Fin K1) (Fin G) = Ok (Fin G') ->
  G' <= G + U * (hi - (h1 + dh) + 10 * (hi - hf)).
Proof.
  intros s r e a n m k ks hi hf U V Hks HU HK. pose proof V as V'. destruct V'. induction j as [|j IH]; intros h1 dh K1 G G' Hf H1 Hd HK1 L E; [discriminate|].
  rewrite (loop_step s r e a n m k) in E by (try assumption; lra). cbv zeta in E. set (K2 := Kh ks a n m (h1 + dh)) in *. set (d := next_dh K1 K2 dh) in *.
  pose proof (next_pos K1 K2 dh Hd) as Hn'. fold d in Hn'. assert (HK2 : K2 <= U) by (apply HK; lra).
  assert (T : (K1 + K2) * d / 2 <= U * d) by nra.
  destruct (Rlt_dec (h1 + dh + d) hi) as [L2|L2].
  - apply IH in E; [|lra|lra|lra|assumption|lra]. lra.
  - destruct j as [|j]; [discriminate|]. cbn [geff_loop] in E. rewrite ltb_f in E by lra. apply Ok_inj in E. assert (EG : G + (K1 + K2) * d / 2 = G') by congruence. rewrite <- EG. clear E EG.
    assert (U * d <= U * (10 * (hi - hf))) by (apply Rmult_le_compat_l; lra).
    assert (0 <= U * (hi - (h1 + dh))) by (apply Rmult_le_pos; lra). lra.
Qed.

(** ** calc_Geff *)
Lemma Se_at : forall s r e a n m k h, vg_soil s r e a n m k -> 0 <= h -> Se_of_theta s (Fin (vg_theta r e a n m h)) = Fin (vg_Se a n m h).
Proof. intros s r e a n m k h V Hh. rewrite (Se_of_theta_is s r e a n m k) by assumption. destruct V. f_equal. unfold vg_theta. field. lra. Qed.
Lemma h_at : forall s r e a n m k h, vg_soil s r e a n m k -> 0 <= h -> h_of_Se s (Fin (vg_Se a n m h)) = Fin h.
Proof. intros s r e a n m k h V Hh. rewrite <- (Se_at s r e a n m k h V Hh), <- (theta_of_h_is s r e a n m k h V Hh). apply (h_inverse s r e a n m k); assumption. Qed.

Lemma geff_unfold : forall (cfg : Cfg) s r e a n m k ks hf hi nint, vg_soil s r e a n m k -> 0 < ks -> 0 <= hf -> 0 <= hi -> (1 <= nint)%Z ->
  let d0 := (hi - hf) / IZR nint * (1 / 100) in
  calc_Geff false (Fin (vg_theta r e a n m hi)) (Fin (vg_theta r e a n m hf)) s (Fin ks) nint
  = (G <- geff_loop fuel s (Fin ks) (Fin hi) (Fin (hf + d0)) (Fin d0) (Fin (ks * relative_K a n m hi)) (Fin 0) ;; Ok (dabs (G / Fin ks)%d)).
Proof.
  intros cfg s r e a n m k ks hf hi nint V Hks Hf Hi Hn d0. unfold calc_Geff. cbn [negb]. rewrite !(Se_at s r e a n m k), !(h_at s r e a n m k) by assumption.
  pose proof V as V'. destruct V'. rewrite vg_m. pose proof (Se_h_range a n m hi vg_a0 ltac:(lra) ltac:(lra) Hi). rewrite K_of_Se_is by lra. rewrite scale_K.
  apply IZR_le in Hn. unfold dofZ. change (lit (1 / 100)) with (Fin (1 / 100)). cbn [dsub rnd exact]. rewrite div_fin by lra. reflexivity.
Qed.

Lemma first_dh : forall hf hi nint, hf < hi -> (1 <= nint)%Z -> let d0 := (hi - hf) / IZR nint * (1 / 100) in 0 < d0 /\ 100 * d0 <= hi - hf /\ d0 = (hi - hf) / (100 * IZR nint).
Proof.
  intros hf hi nint H Hn d0. apply IZR_le in Hn. assert (I : 0 < / IZR nint <= 1). { split; [apply Rinv_0_lt_compat; lra|]. rewrite <- Rinv_1. apply Rinv_le_contravar; lra. }
  unfold d0, Rdiv. split; [nra|]. split; [nra|]. field. lra.
Qed.

Theorem geff_integral_bounds : forall (cfg : Cfg) s r e a n m k ks hf hi nint I g, vg_soil s r e a n m k -> 0 < ks -> 0 <= hf < hi -> (1 <= nint)%Z -> drive a n m hf hi I ->
  calc_Geff false (Fin (vg_theta r e a n m hi)) (Fin (vg_theta r e a n m hf)) s (Fin ks) nint = Ok g ->
  exists x, g = Fin x /\ I - 6 * ((hi - hf) / (100 * IZR nint)) <= x <= 11 * (hi - hf) /\
    (1 / 10000000000 <= hf -> x <= 11 * (hi - hf) * relative_K a n m hf).
Proof.
  intros cfg s r e a n m k ks hf hi nint I g V Hks [Hf Hi] Hn D E. pose proof V as V'. destruct V'. apply drive_area in D; [|lra|lra].
  rewrite (geff_unfold cfg s r e a n m k) in E by (try assumption; lra). cbv zeta in E. destruct (first_dh hf hi nint Hi Hn) as (D0 & D1 & D2).
  rewrite <- D2. set (d0 := (hi - hf) / IZR nint * (1 / 100)) in *. clearbody d0. clear D2. bind_inv E G0 EG. apply Ok_inj in E. subst g.
  set (kr := relative_K a n m) in *.
  assert (KP : forall h, 0 <= h -> 0 <= kr h <= 1). { intros h Hh. pose proof (Se_h_range a n m h vg_a0 ltac:(lra) ltac:(lra) Hh). apply vg_K_range; lra. }
  assert (F : exists G, G0 = Fin G /\ ks * (area a n m hi - area a n m hf) - 6 * (ks * d0) <= G /\
     forall U, 0 <= U -> (forall h, hf <= h -> 0 <= h -> Kh ks a n m h <= U) -> G <= U * (11 * (hi - hf))).
  { assert (Fi : exists G, G0 = Fin G).
    { clear - EG V Hks Hf D0. assert (Q0 : forall j k1 g0 d0 x, 0 <= x -> 0 < d0 -> geff_loop j s (Fin ks) (Fin hi) (Fin x) (Fin d0) (Fin k1) (Fin g0) = Ok G0 -> exists G, G0 = Fin G); [|refine (Q0 _ _ _ _ _ _ D0 EG); lra]. clear - V Hks.
      induction j as [|j IH]; intros k1 g0 d0 x Hx D0 EG; [discriminate|]. destruct (Rlt_dec x hi) as [L|L].
      - rewrite (loop_step s r e a n m k) in EG by assumption. cbv zeta in EG. set (d := next_dh _ _ _) in *. pose proof (next_pos k1 (Kh ks a n m x) d0 D0) as Q. fold d in Q. refine (IH _ _ _ _ _ _ EG); lra.
      - cbn [geff_loop] in EG. rewrite ltb_f in EG by lra. apply Ok_inj in EG. eauto. }
    destruct Fi as (G & ->). exists G. split; [reflexivity|]. destruct fuel as [|j]; [discriminate|].
    pose proof (Kh_bounds ks a n m (hf + d0) Hks vg_a0 ltac:(lra) ltac:(lra) ltac:(lra)) as B. fold kr in B.
    assert (MK : kr hi <= kr (hf + d0)) by (apply K_mono_h; lra).
    split.
    - rewrite (loop_step s r e a n m k) in EG by (try assumption; lra). cbv zeta in EG. set (K2 := Kh ks a n m (hf + d0)) in *.
      pose proof (Kh_pos ks a n m (hf + d0) Hks vg_a0 ltac:(lra) ltac:(lra) ltac:(lra)) as P2. fold K2 in P2.
      rewrite next_grow in EG; [|assumption|nra]. apply (loop_lower s r e a n m k ks hi V Hks) in EG; [|lra|lra|lra].
      pose proof (area_bounds a n m (hf + d0) (hf + d0 + d0 * 10) vg_a0 ltac:(lra) ltac:(lra) ltac:(lra)) as A1. fold kr in A1. replace (hf + d0 + d0 * 10 - (hf + d0)) with (d0 * 10) in A1 by ring.
      pose proof (area_bounds a n m hf (hf + d0) vg_a0 ltac:(lra) ltac:(lra) ltac:(lra)) as A2. fold kr in A2. replace (hf + d0 - hf) with d0 in A2 by ring.
      pose proof (KP hf ltac:(lra)) as Q1. pose proof (KP (hf + d0) ltac:(lra)) as Q2. pose proof (KP hi ltac:(lra)) as Q3.
      assert (X1 : area a n m (hf + d0 + d0 * 10) - area a n m (hf + d0) <= kr (hf + d0) * 10 * d0) by lra.
      assert (X2 : area a n m (hf + d0) - area a n m hf <= d0) by nra.
      assert (X3 : ks * (area a n m hi - area a n m hf) = ks * (area a n m hi - area a n m (hf + d0 + d0 * 10)) + ks * (area a n m (hf + d0 + d0 * 10) - area a n m (hf + d0)) + ks * (area a n m (hf + d0) - area a n m hf)) by ring.
      assert (X4 : ks * (area a n m (hf + d0 + d0 * 10) - area a n m (hf + d0)) <= ks * (kr (hf + d0) * 10 * d0)) by (apply Rmult_le_compat_l; lra).
      assert (X5 : ks * (area a n m (hf + d0) - area a n m hf) <= ks * d0) by (apply Rmult_le_compat_l; lra).
      assert (X6 : ks * kr (hf + d0) * (5 * d0) <= (ks * kr hi + K2) * (d0 * 10) / 2).
      { assert (0 <= ks * kr hi) by nra. assert (ks * kr (hf + d0) <= ks * kr hi + K2) by lra. nra. }
      assert (X7 : ks * kr (hf + d0) * (5 * d0) <= ks * (5 * d0)). { apply Rmult_le_compat_r; [lra|]. nra. }
      lra.
    - intros U HU HK. assert (K1U : ks * kr hi <= U). { apply Rle_trans with (Kh ks a n m (hf + d0)); [nra|apply HK; lra]. }
      assert (EG' : geff_loop (S j) s (Fin ks) (Fin hi) (Fin (hf + d0)) (Fin d0) (Fin (ks * kr hi)) (Fin 0) = Ok (Fin G)) by exact EG.
      apply (loop_upper s r e a n m k ks hi hf U V Hks HU HK) in EG'; [|lra|lra|lra|exact K1U|lra]. rewrite Rplus_0_l in EG'.
      apply Rle_trans with (1 := EG'). apply Rmult_le_compat_l; lra. }
  destruct F as (G & -> & FL & FU). rewrite div_fin by lra. cbn [dabs].
  assert (Sc : forall x y, ks * x <= y -> x <= y / ks). { intros x y Q. apply Rmult_le_reg_l with ks; [assumption|]. unfold Rdiv. rewrite (Rmult_comm y), <- Rmult_assoc, Rinv_r by lra. lra. }
  assert (Sd : forall x y, x <= ks * y -> x / ks <= y). { intros x y Q. apply Rmult_le_reg_l with ks; [assumption|]. unfold Rdiv. rewrite (Rmult_comm x), <- Rmult_assoc, Rinv_r by lra. lra. }
  assert (G0 : 0 <= G / ks).
  { apply Sc. rewrite Rmult_0_r. assert (0 <= area a n m hi - area a n m hf). { pose proof (area_bounds a n m hf hi vg_a0 ltac:(lra) ltac:(lra) ltac:(lra)) as A. pose proof (KP hi ltac:(lra)) as Q. unfold kr in Q. nra. }
    destruct (Rle_dec 0 G) as [|Ng]; [assumption|exfalso].
    (* contributions are positive *)
    clear - EG V Hks Hf D0 Hi KP Ng vg_a0 vg_n1 vg_m01.
    assert (Pos : forall j x d k1 g0, 0 <= x -> 0 < d -> 0 <= k1 -> 0 <= g0 -> geff_loop j s (Fin ks) (Fin hi) (Fin x) (Fin d) (Fin k1) (Fin g0) = Ok (Fin G) -> 0 <= G).
    { induction j as [|j IH]; intros x d k1 g0 X1 X2 X3 X4 E; [discriminate|]. destruct (Rlt_dec x hi) as [L|L].
      - rewrite (loop_step s r e a n m k) in E by assumption. cbv zeta in E. pose proof (next_pos k1 (Kh ks a n m x) d X2) as Q. pose proof (Kh_pos ks a n m x Hks vg_a0 ltac:(lra) ltac:(lra) X1) as P.
        revert E. apply IH; try lra. set (dd := next_dh _ _ _) in *. nra.
      - cbn [geff_loop] in E. rewrite ltb_f in E by lra. apply Ok_inj in E. assert (g0 = G) as <- by congruence. assumption. }
    apply Ng. refine (Pos _ _ _ _ _ _ D0 _ (Rle_refl 0) EG); [lra|]. pose proof (KP hi ltac:(lra)). nra. }
  rewrite Rabs_right by lra. exists (G / ks). split; [reflexivity|]. split; [split|].
  - rewrite D. apply Sc. lra.
  - apply Sd. apply (FU ks); [lra|]. intros h _ Hh. apply Kh_bounds; try assumption; lra.
  - intro Far. apply Sd. rewrite <- Rmult_assoc, (Rmult_comm (ks * _)), <- Rmult_assoc. rewrite (Rmult_comm _ ks). apply (FU (ks * kr hf)).
    + pose proof (KP hf ltac:(lra)). nra.
    + intros h H1 H2. rewrite Kh_far by lra. apply Rmult_le_compat_l; [lra|]. apply K_mono_h; lra.
Qed.

(** ** Nearly constant conductivity *)
Theorem geff_nine_times : forall (cfg : Cfg) s r e a n m k ks hf hi I, vg_soil s r e a n m k -> 0 < ks -> 1 / 10000000000 <= hf < hi -> drive a n m hf hi I ->
  relative_K a n m hf <= 102 / 100 * relative_K a n m hi -> (6 <= fuel)%nat ->
  exists x, calc_Geff false (Fin (vg_theta r e a n m hi)) (Fin (vg_theta r e a n m hf)) s (Fin ks) 120 = Ok (Fin x) /\ 0 < I /\ 9 * I <= x.
Proof.
  intros cfg s r e a n m k ks hf hi I V Hks [Hf Hi] D C Fu. pose proof V as V'. destruct V'. apply drive_area in D; [|lra|lra].
  rewrite (geff_unfold cfg s r e a n m k) by (try assumption; try lia; lra). cbv zeta. destruct (first_dh hf hi 120 Hi ltac:(lia)) as (D0 & _ & D2).
  set (d0 := (hi - hf) / 120 * (1 / 100)) in *. assert (Ed : hi = hf + 12000 * d0) by (rewrite D2; field). clearbody d0. clear D2.
  set (kr := relative_K a n m) in *.
  assert (KI : 0 < kr hi). { pose proof (Kh_pos 1 a n m hi Rlt_0_1 vg_a0 ltac:(lra) ltac:(lra) ltac:(lra)) as P. rewrite Kh_far in P by lra. fold kr in P. lra. }
  assert (KB : forall h, hf <= h <= hi -> kr hi <= kr h <= 102 / 100 * kr hi).
  { intros h Hh. split; [apply K_mono_h; lra|]. apply Rle_trans with (kr hf); [apply K_mono_h; lra|assumption]. }
  (* one step *)
  assert (St : forall j x d K1 g, hf <= x -> x < hi -> 0 < d -> ks * kr hi <= K1 <= ks * (102 / 100 * kr hi) ->
     exists K2 g', geff_loop (S j) s (Fin ks) (Fin hi) (Fin x) (Fin d) (Fin K1) (Fin g) = geff_loop j s (Fin ks) (Fin hi) (Fin (x + d * 10)) (Fin (d * 10)) (Fin K2) (Fin g') /\
       ks * kr hi <= K2 <= ks * (102 / 100 * kr hi) /\ g + ks * kr hi * (d * 10) <= g').
  { intros j x d K1 g X1 X2 Dd BK. exists (ks * kr x), (g + (K1 + ks * kr x) * (d * 10) / 2). pose proof (KB x ltac:(lra)) as B.
    assert (P : ks * kr hi <= ks * kr x <= ks * (102 / 100 * kr hi)) by (split; apply Rmult_le_compat_l; lra). assert (P0 : 0 < ks * kr hi) by (apply Rmult_lt_0_compat; assumption).
    split; [|split; [exact P|]].
    - rewrite (loop_step s r e a n m k) by (try assumption; lra). cbv zeta. rewrite Kh_far by lra. fold kr. rewrite next_grow; [reflexivity|lra|]. lra.
    - assert (ks * kr hi * (d * 10) <= (K1 + ks * kr x) / 2 * (d * 10)) by (apply Rmult_le_compat_r; lra). lra. }
  pose proof (KB hi ltac:(lra)) as Bhi. assert (K0 : ks * kr hi <= ks * kr hi <= ks * (102 / 100 * kr hi)) by (split; [lra|apply Rmult_le_compat_l; lra]).
  destruct fuel as [|[|[|[|[|[|j]]]]]]; try lia.
  destruct (St (S (S (S (S (S j))))) (hf + d0) d0 (ks * kr hi) 0 ltac:(lra) ltac:(lra) D0 K0) as (K1 & g1 & -> & B1 & L1).
  destruct (St (S (S (S (S j)))) (hf + d0 + d0 * 10) (d0 * 10) K1 g1 ltac:(lra) ltac:(lra) ltac:(lra) B1) as (K2 & g2 & -> & B2 & L2).
  destruct (St (S (S (S j))) (hf + d0 + d0 * 10 + d0 * 10 * 10) (d0 * 10 * 10) K2 g2 ltac:(lra) ltac:(lra) ltac:(lra) B2) as (K3 & g3 & -> & B3 & L3).
  destruct (St (S (S j)) (hf + d0 + d0 * 10 + d0 * 10 * 10 + d0 * 10 * 10 * 10) (d0 * 10 * 10 * 10) K3 g3 ltac:(lra) ltac:(lra) ltac:(lra) B3) as (K4 & g4 & -> & B4 & L4).
  destruct (St (S j) (hf + d0 + d0 * 10 + d0 * 10 * 10 + d0 * 10 * 10 * 10 + d0 * 10 * 10 * 10 * 10) (d0 * 10 * 10 * 10 * 10) K4 g4 ltac:(lra) ltac:(lra) ltac:(lra) B4) as (K5 & g5 & -> & B5 & L5).
  rewrite geff_loop_end by (try lia; lra). cbn [bind]. rewrite div_fin by lra. cbn [dabs]. eexists. split; [reflexivity|].
  pose proof (area_bounds a n m hf hi vg_a0 ltac:(lra) ltac:(lra) ltac:(lra)) as A. fold kr in A. split; [nra|].
  assert (Q : ks * kr hi * (111110 * d0) <= g5) by lra.
  apply Rle_trans with (g5 / ks); [|apply Rle_abs]. apply Rmult_le_reg_l with ks; [assumption|]. replace (ks * (g5 / ks)) with g5 by (field; lra).
  apply Rle_trans with (2 := Q). subst I. apply Rle_trans with (ks * (9 * (kr hf * (hi - hf)))); [apply Rmult_le_compat_l; lra|].
  rewrite Rmult_assoc. apply Rmult_le_compat_l; [lra|]. rewrite Ed at 1. replace (hf + 12000 * d0 - hf) with (12000 * d0) by ring. nra.
Qed.

(** ** Closed form *)
Theorem geff_closed_is : forall (cfg : Cfg) t1 t2 s ks nint r e lam pb, s_theta_r s = Fin r -> s_theta_e s = Fin e -> s_lambda s = Fin lam -> s_psib s = Fin pb -> 0 < lam ->
  r < e -> r <= t1 <= e -> r <= t2 -> 
  calc_Geff true (Fin t1) (Fin t2) s ks nint = Ok (Fin (if Rlt_dec t1 e then bc_drive lam pb ((t1 - r) / (e - r)) ((t2 - r) / (e - r)) else bc_suction lam pb)).
Proof.
  intros cfg t1 t2 s ks nint r e lam pb Hr He Hl Hb Hl0 Hre [H1 H1e] H2. unfold calc_Geff, Se_of_theta, calc_Se_from_theta. cbn [negb]. rewrite Hr, He, Hl, Hb.
  change (lit 1) with (Fin 1). change (lit 2) with (Fin 2). change (lit 3) with (Fin 3). cbn [dsub dadd dmul rnd exact]. rewrite !div_fin by lra. cbn [dsub dadd dmul rnd exact].
  assert (I : 0 < / (e - r)) by (apply Rinv_0_lt_compat; lra).
  set (x := (t1 - r) / (e - r)). set (y := (t2 - r) / (e - r)).
  assert (Hx : 0 <= x) by (unfold x, Rdiv; nra). assert (Hy : 0 <= y) by (unfold y, Rdiv; nra).
  assert (Hex : 0 < 3 + 1 / lam). { assert (0 < / lam) by (apply Rinv_0_lt_compat; lra). lra. }
  unfold bc_drive, bc_suction. set (ex := 3 + 1 / lam) in *. rewrite !pow_pw by lra. cbn [dsub dmul rnd exact].
  assert (EH : pb * ((2 + 3 * lam) / (1 + 3 * lam)) = pb * (2 + 3 * lam) / (1 + 3 * lam)) by (field; lra). rewrite EH.
  destruct (Rlt_dec t1 e) as [L|L].
  - assert (X1 : x < 1). { unfold x. apply Rmult_lt_reg_r with (e - r); [lra|]. unfold Rdiv. rewrite Rmult_assoc, Rinv_l by lra. lra. }
    pose proof (pw_lt x 1 ex Hx X1 Hex) as P. rewrite pw_1 in P. rewrite div_fin by lra. cbn [disinf disnan]. reflexivity.
  - assert (x = 1) as ->. { unfold x. replace t1 with e by lra. field. lra. } rewrite pw_1. cbn [ddiv]. replace (1 - 1) with 0 by ring. destruct (Req_EM_T 0 0); [|lra].
    unfold inf_sign. repeat destruct (Rlt_dec _ _); repeat destruct (Req_EM_T _ _); reflexivity.
Qed.
End Exactly.
