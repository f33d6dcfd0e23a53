(** The capillary integral ends, whatever the water contents and the conductivity. *)

From Coq Require Import Reals Lra ZArith List Bool Lia.
From Verif Require Import Outcome Dbl Exact Types ListOps Soil Lib Spec_Common Spec_Soil Spec_Fuel Pf_Dbl Pf_Pow Pf_Soil Pf_Geff.
Import ListNotations.
Open Scope R_scope.

Section Exactly.
Local Existing Instance exact.

(** ** Heads *)

Lemma not_int : forall x, 0 < x < 1 -> as_int x = None.
Proof.
  intros x H. unfold as_int. destruct (Req_EM_T (IZR (Int_part x)) x) as [E|]; [|reflexivity]. exfalso.
  assert (0 < Int_part x < 1)%Z by (split; apply lt_IZR; lra). lia.
Qed.

Lemma head_up : forall s r e a n m k Se, vg_soil s r e a n m k -> not_negative (h_of_Se s Se).
Proof.
  intros s r e a n m k Se V. destruct V. unfold h_of_Se, calc_h_from_Se. rewrite vg_a, vg_n, vg_m. set (y := (dpow Se (lit (-1) / Fin m) - lit 1)%d).
  change (lit 1) with (Fin 1). rewrite !div_fin by lra.
  assert (I : 0 < 1 / n < 1). { split; [apply Rdiv_lt_0_compat; lra|]. apply Rmult_lt_reg_r with n; [lra|]. unfold Rdiv. rewrite Rmult_assoc, Rinv_l; lra. }
  assert (J : 0 < 1 / a) by (apply Rdiv_lt_0_compat; lra).
  assert (P : (exists z, dpow y (Fin (1 / n)) = Fin z /\ 0 <= z) \/ dpow y (Fin (1 / n)) = PInf \/ dpow y (Fin (1 / n)) = NaN).
  { unfold dpow. rewrite eqb_f by lra. destruct (y =? Fin 1)%d; [left; exists 1; split; [reflexivity|lra]|]. rewrite (not_int (1 / n) I). destruct (Rlt_dec 0 (1 / n)); [|lra].
    destruct y as [x| | |]; auto. destruct (Rlt_dec 0 x); [left; eexists; split; [reflexivity|left; apply exp_pos]|]. destruct (Req_EM_T x 0); [left; exists 0; split; [reflexivity|lra]|auto]. }
  destruct P as [(z & -> & Hz)|[-> | ->]].
  - change (Fin (1 / a) * Fin z)%d with (Fin (1 / a * z)). apply nn_Fin. apply Rmult_le_pos; lra.
  - unfold dmul, inf_sign. destruct (Rlt_dec 0 (1 / a)); [reflexivity|lra].
  - reflexivity.
Qed.

(** ** The loop *)

Section Loop.
Variables (s : soil) (r e a n m k : R) (ks : dbl).
Hypothesis V : vg_soil s r e a n m k.
(** Conductivity at a head, as the loop computes it. *)
Definition cond (h : R) : dbl := calc_K_from_Se (calc_Se_from_h (Fin h) (s_alpha s) (s_m s) (s_n s)) ks (s_m s).
Definition steep (K1 K2 : dbl) : bool := ((K1 - K2) / K2 >? lit (2 / 100))%d.

Lemma steep_infinite : forall K1 K2, (forall x, K2 <> Fin x) -> steep K1 K2 = false.
Proof.
  intros K1 K2 H. unfold steep. change (lit (2 / 100)) with (Fin (2 / 100)). unfold dgtb.
  destruct K2 as [x| | |]; [destruct (H x eq_refl)| | |]; destruct K1; cbn; try reflexivity; unfold Rltb; destruct (Rlt_dec _ _); reflexivity || lra.
Qed.

Lemma mul_not_fin : forall x y, (forall z, x <> Fin z) -> forall z, (x * y)%d <> Fin z.
Proof.
  intros [x| | |] y H z; [destruct (H x eq_refl)| | |]; destruct y as [y| | |]; cbn; try discriminate; unfold inf_sign; repeat destruct (Rlt_dec _ _); discriminate.
Qed.

Lemma cond_fin : forall h kk, ks = Fin kk -> 0 <= h -> cond h = Fin (Kh kk a n m h).
Proof.
  intros h kk EKS Hh. unfold cond. rewrite EKS. destruct (Se_from_h_is s r e a n m k h V Hh) as (S & -> & HS & EK). pose proof V as V'. destruct V'. rewrite vg_m. rewrite K_of_Se_is by lra. rewrite EK. reflexivity.
Qed.

Lemma Kh_scale : forall kk h, Kh kk a n m h = kk * Kh 1 a n m h.
Proof. intros kk h. unfold Kh. destruct (Rlt_dec _ _); [ring|]. unfold vg_K. ring. Qed.

Lemma near : forall hi, 0 < hi -> exists delta, 0 < delta /\
  (forall h1 h2, 1 / 10000000000 <= h1 -> h1 <= h2 -> h2 <= hi -> h2 - h1 < delta -> steep (cond h1) (cond h2) = false) /\
  (forall h1 h2, 0 <= h1 -> h1 <= h2 -> h2 < 1 / 10000000000 -> steep (cond h1) (cond h2) = false).
Proof.
  intros hi Hhi. destruct ks as [kk| | |] eqn:EK.
  2-4: exists 1; split; [lra|]; split; intros; apply steep_infinite; unfold cond, calc_K_from_Se; rewrite EK; do 2 apply mul_not_fin; discriminate.
  pose proof V as V'. destruct V'.
  destruct (K_step 1 a n m hi ltac:(lra) vg_a0 ltac:(lra) ltac:(lra) Hhi) as (delta & Hd & HD). exists delta. split; [exact Hd|].
  assert (X : forall h1 h2, 0 <= h1 -> 0 <= h2 -> (Kh 1 a n m h1 - Kh 1 a n m h2) / Kh 1 a n m h2 <= 2 / 100 -> steep (cond h1) (cond h2) = false).
  { intros h1 h2 H1 H2 HH. rewrite (cond_fin h1 kk EK H1), (cond_fin h2 kk EK H2). unfold steep, dgtb. change (lit (2 / 100)) with (Fin (2 / 100)). rewrite (Kh_scale kk h1), (Kh_scale kk h2).
    pose proof (Kh_pos 1 a n m h2 ltac:(lra) vg_a0 ltac:(lra) ltac:(lra) H2) as KP. cbn [dsub rnd exact].
    destruct (Req_EM_T kk 0) as [->|NZ].
    - rewrite !Rmult_0_l, Rminus_0_r. cbn [ddiv]. destruct (Req_EM_T 0 0); [|lra]. unfold inf_sign. destruct (Rlt_dec 0 0); [lra|]. reflexivity.
    - rewrite div_fin by (apply Rmult_integral_contrapositive_currified; lra). apply ltb_f. replace ((kk * Kh 1 a n m h1 - kk * Kh 1 a n m h2) / (kk * Kh 1 a n m h2)) with ((Kh 1 a n m h1 - Kh 1 a n m h2) / Kh 1 a n m h2) by (field; lra). exact HH. }
  split; intros h1 h2 A1 A2 A3.
  - intro A4. apply X; [lra|lra|]. apply HD; assumption.
  - apply X; [lra|lra|]. assert (K0 : forall h, 0 <= h -> h < 1 / 10000000000 -> Kh 1 a n m h = 1). { intros h A B. unfold Kh. rewrite Rabs_right by lra. destruct (Rlt_dec _ _); [reflexivity|lra]. }
    rewrite (K0 h1), (K0 h2) by lra. lra.
Qed.

Lemma loop_step : forall j hi h2 dh K1 G, h2 < hi ->
  exists dh' G', geff_loop (Datatypes.S j) s ks (Fin hi) (Fin h2) (Fin dh) K1 G = geff_loop j s ks (Fin hi) (Fin (h2 + dh')) (Fin dh') (cond h2) G' /\
    (dh' = dh * 10 \/ dh' = dh / 2) /\ (steep K1 (cond h2) = false -> dh' = dh * 10).
Proof.
  intros j hi h2 dh K1 G H. cbn [geff_loop]. rewrite ltb_t by assumption. fold (cond h2). cbv zeta. fold (steep K1 (cond h2)). change (lit (1 / 2)) with (Fin (1 / 2)). change (lit 10) with (Fin 10).
  destruct (steep K1 (cond h2)).
  - exists (dh * (1 / 2)). eexists. split; [reflexivity|]. split; [right; lra|discriminate].
  - exists (dh * 10). eexists. split; [reflexivity|]. split; [left; reflexivity|reflexivity].
Qed.

Lemma loop_end : forall j hi h2 dh K1 G, (1 <= j)%nat -> hi <= h2 -> geff_loop j s ks (Fin hi) (Fin h2) dh K1 G = Ok G.
Proof. intros j hi h2 dh K1 G Hj H. destruct j; [lia|]. cbn [geff_loop]. rewrite ltb_f by assumption. reflexivity. Qed.

Lemma loop_ends : forall hi c delta, 0 < hi -> 0 < c -> c <= delta ->
  (forall h1 h2, 1 / 10000000000 <= h1 -> h1 <= h2 -> h2 <= hi -> h2 - h1 < delta -> steep (cond h1) (cond h2) = false) ->
  (forall h1 h2, 0 <= h1 -> h1 <= h2 -> h2 < 1 / 10000000000 -> steep (cond h1) (cond h2) = false) ->
  forall N h1 dh G j, (Datatypes.S N <= j)%nat -> 0 <= h1 -> c / 2 <= dh -> (h1 < 1 / 10000000000 -> c <= dh) -> hi - (h1 + dh) <= INR N * (c / 2) ->
  exists G', geff_loop j s ks (Fin hi) (Fin (h1 + dh)) (Fin dh) (cond h1) G = Ok G'.
Proof.
  intros hi c delta Hhi Hc Hcd HD HE. induction N as [|N IH]; intros h1 dh G j Hj Hh1 Hdh Hsmall Hm.
  - rewrite loop_end; [eauto|lia|]. cbn in Hm. lra.
  - destruct (Rle_dec hi (h1 + dh)) as [L|L]; [rewrite loop_end; [eauto|lia|assumption]|].
    destruct j as [|j]; [lia|].
    destruct (loop_step j hi (h1 + dh) dh (cond h1) G ltac:(lra)) as (dh' & G' & E & Hcase & Hgrow). rewrite E. rewrite S_INR in Hm.
    assert (B1 : c / 2 <= dh').
    { destruct (Rlt_dec h1 (1 / 10000000000)) as [S1|S1]; [specialize (Hsmall S1); destruct Hcase; lra|].
      destruct (Rlt_dec dh delta) as [S2|S2]; [|destruct Hcase; lra].
      rewrite (Hgrow ltac:(apply HD; lra)). lra. }
    assert (B2 : h1 + dh < 1 / 10000000000 -> c <= dh').
    { intro S1. assert (S0 : h1 < 1 / 10000000000) by lra. specialize (Hsmall S0). rewrite Hgrow; [lra|]. apply HE; lra. }
    apply IH; try lra; try lia; assumption.
Qed.
End Loop.

Theorem geff_settles : forall b closed t1 t2 s r e a n m k ks nint, vg_soil s r e a n m k -> (1 <= nint)%Z ->
  settles (fun j => @calc_Geff exact (bounded b j) closed t1 t2 s ks nint).
Proof.
  intros b closed t1 t2 s r e a n m k ks nint V Hn. destruct closed; [exists 0%nat; intros; discriminate|].
  assert (X : exists N, forall j, (N <= j)%nat -> exists G, geff_loop j s ks (h_of_Se s (Se_of_theta s t1)) (h_of_Se s (Se_of_theta s t2) + (h_of_Se s (Se_of_theta s t1) - h_of_Se s (Se_of_theta s t2)) / dofZ nint * lit (1 / 100))%d
     ((h_of_Se s (Se_of_theta s t1) - h_of_Se s (Se_of_theta s t2)) / dofZ nint * lit (1 / 100))%d (calc_K_from_Se (Se_of_theta s t1) ks (s_m s)) (Fin 0) = Ok G).
  2: { destruct X as (N & HN). exists N. intros j Hj. destruct (HN j Hj) as (G & EG). unfold calc_Geff. cbn [negb]. cbv zeta. change (@fuel (bounded b j)) with j. rewrite EG. discriminate. }
  pose proof (head_up s r e a n m k (Se_of_theta s t1) V) as U1. pose proof (head_up s r e a n m k (Se_of_theta s t2) V) as U2.
  set (hi := h_of_Se s (Se_of_theta s t1)) in *. set (hf := h_of_Se s (Se_of_theta s t2)) in *. set (K1 := calc_K_from_Se (Se_of_theta s t1) ks (s_m s)).
  assert (Nn : 1 <= IZR nint) by (apply IZR_le in Hn; lra). change (dofZ nint) with (Fin (IZR nint)). change (lit (1 / 100)) with (Fin (1 / 100)).
  assert (Stop0 : dltb (hf + (hi - hf) / Fin (IZR nint) * Fin (1 / 100))%d hi = false -> exists N, forall j, (N <= j)%nat -> exists G, geff_loop j s ks hi (hf + (hi - hf) / Fin (IZR nint) * Fin (1 / 100))%d ((hi - hf) / Fin (IZR nint) * Fin (1 / 100))%d K1 (Fin 0) = Ok G).
  { intro L. exists 1%nat. intros [|j] Hj; [lia|]. cbn [geff_loop]. rewrite L. eauto. }
  destruct hi as [hi| | |]; [|discriminate U1 || idtac..].
  2: { apply Stop0. destruct hf as [hf| | |]; try reflexivity; try discriminate U2. cbn. destruct (Rlt_dec (IZR nint) 0); [lra|]. cbn. unfold inf_sign. destruct (Rlt_dec 0 (1 / 100)); [reflexivity|lra]. }
  all: try (apply Stop0; match goal with |- dltb ?x NaN = _ => destruct x; reflexivity end).
  destruct hf as [hf| | |]; try discriminate U2.
  2: { apply Stop0. cbn. destruct (Rlt_dec (IZR nint) 0); [lra|]. cbn. unfold inf_sign. destruct (Rlt_dec 0 (1 / 100)); [reflexivity|lra]. }
  2: { apply Stop0. reflexivity. }
  apply nn_Fin_inv in U1. apply nn_Fin_inv in U2.
  assert (IN : 0 < / IZR nint <= 1). { split; [apply Rinv_0_lt_compat; lra|]. apply Rle_trans with (/ 1); [apply Rinv_le_contravar; lra|lra]. }
  change (Fin hi - Fin hf)%d with (Fin (hi - hf)) in *. rewrite !div_fin in * by lra.
  change (Fin ((hi - hf) / IZR nint) * Fin (1 / 100))%d with (Fin ((hi - hf) / IZR nint * (1 / 100))) in *. set (dh0 := (hi - hf) / IZR nint * (1 / 100)) in *.
  change (Fin hf + Fin dh0)%d with (Fin (hf + dh0)) in *.
  destruct (Rle_dec hi hf) as [L|L]; [apply Stop0; apply ltb_f; unfold dh0, Rdiv; nra|].
  assert (D0 : 0 < dh0) by (unfold dh0, Rdiv; nra).
  destruct (near s r e a n m k ks V hi ltac:(lra)) as (delta & Hd & HD & HE).
  set (c := Rmin (dh0 / 2) delta). assert (Hc : 0 < c /\ c <= dh0 / 2 /\ c <= delta). { unfold c, Rmin. destruct (Rle_dec _ _); lra. }
  destruct (INR_beyond ((hi - hf) / (c / 2))) as (N & HN). exists (Datatypes.S (Datatypes.S N)). intros j Hj.
  destruct (Rle_dec hi (hf + dh0)) as [Q|Q]; [rewrite loop_end; [eauto|lia|assumption]|]. destruct j as [|j]; [lia|].
  destruct (loop_step s ks j hi (hf + dh0) dh0 K1 (Fin 0) ltac:(lra)) as (dh' & G' & E & Hcase & _). rewrite E.
  apply (loop_ends s ks hi c delta ltac:(lra) ltac:(lra) ltac:(lra) HD HE N); try lra; try lia; try (destruct Hcase; lra).
  assert (hi - hf <= INR N * (c / 2)). { left. apply Rmult_lt_reg_r with (/ (c / 2)); [apply Rinv_0_lt_compat; lra|]. rewrite Rmult_assoc, Rinv_r by lra. unfold Rdiv in HN. lra. }
  destruct Hcase; lra.
Qed.
End Exactly.
