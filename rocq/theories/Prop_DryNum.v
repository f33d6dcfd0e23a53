(** C96: the depth of a new front is a finite number within its layer, for any rounding. *)

From Coq Require Import Reals Lra ZArith List Bool Lia.
From Verif Require Import Outcome Dbl Exact Binary64 Types ListOps Soil Infil Lib Spec_Common Spec_GeffNum Pf_Dbl Pf_Counts Pf_GeffNum Pf_DryNum Pf_CreateNum Ex_Clock64 Ex_Saturated Ex_Unsaturated Prop_NewFront.
Import ListNotations.
Open Scope R_scope.

(** C96, any rounding: on a soil that is not oversaturated, saturated and completely frozen soils included, lgar_calc_dry_depth returns a finite depth between the surface and the bottom of the layer,
    and a deficit that is not negative. *)
Theorem C96_depth_any_rounding :
  forall (fp : Fp) (cfg : Cfg) e closed nint dt c l s ff ck d y, soil_of e (f_layer c) = Ok s -> aget (e_frozen e) (f_layer c) = Ok ff -> aget (e_cum e) (f_layer c) = Ok (Fin ck) ->
  0 <= ck -> not_negative dt -> not_negative (s_Ksat s) -> not_negative ff -> dltb (s_theta_e s) (f_theta c) = false ->
  (closed = false \/ exists r te t lam pb, s_theta_r s = Fin r /\ s_theta_e s = Fin te /\ s_lambda s = Fin lam /\ s_psib s = pb /\ f_theta c = Fin t /\
     0 < lam /\ not_negative pb /\ r < te /\ dltb (Fin 0) (rnd (te - r)) = true /\ finite (rnd (te - r)) /\ r <= t <= te) ->
  lgar_calc_dry_depth e closed nint dt (c :: l) = Ok (d, y) -> (exists z, d = Fin z /\ 0 <= z <= ck) /\ not_negative y.
Proof. exact @dry_number. Qed.
Print Assumptions C96_depth_any_rounding.

(** C96, any rounding: a new front takes in a finite part of the surface water and leaves a finite rest: all of it and nothing, or what fits into its depth and the rounded difference. *)
Theorem C96_new_front_any_rounding :
  forall (fp : Fp) e w z t1 te s head l p v, rnd w = Fin w -> 0 <= w -> 0 <= z -> soil_of e 1 = Ok s -> s_theta_e s = Fin te -> t1 <= te -> finite (rnd (te - t1)) ->
  lgar_create_surficial_front e (Fin w) (Fin z) (Fin t1) head = Ok (l, p, v) ->
  exists x y, p = Fin x /\ v = Fin y /\ 0 <= x <= w /\ 0 <= y <= w /\ (x = 0 /\ y = w \/ (Fin z * (Fin te - Fin t1))%d = Fin y /\ rnd (w - y) = Fin x).
Proof. exact @create_parts. Qed.
Print Assumptions C96_new_front_any_rounding.

(** Example: 5 cm on the column of Ex_Unsaturated, exactly; 1.5 cm fit into the depth of 25 cm. *)
Example C96_new_front_concrete : soil_of ex_env 1 = Ok ex_soil /\ s_theta_e ex_soil = Fin (2 / 5) /\ f_theta un_front = Fin (17 / 50) /\ finite (@rnd exact (2 / 5 - 17 / 50)) /\
  exists l p i, @lgar_create_surficial_front exact ex_env (Fin 5) (Fin 25) (f_theta un_front) [un_front] = Ok (l, p, Fin i) /\ i = 3 / 2.
Proof. do 3 (split; [reflexivity|]). split; [eexists; reflexivity|]. destruct (C96_concrete {| fuel := 1%nat; ngen := false |}) as (_ & _ & _ & _ & H & _). exact H. Qed.

(** Example: a saturated column of 64 cm in binary64, where the division by the deficit is a division by zero. *)
Local Existing Instance binary64.
Example C96_any_concrete : forall cfg : Cfg, let s := c6_soil (Fin 4) (Fin 1) in let e := c6_env (Fin 4) (Fin 1) in
  soil_of e (f_layer c6_front) = Ok s /\ aget (e_frozen e) (f_layer c6_front) = Ok (Fin 1) /\ aget (e_cum e) (f_layer c6_front) = Ok (Fin 64) /\ dltb (s_theta_e s) (f_theta c6_front) = false /\
  (exists r te t lam pb, s_theta_r s = Fin r /\ s_theta_e s = Fin te /\ s_lambda s = Fin lam /\ s_psib s = pb /\ f_theta c6_front = Fin t /\
     0 < lam /\ not_negative pb /\ r < te /\ dltb (Fin 0) (rnd (te - r)) = true /\ finite (rnd (te - r)) /\ r <= t <= te) /\
  exists z y, lgar_calc_dry_depth e true 120 (Fin 1) [c6_front] = Ok (Fin z, y) /\ 0 <= z <= 64.
Proof.
  intros cfg s e. assert (A : soil_of e (f_layer c6_front) = Ok s) by reflexivity. assert (B : aget (e_frozen e) (f_layer c6_front) = Ok (Fin 1)) by reflexivity.
  assert (C : aget (e_cum e) (f_layer c6_front) = Ok (Fin 64)) by reflexivity. assert (D : dltb (s_theta_e s) (f_theta c6_front) = false) by (change (dltb (Fin (1 / 2)) (Fin (1 / 2)) = false); cbn; unfold Rltb; destruct (Rlt_dec (1 / 2) (1 / 2)); [lra|reflexivity]).
  assert (R : rnd (1 / 2 - 1 / 8) = Fin (3 / 8)) by (replace (1 / 2 - 1 / 8) with (3 / 8) by lra; exact (dyadic 3 3 ltac:(lia) ltac:(lia))).
  assert (X : exists r te t lam pb, s_theta_r s = Fin r /\ s_theta_e s = Fin te /\ s_lambda s = Fin lam /\ s_psib s = pb /\ f_theta c6_front = Fin t /\
     0 < lam /\ not_negative pb /\ r < te /\ dltb (Fin 0) (rnd (te - r)) = true /\ finite (rnd (te - r)) /\ r <= t <= te).
  { exists (1 / 8), (1 / 2), (1 / 2), 1, (Fin 4). do 5 (split; [reflexivity|]). split; [lra|]. split; [apply nn_Fin; lra|]. split; [lra|]. rewrite R.
    split; [cbn; unfold Rltb; destruct (Rlt_dec 0 (3 / 8)); [reflexivity|lra]|]. split; [eexists; reflexivity|lra]. }
  do 4 (split; [assumption|]). split; [exact X|].
  assert (E : exists d y, lgar_calc_dry_depth e true 120 (Fin 1) [c6_front] = Ok (d, y)).
  { unfold lgar_calc_dry_depth. change (lget [c6_front] 0) with (Ok c6_front). cbn [bind]. rewrite A, B, C. cbn [bind]. cbv zeta.
    destruct (geff_finite binary64 cfg (f_theta c6_front) (s_theta_e s) s (s_Ksat s * Fin 1)%d 120 (drive_finite s 1 4 eq_refl eq_refl ltac:(lra) ltac:(lra))) as (g & G & _). rewrite G. cbn [bind].
    do 2 eexists. reflexivity. }
  destruct E as (d & y & E). destruct (dry_number e true 120 (Fin 1) c6_front [] s (Fin 1) 64 d y A B C ltac:(lra) (nn_Fin 1 ltac:(lra)) (nn_Fin 1 ltac:(lra)) (nn_Fin 1 ltac:(lra)) D (or_intror X) E) as ((z & -> & Z) & _).
  exists z, y. auto.
Qed.
