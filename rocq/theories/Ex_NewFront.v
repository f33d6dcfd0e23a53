(** Worked example for the depth of a new front: a soil at two water contents and steps of two lengths. *)

From Coq Require Import Reals Lra ZArith List Bool Lia.
From Verif Require Import Outcome Dbl Exact Types ListOps Soil Fronts Infil Lib Spec_Common Spec_Soil Spec_Profile Spec_Storage Spec_Single Spec_NewFront
  Pf_Dbl Pf_Pow Pf_Profile Pf_Single Pf_SubSingle Pf_Frost3 Pf_NewFront Ex_Saturated Ex_Unsaturated Ex_Soil Ex_Single Ex_Growth.
Import ListNotations.
Open Scope R_scope.

(** A drier front. *)
Definition nf_dry : front := mkF (Fin 100) (Fin (6 / 25)) (Fin 190) (Fin (1 / 100)) 1 1 true (Fin 0).

Section Run.
Local Existing Instance exact.
Context {cfg : Cfg}.

Lemma nf_drive : forall t1 ks, calc_Geff true t1 (Fin (2 / 5)) ex_soil ks 120 = Ok (Fin (25 / 2)).
Proof.
  intros t1 ks. rewrite (closed_drive ex_soil (1 / 10) (2 / 5) (1 / 100) 2 (1 / 2) 1 1 10) by (exact ex_vg || reflexivity || lra). do 2 f_equal. unfold bc_drive. lra.
Qed.

Lemma nf_depth : forall c t1 dt z, f_layer c = 1%Z -> f_theta c = Fin t1 -> t1 < 2 / 5 -> 0 < dt -> 0 < z <= 100 -> z * z = dt / (2 / 5 - t1) * (z + 25 / 2) ->
  lgar_calc_dry_depth ex_env true 120 (Fin dt) [c] = Ok (Fin z, Fin (2 / 5 - t1)).
Proof.
  intros c t1 dt z Lc Et Ht Hdt Hz E. rewrite (dry_is ex_env true 120 dt c [] ex_soil (1 / 10) (2 / 5) (1 / 100) 2 (1 / 2) 1 1 t1 100 (25 / 2)); rewrite ?Lc; try reflexivity; try exact ex_vg; try assumption; try lra; [|apply nf_drive].
  replace (dt * (1 * 1) / (2 / 5 - t1)) with (dt / (2 / 5 - t1)) by (field; lra). rewrite <- (root_one _ _ z); [|apply Rdiv_lt_0_compat; lra|lra|lra|exact E]. rewrite Rmin_right by lra. reflexivity.
Qed.

Lemma nf_graded : forall t h k, 1 / 10 <= t <= 17 / 50 -> 0 <= h -> 0 <= k -> graded ex_env (2 / 5 - 1 / 1000000000000000) 100 [mkF (Fin 100) (Fin t) (Fin h) (Fin k) 1 1 true (Fin 0)].
Proof.
  intros t h k Ht Hh Hk. constructor.
  - apply profile_scan; [discriminate|]. split.
    + intros i f E. destruct i as [|i]; [injection E as <-; reflexivity|]. destruct i; discriminate.
    + cbn -[Z.le]. repeat split; try reflexivity; lia.
  - intros f E. injection E as <-. reflexivity.
  - repeat constructor; cbn; eexists; reflexivity.
  - repeat constructor. exists ex_soil, (1 / 10), (2 / 5). eexists. repeat (split; [reflexivity|]). lra.
  - exact Logic.I.
  - constructor.
  - constructor.
  - intros f E. injection E as <-. left. cbn. lra.
  - repeat constructor; cbn; try (eexists; split; [reflexivity|lra]); right; (eexists; split; [reflexivity|lra]).
Qed.

(** 5 cm of water are on the surface. *)
Lemma nf_create : forall t h k d, 1 / 10 <= t <= 17 / 50 -> 0 <= h -> 0 <= k -> 0 < d <= 100 -> d * (2 / 5 - t) <= 5 ->
  exists l p, lgar_create_surficial_front ex_env (Fin 5) (Fin d) (Fin t) [mkF (Fin 100) (Fin t) (Fin h) (Fin k) 1 1 true (Fin 0)] = Ok (l, p, Fin (d * (2 / 5 - t))).
Proof.
  intros t h k d Ht Hh Hk Hd Hw. assert (BS : below_surface [mkF (Fin 100) (Fin t) (Fin h) (Fin k) 1 1 true (Fin 0)]) by (repeat constructor; cbn; lra).
  destruct (create_single ex_env _ _ _ _ _ _ [] 5 d sg1_single (nf_graded t h k Ht Hh Hk) BS ltac:(cbn; lra) ltac:(cbn; lra) Hd ltac:(lra)) as (l2 & pd & vin & EC & _).
  cbn [f_theta] in EC. destruct (create_is ex_env _ _ _ _ _ _ _ EC) as (s & Es & Ei & _). change (soil_of ex_env 1) with (Ok ex_soil) in Es. apply Ok_inj in Es. subst s. change (s_theta_e ex_soil) with (Fin (2 / 5)) in Ei.
  cbv zeta in Ei. change (Fin d * (Fin (2 / 5) - Fin t))%d with (Fin (d * (2 / 5 - t))) in Ei. unfold dgtb in Ei. rewrite ltb_f in Ei by lra. injection Ei as ->. exists l2, (Fin pd). exact EC.
Qed.

Lemma nf_concrete :
  lgar_calc_dry_depth ex_env true 120 (Fin 1) [un_front] = Ok (Fin 25, Fin (2 / 5 - 17 / 50)) /\ dry_depth_eq (1 * 1) (2 / 5 - 17 / 50) 1 (25 / 2) 25 /\
  lgar_calc_dry_depth ex_env true 120 (Fin (3 / 8)) [un_front] = Ok (Fin (25 / 2), Fin (2 / 5 - 17 / 50)) /\
  lgar_calc_dry_depth ex_env true 120 (Fin 1) [nf_dry] = Ok (Fin (25 / 2), Fin (2 / 5 - 6 / 25)) /\
  (exists l p i, lgar_create_surficial_front ex_env (Fin 5) (Fin 25) (f_theta un_front) [un_front] = Ok (l, p, Fin i) /\ i = 3 / 2) /\
  (exists l p i, lgar_create_surficial_front ex_env (Fin 5) (Fin (25 / 2)) (f_theta nf_dry) [nf_dry] = Ok (l, p, Fin i) /\ i = 2).
Proof.
  split; [apply nf_depth; (reflexivity || lra)|]. split; [split; [lra|field]|]. split; [apply nf_depth; (reflexivity || lra)|]. split; [apply nf_depth; (reflexivity || lra)|]. split.
  - destruct (nf_create (17 / 50) 75 (1 / 10) 25) as (l & p & E); try lra. exists l, p. eexists. split; [exact E|lra].
  - destruct (nf_create (6 / 25) 190 (1 / 100) (25 / 2)) as (l & p & E); try lra. exists l, p. eexists. split; [exact E|lra].
Qed.
End Run.
