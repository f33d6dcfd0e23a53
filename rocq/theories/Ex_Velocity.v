(** Worked examples for the velocities, the infiltration capacity and the head iteration. *)

From Coq Require Import Reals Lra ZArith List Bool Lia.
From Verif Require Import Outcome Dbl Exact Types ListOps Soil Fronts Infil Lib Spec_Common Spec_List Spec_Soil Spec_Column Spec_Update Spec_Profile Spec_Storage Spec_Velocity Spec_Balance
  Pf_Dbl Pf_Pow Pf_Soil Pf_Geff Pf_Column Pf_Profile Pf_Structure Pf_Storage Pf_Velocity Pf_Layers Pf_Balance Ex_Saturated Ex_Unsaturated Ex_Soil Ex_Safety Ex_Storage Ex_Dry.
Import ListNotations.
Open Scope R_scope.

(** Three layers of 10, 20 and 70 cm; the second conducts twice as well. *)
Definition ve_soil2 : soil :=
  mkSoil (Fin (1 / 10)) (Fin (2 / 5)) (Fin (1 / 100)) (Fin 2) (Fin (1 / 2)) (Fin 1) (Fin 10) (Fin 0) (Fin 2).
Definition ve_env : env :=
  mkEnv 3 [Fin (0 + 0); Fin (0 + 10); Fin (0 + 10 + 20); Fin (0 + 10 + 20 + 70)] [None; Some 1%Z; Some 2%Z; Some 1%Z] [None; Some ex_soil; Some ve_soil2] [Fin 1; Fin 1; Fin 1; Fin 1].
Definition ve_front (d th psi K : R) (lay num : Z) (b : bool) : front := mkF (Fin d) (Fin th) (Fin psi) (Fin K) lay num b (Fin 0).
Definition ve_c : front := ve_front 60 (2 / 5) 0 1 3 3 false.
Definition ve_n : front := ve_front 100 (17 / 50) 75 (1 / 10) 3 4 true.
(** A saturated front at 60 cm in the lower of two layers. *)
Definition ve_two : list front := [ve_front 25 (2 / 5) 0 1 1 1 true; ve_front 60 (2 / 5) 0 1 2 2 false; ve_front 100 (17 / 50) 75 (1 / 10) 2 3 true].

Section Run.
Local Existing Instance exact.

Ltac flow := repeat constructor; cbn; first
  [eexists; split; [reflexivity|lra]|lra|eexists; split; [reflexivity|cbn; lra]].

Lemma ve_plain_flows : Forall (flowing ti_env) so_plain.
Proof.
  apply Forall_forall. intros f I. cbn in I. destruct I as [<-|[<-|[<-|[]]]]; split;
    [eexists; split; [reflexivity|lra]|eexists; split; [reflexivity|lra]|cbn; lra|eexists; split; [reflexivity|cbn; lra]
    |eexists; split; [reflexivity|lra]|eexists; split; [reflexivity|lra]|cbn; lra|eexists; split; [reflexivity|cbn; lra]
    |eexists; split; [reflexivity|lra]|eexists; split; [reflexivity|lra]|cbn; lra|eexists; split; [reflexivity|cbn; lra]].
Qed.
Lemma ve_inverted_flows : Forall (flowing ti_env) so_inverted.
Proof.
  apply Forall_forall. intros f I. cbn in I. destruct I as [<-|[<-|[<-|[<-|[]]]]]; (split;
    [eexists; split; [reflexivity|lra]|eexists; split; [reflexivity|lra]|cbn; lra|eexists; split; [reflexivity|cbn; lra]]).
Qed.
Lemma ve_conducting : conducting ti_env.
Proof. intros k Hk. change (e_nlayers ti_env) with 2%Z in Hk. assert (k = 1 \/ k = 2)%Z as [->| ->] by lia; exists 1; split; try reflexivity; lra. Qed.
Lemma ve_capillary : capillary true 120 ti_env.
Proof.
  intros k s Hk E. change (e_nlayers ti_env) with 2%Z in Hk. assert (k = 1 \/ k = 2)%Z as [->| ->] by lia; apply Ok_inj in E; subst s; exists 1, 10; repeat split; lra.
Qed.
Lemma ve_integrated : capillary false 120 ti_env. Proof. cbn. lia. Qed.

Lemma ve_wet : wet_over_dry so_plain.
Proof.
  intros [|[|i]] f g E1 E2 B; cbn in E1, E2.
  - injection E1 as <-. injection E2 as <-. cbn. lra.
  - injection E1 as <-. discriminate.
  - destruct i as [|i]; [discriminate|destruct i; discriminate].
Qed.
Lemma ve_dry : somewhere_dry_over_wet so_inverted.
Proof. exists 0%nat. do 2 eexists. repeat (split; [reflexivity|]). cbn. lra. Qed.

(** All the hypotheses of the theorems on velocities together. *)
Lemma ve_plain_ok : sound_env ti_env /\ vg_column ti_env /\ conducting ti_env /\ capillary true 120 ti_env /\ capillary false 120 ti_env /\
  profile 2 [Fin 0; Fin 25; Fin 100] so_plain /\ measured so_plain /\ within_soils ti_env so_plain /\ Forall (flowing ti_env) so_plain /\ wet_over_dry so_plain.
Proof.
  destruct so_plain_ok as (P & M & _ & W & _). exact (conj so_env (conj so_vg (conj ve_conducting (conj ve_capillary (conj ve_integrated (conj P (conj M (conj W (conj ve_plain_flows ve_wet))))))))).
Qed.
Ltac prof := apply profile_scan; [discriminate|]; split;
  [intros i f E; do 4 (destruct i as [|i]; [first [injection E as <-; reflexivity|discriminate]|]); destruct i; discriminate
  |cbn -[Z.le]; repeat split; try reflexivity; lia].
Ltac fins := repeat constructor; cbn; eexists; reflexivity.
Ltac inside := repeat constructor; (exists ex_soil, (1 / 10), (2 / 5); eexists; repeat (split; [reflexivity|]); lra).
Lemma ve_inverted_ok : profile 2 [Fin 0; Fin 25; Fin 100] so_inverted /\ measured so_inverted /\ within_soils ti_env so_inverted /\
  Forall (flowing ti_env) so_inverted /\ somewhere_dry_over_wet so_inverted.
Proof. split; [prof|]. split; [fins|]. split; [inside|]. split; [apply ve_inverted_flows|apply ve_dry]. Qed.

(** ** Three layers *)

Lemma ve_vg2 : vg_soil ve_soil2 (1 / 10) (2 / 5) (1 / 100) 2 (1 / 2) 2.
Proof. constructor; try reflexivity; lra. Qed.

Lemma ve_column : column ve_env [10; 20; 70] [ex_soil; ve_soil2; ex_soil].
Proof.
  constructor; try reflexivity.
  - cbn. do 2 f_equal. f_equal. ring.
  - intros [|[|[|k]]] s E; try (injection E as <-; reflexivity). destruct k; discriminate.
Qed.

Lemma ve_Se0 : vg_Se (1 / 100) 2 (1 / 2) 0 = 1.
Proof. unfold vg_Se. rewrite Rmult_0_r, pw_0, Rplus_0_r. apply Rpower_1_l. Qed.

Lemma ve_conductivities : conductivities ve_env 0 3 [1; 2].
Proof.
  split; [reflexivity|]. intros [|[|j]] kj E; cbn in E.
  - injection E as <-. do 8 eexists. split; [reflexivity|]. split; [exact ex_vg|]. split; [reflexivity|]. split; [lra|]. rewrite ve_Se0, vg_K_1 by lra. ring.
  - injection E as <-. do 8 eexists. split; [reflexivity|]. split; [exact ve_vg2|]. split; [reflexivity|]. split; [lra|]. rewrite ve_Se0, vg_K_1 by lra. ring.
  - destruct j; discriminate.
Qed.

Lemma ve_geff : forall cfg : Cfg, exists G, calc_Geff true (Fin (17 / 50)) (Fin (2 / 5)) ex_soil (Fin (1 * 1)) 120 = Ok (Fin G) /\ 0 <= G <= 25 / 2.
Proof.
  intro cfg. destruct (geff_closed_bounds cfg (17 / 50) (2 / 5) ex_soil (Fin (1 * 1)) 120 (1 / 10) (2 / 5) 1 10 eq_refl eq_refl eq_refl eq_refl ltac:(lra) ltac:(lra) ltac:(lra) ltac:(lra) ltac:(lra) ltac:(lra))
    as (G & EG & HG & _). exists G. split; [exact EG|lra].
Qed.

(** The code divides the 10 cm of the first layer by the conductivity of the second and the 20 cm of the second by that of the first. *)
Lemma ve_refutes : forall cfg : Cfg, exists e ts ss c n s ks z top K k x G t t' v,
  column e ts ss /\ f_layer c = 3%Z /\ e_nlayers e = 3%Z /\ f_bottom c = false /\ f_depth c = Fin z /\ f_K c = Fin K /\ f_psi c = Fin 0 /\
  f_theta c = Fin t /\ f_theta n = Fin t' /\ t' < t /\ aget (e_cum e) 2 = Ok (Fin top) /\ soil_of e 3 = Ok s /\ s_Ksat s = Fin k /\ aget (e_frozen e) 3 = Ok (Fin x) /\
  calc_Geff true (Fin t') (Fin t) s (Fin (k * x)) 120 = Ok (Fin G) /\ conductivities e 0 3 ks /\
  dzdt_front e true 120 (Fin 0) c n = Ok (Fin v) /\ v <> Rmin 10000 (layered_velocity z top K (resistance ts ks) (k * x) G 0 (t - t')) /\
  v = layered_velocity z top K (nth 0 ts 0 / nth 1 ks 0 + nth 1 ts 0 / nth 0 ks 0) (k * x) G 0 (t - t').
Proof.
  intro cfg. destruct (ve_geff cfg) as (G & EG & HG0 & HG1).
  exists ve_env, [10; 20; 70], [ex_soil; ve_soil2; ex_soil], ve_c, ve_n, ex_soil, [1; 2], 60, 30, 1, 1, 1, G, (2 / 5), (17 / 50).
  assert (T : aget (e_cum ve_env) 2 = Ok (Fin 30)) by (change (aget (e_cum ve_env) 2) with (@Ok dbl (Fin (0 + 10 + 20))); do 2 f_equal; ring).
  eexists. split; [apply ve_column|]. do 8 (split; [reflexivity|]). split; [lra|]. split; [exact T|]. do 3 (split; [reflexivity|]). split; [exact EG|]. split; [apply ve_conductivities|]. split.
  - refine (velocity_is cfg ve_env [10; 20; 70] [ex_soil; ve_soil2; ex_soil] ve_c ve_n true 120 ex_soil 3 0 [1; 2] 60 30 1 1 1 G 0 (2 / 5) (17 / 50) ve_column _ _ eq_refl eq_refl eq_refl eq_refl eq_refl eq_refl eq_refl _ _ _ _ T _ _ eq_refl eq_refl eq_refl _ EG HG0 ve_conductivities);
      try lra; [repeat constructor; lra|cbn; lia].
  - assert (A : forall rs, 10 <= rs -> layered_velocity 60 30 1 rs (1 * 1) G 0 (2 / 5 - 17 / 50) <= 10000).
    { intros rs H. unfold layered_velocity. replace (/ (2 / 5 - 17 / 50)) with (50 / 3) by field. assert (60 / ((60 - 30) / 1 + rs) <= 60 / 40); [|unfold Rdiv in *; lra].
      unfold Rdiv. apply Rmult_le_compat_l; [lra|]. apply Rinv_le_contravar; lra. }
    assert (M : mirrored [10; 20; 70] [1; 2] = 25) by (unfold mirrored; cbn; field).
    assert (Q : resistance [10; 20; 70] [1; 2] = 20) by (unfold resistance; cbn; field).
    rewrite M, Q, !Rmin_right by (apply A; lra). cbn [nth]. split; [unfold layered_velocity; intro E; lra|]. replace (10 / 2 + 20 / 1) with 25 by field. reflexivity.
Qed.

(** ** Two layers *)

Lemma ve_two_conductivities : conductivities ti_env 0 2 [1].
Proof.
  split; [reflexivity|]. intros [|j] kj E; [|destruct j; discriminate]. injection E as <-. do 8 eexists. split; [reflexivity|]. split; [exact ex_vg|]. split; [reflexivity|]. split; [lra|].
  rewrite ve_Se0, vg_K_1 by lra. ring.
Qed.

(** The front moves at the velocity through both layers: 50/3 (60 / (35 + 25) + G / 60). *)
Lemma ve_two_velocity : forall cfg : Cfg, exists G, calc_Geff true (Fin (17 / 50)) (Fin (2 / 5)) ex_soil (Fin (1 * 1)) 120 = Ok (Fin G) /\
  dzdt_front ti_env true 120 (Fin 0) (ve_front 60 (2 / 5) 0 1 2 2 false) (ve_front 100 (17 / 50) 75 (1 / 10) 2 3 true) = Ok (Fin (50 / 3 * (60 / (35 + 25) + G / 60))).
Proof.
  intro cfg. destruct (ve_geff cfg) as (G & EG & HG0 & HG1). exists G. split; [exact EG|].
  rewrite (velocity_two_layers cfg ti_env [25; 75] [ex_soil; ex_soil] (ve_front 60 (2 / 5) 0 1 2 2 false) (ve_front 100 (17 / 50) 75 (1 / 10) 2 3 true) true 120 ex_soil 2 0 [1] 60 25 1 1 1 G 0 (2 / 5) (17 / 50) so_column);
    try first [reflexivity|lra|exact EG|apply ve_two_conductivities|cbn; lia|repeat constructor; lra|left; lia].
  do 2 f_equal. assert (Q : resistance [25; 75] [1] = 25) by (unfold resistance; cbn; field). rewrite Q. unfold layered_velocity. rewrite Rmin_right; field_simplify; try lra.
Qed.

Lemma ve_two_saturated : saturated_conductivities ti_env 2 [1].
Proof. split; [reflexivity|]. intros [|j] kj E; [|destruct j; discriminate]. injection E as <-. do 3 eexists. repeat (split; [reflexivity|]). split; [ring|lra]. Qed.

(** It takes up 1 + G / 60 cm/h. *)
Lemma ve_two_capacity : forall cfg : Cfg, exists G, calc_Geff true (Fin (17 / 50)) (Fin (2 / 5)) ex_soil (Fin (1 * 1)) 120 = Ok (Fin G) /\
  lgar_calc_mass_bal (e_cum ti_env) ve_two = Ok (Fin (188 / 5)) /\
  infiltration_capacity ti_env true 120 (Fin (1 / 12)) (Fin 0) (Fin 1) (Fin 12) 2 ve_two = Ok (Fin (1 + G / 60)).
Proof.
  intro cfg. destruct (ve_geff cfg) as (G & EG & HG0 & HG1). exists G. split; [exact EG|].
  assert (EM : lgar_calc_mass_bal (e_cum ti_env) ve_two = Ok (Fin (188 / 5))) by (reval; feq). split; [exact EM|].
  assert (X : exists q, infiltration_capacity ti_env true 120 (Fin (1 / 12)) (Fin 0) (Fin 1) (Fin 12) 2 ve_two = Ok (Fin q)).
  { unfold infiltration_capacity. change (pget ve_two (findFront 2 ve_two)) with (Ok (ve_front 60 (2 / 5) 0 1 2 2 false)). cbn [bind]. change (f_layer (ve_front 60 (2 / 5) 0 1 2 2 false)) with 2%Z.
    change (soil_of ti_env 2) with (Ok ex_soil). cbn [bind]. change (lget ve_two 0) with (Ok (ve_front 25 (2 / 5) 0 1 1 1 true)). cbn [bind].
    change (aget (e_frozen ti_env) (f_layer (ve_front 25 (2 / 5) 0 1 1 1 true))) with (Ok (Fin 1)). cbn [bind]. change (s_Ksat ex_soil * Fin 1)%d with (Fin (1 * 1)).
    change (listLength ve_two =? e_nlayers ti_env)%Z with false. cbv iota. change (pget ve_two (findFront (2 + 1) ve_two)) with (Ok (ve_front 100 (17 / 50) 75 (1 / 10) 2 3 true)). cbn [bind].
    change (s_theta_e ex_soil) with (Fin (2 / 5)). change (f_theta (ve_front 100 (17 / 50) 75 (1 / 10) 2 3 true)) with (Fin (17 / 50)). rewrite EG. cbn [bind].
    change (2 =? 1)%Z with false. cbv iota. change (aget (e_cum ti_env) (2 - 1)) with (Ok (Fin 25)). cbn [bind]. change (f_depth (ve_front 60 (2 / 5) 0 1 2 2 false) - Fin 25)%d with (Fin (60 - 25)).
    rewrite div_fin by lra. rewrite (above_is ti_env [25; 75] [ex_soil; ex_soil] 2 [1] _ so_column ltac:(cbn; lia) ve_two_saturated). cbn [bind].
    change (soil_of ti_env (f_layer (ve_front 25 (2 / 5) 0 1 1 1 true))) with (Ok ex_soil). cbn [bind]. rewrite EM. cbn [bind].
    rewrite (max_storage_is ti_env [25; 75] [ex_soil; ex_soil] [2 / 5; 2 / 5] so_column) by (repeat constructor). cbn [bind].
    change (e_nlayers ti_env =? listLength ve_two)%Z with false. rewrite andb_false_r.
    assert (Q : resistance [25; 75] [1] = 25) by (unfold resistance; cbn; field). rewrite Q.
    change (f_depth (ve_front 60 (2 / 5) 0 1 2 2 false)) with (Fin 60). rewrite div_fin by lra.
    match goal with |- context [dfmax ?a ?b] => assert (XM : exists u, dfmax a b = Fin u) by (cbn; destruct (Rltb _ _); eauto) end. destruct XM as (u & ->).
    cbn [dadd dmul dsub rnd exact]. rewrite !div_fin by lra. cbn [dadd rnd exact]. destruct (_ >? _)%d; eauto. }
  destruct X as [q EQ]. rewrite EQ.
  pose proof (capacity_layers cfg ti_env [25; 75] [ex_soil; ex_soil] [2 / 5; 2 / 5] true 120 (1 / 12) 0 1 12 2 ve_two (ve_front 60 (2 / 5) 0 1 2 2 false) (ve_front 100 (17 / 50) 75 (1 / 10) 2 3 true)
    (ve_front 25 (2 / 5) 0 1 1 1 true) ex_soil 2 [1] 60 25 1 1 G (188 / 5) q so_column ltac:(repeat constructor) ltac:(cbn; lia) ltac:(discriminate) eq_refl eq_refl eq_refl eq_refl eq_refl eq_refl ltac:(lra) ltac:(lra)
    eq_refl eq_refl eq_refl ltac:(lra) EG ve_two_saturated) as C.
  assert (Q : resistance [25; 75] [1] = 25) by (unfold resistance; cbn; field). rewrite Q in C.
  specialize (C ltac:(lra) EM ltac:(lra) EQ). subst q. do 2 f_equal. unfold column_capacity. cbn [length seq map Rsum nth].
  rewrite Rmin_left; rewrite Rmax_right by lra; field_simplify; lra.
Qed.

(** ** The head iteration *)

Definition dr_part : part := mkPart 100 0 (1 / 10) (2 / 5) (1 / 100) 2 (1 / 2).
Lemma dr_parts : layer_parts ex_env [None; Some (Fin 0)] [None; Some (Fin 100)] 1 [] dr_part.
Proof.
  split; [reflexivity|]. split; [intros [|j] q E; discriminate|]. exists ex_soil, 1. split; [reflexivity|]. split; [exact ex_vg|]. split; reflexivity.
Qed.

(** The light rain of Ex_Dry: the search gives up at a head above 10^7 cm and books the water that it could not place. *)
Lemma dr_booked : forall cfg : Cfg, (0 < fuel)%nat ->
  lgar_theta_mass_balance ex_env 1 ex_soil (Fin 10000000000) (Fin (100 * dr_th0)) (Fin (100 * dr_th0 + dr_q)) (Fin 0) [None; Some (Fin 0)] [None; Some (Fin 100)] = Ok (Fin dr_th1, Fin dr_aet) /\
  dr_aet < 0.
Proof.
  intros cfg H. split; [apply dr_balance; auto|]. destruct dr_bounds as (B0 & B1 & B2). unfold dr_aet, dr_q. lra.
Qed.

(** Two layers of 25 cm and 35 cm of wet soil; the mass is already the right one. *)
Definition ve_parts : list part := [mkPart 25 0 (1 / 10) (2 / 5) (1 / 100) 2 (1 / 2)].
Definition ve_part : part := mkPart 35 (17 / 50) (1 / 10) (2 / 5) (1 / 100) 2 (1 / 2).
Lemma ve_layer_parts : layer_parts ti_env [None; Some (Fin 0); Some (Fin (17 / 50))] [None; Some (Fin 25); Some (Fin 35)] 2 ve_parts ve_part.
Proof.
  split; [reflexivity|]. split.
  - intros [|j] q E; [|destruct j; discriminate]. injection E as <-. exists ex_soil, 1. split; [reflexivity|]. split; [exact ex_vg|]. split; reflexivity.
  - exists ex_soil, 1. split; [reflexivity|]. split; [exact ex_vg|]. split; reflexivity.
Qed.
Lemma ve_at_once : forall cfg : Cfg,
  lgar_theta_mass_balance ti_env 2 ex_soil (Fin 0) (Fin (121 / 10)) (Fin (121 / 10)) (Fin (1 / 50)) [None; Some (Fin 0); Some (Fin (17 / 50))] [None; Some (Fin 25); Some (Fin 35)]
  = Ok (Fin (2 / 5), Fin (1 / 50)) /\ held (ve_part :: ve_parts) 0 = 121 / 10.
Proof.
  intro cfg. split.
  - unfold lgar_theta_mass_balance, tmb_tol. change (lit (1 / 1000000000000)) with (Fin (1 / 1000000000000)). replace (dabs (Fin (121 / 10) - Fin (121 / 10)))%d with (Fin 0).
    + rewrite leb_t by lra. rewrite ex_theta. reflexivity.
    + cbn. f_equal. rewrite Rminus_diag_eq by reflexivity. rewrite Rabs_R0. reflexivity.
  - unfold held, pt_theta, vg_theta, ve_part, ve_parts. cbn [map Rsum pt_z pt_t pt_r pt_e pt_a pt_n pt_m]. rewrite ve_Se0. field.
Qed.
End Run.
