(** Worked examples for storage, merging, crossing, repair and creation of fronts.  Column: the two layers of 25 and 75 cm of Ex_Safety. *)

From Coq Require Import Reals Lra ZArith List Bool Lia.
From Verif Require Import Outcome Dbl Exact Types ListOps Soil Fronts Infil Lib Spec_Common Spec_List Spec_Soil Spec_Column Spec_Update Spec_Profile Spec_Storage
  Pf_Dbl Pf_Pow Pf_Profile Pf_Structure Pf_Storage Pf_Merge Pf_Cross Pf_Repair Ex_Saturated Ex_Unsaturated Ex_Soil Ex_Safety.
Import ListNotations.
Open Scope R_scope.

Definition so_f (d th : R) (lay num : Z) (b : bool) : front := mkF (Fin d) (Fin th) (Fin 75) (Fin (1 / 10)) lay num b (Fin 0).

Definition so_plain : list front := [so_f 10 (2 / 5) 1 1 false; so_f 25 (17 / 50) 1 2 true; so_f 100 (17 / 50) 2 3 true].
Definition so_overtaken : list front := [so_f 20 (2 / 5) 1 1 false; so_f 15 (37 / 100) 1 2 false; so_f 25 (17 / 50) 1 3 true; so_f 100 (17 / 50) 2 4 true].
Definition so_deep : list front := [so_f 30 (2 / 5) 1 1 false; so_f 25 (17 / 50) 1 2 true; so_f 100 (17 / 50) 2 3 true].
Definition so_blocked : list front := [so_f 30 (2 / 5) 1 1 false; so_f 25 (17 / 50) 1 2 true; so_f 100 (2 / 5) 2 3 true].
Definition so_leaving : list front := [so_f 25 (17 / 50) 1 1 true; so_f 105 (2 / 5) 2 2 false; so_f 100 (17 / 50) 2 3 true].
Definition so_inverted : list front := [so_f 10 (1 / 5) 1 1 false; so_f 20 (3 / 10) 1 2 false; so_f 25 (17 / 50) 1 3 true; so_f 100 (17 / 50) 2 4 true].

Section Run.
Local Existing Instance exact.

Lemma so_env : sound_env ti_env.
Proof. exact (ss_env _ ti_sound). Qed.

Lemma so_vg : vg_column ti_env.
Proof.
  intros k s Hk E. change (e_nlayers ti_env) with 2%Z in Hk. exists (1 / 10), (2 / 5), (1 / 100), 2, (1 / 2), 1.
  assert (k = 1 \/ k = 2)%Z as [->| ->] by lia; apply Ok_inj in E; subst s; exact ex_vg.
Qed.

Lemma so_zero : aget (e_cum ti_env) 0 = Ok (Fin 0). Proof. reflexivity. Qed.

Ltac prof := apply profile_scan; [discriminate|]; split;
  [intros i f E; do 4 (destruct i as [|i]; [first [injection E as <-; reflexivity|discriminate]|]); destruct i; discriminate
  |cbn -[Z.le]; repeat split; try reflexivity; lia].
Ltac fins := repeat constructor; cbn; eexists; reflexivity.
Ltac inside := repeat constructor; (exists ex_soil, (1 / 10), (2 / 5); eexists; repeat (split; [reflexivity|]); lra).
Ltac deeper := repeat constructor; cbn; lra.
Ltac lay := repeat constructor; (eexists; split; [reflexivity|cbn; lra]).
Ltac rest := intros f E; injection E as <-; reflexivity.

(** Storage. *)
Lemma so_plain_ok : profile 2 [Fin 0; Fin 25; Fin 100] so_plain /\ measured so_plain /\ ordered 0 so_plain /\ within_soils ti_env so_plain /\
  lgar_calc_mass_bal [Fin 0; Fin 25; Fin 100] so_plain = Ok (Fin (173 / 5)).
Proof. split; [prof|]. split; [fins|]. split; [cbn; lra|]. split; [inside|]. reval. feq. Qed.

Lemma so_column : column ti_env [25; 75] [ex_soil; ex_soil].
Proof.
  constructor; try reflexivity.
  - cbn. do 2 f_equal; [f_equal; ring|]. f_equal. f_equal. ring.
  - intros [|[|k]] s E; [injection E as <-; reflexivity|injection E as <-; reflexivity|destruct k; discriminate].
Qed.

(** Two fronts have changed places: they merge at 17.5 cm. *)
Lemma so_merge_ok : profile 2 [Fin 0; Fin 25; Fin 100] so_overtaken /\ deepest_rests so_overtaken /\ measured so_overtaken /\
  drier_downwards so_overtaken /\ below_surface so_overtaken /\
  exists l', lgar_merge_wetting_fronts ti_env so_overtaken = Ok l' /\ length l' = 3%nat /\ option_map f_depth (hd_error l') = Some (Fin (35 / 2)).
Proof.
  split; [prof|]. split; [rest|]. split; [fins|]. split; [cbn; repeat split; intros; first [discriminate|lra]|]. split; [deeper|].
  unfold lgar_merge_wetting_fronts, so_overtaken. cbn [length merge_loop].
  unfold listLength at 1. cbn [length]. change (Z.of_nat 1 =? Z.of_nat 4)%Z with false. cbv iota.
  unfold merge_step at 1. cbn [lget nth_error bind so_f f_depth f_layer f_theta f_bottom].
  change ((Fin 20 >? Fin 15) && (1 =? 1)%Z && negb false)%bool%d with ((Fin 20 >? Fin 15)%d && true && true)%bool.
  replace (Fin 20 >? Fin 15)%d with true by (symmetry; apply ltb_t; lra). cbn [andb bind]. cbv zeta.
  match goal with |- context [cassert ?b] => replace b with true end.
  2:{ symmetry. cbn. destruct (Req_EM_T _ 0); [lra|]. apply Rltb_true. lra. }
  cbn [cassert bind]. change (soil_of ti_env 1) with (Ok ex_soil). cbn [bind]. change (aget (e_frozen ti_env) 1) with (Ok (Fin 1)). cbn [bind].
  match goal with |- context [lset _ 0 ?x] => set (c' := x) end.
  match goal with |- context [listDeleteFront ?k ?l] => change (listDeleteFront k l) with
    (Ok ([c'; set_num (so_f 25 (17 / 50) 1 3 true) (3 + -1); set_num (so_f 100 (17 / 50) 2 4 true) (4 + -1)], Some 1%nat)) end. cbn [bind].
  unfold listLength. cbn [length]. change (Z.of_nat 2 =? Z.of_nat 3)%Z with false. cbv iota.
  unfold merge_step at 1. cbn [lget nth_error bind set_num so_f f_depth f_layer f_theta f_bottom].
  change (1 =? 2)%Z with false. rewrite andb_false_r. cbn [andb bind length]. change (Z.of_nat 3 =? Z.of_nat 3)%Z with true. cbv iota.
  eexists. split; [reflexivity|]. split; [reflexivity|]. cbn [hd_error option_map c' set_K set_psi set_depth f_depth]. f_equal.
  cbn. destruct (Req_EM_T _ 0); [lra|]. f_equal. field.
Qed.

(** The front at 30 cm passes into the second layer. *)
Lemma so_cross_step : exists K, cross_step ti_env 0 so_deep =
  Ok [mkF (Fin 25) (Fin (2 / 5)) (Fin 0) K 1 1 true (Fin 0); mkF (Fin 30) (Fin (2 / 5)) (Fin 0) (Fin (1 / 10)) 2 2 false (Fin 0); so_f 100 (17 / 50) 2 3 true].
Proof.
  unfold cross_step, so_deep. cbn [lget nth_error bind so_f f_depth f_layer f_theta f_bottom f_num f_K f_dzdt].
  change (soil_of ti_env 1) with (Ok ex_soil). cbn [bind]. change (aget (e_frozen ti_env) 1) with (Ok (Fin 1)). cbn [bind].
  change (aget (e_cum ti_env) 1) with (Ok (Fin 25)). cbn [bind].
  replace (Fin 30 >? Fin 25)%d with true by (symmetry; apply ltb_t; lra). replace (Fin 25 =? Fin 25)%d with true by (symmetry; apply eqb_t; lra).
  change (1 =? e_nlayers ti_env)%Z with false. cbn [andb negb]. change (soil_of ti_env (1 + 1)) with (Ok ex_soil). cbn [bind].
  change (aget (e_cum ti_env) (1 + 1)) with (Ok (Fin 100)). cbn [bind]. cbv zeta. rewrite ex_psi, ex_theta.
  change (s_theta_e ex_soil) with (Fin (2 / 5)).
  replace (dfmin (Fin (2 / 5)) (Fin (2 / 5))) with (Fin (2 / 5)) by (cbn; unfold Rltb; destruct (Rlt_dec _ _); reflexivity).
  replace ((Fin 30 - Fin 25) * (Fin (2 / 5) - Fin (17 / 50)) / (Fin (2 / 5) - Fin (17 / 50)))%d with (Fin 5)
    by (cbn; destruct (Req_EM_T _ 0); [lra|f_equal; field; lra]).
  cbn [disinf]. replace (Fin 25 + Fin 5)%d with (Fin 30) by (cbn; f_equal; lra). cbn [lset]. eexists. reflexivity.
Qed.

Lemma so_cross_ok : profile 2 [Fin 0; Fin 25; Fin 100] so_deep /\ deepest_rests so_deep /\ measured so_deep /\ within_soils ti_env so_deep /\
  ~ cross_tie ti_env so_deep /\ ~ cross_blocked ti_env so_deep /\
  exists l', cross_step ti_env 0 so_deep = Ok l' /\ map f_layer l' = [1; 2; 2]%Z.
Proof.
  destruct so_cross_step as [K EC].
  assert (P : forall p l', (S p < length so_deep)%nat -> cross_prefix ti_env p so_deep = Ok l' -> p = 0%nat /\ l' = so_deep \/
    p = 1%nat /\ l' = [mkF (Fin 25) (Fin (2 / 5)) (Fin 0) K 1 1 true (Fin 0); mkF (Fin 30) (Fin (2 / 5)) (Fin 0) (Fin (1 / 10)) 2 2 false (Fin 0); so_f 100 (17 / 50) 2 3 true]).
  { intros [|[|p]] l' Hp E; [left; split; [reflexivity|symmetry; exact (Ok_inj _ _ _ E)]| |cbn in Hp; lia].
    right. split; [reflexivity|]. cbn [cross_prefix bind] in E. rewrite EC in E. symmetry. exact (Ok_inj _ _ _ E). }
  split; [prof|]. split; [rest|]. split; [fins|]. split; [inside|]. split; [|split].
  - intros (p & l' & Hp & E & (c & n & ck & Ec & En & _ & L1 & L2 & B & _)). destruct (P _ _ Hp E) as [[-> ->]|[-> ->]]; cbn in Ec, En.
    + injection En as <-. discriminate.
    + injection Ec as <-. injection En as <-. apply L2. reflexivity.
  - intros (p & l' & Hp & E & (c & n & nn & ck & s & s2 & Ec & En & Enn & Eck & G1 & G2 & L & Es & Es2 & ET)). destruct (P _ _ Hp E) as [[-> ->]|[-> ->]].
    + cbn in Ec, En, Enn. injection Ec as <-. injection Enn as <-. change (soil_of ti_env (f_layer (so_f 30 (2 / 5) 1 1 false))) with (Ok ex_soil) in Es.
      change (soil_of ti_env (f_layer (so_f 30 (2 / 5) 1 1 false) + 1)) with (Ok ex_soil) in Es2. apply Ok_inj in Es, Es2. subst s s2.
      change (f_theta (so_f 30 (2 / 5) 1 1 false)) with (Fin (2 / 5)) in ET. rewrite ex_psi, ex_theta in ET. cbn in ET. injection ET. lra.
    + cbn in Enn. discriminate.
  - eexists. split; [exact EC|reflexivity].
Qed.

(** The same front above a second layer that already holds its water content: 0.3 cm of water disappear. *)
Lemma so_blocked_refutes : exists l', profile 2 [Fin 0; Fin 25; Fin 100] so_blocked /\ deepest_rests so_blocked /\ measured so_blocked /\ within_soils ti_env so_blocked /\
  lgar_wetting_fronts_cross_layer_boundary ti_env so_blocked = Ok l' /\ storage so_blocked = 403 / 10 /\ storage l' = 40.
Proof.
  assert (EC : exists K, lgar_wetting_fronts_cross_layer_boundary ti_env so_blocked =
    Ok [mkF (Fin 25) (Fin (2 / 5)) (Fin 0) K 1 1 true (Fin 0); mkF (Fin (251 / 10)) (Fin (2 / 5)) (Fin 0) (Fin (1 / 10)) 2 2 false (Fin 0); so_f 100 (2 / 5) 2 3 true]).
  { unfold lgar_wetting_fronts_cross_layer_boundary, so_blocked. cbn [length cross_loop].
    unfold listLength at 1. cbn [length]. change (Z.of_nat 1 =? Z.of_nat 3)%Z with false. cbv iota.
    unfold cross_step at 1. cbn [lget nth_error bind so_f f_depth f_layer f_theta f_bottom f_num f_K f_dzdt].
    change (soil_of ti_env 1) with (Ok ex_soil). cbn [bind]. change (aget (e_frozen ti_env) 1) with (Ok (Fin 1)). cbn [bind].
    change (aget (e_cum ti_env) 1) with (Ok (Fin 25)). cbn [bind].
    replace (Fin 30 >? Fin 25)%d with true by (symmetry; apply ltb_t; lra). replace (Fin 25 =? Fin 25)%d with true by (symmetry; apply eqb_t; lra).
    change (1 =? e_nlayers ti_env)%Z with false. cbn [andb negb]. change (soil_of ti_env (1 + 1)) with (Ok ex_soil). cbn [bind].
    change (aget (e_cum ti_env) (1 + 1)) with (Ok (Fin 100)). cbn [bind]. cbv zeta. rewrite ex_psi, ex_theta.
    change (s_theta_e ex_soil) with (Fin (2 / 5)).
    replace (dfmin (Fin (2 / 5)) (Fin (2 / 5))) with (Fin (2 / 5)) by (cbn; unfold Rltb; destruct (Rlt_dec _ _); reflexivity).
    replace ((Fin 30 - Fin 25) * (Fin (2 / 5) - Fin (17 / 50)) / (Fin (2 / 5) - Fin (2 / 5)))%d with PInf
      by (cbn; destruct (Req_EM_T _ 0); [|lra]; unfold inf_sign; destruct (Rlt_dec _ _); [reflexivity|lra]).
    cbn [disinf]. change (lit 1000) with (Fin 1000). rewrite div_fin by lra. replace (Fin 25 + Fin (100 / 1000))%d with (Fin (251 / 10)) by (cbn; f_equal; lra). cbn [lset bind].
    unfold listLength. cbn [length]. change (Z.of_nat 2 =? Z.of_nat 3)%Z with false. cbv iota.
    unfold cross_step at 1. cbn [lget nth_error bind so_f f_depth f_layer f_theta f_bottom f_num f_K f_dzdt].
    change (1 + 1)%Z with 2%Z. change (soil_of ti_env 2) with (Ok ex_soil). cbn [bind]. change (aget (e_frozen ti_env) 2) with (Ok (Fin 1)). cbn [bind].
    change (aget (e_cum ti_env) 2) with (Ok (Fin 100)). cbn [bind]. change (negb (2 =? e_nlayers ti_env)%Z) with false. rewrite andb_false_r. cbn [bind].
    eexists. reflexivity. }
  destruct EC as [K EC]. eexists. split; [prof|]. split; [rest|]. split; [fins|]. split; [inside|]. split; [exact EC|]. split; cbn; lra.
Qed.

(** The front at 105 cm has left the column. *)
Lemma so_domain_ok : profile 2 [Fin 0; Fin 25; Fin 100] so_leaving /\ deepest_rests so_leaving /\ measured so_leaving /\
  exists l', lgar_wetting_front_cross_domain_boundary ti_env (Fin 100) so_leaving = Ok (Fin (3 / 10), l') /\ length l' = 2%nat.
Proof.
  split; [prof|]. split; [rest|]. split; [fins|].
  unfold lgar_wetting_front_cross_domain_boundary, so_leaving. cbn [length Nat.sub domain_loop].
  unfold listLength at 1. cbn [length]. change (Z.of_nat 1 >=? Z.of_nat 3)%Z with false. cbv iota.
  cbn [lget nth_error bind so_f f_layer]. change (uget (e_stype ti_env) 1) with (Ok 1%Z). cbn [bind].
  unfold listLength at 1. cbn [length]. change (Z.of_nat 2 >=? Z.of_nat 3)%Z with false. cbv iota.
  cbn [lget nth_error bind so_f f_layer f_depth f_theta f_num]. change (uget (e_stype ti_env) 2) with (Ok 1%Z). cbn [bind].
  replace (Fin 105 >=? Fin 100)%d with true by (symmetry; apply leb_t; lra). cbv iota.
  change (uget (e_soils ti_env) 1) with (Ok ex_soil). cbn [bind]. change (aget (e_frozen ti_env) 2) with (Ok (Fin 1)). cbn [bind].
  match goal with |- context [lset _ 2 ?x] => set (c' := x) end.
  match goal with |- context [listDeleteFront ?k ?l] => change (listDeleteFront k l) with (Ok ([so_f 25 (17 / 50) 1 1 true; set_num c' (3 + -1)], Some 1%nat)) end. cbn [bind].
  eexists. split; [apply f_equal; apply pair_equal_spec; split; [cbn; f_equal; lra|reflexivity]|reflexivity].
Qed.

(** Three increasing water contents: after the repair two of them are left, still inverted. *)
Lemma so_repair_refutes : exists l' mc, profile 2 [Fin 0; Fin 25; Fin 100] so_inverted /\ deepest_rests so_inverted /\ measured so_inverted /\ within_soils ti_env so_inverted /\
  lgar_fix_dry_over_wet_wetting_fronts ti_env (Fin 0) so_inverted = Ok (l', mc) /\ inverted l'.
Proof.
  assert (H0 : Str ti_env so_inverted) by (apply Str_iff; [discriminate|]; split; [prof|rest]).
  assert (M0 : measured so_inverted) by fins. assert (W0 : within_soils ti_env so_inverted) by inside.
  assert (EF : exists dm, fix_pair ti_env (so_f 10 (1 / 5) 1 1 false) so_inverted =
    Ok ([so_f 20 (3 / 10) 1 1 false; so_f 25 (17 / 50) 1 2 true; so_f 100 (17 / 50) 2 3 true], 0%nat, dm)).
  { destruct (fix_pair_exact ti_env 0 (so_f 10 (1 / 5) 1 1 false) (so_f 20 (3 / 10) 1 2 false) so_inverted so_env so_vg so_zero H0 M0 W0 eq_refl eq_refl eq_refl)
      as (l' & E & _). eexists. rewrite E. do 3 f_equal. unfold fix_pair in E. bind_inv E m Em.
    match type of E with context [listDeleteFront ?k ?l] => change (listDeleteFront k l) with
      (Ok ([so_f 20 (3 / 10) 1 1 false; so_f 25 (17 / 50) 1 2 true; so_f 100 (17 / 50) 2 3 true], Some 0%nat)) in E end.
    cbn [bind] in E. change (f_layer (so_f 10 (1 / 5) 1 1 false) >? 1)%Z with false in E. cbn [bind] in E. bind_inv E m2 Em2.
    apply Ok_inj in E. apply pair_equal_spec in E as [E _]. apply pair_equal_spec in E as [E _]. symmetry. exact E. }
  destruct EF as [dm EF]. do 2 eexists. split; [prof|]. split; [rest|]. split; [assumption|]. split; [assumption|]. split.
  - unfold lgar_fix_dry_over_wet_wetting_fronts. unfold so_inverted at 1. change (length so_inverted) with 4%nat. cbn [fix_loop].
    change (1 <=? listLength so_inverted)%Z with true. cbv iota. cbn [so_inverted nth_error].
    replace (dry_over_wet (so_f 10 (1 / 5) 1 1 false) (so_f 20 (3 / 10) 1 2 false)) with true
      by (symmetry; unfold dry_over_wet; cbn; apply andb_true_iff; split; [apply Rleb_true; lra|reflexivity]).
    fold so_inverted. rewrite EF. cbn [bind nth_error]. unfold listLength at 1. cbn [length]. change (1 + 1 <=? Z.of_nat 3)%Z with true. cbv iota.
    replace (dry_over_wet (so_f 25 (17 / 50) 1 2 true) (so_f 100 (17 / 50) 2 3 true)) with false
      by (symmetry; unfold dry_over_wet; cbn; apply andb_false_r).
    unfold listLength at 1. cbn [length]. change (1 + 1 + 1 <=? Z.of_nat 3)%Z with true. cbv iota. reflexivity.
  - exists 0%nat. do 2 eexists. split; [reflexivity|]. split; [reflexivity|]. split; [reflexivity|]. cbn. apply Rleb_true. lra.
Qed.

Lemma so_repair_ok : profile 2 [Fin 0; Fin 25; Fin 100] so_inverted /\ deepest_rests so_inverted /\ measured so_inverted /\ within_soils ti_env so_inverted /\ inverted so_inverted.
Proof.
  split; [prof|]. split; [rest|]. split; [fins|]. split; [inside|]. exists 0%nat. do 2 eexists. split; [reflexivity|]. split; [reflexivity|]. split; [reflexivity|]. cbn. apply Rleb_true. lra.
Qed.

(** Rain on a dry profile. *)
Definition so_dry : list front := [so_f 25 (17 / 50) 1 1 true; so_f 100 (17 / 50) 2 2 true].
Lemma so_create_ok : profile 2 [Fin 0; Fin 25; Fin 100] so_dry /\ deepest_rests so_dry /\ measured so_dry /\ within_soils ti_env so_dry /\
  drier_downwards so_dry /\ below_surface so_dry /\ in_layers ti_env so_dry /\
  exists l', lgar_create_surficial_front ti_env (Fin (3 / 10)) (Fin 10) (Fin (17 / 50)) so_dry = Ok (l', Fin 0, Fin (3 / 10)) /\
    surface_theta l' = Some (Fin (37 / 100)).
Proof.
  split; [prof|]. split; [rest|]. split; [fins|]. split; [inside|]. split; [cbn; repeat split; intros; first [discriminate|lra]|]. split; [deeper|]. split; [lay|].
  unfold lgar_create_surficial_front. change (soil_of ti_env 1) with (Ok ex_soil). cbn [bind]. change (s_theta_e ex_soil) with (Fin (2 / 5)). cbv zeta.
  replace (Fin 10 * (Fin (2 / 5) - Fin (17 / 50)) >? Fin (3 / 10))%d with true by (symmetry; cbn; apply Rltb_true; lra). cbv iota.
  cbn [bind]. change (aget (e_frozen ti_env) 1) with (Ok (Fin 1)). cbn [bind listInsertFirst so_dry bump map]. cbn [set_psi set_K set_dzdt set_num so_f f_depth].
  replace (Fin 10 >? Fin 25)%d with false by (symmetry; apply ltb_f; lra). cbn [bind]. eexists. split; [reflexivity|].
  cbn [surface_theta hd_error option_map f_theta]. rewrite div_fin by lra. f_equal. cbn. unfold Rltb. repeat destruct (Rlt_dec _ _); f_equal; lra.
Qed.

Lemma so_blocked_refuted : exists (e : env) (l l' : list front), sound_env e /\ vg_column e /\ profile (e_nlayers e) (e_cum e) l /\ deepest_rests l /\ measured l /\ within_soils e l /\
  lgar_wetting_fronts_cross_layer_boundary e l = Ok l' /\ storage l = 403 / 10 /\ storage l' = 40.
Proof. destruct so_blocked_refutes as [l' H]. exists ti_env, so_blocked, l'. exact (conj so_env (conj so_vg H)). Qed.

Lemma so_repair_refuted : exists (e : env) (l l' : list front) (mc : dbl), sound_env e /\ vg_column e /\ profile (e_nlayers e) (e_cum e) l /\ deepest_rests l /\ measured l /\
  within_soils e l /\ lgar_fix_dry_over_wet_wetting_fronts e (Fin 0) l = Ok (l', mc) /\ inverted l'.
Proof. destruct so_repair_refutes as (l' & mc & H). exists ti_env, so_inverted, l', mc. exact (conj so_env (conj so_vg H)). Qed.
End Run.
