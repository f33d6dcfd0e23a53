(** Worked examples for the column of one layer: 100 cm of the soil of Ex_Soil, a front at 10 cm above the deepest one. *)

From Coq Require Import Reals Lra ZArith List Bool Lia.
From Verif Require Import Outcome Dbl Exact Types ListOps Soil Fronts Infil Move Lib Spec_Common Spec_List Spec_Soil Spec_Column Spec_Update Spec_Profile Spec_Storage Spec_Single
  Pf_Dbl Pf_Pow Pf_Profile Pf_Structure Pf_Storage Pf_Merge Pf_Cross Pf_Repair Pf_SafeMove Pf_Single Pf_SingleMerge Ex_Saturated Ex_Unsaturated Ex_Soil Ex_Safety.
Import ListNotations.
Open Scope R_scope.

Definition sg1_top : front := mkF (Fin 10) (Fin (3 / 10)) (Fin 112) (Fin (1 / 20)) 1 1 false (Fin 1).
Definition sg1_deep : front := mkF (Fin 100) (Fin (1 / 5)) (Fin 283) (Fin (1 / 300)) 1 2 true (Fin 0).
Definition sg1_head : list front := [sg1_top; sg1_deep].

Section Run.
Local Existing Instance exact.
Context {cfg : Cfg}.

Lemma sg1_single : single ex_env ex_soil (1 / 10) (2 / 5) 100.
Proof.
  constructor; try reflexivity.
  - exact (ss_env _ uf_sound).
  - exists (1 / 100), 2, (1 / 2), 1. exact ex_vg.
  - exists 1. split; [reflexivity|lra].
Qed.

Lemma sg1_settled : settled ex_env (2 / 5) 100 sg1_head.
Proof.
  constructor.
  - constructor.
    + apply profile_scan; [discriminate|]. split.
      * intros i f E. do 2 (destruct i as [|i]; [injection E as <-; reflexivity|]). destruct i; discriminate.
      * cbn -[Z.le]. repeat split; try reflexivity; lia.
    + intros f E. injection E as <-. reflexivity.
    + repeat constructor; cbn; eexists; reflexivity.
    + repeat constructor; (exists ex_soil, (1 / 10), (2 / 5); eexists; repeat (split; [reflexivity|]); lra).
    + cbn. split; [intros _; lra|exact Logic.I].
    + repeat constructor; cbn; lra.
    + repeat constructor; cbn; lra.
    + intros f E. injection E as <-. left. cbn. lra.
    + repeat constructor; cbn; try (eexists; split; [reflexivity|lra]); right; (eexists; split; [reflexivity|lra]).
  - repeat constructor; cbn; lra.
  - repeat constructor; intro B; [|discriminate]. exists 1. split; [reflexivity|lra].
Qed.

(** One hour with 1 mm of infiltration and 1/2 mm of evapotranspiration: the front moves to 11 cm. *)
Lemma sg1_moves : exists l' q, lgar_move_wetting_fronts ex_env (Fin 1) (Fin (1 / 10)) 1 (Fin (storage sg1_head)) (Fin (1 / 20)) sg1_head sg1_head = Ok (l', Fin (1 / 20), q).
Proof.
  pose proof sg1_single as HS. pose proof sg1_settled as [G HB HV]. assert (H := graded_str _ _ _ _ _ _ _ HS G).
  assert (Es : storage sg1_head = 21) by (cbn; lra). rewrite Es.
  unfold lgar_move_wetting_fronts. change (aget (e_cum ex_env) (e_nlayers ex_env)) with (Ok (Fin 100)). cbn [bind]. cbv zeta.
  set (t1 := (10 * (3 / 10 - 1 / 5) + (1 / 10 - 1 / 20)) / 11 + 1 / 5).
  assert (Ht1 : 29 / 100 < t1 < 3 / 10) by (unfold t1; lra).
  set (c1 := set_psi (set_theta (set_depth sg1_top (Fin 11)) (Fin t1)) (h_of_Se ex_soil (Se_of_theta ex_soil (Fin t1)))).
  change (length sg1_head) with 2%nat. cbn [move_loop].
  rewrite (move_last ex_env _ _ _ sg1_head 1 sg1_head _ _ _ _ _ HS H (st_num _ _ H) eq_refl) by (cbn; lia). cbn [bind].
  assert (E1 : move_one ex_env (Fin 1) (Fin (1 / 10)) 1 sg1_head (listLength sg1_head) (Z.of_nat 1) sg1_head (Fin (1 / 20)) = Ok ([c1; sg1_deep], Fin (1 / 20))).
  { change (listLength sg1_head) with 2%Z. change (Z.of_nat 1) with 1%Z. unfold move_one.
    change (findFrontOld 1 sg1_head sg1_head) with (sg1_head, Some 0%nat). change (findFrontOld (1 + 1) sg1_head sg1_head) with (sg1_head, Some 1%nat).
    change (findFront 1 sg1_head) with (Some 0%nat). change (findFront (1 + 1) sg1_head) with (Some 1%nat). cbv iota.
    change (lget sg1_head 0) with (Ok sg1_top). cbn [bind]. change (f_layer sg1_top) with 1%Z. change (soil_of ex_env 1) with (Ok ex_soil). cbn [bind].
    change (1 =? 1)%Z with true. change (1 =? 2)%Z with false. cbv iota. cbn [bind orb].
    change (pget sg1_head (Some 1%nat)) with (Ok sg1_deep). cbn [bind]. change (f_layer sg1_deep) with 1%Z.
    change ((1 <? 2)%Z && negb (1 =? 1)%Z)%bool with false. change (false && negb (1 =? 1)%Z && (2 =? e_nlayers ex_env)%Z)%bool with false.
    change ((1 <? 2)%Z && (1 =? 1)%Z)%bool with true. cbv iota. change (1 =? 1)%Z with true.
    change (pget sg1_head (Some 0%nat)) with (Ok sg1_top). cbn [bind].
    change (aget (e_cum ex_env) (e_nlayers ex_env)) with (Ok (Fin 100)). cbn [bind].
    replace (dfmin (f_depth sg1_top + f_dzdt sg1_top * Fin 1)%d (Fin 100)) with (Fin 11)
      by (cbn; unfold Rltb; destruct (Rlt_dec _ _); [f_equal; lra|lra]).
    change (f_dzdt (set_depth sg1_top (Fin 11))) with (Fin 1). rewrite eqb_f by lra. cbn [andb].
    match goal with |- context [(?x <? s_theta_r ex_soil)%d] => replace x with (Fin t1)
      by (cbn; destruct (Req_EM_T _ _); [lra|cbn; f_equal; unfold t1; field]) end.
    change (s_theta_r ex_soil) with (Fin (1 / 10)). change (s_theta_e ex_soil) with (Fin (2 / 5)). rewrite ltb_f by lra.
    rewrite fmin_fin, fmax_fin, Rmin_right, Rmax_right by (try apply Rmin_glb; lra). reflexivity. }
  rewrite E1. cbn [bind sg1_head].
  assert (H1 : Str ex_env [c1; sg1_deep]).
  { apply (Str_alike ex_env sg1_head); [|exact H]. constructor; [|constructor; [apply alike_refl|constructor]]. split; [|split; reflexivity]. split; [reflexivity|]. split; [reflexivity|discriminate]. }
  assert (C : closure ex_env (Fin 21) (Fin (1 / 10)) [c1; sg1_deep] (Fin (1 / 20)) = Ok ([c1; sg1_deep], Fin (1 / 20), Fin 0)).
  { unfold closure. rewrite (cross_single _ _ _ _ _ _ HS H1). cbn [bind]. rewrite (drains_first _ _ _ _ _ _ _ _ HS H1).
    change (soil_of ex_env 1) with (Ok ex_soil). cbn [bind]. unfold dgtb. rewrite (ltb_t 0 21) by lra. cbn [cassert bind].
    change (findFront 1 [c1; sg1_deep]) with (Some 0%nat). cbn [lget nth_error bind].
    match goal with |- context [if ?c then _ else Ok ([c1; sg1_deep], _, Fin 0)] => replace c with false end; [reflexivity|].
    symmetry. change (f_theta c1) with (Fin t1). change (s_theta_e ex_soil) with (Fin (2 / 5)). cbn. apply Rltb_false. unfold Rabs. destruct (Rcase_abs _); lra. }
  rewrite C. cbn [bind].
  assert (M1 : measured [c1; sg1_deep]) by (repeat constructor; eexists; reflexivity).
  assert (W1 : within_soils ex_env [c1; sg1_deep]) by (repeat constructor; (exists ex_soil, (1 / 10), (2 / 5); eexists; repeat (split; [reflexivity|]); lra)).
  assert (K1 : Forall conducts [c1; sg1_deep]).
  { constructor; [|constructor; [|constructor]].
    - split; [eexists; split; [reflexivity|lra]|]. apply (single_psi _ _ _ _ _ t1 HS). lra.
    - split; [eexists; split; [reflexivity|lra]|]. right. eexists. split; [reflexivity|lra]. }
  destruct (phases_single 1 ex_env ex_soil (1 / 10) (2 / 5) 100 c1 sg1_deep [] 11 HS H1 M1 W1) as (l4 & fl & x & E4 & G4 & C4 & _); auto.
  1: exact Logic.I. 1,2: repeat constructor; cbn; lra. 1: left; lra.
  rewrite E4. cbn [bind]. destruct (refresh_single _ _ _ _ _ _ _ HS G4) as (l5 & E5 & G5 & _). rewrite E5. cbn [bind].
  rewrite (alone_single _ _ _ _ _ _ HS (graded_str _ _ _ _ _ _ _ HS G5)). cbn [bind].
  destruct C4 as [(_ & _ & ->)|(X & _)]; [|cbn in X; lra].
  assert (Y : (dabs (Fin 0) >? lit (1 / 10000000))%d = false) by (cbn; rewrite Rabs_R0; apply Rltb_false; lra). rewrite Y. eauto.
Qed.

Lemma sg1_dries : lgar_move_wetting_fronts ex_env (Fin 1) (Fin 0) 1 (Fin (storage sg1_head)) (Fin 20) sg1_head sg1_head = Stop (UB UseAfterFree).
Proof.
  pose proof sg1_single as HS. pose proof sg1_settled as [G HB HV]. assert (H := graded_str _ _ _ _ _ _ _ HS G).
  unfold lgar_move_wetting_fronts. change (aget (e_cum ex_env) (e_nlayers ex_env)) with (Ok (Fin 100)). cbn [bind]. cbv zeta.
  change (length sg1_head) with 2%nat. cbn [move_loop].
  rewrite (move_last ex_env _ _ _ sg1_head 1 sg1_head _ _ _ _ _ HS H (st_num _ _ H) eq_refl) by (cbn; lia). cbn [bind].
  assert (E1 : move_one ex_env (Fin 1) (Fin 0) 1 sg1_head (listLength sg1_head) (Z.of_nat 1) sg1_head (Fin 20) = Stop (UB UseAfterFree)).
  { change (listLength sg1_head) with 2%Z. change (Z.of_nat 1) with 1%Z. unfold move_one.
    change (findFrontOld 1 sg1_head sg1_head) with (sg1_head, Some 0%nat). change (findFrontOld (1 + 1) sg1_head sg1_head) with (sg1_head, Some 1%nat).
    change (findFront 1 sg1_head) with (Some 0%nat). change (findFront (1 + 1) sg1_head) with (Some 1%nat). cbv iota.
    change (lget sg1_head 0) with (Ok sg1_top). cbn [bind]. change (f_layer sg1_top) with 1%Z. change (soil_of ex_env 1) with (Ok ex_soil). cbn [bind].
    change (1 =? 1)%Z with true. change (1 =? 2)%Z with false. cbv iota. cbn [bind orb].
    change (pget sg1_head (Some 1%nat)) with (Ok sg1_deep). cbn [bind]. change (f_layer sg1_deep) with 1%Z.
    change ((1 <? 2)%Z && negb (1 =? 1)%Z)%bool with false. change (false && negb (1 =? 1)%Z && (2 =? e_nlayers ex_env)%Z)%bool with false.
    change ((1 <? 2)%Z && (1 =? 1)%Z)%bool with true. cbv iota. change (1 =? 1)%Z with true.
    change (pget sg1_head (Some 0%nat)) with (Ok sg1_top). cbn [bind].
    change (aget (e_cum ex_env) (e_nlayers ex_env)) with (Ok (Fin 100)). cbn [bind].
    replace (dfmin (f_depth sg1_top + f_dzdt sg1_top * Fin 1)%d (Fin 100)) with (Fin 11)
      by (cbn; unfold Rltb; destruct (Rlt_dec _ _); [f_equal; lra|lra]).
    change (f_dzdt (set_depth sg1_top (Fin 11))) with (Fin 1). rewrite eqb_f by lra. cbn [andb].
    set (t1 := (10 * (3 / 10 - 1 / 5) - 20) / 11 + 1 / 5).
    match goal with |- context [(?x <? s_theta_r ex_soil)%d] => replace x with (Fin t1)
      by (cbn; destruct (Req_EM_T _ _); [lra|cbn; f_equal; unfold t1; field]) end.
    change (s_theta_r ex_soil) with (Fin (1 / 10)). rewrite ltb_t by (unfold t1; lra).
    cbn [sg1_head lset].
    match goal with |- context [lgar_calc_mass_bal (e_cum ex_env) ?l] => assert (X : exists y, lgar_calc_mass_bal (e_cum ex_env) l = Ok y) end.
    { eexists. apply (single_mass _ _ _ _ _ _ HS).
      - apply (Str_lset ex_env sg1_head 0 sg1_top _ eq_refl); [|exact H]. split; [|split; reflexivity]. split; [reflexivity|]. split; [reflexivity|discriminate].
      - repeat constructor; eexists; reflexivity. }
    destruct X as [y X]. rewrite X. reflexivity. }
  rewrite E1. reflexivity.
Qed.
End Run.
