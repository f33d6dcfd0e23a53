(** Worked examples: the motion and the sub-step of columns of two layers. *)

From Coq Require Import Reals Lra ZArith List Bool Lia.
From Verif Require Import Outcome Dbl Exact Types ListOps Soil Fronts Infil Move State Update Lib Spec_Common Spec_List Spec_Soil Spec_Update Spec_Profile Spec_Storage Spec_Advance Spec_Physical
  Spec_Motion Spec_Shares Spec_Balance Pf_Dbl Pf_Pow Pf_Soil Pf_List Pf_Update Pf_Profile Pf_Structure Pf_Repair Pf_Cross Pf_Physical Pf_SafeMove Pf_Single Pf_SingleMerge Pf_Motion Pf_Motion2
  Ex_Saturated Ex_Unsaturated Ex_Safety Ex_TwoLayers Ex_Soil Ex_Physical Ex_Advance Ex_Books.
Import ListNotations.
Open Scope R_scope.

Section Run.
Local Existing Instance exact.
Context {cfg : Cfg}.

(** ** Fronts that stay in their layers, in order *)
Lemma prefix_idle : forall e l, sound_env e -> Str e l -> measured l -> in_layers e l -> forall p, (p < length l)%nat -> cross_prefix e p l = Ok l.
Proof. intros e l HE H M L p. induction p as [|p IH]; intro Hp; [reflexivity|]. cbn [cross_prefix]. rewrite IH by lia. cbn [bind]. apply cross_step_idle; auto. Qed.
Lemma inside : forall e l i c ck, measured l -> in_layers e l -> nth_error l i = Some c -> aget (e_cum e) (f_layer c) = Ok ck -> dgtb (f_depth c) ck = false.
Proof.
  intros e l i c ck M L Ec Ek. destruct (proj1 (Forall_forall _ _) L c (nth_error_In _ _ Ec)) as (z & Ez & Bz). rewrite Ek in Ez. apply Ok_inj in Ez. subst ck.
  destruct (proj1 (Forall_forall _ _) M c (nth_error_In _ _ Ec)) as [[dc Edc] _]. rewrite Edc in Bz |- *. apply ltb_f. assumption.
Qed.
Lemma idle_tie : forall e l, sound_env e -> Str e l -> measured l -> in_layers e l -> ~ cross_tie e l /\ ~ cross_blocked e l.
Proof.
  intros e l HE H M L. split.
  - intros (p & l' & Hp & EP & c & n & ck & Ec & _ & Ek & _ & _ & _ & G & _). rewrite prefix_idle in EP by (auto; lia). apply Ok_inj in EP. subst l'. rewrite (inside e l p c ck) in G by assumption. discriminate.
  - intros (p & l' & Hp & EP & c & n & nn & ck & s & s2 & Ec & _ & _ & Ek & G & _). rewrite prefix_idle in EP by (auto; lia). apply Ok_inj in EP. subst l'. rewrite (inside e l p c ck) in G by assumption. discriminate.
Qed.
Lemma idle_check : forall e l mc, ~ inverted l -> l <> [] -> check_and_fix e l mc = Ok (l, mc).
Proof.
  intros e l mc HI Hl. unfold check_and_fix, lgar_check_dry_over_wet_wetting_fronts. destruct l as [|c r]; [contradiction|]. cbn [bind].
  destruct (check_dry (c :: r)) eqn:C; [|reflexivity]. apply check_dry_iff in C. contradiction.
Qed.

Lemma still : forall e dt vin wfd old aet head prev l a q bed f, sound_env e -> Str e l -> measured l -> in_layers e l -> ~ inverted l ->
  move_loop (length head) e dt vin wfd prev (listLength head) head aet = Ok (l, a) -> closure e old vin l a = Ok (l, a, q) -> lgar_merge_wetting_fronts e l = Ok l ->
  aget (e_cum e) (e_nlayers e) = Ok bed -> lgar_wetting_front_cross_domain_boundary e bed l = Ok (f, l) ->
  ~ move_tie e dt vin wfd old aet head prev /\ ~ move_degenerate e dt vin wfd old aet head prev /\ ~ move_inverted e dt vin wfd old aet head prev.
Proof.
  intros e dt vin wfd old aet head prev l a q bed f HE HS M L HI Q1 Q2 Q4 Q8 Q9. assert (Hl : l <> []) by (eapply Str_nonempty; eauto using se_n).
  destruct (idle_tie e l HE HS M L) as [T B]. assert (Q5 := cross_idle e l HE HS M L). assert (Q3 := fun mc => idle_check e l mc HI Hl).
  split.
  - intros (l0 & a0 & E & HT). rewrite Q1 in E. apply Ok_inj in E. apply pair_equal_spec in E as [<- <-].
    destruct HT as [HT|(l1 & a1 & fl & l2 & mc & l3 & EA & EB & EC & HT)]; [exact (T HT)|].
    rewrite Q2 in EA. apply Ok_inj in EA. apply pair_equal_spec in EA as [EA _]. apply pair_equal_spec in EA as [<- _].
    rewrite Q3 in EB. apply Ok_inj in EB. apply pair_equal_spec in EB as [<- _]. rewrite Q4 in EC. apply Ok_inj in EC. subst l3. exact (T HT).
  - assert (G : forall g : stages e dt vin wfd old aet head prev, sg_pass _ _ _ _ _ _ _ _ g = l /\ sg_closed _ _ _ _ _ _ _ _ g = l /\ sg_merged _ _ _ _ _ _ _ _ g = l /\ sg_crossed _ _ _ _ _ _ _ _ g = l /\ sg_merged2 _ _ _ _ _ _ _ _ g = l /\ sg_left _ _ _ _ _ _ _ _ g = l).
    { intros [k1 c1 k2 c2 r2 k3 m3 k4 k5 k6 m6 k7 d8 k9 r9 G1 G2 G3 G4 G5 G6 G7 G8 G9]. cbn.
      rewrite Q1 in G1. apply Ok_inj in G1. apply pair_equal_spec in G1 as [<- <-].
      rewrite Q2 in G2. apply Ok_inj in G2. apply pair_equal_spec in G2 as [G2 _]. apply pair_equal_spec in G2 as [<- _].
      rewrite Q3 in G3. apply Ok_inj in G3. apply pair_equal_spec in G3 as [<- _]. rewrite Q4 in G4. apply Ok_inj in G4. subst k4. rewrite Q5 in G5. apply Ok_inj in G5. subst k5.
      rewrite Q3 in G6. apply Ok_inj in G6. apply pair_equal_spec in G6 as [<- _]. rewrite Q4 in G7. apply Ok_inj in G7. subst k7. rewrite Q8 in G8. apply Ok_inj in G8. subst d8.
      rewrite Q9 in G9. apply Ok_inj in G9. apply pair_equal_spec in G9 as [_ <-]. auto 10. }
    split.
    + intros (g & D). destruct (G g) as (G1 & G2 & G3 & G4 & G5 & G6). unfold stages_degenerate in D. rewrite G1, G2, G3, G5 in D. tauto.
    + intros (g & D). destruct (G g) as (G1 & G2 & G3 & G4 & G5 & G6). unfold stages_inverted in D. rewrite G2, G4, G6 in D. tauto.
Qed.

(** ** The front at 20 cm of [Ex_Books]: 1 mm of rain, 1 cm of evapotranspiration *)
Lemma bk_after_str : Str ti_env bk_after.
Proof.
  apply Str_iff; [cbn; lia|]. split; [|intros f E; injection E as <-; reflexivity]. apply profile_scan; [discriminate|]. split.
  - intros i f E. do 3 (destruct i as [|i]; [injection E as <-; reflexivity|]). destruct i; discriminate.
  - cbn -[Z.le]. repeat split; try reflexivity; lia.
Qed.
Lemma bk_after_measured : measured bk_after.
Proof. repeat (apply Forall_cons || apply Forall_nil); split; eexists; reflexivity. Qed.
Lemma bk_after_inside : in_layers ti_env bk_after.
Proof. repeat (apply Forall_cons || apply Forall_nil); eexists; (split; [reflexivity|cbn; lra]). Qed.
Lemma bk_after_order : ~ inverted bk_after.
Proof.
  intros (i & f & g & E1 & E2 & EL & HL). destruct i as [|[|[|i]]]; [| |discriminate E2|destruct i; discriminate E2].
  - injection E1 as <-. injection E2 as <-. cbn [f_theta ti_front] in HL. rewrite leb_f in HL by lra. discriminate.
  - injection E1 as <-. injection E2 as <-. discriminate EL.
Qed.

Lemma bk_physical : Forall (physical_front 1 ti_env) bk_head.
Proof.
  assert (G : forall k, (k = 1 \/ k = 2)%Z -> forall d dz num b, physical_front 1 ti_env (ti_front d dz k num b)).
  { intros k Hk d dz num b. apply phys_iff; [exact ti_vg|]. split; [cbn; lia|]. split; [right; exists 75; split; [reflexivity|lra]|]. split; [|exists (1 / 10); split; [reflexivity|lra]].
    exists ex_soil. split; [destruct Hk as [-> | ->]; reflexivity|]. cbn [f_theta f_psi ti_front]. symmetry. exact ti_theta. }
  unfold bk_head. repeat (apply Forall_cons || apply Forall_nil); [|apply G; lia..].
  apply phys_iff; [exact ti_vg|]. split; [cbn; lia|]. split; [right; exists 0; split; [reflexivity|lra]|]. split; [|exists 1; split; [reflexivity|lra]].
  exists ex_soil. split; [reflexivity|]. cbn [f_theta f_psi]. symmetry. apply ex_theta.
Qed.

Lemma bk_still : let old := Fin (storage bk_head) in
  ~ move_tie ti_env (Fin 4) (Fin (1 / 10)) 1 old (Fin 1) bk_head bk_head /\ ~ move_degenerate ti_env (Fin 4) (Fin (1 / 10)) 1 old (Fin 1) bk_head bk_head /\
  ~ move_inverted ti_env (Fin 4) (Fin (1 / 10)) 1 old (Fin 1) bk_head bk_head /\
  exists l', lgar_move_wetting_fronts ti_env (Fin 4) (Fin (1 / 10)) 1 old (Fin 1) bk_head bk_head = Ok (l', Fin 1, Fin 0) /\ storage l' = storage bk_head + 1 / 10 - 1.
Proof.
  intro old. pose proof (bk_dries cfg) as Q1. set (c := mkF (Fin 24) (Fin (141 / 400)) (h_of_Se ex_soil (Se_of_theta ex_soil (Fin (141 / 400)))) (Fin 1) 1 1 false (Fin 1)).
  set (n := ti_front 25 0 1 2 true). set (d := ti_front 100 0 2 3 true).
  assert (Q2 : closure ti_env old (Fin (1 / 10)) bk_after (Fin 1) = Ok (bk_after, Fin 1, Fin 0)).
  { unfold closure. rewrite (cross_idle _ _ ti_env_sound bk_after_str bk_after_measured bk_after_inside). cbn [bind]. change (wetting_front_free_drainage bk_after) with 1%Z.
    change (soil_of ti_env 1) with (Ok ex_soil). cbn [bind]. unfold old, storage, dgtb. rewrite ltb_t by (cbn; lra). cbn [cassert bind]. change (findFront 1 bk_after) with (Some 0%nat). cbv iota.
    change (lget bk_after 0) with (Ok c). cbn [bind]. change (f_theta c) with (Fin (141 / 400)). change (s_theta_e ex_soil) with (Fin (2 / 5)).
    match goal with |- context [if ?b then _ else _] => replace b with false end; [reflexivity|]. symmetry. cbn. apply Rltb_false. rewrite Rabs_left by lra. lra. }
  assert (Q4 : lgar_merge_wetting_fronts ti_env bk_after = Ok bk_after).
  { assert (M0 : merge_step ti_env 0 [c; n; d] = Ok [c; n; d]).
    { unfold merge_step. change (lget [c; n; d] 0) with (Ok c). change (lget [c; n; d] 1) with (Ok n). cbn [bind].
      change (f_depth c >? f_depth n)%d with (Fin 25 <? Fin 24)%d. rewrite ltb_f by lra. reflexivity. }
    assert (M1 : merge_step ti_env 1 [c; n; d] = Ok [c; n; d]).
    { unfold merge_step. change (lget [c; n; d] 1) with (Ok n). change (lget [c; n; d] 2) with (Ok d). cbn [bind].
      change (f_depth n >? f_depth d)%d with (Fin 100 <? Fin 25)%d. rewrite ltb_f by lra. reflexivity. }
    unfold lgar_merge_wetting_fronts. change (length bk_after) with 3%nat. change bk_after with [c; n; d]. cbn [merge_loop].
    change (Z.of_nat 1 =? listLength [c; n; d])%Z with false. cbv iota. rewrite M0. cbn [bind].
    change (Z.of_nat 2 =? listLength [c; n; d])%Z with false. cbv iota. rewrite M1. cbn [bind]. reflexivity. }
  assert (Q9 : lgar_wetting_front_cross_domain_boundary ti_env (Fin 100) bk_after = Ok (Fin 0, bk_after)).
  { unfold lgar_wetting_front_cross_domain_boundary. change bk_after with [c; n; d]. cbn [length Nat.sub domain_loop].
    change (Z.of_nat 1 >=? listLength [c; n; d])%Z with false. change (Z.of_nat 2 >=? listLength [c; n; d])%Z with false. cbv iota.
    change (lget [c; n; d] 0) with (Ok c). change (lget [c; n; d] 1) with (Ok n). change (lget [c; n; d] 2) with (Ok d). cbn [bind].
    change (uget (e_stype ti_env) (f_layer c)) with (Ok 1%Z). change (uget (e_stype ti_env) (f_layer n)) with (Ok 1%Z). cbn [bind nth_error].
    change (f_depth n >=? Fin 100)%d with (Fin 100 <=? Fin 25)%d. rewrite leb_f by lra. reflexivity. }
  destruct (still ti_env (Fin 4) (Fin (1 / 10)) 1 old (Fin 1) bk_head bk_head bk_after (Fin 1) (Fin 0) (Fin 100) (Fin 0) ti_env_sound bk_after_str bk_after_measured bk_after_inside bk_after_order Q1 Q2 Q4 eq_refl Q9) as (A & B & C).
  split; [exact A|]. split; [exact B|]. split; [exact C|]. unfold lgar_move_wetting_fronts. change (aget (e_cum ti_env) (e_nlayers ti_env)) with (Ok (Fin 100)). cbn [bind].
  change (listLength bk_head) with 3%Z. change (length bk_head) with 3%nat. rewrite Q1. cbn [bind]. unfold bk_head at 1. rewrite Q2. cbn [bind].
  assert (Hl : bk_after <> []) by discriminate.
  assert (PH : merge_phases ti_env bk_after = Ok (bk_after, Fin 0, Fin 0)).
  { unfold merge_phases. rewrite (idle_check _ _ _ bk_after_order Hl). cbn [bind]. rewrite Q4. cbn [bind]. rewrite (cross_idle _ _ ti_env_sound bk_after_str bk_after_measured bk_after_inside). cbn [bind].
    rewrite (idle_check _ _ _ bk_after_order Hl). cbn [bind]. rewrite Q4. cbn [bind]. change (aget (e_cum ti_env) (e_nlayers ti_env)) with (Ok (Fin 100)). cbn [bind]. rewrite Q9. cbn [bind].
    rewrite (idle_check _ _ _ bk_after_order Hl). reflexivity. }
  rewrite PH. cbn [bind].
  assert (RE : exists l', refresh_psi ti_env bk_after = Ok l').
  { change bk_after with [c; n; d]. cbn [refresh_psi]. destruct (f_psi c >? lit 1)%d; destruct (f_psi n >? lit 1)%d; eexists; reflexivity. }
  destruct RE as (l' & RE). rewrite RE. cbn [bind]. pose proof (refresh_refreshed ti_env bk_after l' RE) as RF.
  assert (FS : fix_single ti_env l' = Ok l') by (inversion RF as [|? ? ? ? ? RF']; inversion RF'; subst; reflexivity).
  rewrite FS. cbn [bind]. exists l'. split; [|unfold storage; rewrite (refreshed_slabs _ _ RF 0); cbn; lra].
  replace (dabs (Fin 0) >? lit (1 / 10000000))%d with false by (symmetry; cbn; rewrite Rabs_R0; apply Rltb_false; lra).
  replace (Fin 0 + Fin 0)%d with (Fin 0) by (cbn; f_equal; lra). reflexivity.
Qed.

(** ** The same front with 2.4 mm of rain and no evapotranspiration: it stays saturated *)
Definition wt_after : list front :=
  [mkF (Fin 24) (Fin (2 / 5)) (h_of_Se ex_soil (Se_of_theta ex_soil (Fin (2 / 5)))) (Fin 1) 1 1 false (Fin 1); ti_front 25 0 1 2 true; ti_front 100 0 2 3 true].

Lemma wt_wets : move_loop 3 ti_env (Fin 4) (Fin (6 / 25)) 1 bk_head 3 bk_head (Fin 0) = Ok (wt_after, Fin 0).
Proof.
  cbn [move_loop].
  assert (M3 : move_one ti_env (Fin 4) (Fin (6 / 25)) 1 bk_head 3 (Z.of_nat 3) bk_head (Fin 0) = Ok (bk_head, Fin 0)) by reflexivity.
  rewrite M3. cbn [bind].
  assert (M2 : move_one ti_env (Fin 4) (Fin (6 / 25)) 1 bk_head 3 (Z.of_nat 2) bk_head (Fin 0) = Ok (bk_head, Fin 0)).
  { change (move_one ti_env (Fin 4) (Fin (6 / 25)) 1 bk_head 3 (Z.of_nat 2) bk_head (Fin 0)) with
      (Ok (lset bk_head 1 (set_psi (set_theta (ti_front 25 0 1 2 true) (theta_of_h ex_soil (Fin 75))) (Fin 75)), Fin 0)).
    rewrite un_theta. reflexivity. }
  rewrite M2. cbn [bind]. unfold move_one. change (Z.of_nat 1) with 1%Z. set (c := mkF (Fin 20) (Fin (2 / 5)) (Fin 0) (Fin 1) 1 1 false (Fin 1)).
  change (findFrontOld 1 bk_head bk_head) with (bk_head, Some 0%nat). change (findFrontOld (1 + 1) bk_head bk_head) with (bk_head, Some 1%nat).
  change (findFront 1 bk_head) with (Some 0%nat). change (findFront (1 + 1) bk_head) with (Some 1%nat).
  cbv iota. change (lget bk_head 0) with (Ok c). cbn [bind]. change (f_layer c) with 1%Z.
  change (soil_of ti_env 1) with (Ok ex_soil). cbn [bind]. change (1 =? 1)%Z with true. change ((1 =? 3)%Z) with false. cbv iota. cbn [bind orb].
  change (pget bk_head (Some 1%nat)) with (Ok (ti_front 25 0 1 2 true)). cbn [bind f_layer ti_front].
  change ((1 <? 3)%Z && negb (1 =? 1)%Z)%bool with false. change (false && negb (1 =? 1)%Z && (3 =? e_nlayers ti_env)%Z)%bool with false.
  change ((1 <? 3)%Z && (1 =? 1)%Z)%bool with true. cbv iota.
  change (pget bk_head (Some 0%nat)) with (Ok c). cbn [bind].
  change (aget (e_cum ti_env) (e_nlayers ti_env)) with (Ok (Fin 100)). cbn [bind].
  change (f_depth c) with (Fin 20). change (f_dzdt c) with (Fin 1). change (f_theta c) with (Fin (2 / 5)).
  replace (dfmin (Fin 20 + Fin 1 * Fin 4)%d (Fin 100)) with (Fin 24)
    by (cbn; unfold Rltb; destruct (Rlt_dec _ _); [f_equal; lra|lra]).
  change (f_dzdt (set_depth c (Fin 24))) with (Fin 1). rewrite eqb_f by lra. cbn [andb].
  cbn [f_theta ti_front]. change (water_added 1 1 (Fin (6 / 25)) (Fin 0)) with (Fin (6 / 25) - (Fin 0 + Fin 0))%d.
  match goal with |- context [(?x <? s_theta_r ex_soil)%d] => replace x with (Fin (2 / 5))
    by (cbn; destruct (Req_EM_T _ _); [lra|cbn; f_equal; lra]) end.
  change (s_theta_r ex_soil) with (Fin (1 / 10)). rewrite ltb_f by lra.
  replace (dfmax (Fin (1 / 10)) (dfmin (s_theta_e ex_soil) (Fin (2 / 5)))) with (Fin (2 / 5)); [reflexivity|].
  change (s_theta_e ex_soil) with (Fin (2 / 5)). cbn. unfold Rltb. destruct (Rlt_dec _ _); cbn; unfold Rltb; destruct (Rlt_dec _ _); try lra; reflexivity.
Qed.

Lemma wt_after_str : Str ti_env wt_after.
Proof.
  apply Str_iff; [cbn; lia|]. split; [|intros f E; injection E as <-; reflexivity]. apply profile_scan; [discriminate|]. split.
  - intros i f E. do 3 (destruct i as [|i]; [injection E as <-; reflexivity|]). destruct i; discriminate.
  - cbn -[Z.le]. repeat split; try reflexivity; lia.
Qed.
Lemma wt_after_measured : measured wt_after.
Proof. repeat (apply Forall_cons || apply Forall_nil); split; eexists; reflexivity. Qed.
Lemma wt_after_inside : in_layers ti_env wt_after.
Proof. repeat (apply Forall_cons || apply Forall_nil); eexists; (split; [reflexivity|cbn; lra]). Qed.
Lemma wt_after_order : ~ inverted wt_after.
Proof.
  intros (i & f & g & E1 & E2 & EL & HL). destruct i as [|[|[|i]]]; [| |discriminate E2|destruct i; discriminate E2].
  - injection E1 as <-. injection E2 as <-. cbn [f_theta ti_front] in HL. rewrite leb_f in HL by lra. discriminate.
  - injection E1 as <-. injection E2 as <-. discriminate EL.
Qed.


Lemma wt_storage : storage wt_after = storage bk_head + 6 / 25.
Proof. unfold storage, slabs. cbn. lra. Qed.
Lemma wt_still : let old := Fin (storage bk_head) in
  ~ move_tie ti_env (Fin 4) (Fin (6 / 25)) 1 old (Fin 0) bk_head bk_head /\ ~ move_degenerate ti_env (Fin 4) (Fin (6 / 25)) 1 old (Fin 0) bk_head bk_head /\
  ~ move_inverted ti_env (Fin 4) (Fin (6 / 25)) 1 old (Fin 0) bk_head bk_head /\
  exists l', lgar_move_wetting_fronts ti_env (Fin 4) (Fin (6 / 25)) 1 old (Fin 0) bk_head bk_head = Ok (l', Fin 0, Fin 0) /\ storage l' = storage bk_head + 6 / 25 /\ refresh_psi ti_env wt_after = Ok l'.
Proof.
  intro old. pose proof wt_wets as Q1. set (c := mkF (Fin 24) (Fin (2 / 5)) (h_of_Se ex_soil (Se_of_theta ex_soil (Fin (2 / 5)))) (Fin 1) 1 1 false (Fin 1)).
  set (n := ti_front 25 0 1 2 true). set (d := ti_front 100 0 2 3 true).
  assert (Q2 : closure ti_env old (Fin (6 / 25)) wt_after (Fin 0) = Ok (wt_after, Fin 0, Fin 0)).
  { unfold closure. rewrite (cross_idle _ _ ti_env_sound wt_after_str wt_after_measured wt_after_inside). cbn [bind]. change (wetting_front_free_drainage wt_after) with 1%Z.
    change (soil_of ti_env 1) with (Ok ex_soil). cbn [bind]. unfold old, storage, dgtb. rewrite ltb_t by (cbn; lra). cbn [cassert bind]. change (findFront 1 wt_after) with (Some 0%nat). cbv iota.
    change (lget wt_after 0) with (Ok c). cbn [bind]. change (f_theta c) with (Fin (2 / 5)). change (s_theta_e ex_soil) with (Fin (2 / 5)).
    replace (dabs (Fin (2 / 5) - Fin (2 / 5)) <? lit (1 / 1000000000000000))%d with true by (symmetry; cbn; apply Rltb_true; unfold Rminus; rewrite Rplus_opp_r, Rabs_R0; lra).
    rewrite (mass_of ti_env ti_env_sound eq_refl wt_after wt_after_str wt_after_measured). cbn [bind].
    replace (dabs (Fin (storage wt_after) - (Fin (storage bk_head) + Fin (6 / 25) - (Fin 0 + Fin 0))))%d with (Fin (Rabs 0))
      by (rewrite wt_storage; cbn; do 2 f_equal; ring).
    rewrite closure_loop_eq, tight_zero. cbn [bind]. reflexivity. }
  assert (Q4 : lgar_merge_wetting_fronts ti_env wt_after = Ok wt_after).
  { assert (M0 : merge_step ti_env 0 [c; n; d] = Ok [c; n; d]).
    { unfold merge_step. change (lget [c; n; d] 0) with (Ok c). change (lget [c; n; d] 1) with (Ok n). cbn [bind].
      change (f_depth c >? f_depth n)%d with (Fin 25 <? Fin 24)%d. rewrite ltb_f by lra. reflexivity. }
    assert (M1 : merge_step ti_env 1 [c; n; d] = Ok [c; n; d]).
    { unfold merge_step. change (lget [c; n; d] 1) with (Ok n). change (lget [c; n; d] 2) with (Ok d). cbn [bind].
      change (f_depth n >? f_depth d)%d with (Fin 100 <? Fin 25)%d. rewrite ltb_f by lra. reflexivity. }
    unfold lgar_merge_wetting_fronts. change (length wt_after) with 3%nat. change wt_after with [c; n; d]. cbn [merge_loop].
    change (Z.of_nat 1 =? listLength [c; n; d])%Z with false. cbv iota. rewrite M0. cbn [bind].
    change (Z.of_nat 2 =? listLength [c; n; d])%Z with false. cbv iota. rewrite M1. cbn [bind]. reflexivity. }
  assert (Q9 : lgar_wetting_front_cross_domain_boundary ti_env (Fin 100) wt_after = Ok (Fin 0, wt_after)).
  { unfold lgar_wetting_front_cross_domain_boundary. change wt_after with [c; n; d]. cbn [length Nat.sub domain_loop].
    change (Z.of_nat 1 >=? listLength [c; n; d])%Z with false. change (Z.of_nat 2 >=? listLength [c; n; d])%Z with false. cbv iota.
    change (lget [c; n; d] 0) with (Ok c). change (lget [c; n; d] 1) with (Ok n). change (lget [c; n; d] 2) with (Ok d). cbn [bind].
    change (uget (e_stype ti_env) (f_layer c)) with (Ok 1%Z). change (uget (e_stype ti_env) (f_layer n)) with (Ok 1%Z). cbn [bind nth_error].
    change (f_depth n >=? Fin 100)%d with (Fin 100 <=? Fin 25)%d. rewrite leb_f by lra. reflexivity. }
  destruct (still ti_env (Fin 4) (Fin (6 / 25)) 1 old (Fin 0) bk_head bk_head wt_after (Fin 0) (Fin 0) (Fin 100) (Fin 0) ti_env_sound wt_after_str wt_after_measured wt_after_inside wt_after_order Q1 Q2 Q4 eq_refl Q9) as (A & B & C).
  split; [exact A|]. split; [exact B|]. split; [exact C|]. unfold lgar_move_wetting_fronts. change (aget (e_cum ti_env) (e_nlayers ti_env)) with (Ok (Fin 100)). cbn [bind].
  change (listLength bk_head) with 3%Z. change (length bk_head) with 3%nat. rewrite Q1. cbn [bind]. unfold bk_head at 1. rewrite Q2. cbn [bind].
  assert (Hl : wt_after <> []) by discriminate.
  assert (PH : merge_phases ti_env wt_after = Ok (wt_after, Fin 0, Fin 0)).
  { unfold merge_phases. rewrite (idle_check _ _ _ wt_after_order Hl). cbn [bind]. rewrite Q4. cbn [bind]. rewrite (cross_idle _ _ ti_env_sound wt_after_str wt_after_measured wt_after_inside). cbn [bind].
    rewrite (idle_check _ _ _ wt_after_order Hl). cbn [bind]. rewrite Q4. cbn [bind]. change (aget (e_cum ti_env) (e_nlayers ti_env)) with (Ok (Fin 100)). cbn [bind]. rewrite Q9. cbn [bind].
    rewrite (idle_check _ _ _ wt_after_order Hl). reflexivity. }
  rewrite PH. cbn [bind].
  assert (RE : exists l', refresh_psi ti_env wt_after = Ok l').
  { change wt_after with [c; n; d]. cbn [refresh_psi]. destruct (f_psi c >? lit 1)%d; destruct (f_psi n >? lit 1)%d; eexists; reflexivity. }
  destruct RE as (l' & RE). rewrite RE. cbn [bind]. pose proof (refresh_refreshed ti_env wt_after l' RE) as RF.
  assert (FS : fix_single ti_env l' = Ok l') by (inversion RF as [|? ? ? ? ? RF']; inversion RF'; subst; reflexivity).
  rewrite FS. cbn [bind]. exists l'. split; [|split; [unfold storage; rewrite (refreshed_slabs _ _ RF 0); cbn; lra|reflexivity]].
  replace (dabs (Fin 0) >? lit (1 / 10000000))%d with false by (symmetry; cbn; rewrite Rabs_R0; apply Rltb_false; lra).
  replace (Fin 0 + Fin 0)%d with (Fin 0) by (cbn; f_equal; lra). reflexivity.
Qed.

(** ** The Update of a saturated column of two layers *)
Lemma tw_str : Str ti_env tw_head.
Proof. apply Str_iff; [cbn; lia|]. split; [exact (ss_profile _ tw_sound)|exact (ss_rest _ tw_sound)]. Qed.
Lemma tw_measured : measured tw_head.
Proof. repeat (apply Forall_cons || apply Forall_nil); split; eexists; reflexivity. Qed.
Lemma tw_inside : in_layers ti_env tw_head.
Proof. repeat (apply Forall_cons || apply Forall_nil); eexists; (split; [reflexivity|cbn; lra]). Qed.
Lemma tw_order : ~ inverted tw_head.
Proof. intros (i & f & g & E1 & E2 & EL & _). destruct i as [|[|i]]; [|discriminate E2|destruct i; discriminate E2]. injection E1 as <-. injection E2 as <-. discriminate EL. Qed.
Lemma tw_storage : storage tw_head = 40.
Proof. unfold storage. cbn. lra. Qed.

Lemma tw_still : ~ move_tie ti_env (Fin 1) (Fin 0) 2 (Fin 40) (Fin 0) tw_head tw_head /\ ~ move_degenerate ti_env (Fin 1) (Fin 0) 2 (Fin 40) (Fin 0) tw_head tw_head /\ ~ move_inverted ti_env (Fin 1) (Fin 0) 2 (Fin 40) (Fin 0) tw_head tw_head.
Proof.
  apply (still ti_env (Fin 1) (Fin 0) 2 (Fin 40) (Fin 0) tw_head tw_head tw_head (Fin 0) (Fin 0) (Fin 100) (Fin 0) ti_env_sound tw_str tw_measured tw_inside tw_order tw_move_loop tw_closure tw_merge eq_refl).
  unfold lgar_wetting_front_cross_domain_boundary, tw_head. cbn [length Nat.sub domain_loop]. fold tw_head.
  change (Z.of_nat 1 >=? listLength tw_head)%Z with false. cbv iota. change (lget tw_head 0) with (Ok tw_top). cbn [bind].
  change (uget (e_stype ti_env) (f_layer tw_top)) with (Ok 1%Z). change (lget tw_head 1) with (Ok tw_low). cbn [bind].
  cbn [tw_head nth_error]. fold tw_head. change (f_depth tw_top >=? Fin 100)%d with (Fin 100 <=? Fin 25)%d. rewrite leb_f by lra. reflexivity.
Qed.

Lemma tw_at : forall (A : Type) (P : upar -> dbl -> dbl -> dbl -> dbl -> dbl -> dbl -> dbl -> list front -> list front -> A),
  at_step P tw_upar tw_start tw_acc0 = P tw_upar (Fin 0) (Fin 0) (Fin 0) (Fin 0) (Fin 0) (Fin 0) (Fin 40) tw_head tw_head.
Proof.
  intros A P. unfold at_step. cbn [u_dt tw_upar a_on tw_acc0 acc0 a_end]. fold tw_upar.
  replace (dfmax (st_precip tw_start) (Fin 0)) with (Fin 0) by (cbn; unfold Rltb; destruct (Rlt_dec _ _); reflexivity).
  replace (dfmax (st_pet tw_start) (Fin 0)) with (Fin 0) by (cbn; unfold Rltb; destruct (Rlt_dec _ _); reflexivity).
  change mm_to_cm with (Fin (1 / 10)). replace (Fin 0 * Fin (1 / 10))%d with (Fin 0) by (cbn; f_equal; ring).
  replace (Fin 0 * Fin 1)%d with (Fin 0) by (cbn; f_equal; lra). replace (Fin 0 + Fin 0)%d with (Fin 0) by (cbn; f_equal; lra).
  rewrite ex_clean by lra. reflexivity.
Qed.

Lemma tw_motion : forall vin aet, hydro_motion tw_upar (Fin 0) (Fin 0) (Fin 0) (Fin 0) (Fin 0) (Fin 0) tw_head tw_head vin aet <-> vin = Fin 0 /\ aet = Fin 0.
Proof.
  intros vin aet. unfold hydro_motion. cbn [u_env tw_upar u_dt]. unfold dgtb. rewrite !ltb_f by lra. rewrite tw_create.
  assert (N : sub_no_insert tw_upar (mkSub tw_head tw_head (Fin 0) (Fin 0) (Fin 0) (Fin 0) (Fin 0) (Fin 0)) = mkSub tw_head tw_head (Fin 0) (Fin 0) (Fin 0) (Fin 0 - Fin 0)%d (Fin 0) (Fin 0)).
  { unfold sub_no_insert. cbn [b_ponded u_pmax tw_upar]. rewrite ltb_f by lra. reflexivity. }
  fold tw_upar. split.
  - intros (aet0 & create & EA & EC & HB). apply Ok_inj in EA, EC. subst aet0 create. destruct HB as (b & EB & -> & ->). apply Ok_inj in EB. subst b. rewrite N. auto.
  - intros [-> ->]. exists (Fin 0), false. do 2 (split; [reflexivity|]). eexists. split; [reflexivity|]. rewrite N. auto.
Qed.

Lemma tw_step : ~ step_degenerate tw_upar tw_start tw_acc0 /\ ~ step_inverted tw_upar tw_start tw_acc0 /\ step_gap tw_upar tw_start tw_acc0 0.
Proof.
  destruct tw_still as (_ & D & I). unfold step_degenerate, step_inverted, step_gap. rewrite !tw_at. split; [|split].
  - intros [(vin & aet & HM & HD)|(aet & l & aet' & pd & dry & d & h & _ & EC & _)].
    + apply tw_motion in HM as [-> ->]. exact (D HD).
    + cbn [u_env tw_upar] in EC. rewrite tw_create in EC. discriminate.
  - intros (vin & aet & HM & HD). apply tw_motion in HM as [-> ->]. exact (I HD).
  - exists 0, (Fin 0), tw_head, 0. split; [apply tw_motion; auto|]. split; [exact tw_move_loop|]. rewrite tw_storage. cbn. lra.
Qed.
Lemma tw_moving : Forall moving tw_head.
Proof. repeat (apply Forall_cons || apply Forall_nil); split; eexists; reflexivity. Qed.
End Run.
