(** A rainy hour in binary64 on the saturated column of 64 cm: 20 mm of rain, 15 mm stay on the surface, 5 mm run off. *)

From Coq Require Import Reals Lra ZArith List Bool Lia.
From Flocq Require Import Core.
From RecordUpdate Require Import RecordSet.
From Verif Require Import Outcome Dbl Binary64 Types ListOps Soil Giuh Fronts Infil Move State Update Lib Spec_Common Spec_Update Spec_Binary64 Spec_LedgerFp
  Pf_Dbl Pf_Binary64 Pf_Counts Pf_Update Ex_Clock64.
Import ListNotations.
Import RecordSetNotations.
Open Scope R_scope.

Section B64.
Local Existing Instance binary64.
Context {cfg : Cfg}.

Notation soil0 := (c6_soil (Fin 10) (Fin 0)).
Notation env0 := (c6_env (Fin 10) (Fin 0)).

Lemma r_1 : rnd 1 = Fin 1. Proof. apply (rnd_IZR 1). lia. Qed.
Lemma r_2 : rnd 2 = Fin 2. Proof. apply (rnd_IZR 2). lia. Qed.
Lemma r_32 : rnd 32 = Fin 32. Proof. apply (rnd_IZR 32). lia. Qed.
Lemma r_34 : rnd 34 = Fin 34. Proof. apply (rnd_IZR 34). lia. Qed.
Lemma r_15 : rnd (3 / 2) = Fin (3 / 2). Proof. exact (dyadic 3 1 ltac:(lia) ltac:(lia)). Qed.
Lemma r_335 : rnd (67 / 2) = Fin (67 / 2). Proof. exact (dyadic 67 1 ltac:(lia) ltac:(lia)). Qed.

(** 0.1 is not representable, but 20 times 0.1 is 2. *)
Lemma tenth : b64_near (1 / 10) = 7205759403792794 / 72057594037927936.
Proof.
  rewrite (near_is (1 / 10) 7205759403792794 56).
  - unfold Rdiv. f_equal.
  - lia.
  - replace (bpow radix2 (52 - 56)) with (/ 16) by reflexivity. replace (bpow radix2 (53 - 56)) with (/ 8) by reflexivity. lra.
  - replace (bpow radix2 56) with 72057594037927936 by reflexivity. apply Rabs_def1; lra.
Qed.
Lemma rain_rate_is : (Fin 20 * mm_to_cm)%d = Fin 2.
Proof.
  unfold mm_to_cm, lit. rewrite rnd_small by (apply fits; lra). rewrite tenth. cbn [dmul]. rewrite rnd_small by (apply fits; lra). f_equal.
  rewrite (near_is (20 * (7205759403792794 / 72057594037927936)) 4503599627370496 51).
  - replace (bpow radix2 (- (51))) with (/ 2251799813685248) by reflexivity. lra.
  - lia.
  - replace (bpow radix2 (52 - 51)) with 2 by reflexivity. replace (bpow radix2 (53 - 51)) with 4 by reflexivity. lra.
  - replace (bpow radix2 51) with 2251799813685248 by reflexivity. apply Rabs_def1; lra.
Qed.

Lemma rn_storage : max_storage env0 = Ok (Fin 32).
Proof.
  unfold max_storage. change (Z.to_nat (e_nlayers env0)) with 1%nat. cbn [zfor]. change (soil_of env0 1) with (Ok soil0). cbn [bind].
  change (aget (e_cum env0) 1) with (Ok (Fin 64)). change (aget (e_cum env0) (1 - 1)) with (Ok (Fin 0)). cbn [bind s_theta_e c6_soil].
  rewrite (sub_is 64 0 64); [|lra|apply (rnd_IZR 64); lia]. rewrite (mul_is (1 / 2) 64 32); [|lra|apply r_32]. rewrite (add_is 0 32 32); [|lra|apply r_32]. reflexivity.
Qed.

Lemma rn_capacity : infiltration_capacity env0 true 120 (Fin 1) (Fin 0) (Fin 2) (Fin 2) 1 [c6_front] = Ok (Fin 0).
Proof.
  unfold infiltration_capacity. change (listLength [c6_front]) with 1%Z.
  change (pget [c6_front] (findFront 1 [c6_front])) with (Ok c6_front). cbn [bind f_layer c6_front].
  change (soil_of env0 1) with (Ok soil0). cbn [bind lget nth_error].
  match goal with |- context [aget (e_frozen env0) ?n] => change (aget (e_frozen env0) n) with (Ok (Fin 1)) end.
  cbn [bind e_nlayers c6_env Z.eqb Pos.eqb]. change (soil_of _ _) with (Ok soil0). cbn [bind].
  change (f_theta c6_front) with (Fin (1 / 2)). change (s_theta_e soil0) with (Fin (1 / 2)).
  replace (Fin (1 / 2) =? Fin (1 / 2))%d with true by (cbn; unfold Reqb; destruct (Req_EM_T (1 / 2) (1 / 2)); [reflexivity|lra]). cbn [andb].
  change (aget (e_frozen env0) (f_layer c6_front)) with (Ok (Fin 1)). cbn [bind].
  change (e_cum env0) with [Fin 0; Fin 64]. rewrite c6_mass. cbn [bind]. fold env0. rewrite rn_storage. cbn [bind].
  change (s_Ksat soil0) with (Fin 1). change (f_depth c6_front) with (Fin 64).
  rewrite (mul_is 2 1 2); [|lra|apply r_2]. rewrite (sub_is 2 2 0); [|lra|apply r_0]. rewrite dfmax_00. rewrite (add_is 0 0 0); [|lra|apply r_0].
  rewrite (div_is 0 64 0); [|lra|lra|apply r_0]. unfold lit. rewrite r_1. rewrite (add_is 1 0 1); [|lra|apply r_1]. rewrite !(mul_is 1 1 1); try lra; try apply r_1.
  rewrite (sub_is 32 32 0); [|lra|apply r_0]. rewrite !(div_is 0 1 0); try lra; try apply r_0.
  replace (dfmin (Fin 1) (Fin 0)) with (Fin 0). 2: { cbn. unfold Rltb. destruct (Rlt_dec 1 0); [lra|reflexivity]. }
  unfold dgtb. rewrite ltb_64f by lra. reflexivity.
Qed.

Lemma rn_partition : surface_partition (Fin 1) (Fin 2) (Fin 0) (Fin (3 / 2)) (Fin 0) = (Fin (1 / 2), Fin (3 / 2), Fin 0).
Proof.
  unfold surface_partition. rewrite !mul_0l. rewrite (div_is 0 1 0); [|lra|lra|apply r_0]. rewrite !(sub_is 2 0 2); try lra; try apply r_2. rewrite (add_is 0 0 0); [|lra|apply r_0].
  replace (dfmax (Fin 2) (Fin 0)) with (Fin 2). 2: { cbn. unfold Rltb. destruct (Rlt_dec 2 0); [lra|reflexivity]. }
  unfold dgtb. rewrite ltb_64t by lra. rewrite ltb_64f by lra. rewrite ltb_64t by lra. rewrite (sub_is 2 (3 / 2) (1 / 2)); [|lra|apply r_half]. reflexivity.
Qed.

Definition rn_upar : upar := mkU env0 (Fin 1) 120 true (Fin 15495) (Fin 341) (Fin (3 / 2)).

Lemma rn_hydro : forall pp precip von, sub_hydro rn_upar pp (Fin 2) (Fin 0) precip von (Fin 2) (Fin 32) [c6_front] [c6_front]
  = Ok (mkSub [c6_front] [c6_front] (Fin 0) (Fin (3 / 2)) (Fin 0) (Fin (1 / 2)) (Fin (3 / 2)) (Fin 0)).
Proof.
  intros pp precip von. unfold sub_hydro, rn_upar. cbn [u_env u_dt u_closed u_nint u_wilting u_fc u_pmax].
  unfold dgtb at 1. rewrite ltb_64f by lra. cbn [bind]. change (wetting_front_free_drainage [c6_front]) with 1%Z.
  unfold create_decision. cbn [lget nth_error bind]. change (soil_of env0 (f_layer c6_front)) with (Ok soil0). cbn [bind f_theta c6_front s_theta_e c6_soil].
  replace (Fin (1 / 2) + lit (1 / 1000000000000) >=? Fin (1 / 2))%d with true.
  2: { symmetry. destruct (lit_tiny (1 / 1000000000000) ltac:(lra)) as (y & E & B). rewrite E. cbn [dadd]. rewrite rnd_small by (apply fits; lra).
    pose proof (near_mono (1 / 2) (1 / 2 + y) ltac:(lra)) as M. assert (H : b64_near (1 / 2) = 1 / 2). { pose proof r_half as Q. rewrite rnd_small in Q by (apply fits; lra). injection Q as Q. exact Q. }
    rewrite H in M. unfold dgeb. cbn. unfold Rleb. destruct (Rle_dec _ _); [reflexivity|contradiction]. }
  cbn [orb bind b_ponded]. unfold dgtb. rewrite ltb_64t by lra. cbn [andb negb].
  fold c6_front. fold soil0. fold env0.
  unfold sub_insert, lgar_insert_water. cbn [u_env u_dt u_closed u_nint u_pmax b_aet b_ponded b_volin b_head b_prev b_rech].
  rewrite rn_capacity. cbn [bind]. rewrite rn_partition. cbn [bind]. rewrite ltb_64f by lra. cbn [cassert bind].
  unfold sub_move. cbn [u_env u_dt b_volin b_aet b_head b_prev]. rewrite c6_move. cbn [bind b_ponded b_head b_prev b_volin b_runoff b_on b_aet b_rech].
  assert (Z : lgar_dzdt_calc env0 true 120 (Fin (3 / 2)) [c6_front] = Ok [c6_front]).
  { unfold lgar_dzdt_calc, dzdt_loop. cbn [f_K c6_front]. rewrite ltb_64f by lra. reflexivity. }
  rewrite Z. reflexivity.
Qed.

(** Clock at [t] seconds, [k] sub-steps done, rain [pp] before. *)
Definition rn_params (t : R) (k : Z) (pp : R) : params :=
  mkParams 1 [Fin 0; Fin 64] [Fin 0; Fin 64] [None; Some 1%Z] [Fin 1; Fin 1] 1 1 [Fin 0] [Fin 0] [] [Fin (1 / 2)]
    (Fin 1) (Fin 1) (Fin 1) 1 (Fin 15495) (Fin 341) true false (Fin (3 / 2)) (Fin pp) 120 (Fin t) (Fin 7200) k false false false.
Definition rn_state (t : R) (k : Z) (pp : R) (prev : list front) (mb : massbal) : state :=
  mkState [c6_front] prev [None; Some soil0] (rn_params t k pp) mb (Fin 20) (Fin 0) c6_cal None 1 [Fin 1] [Fin 0; Fin 0].
Definition rn_acc1 : acc := mkAcc (Fin 2) (Fin 0) (Fin 0) (Fin 32) (Fin 0) (Fin (3 / 2)) (Fin (1 / 2)) (Fin 0).
Definition rn_start : state := rn_state 0 0 0 [] c6_mb.
Definition rn_after : state := rn_state 3600 1 2 [c6_front] (c6_mb <| mb_local := Some (Fin 0) |>).
Definition rn_xs : list step := [mkStep rn_start c6_acc rn_after rn_acc1].

Lemma rn_substep : substep rn_upar rn_start c6_acc = Ok (rn_after, rn_acc1).
Proof.
  unfold substep. cbn [u_dt rn_upar a_on a_end c6_acc].
  change (p_time (st_p rn_start)) with (Fin 0). unfold hr_to_sec. rewrite (lit_IZR 3600) by lia.
  rewrite (mul_is 1 3600 3600); [|lra|apply (rnd_IZR 3600); lia]. rewrite (add_is 0 3600 3600); [|lra|apply (rnd_IZR 3600); lia].
  change (st_precip rn_start) with (Fin 20). change (st_pet rn_start) with (Fin 0). rewrite dfmax_00.
  replace (dfmax (Fin 20) (Fin 0)) with (Fin 20). 2: { cbn. unfold Rltb. destruct (Rlt_dec 20 0); [lra|reflexivity]. }
  rewrite rain_rate_is.
  assert (MC : exists y, mm_to_cm = Fin y). { destruct (lit_tiny (1 / 10) ltac:(lra)) as (y & E & _). exists y. exact E. }
  destruct MC as (y & ->). rewrite !mul_0l. rewrite !(mul_is 2 1 2); try lra; try apply r_2. rewrite (add_is 2 0 2); [|lra|apply r_2].
  assert (CV : clean_volon (Fin 0) = Fin 0). { unfold clean_volon. rewrite dfmax_00. destruct (_ >? _)%d; reflexivity. }
  rewrite CV.
  match goal with |- context [lgar_calc_mass_bal ?a ?b] => change (lgar_calc_mass_bal a b) with (lgar_calc_mass_bal [Fin 0; Fin 64] [c6_front]) end.
  rewrite c6_mass. cbn [bind].
  change (st_head rn_start) with [c6_front]. change (listCopy [c6_front]) with [c6_front].
  fold rn_upar. rewrite rn_hydro. cbn [bind b_head b_prev b_runoff b_aet b_on b_rech b_volin].
  match goal with |- context [lgar_calc_mass_bal ?a ?b] => change (lgar_calc_mass_bal a b) with (lgar_calc_mass_bal [Fin 0; Fin 64] [c6_front]) end.
  rewrite c6_mass. cbn [bind].
  assert (LB : local_balance (Fin 32) (Fin 2) (Fin 0) (Fin (1 / 2)) (Fin 0) (Fin (3 / 2)) (Fin 0) (Fin 32) = Fin 0).
  { unfold local_balance. rewrite (add_is 32 2 34); [|lra|apply r_34]. rewrite (add_is 34 0 34); [|lra|apply r_34]. rewrite (sub_is 34 (1 / 2) (67 / 2)); [|lra|apply r_335].
    rewrite (sub_is (67 / 2) 0 (67 / 2)); [|lra|apply r_335]. rewrite (sub_is (67 / 2) (3 / 2) 32); [|lra|apply r_32]. rewrite (sub_is 32 0 32); [|lra|apply r_32]. apply sub_is; [lra|apply r_0]. }
  rewrite LB.
  replace (dabs (Fin 0) >? lit (1 / 10000))%d with false.
  2: { symmetry. destruct (lit_tiny (1 / 10000) ltac:(lra)) as (z & E & B). rewrite E. unfold dgtb. cbn. rewrite Rabs_R0. unfold Rltb. destruct (Rlt_dec z 0); [lra|reflexivity]. }
  cbn [lget nth_error bind]. unfold dgtb. change (f_depth c6_front) with (Fin 64). rewrite ltb_64t by lra. cbn [cassert bind]. rewrite dfmax_00. cbn [a_precip a_pet a_aet a_in a_runoff a_rech].
  match goal with |- Ok (_, ?a) = Ok (_, ?b) => assert (EA : a = b) end.
  { unfold rn_acc1. f_equal; apply add_is; try lra; first [apply r_2 | apply r_0 | apply r_half]. }
  rewrite EA. reflexivity.
Qed.

Lemma hour_is : hours64 3600 = 1.
Proof. unfold hours64. replace (IZR 3600 / 3600) with 1 by lra. apply near_one. Qed.

Lemma rn_executed : exists s', executed rn_start rn_upar rn_xs s' /\
  mb_start (st_mb s') = Fin 32 /\ mb_precip (st_mb s') = Fin 2 /\ mb_runoff (st_mb s') = Fin (1 / 2) /\ mb_aet (st_mb s') = Fin 0 /\
  mb_rech (st_mb s') = Fin 0 /\ mb_calib (st_mb s') = Fin 0 /\ mb_on (st_mb s') = Fin (3 / 2) /\
  lgar_calc_mass_bal (p_cum (st_p s')) (st_head s') = Ok (Fin 32).
Proof.
  assert (X : update_prologue rn_start = Ok (rn_start, Fin 0)) by reflexivity.
  assert (S : update_steps rn_start = Ok (rn_start, Fin 1, 1%Z)).
  { unfold update_steps. change (p_adaptive (st_p rn_start)) with false. cbv iota zeta. match goal with |- context [d2i ?x] => change x with (Fin 1 / Fin 1 + lit (1 / 100000000))%d end.
    pose proof (guarded 3600 3600 1 ltac:(lia) ltac:(lia) ltac:(lia)) as G. rewrite hour_is in G. rewrite G. reflexivity. }
  assert (G : exists q, giuh_convolution_integral (Fin (1 / 2)) 1 [Fin 1] [Fin 0; Fin 0] = Ok q) by (eexists; reflexivity). destruct G as ([g q] & G).
  assert (F : exists s', finish_update rn_after rn_acc1 (Fin 0) = Ok s' /\
    mb_start (st_mb s') = Fin 32 /\ mb_precip (st_mb s') = Fin 2 /\ mb_runoff (st_mb s') = Fin (1 / 2) /\ mb_aet (st_mb s') = Fin 0 /\
    mb_rech (st_mb s') = Fin 0 /\ mb_calib (st_mb s') = Fin 0 /\ mb_on (st_mb s') = Fin (3 / 2) /\
    lgar_calc_mass_bal (p_cum (st_p s')) (st_head s') = Ok (Fin 32)).
  { unfold finish_update. change (giuh_convolution_integral (a_runoff rn_acc1) (g_N rn_after) (g_ord rn_after) (g_queue rn_after)) with (giuh_convolution_integral (Fin (1 / 2)) 1 [Fin 1] [Fin 0; Fin 0]).
    rewrite G. cbn [bind].
    change (mb_local (st_mb rn_after)) with (Some (Fin 0)). cbv iota zeta. eexists. split; [reflexivity|].
    split; [reflexivity|]. split; [apply (add_is 0 2 2); [lra|apply r_2]|]. split; [apply (add_is 0 (1 / 2) (1 / 2)); [lra|apply r_half]|].
    split; [apply (add_is 0 0 0); [lra|apply r_0]|]. split; [apply (add_is 0 0 0); [lra|apply r_0]|]. split; [apply (add_is 0 0 0); [lra|apply r_0]|].
    split; [reflexivity|]. exact c6_mass. }
  destruct F as (s' & F & F'). exists s'. split; [|exact F']. split.
  - unfold Update. change (p_invalid (st_p rn_start)) with false. cbv iota. rewrite X. cbn [bind].
    change (lgar_calc_mass_bal (p_cum (st_p rn_start)) (st_head rn_start)) with (lgar_calc_mass_bal [Fin 0; Fin 64] [c6_front]). rewrite c6_mass. cbn [bind].
    change (st_precip rn_start) with (Fin 20). change (st_pet rn_start) with (Fin 0).
    replace (Fin 20 >=? Fin 0)%d with true by (unfold dgeb; cbn; unfold Rleb; destruct (Rle_dec 0 20); [reflexivity|lra]).
    replace (Fin 0 >=? Fin 0)%d with true by (unfold dgeb; cbn; unfold Rleb; destruct (Rle_dec 0 0); [reflexivity|lra]). cbn [cassert bind]. rewrite S. cbn [bind].
    change (mkU _ _ _ _ _ _ _) with rn_upar. change (acc0 (Fin 32) (mb_on_ts (st_mb rn_start))) with c6_acc. change (Z.to_nat 1) with 1%nat. cbn [subcycle_loop].
    rewrite rn_substep. cbn [bind]. destruct (_ && _)%bool; exact F.
  - change (p_invalid (st_p rn_start)) with false. cbv iota. exists rn_start, (Fin 0), (Fin 32), rn_start, 1%Z, rn_after, rn_acc1.
    split; [exact X|]. split; [exact c6_mass|]. split; [exact S|]. split; [reflexivity|].
    split; [eapply runs_cons; [exact rn_substep|apply runs_nil]|]. split; [left; reflexivity|exact F].
Qed.

Lemma win : forall x, -32768 <= x <= 32768 -> within 32768 (Fin x).
Proof. intros x H. exists x. split; [reflexivity|]. unfold Rabs. destruct (Rcase_abs x); lra. Qed.

Lemma rn_tracked : fresh rn_start /\ signs rn_start /\ p_invalid (st_p rn_start) = false /\
  exists s', tracked 32768 rn_start 1 1 s' /\ mb_precip (st_mb s') = Fin 2 /\ mb_runoff (st_mb s') = Fin (1 / 2) /\ mb_on (st_mb s') = Fin (3 / 2).
Proof.
  split; [|split; [|split; [reflexivity|]]].
  - split; [exists 32; split; [apply c6_mass|reflexivity]|]. repeat split; reflexivity.
  - unfold signs, sane. repeat split; try (apply nn_Fin; cbn; lra); repeat constructor; apply nn_Fin; lra.
  - destruct rn_executed as (s' & He & M1 & M2 & M3 & M4 & M5 & M6 & M7 & M8). exists s'. split; [|split; [exact M2|split; [exact M3|exact M7]]].
    assert (H32 : within 32768 (Fin 32)) by (apply win; lra). assert (H0 : within 32768 (Fin 0)) by (apply win; lra).
    apply (tr_update 32768 rn_start 0 0 rn_start rn_upar rn_xs s').
    + apply tr_start. split; [exists (Fin 32); split; [apply c6_mass|exact H32]|]. repeat split; assumption.
    + exact He.
    + constructor; [|constructor]. split; [exists (Fin 32); split; [apply c6_mass|exact H32]|]. split; [exists (Fin 32); split; [apply c6_mass|exact H32]|].
      split; [repeat split; assumption|]. repeat split; apply win; lra.
    + split; [exists (Fin 32); split; [exact M8|exact H32]|]. rewrite M1, M2, M3, M4, M5, M6, M7. repeat split; apply win; lra.
Qed.
End B64.
