(** An Update in binary64: a saturated column without rain, forcing of an hour in sub-steps of twenty minutes, a third of an hour that is not representable. *)

From Coq Require Import Reals Lra ZArith List Bool Lia.
From Flocq Require Import Core.
From RecordUpdate Require Import RecordSet.
From Verif Require Import Outcome Dbl Binary64 Types ListOps Soil Giuh Fronts Infil Move State Update Lib Spec_Common Spec_Update Spec_Binary64 Pf_Binary64 Pf_Counts Pf_Update.
Import ListNotations.
Import RecordSetNotations.
Open Scope R_scope.

Section B64.
Local Existing Instance binary64.
Context {cfg : Cfg}.

Lemma dyadic : forall m k, (Z.abs m < 2 ^ 53)%Z -> (0 <= k <= 60)%Z -> rnd (IZR m / IZR (2 ^ k)) = Fin (IZR m / IZR (2 ^ k)).
Proof.
  intros m k M K. assert (P : (1 <= 2 ^ k)%Z) by (change 1%Z with (2 ^ 0)%Z; apply Z.pow_le_mono_r; lia). pose proof (IZR_le _ _ P) as P'.
  rewrite rnd_small.
  - f_equal. unfold b64_near. apply round_generic; [apply valid_rnd_N|]. apply generic_format_FLT. apply (FLT_spec radix2 (-1074) 53 _ (Float radix2 m (- k))).
    + unfold F2R. cbn [Fnum Fexp]. rewrite bpow_opp. unfold Rdiv. f_equal. f_equal. apply (IZR_Zpower radix2). lia.
    + exact M.
    + cbn [Fexp]. lia.
  - unfold Rdiv. rewrite Rabs_mult, (Rabs_pos_eq (/ IZR (2 ^ k))). 2: { left. apply Rinv_0_lt_compat. lra. }
    assert (Q : Rabs (IZR m) <= IZR (2 ^ 53)) by (rewrite <- abs_IZR; apply IZR_le; lia).
    assert (0 < / IZR (2 ^ k) <= 1). { split; [apply Rinv_0_lt_compat; lra|]. rewrite <- Rinv_1. apply Rinv_le_contravar; lra. }
    pose proof (Rabs_pos (IZR m)). nra.
Qed.
Lemma r_0 : rnd 0 = Fin 0. Proof. apply (rnd_IZR 0). lia. Qed.
Lemma r_half : rnd (1 / 2) = Fin (1 / 2). Proof. exact (dyadic 1 1 ltac:(lia) ltac:(lia)). Qed.
Lemma r_38 : rnd (3 / 8) = Fin (3 / 8). Proof. exact (dyadic 3 3 ltac:(lia) ltac:(lia)). Qed.
Lemma r_n2 : rnd (-2) = Fin (-2). Proof. pose proof (dyadic (-2) 0 ltac:(lia) ltac:(lia)) as H. change (IZR (2 ^ 0)) with 1 in H. replace (-2 / 1) with (-2) in H by lra. exact H. Qed.
Lemma r_n1 : rnd (-1) = Fin (-1). Proof. pose proof (dyadic (-1) 0 ltac:(lia) ltac:(lia)) as H. change (IZR (2 ^ 0)) with 1 in H. replace (-1 / 1) with (-1) in H by lra. exact H. Qed.

Lemma mul_0l : forall x, (Fin 0 * Fin x)%d = Fin 0.
Proof. intro x. cbn [dmul]. rewrite Rmult_0_l. apply r_0. Qed.
Lemma mul_0r : forall x, (Fin x * Fin 0)%d = Fin 0.
Proof. intro x. cbn [dmul]. rewrite Rmult_0_r. apply r_0. Qed.
Lemma add_is : forall x y z, x + y = z -> rnd z = Fin z -> (Fin x + Fin y)%d = Fin z.
Proof. intros x y z E R. cbn [dadd]. rewrite E. exact R. Qed.
Lemma sub_is : forall x y z, x - y = z -> rnd z = Fin z -> (Fin x - Fin y)%d = Fin z.
Proof. intros x y z E R. cbn [dsub]. rewrite E. exact R. Qed.
Lemma mul_is : forall x y z, x * y = z -> rnd z = Fin z -> (Fin x * Fin y)%d = Fin z.
Proof. intros x y z E R. cbn [dmul]. rewrite E. exact R. Qed.
Lemma div_is : forall x y z, y <> 0 -> x / y = z -> rnd z = Fin z -> (Fin x / Fin y)%d = Fin z.
Proof. intros x y z N E R. unfold ddiv. destruct (Req_EM_T y 0); [contradiction|]. rewrite E. exact R. Qed.
Lemma ltb_64t : forall x y, x < y -> (Fin x <? Fin y)%d = true.
Proof. intros x y H. cbn. unfold Rltb. destruct (Rlt_dec x y); [reflexivity|lra]. Qed.
Lemma ltb_64f : forall x y, y <= x -> (Fin x <? Fin y)%d = false.
Proof. intros x y H. cbn. unfold Rltb. destruct (Rlt_dec x y); [lra|reflexivity]. Qed.

Section Column.
(** Brooks-Corey suction and minimum drive of the soil are of no importance. *)
Context (pb hm : dbl).

(** Soil: theta_r = 1/8, theta_e = 1/2, alpha = 1/64, n = 2, m = 1/2, Ksat = 1.  Layer of 64 cm. *)
Definition c6_soil : soil := mkSoil (Fin (1 / 8)) (Fin (1 / 2)) (Fin (1 / 64)) (Fin 2) (Fin (1 / 2)) (Fin 1) pb hm (Fin 1).
Definition c6_front : front := mkF (Fin 64) (Fin (1 / 2)) (Fin 0) (Fin 1) 1 1 true (Fin 0).
Definition c6_env : env := mkEnv 1 [Fin 0; Fin 64] [None; Some 1%Z] [None; Some c6_soil] [Fin 1; Fin 1].

Lemma pow_one64 : forall b, dpow (Fin 1) b = Fin 1.
Proof. intros b. unfold dpow. destruct (deqb b (Fin 0)); [reflexivity|]. cbn [deqb]. unfold Reqb. destruct (Req_EM_T 1 1); [reflexivity|lra]. Qed.
Lemma pow_zero64 : forall y, 0 < y -> dpow (Fin 0) (Fin y) = Fin 0.
Proof.
  intros y H. unfold dpow. cbn [deqb]. unfold Reqb. destruct (Req_EM_T y 0); [lra|]. destruct (Req_EM_T 0 1); [lra|]. destruct (Rlt_dec 0 0); [lra|].
  destruct (Req_EM_T 0 0); [|lra]. destruct (Rlt_dec 0 y); [reflexivity|lra].
Qed.
Lemma lit_tiny : forall x, / 1000000000000 <= x <= 1 -> exists y, lit x = Fin y /\ x / 2 <= y <= 2 * x.
Proof.
  intros x H. exists (b64_near x). split; [apply rnd_small, fits; lra|]. pose proof (near_bounds x ltac:(lra)) as Q. assert (e1 : eps = / 9007199254740992) by reflexivity. rewrite e1 in Q. lra.
Qed.

Lemma lit_15 : exists y, lit (1 / 1000000000000000) = Fin y /\ 0 < y.
Proof.
  exists (b64_near (1 / 1000000000000000)). split; [apply rnd_small, fits; lra|].
  pose proof (dyadic 1 50 ltac:(lia) ltac:(lia)) as Q. change (IZR (2 ^ 50)) with 1125899906842624 in Q. rewrite rnd_small in Q by (apply fits; lra). injection Q as Q.
  pose proof (near_mono (1 / 1125899906842624) (1 / 1000000000000000) ltac:(lra)) as M. lra.
Qed.

Lemma c6_theta : theta_of_h c6_soil (Fin 0) = Fin (1 / 2).
Proof.
  unfold theta_of_h, calc_theta_from_h, c6_soil. cbn [s_alpha s_n s_m s_theta_e s_theta_r]. rewrite (lit_IZR 1) by lia.
  rewrite mul_0r, pow_zero64 by lra. rewrite (add_is 1 0 1); [|lra|apply (rnd_IZR 1); lia]. rewrite pow_one64. rewrite (div_is 1 1 1); [|lra|lra|apply (rnd_IZR 1); lia].
  rewrite (sub_is _ _ (3 / 8)); [|lra|apply r_38]. rewrite (mul_is _ _ (3 / 8)); [|lra|apply r_38]. apply add_is; [lra|apply r_half].
Qed.
Lemma c6_psi : h_of_Se c6_soil (Se_of_theta c6_soil (Fin (1 / 2))) = Fin 0.
Proof.
  unfold h_of_Se, calc_h_from_Se, Se_of_theta, calc_Se_from_theta, c6_soil. cbn [s_alpha s_n s_m s_theta_e s_theta_r]. rewrite !(lit_IZR 1) by lia. unfold lit at 1. rewrite r_n1.
  rewrite (sub_is _ _ (3 / 8)); [|lra|apply r_38]. rewrite (div_is (3 / 8) _ 1); [|lra|lra|apply (rnd_IZR 1); lia]. rewrite (div_is (-1) _ (-2)); [|lra|lra|apply r_n2]. rewrite pow_one64.
  rewrite (sub_is 1 1 0); [|lra|apply r_0]. rewrite (div_is 1 2 (1 / 2)); [|lra|lra|apply r_half]. rewrite pow_zero64 by lra. rewrite (div_is 1 (1 / 64) 64); [|lra|lra|apply (rnd_IZR 64); lia]. apply mul_0r.
Qed.
Lemma c6_mass : lgar_calc_mass_bal [Fin 0; Fin 64] [c6_front] = Ok (Fin 32).
Proof.
  unfold lgar_calc_mass_bal. cbn [mass_loop f_layer c6_front]. change (aget [Fin 0; Fin 64] (1 - 1)) with (Ok (Fin 0)). cbn [bind f_depth f_theta].
  change (f_theta c6_front) with (Fin (1 / 2)). change (f_depth c6_front) with (Fin 64).
  rewrite (sub_is 64 0 64); [|lra|apply (rnd_IZR 64); lia]. rewrite (mul_is (1 / 2) 64 32); [|lra|apply (rnd_IZR 32); lia].
  rewrite (add_is 0 32 32); [|lra|apply (rnd_IZR 32); lia]. reflexivity.
Qed.
Lemma c6_clamp : clamp_theta c6_soil (Fin (1 / 2)) = Fin (1 / 2).
Proof. unfold clamp_theta. cbn. unfold Rltb. destruct (Rlt_dec _ _); [lra|]. cbn. unfold Rltb. destruct (Rlt_dec _ _); [|lra]. reflexivity. Qed.
Lemma closure_done : forall k e p target l mass err factor dn sw aug it,
  dgtb (dabs (err - closure_tol)) (lit (1 / 10000000000)) = false -> closure_loop k e p target l mass err factor dn sw aug it = Ok (l, err, false).
Proof. intros k e p target l mass err factor dn sw aug it H. destruct k; cbn [closure_loop]; rewrite H; reflexivity. Qed.

Lemma c6_move : forall d, lgar_move_wetting_fronts c6_env (Fin d) (Fin 0) 1 (Fin 32) (Fin 0) [c6_front] [c6_front] = Ok ([c6_front], Fin 0, Fin 0).
Proof.
  intro d. unfold lgar_move_wetting_fronts. cbn [e_cum e_nlayers c6_env aget Z.ltb Z.compare nth_error Z.to_nat Pos.to_nat Pos.iter_op Init.Nat.add bind].
  change (listLength [c6_front]) with 1%Z. cbn [length move_loop].
  assert (M : move_one c6_env (Fin d) (Fin 0) 1 [c6_front] 1 (Z.of_nat 1) [c6_front] (Fin 0) = Ok ([c6_front], Fin 0)).
  { unfold move_one. cbn [Z.of_nat Pos.of_succ_nat]. unfold findFront, findFrontOld.
    cbn [pos_of f_num c6_front Z.eqb Pos.eqb Z.add Pos.add Pos.succ Z.ltb Z.compare Pos.compare Pos.compare_cont orb andb lget nth_error bind f_layer].
    change (soil_of c6_env 1) with (Ok c6_soil). cbn [bind negb andb Z.eqb Pos.eqb e_nlayers c6_env].
    cbn [pget lget nth_error bind]. change (aget (e_cum c6_env) (1 - 1)) with (Ok (Fin 0)). cbn [bind].
    unfold balance_theta.
    change (masses_above c6_env 1 ?a ?b None ?st) with (Ok st).
    change (repeat (@None dbl) (Z.to_nat (1 + 1))) with [@None dbl; None].
    cbn [bind]. 
    change (aset [@None dbl; None] 1 ?x) with (Ok [@None dbl; x]). cbn [bind].
    unfold lgar_theta_mass_balance.
    change (f_depth c6_front + f_dzdt c6_front * Fin d)%d with (Fin 64 + Fin 0 * Fin d)%d. rewrite mul_0l. rewrite (add_is 64 0 64); [|lra|apply (rnd_IZR 64); lia].
    change (set_depth c6_front (Fin 64)) with c6_front. change (f_depth c6_front) with (Fin 64). change (f_theta c6_front) with (Fin (1 / 2)). change (f_psi c6_front) with (Fin 0).
    rewrite (sub_is 64 0 64); [|lra|apply (rnd_IZR 64); lia]. rewrite (sub_is (1 / 2) 0 (1 / 2)); [|lra|apply r_half]. rewrite (mul_is 64 (1 / 2) 32); [|lra|apply (rnd_IZR 32); lia].
    change (water_added 1 1 (Fin 0) (Fin 0)) with (Fin 0 - (Fin 0 + Fin 0))%d.
    rewrite (add_is 0 0 0); [|lra|apply r_0]. rewrite (sub_is 0 0 0); [|lra|apply r_0]. rewrite (add_is 32 0 32); [|lra|apply (rnd_IZR 32); lia]. rewrite (sub_is 32 32 0); [|lra|apply r_0].
    match goal with |- context [if ?c then Ok (theta_of_h c6_soil _, _) else _] => replace c with true end.
    2: { symmetry. unfold tmb_tol. destruct (lit_tiny (1 / 1000000000000) ltac:(lra)) as (y & E & B). rewrite E. cbn. rewrite Rabs_R0. unfold Rleb. destruct (Rle_dec 0 y); [reflexivity|lra]. }
    cbn [bind]. rewrite c6_theta, c6_clamp, c6_psi. reflexivity. }
  rewrite M. cbn [bind].
  assert (T : exists t, lit (1 / 10000000000) = Fin t /\ 0 < t /\ rnd (- t) = Fin (- t)).
  { destruct (lit_tiny (1 / 10000000000) ltac:(lra)) as (t & E & B). exists t. split; [exact E|]. split; [lra|]. unfold lit in E. pose proof (rnd_idem _ _ E) as Q. rewrite rnd_opp, Q. reflexivity. }
  destruct T as (t & ET & t0 & RT).
  assert (C : closure c6_env (Fin 32) (Fin 0) [c6_front] (Fin 0) = Ok ([c6_front], Fin 0, Fin 0)).
  { unfold closure. change (lgar_wetting_fronts_cross_layer_boundary c6_env [c6_front]) with (Ok [c6_front]). cbn [bind].
    change (wetting_front_free_drainage [c6_front]) with 1%Z.
    change (soil_of c6_env 1) with (Ok c6_soil). cbn [bind]. unfold dgtb. rewrite (ltb_64t 0 32) by lra. cbn [cassert bind].
    change (findFront 1 [c6_front]) with (Some 0%nat). cbn [lget nth_error bind f_theta c6_front s_theta_e c6_soil e_cum c6_env].
    rewrite (sub_is (1 / 2) (1 / 2) 0); [|lra|apply r_0].
    match goal with |- context [if ?c then _ else Ok ([c6_front], Fin 0, Fin 0)] => replace c with true end.
    2: { symmetry. destruct lit_15 as (y & E & B). rewrite E. cbn. rewrite Rabs_R0. unfold Rltb. destruct (Rlt_dec 0 y); [reflexivity|lra]. }
    rewrite c6_mass. cbn [bind]. rewrite (add_is 32 0 32); [|lra|apply (rnd_IZR 32); lia]. rewrite (add_is 0 0 0); [|lra|apply r_0]. rewrite (sub_is 32 0 32); [|lra|apply (rnd_IZR 32); lia].
    rewrite (sub_is 32 32 0); [|lra|apply r_0]. replace (dabs (Fin 0)) with (Fin 0) by (cbn; rewrite Rabs_R0; reflexivity).
    rewrite closure_done; [reflexivity|]. unfold closure_tol. rewrite ET. rewrite (sub_is 0 t (- t)); [|lra|assumption]. unfold dgtb. cbn. rewrite Rabs_Ropp, Rabs_pos_eq by lra. unfold Rltb. destruct (Rlt_dec t t); [lra|reflexivity]. }
  rewrite C. cbn [bind].
  change (merge_phases c6_env [c6_front]) with (Ok ([c6_front], Fin 0, Fin 0)). cbn [bind].
  change (refresh_psi c6_env [c6_front]) with (Ok [c6_front]). cbn [bind].
  unfold fix_single. change (aget (e_cum c6_env) 1) with (Ok (Fin 64)). cbn [bind].
  assert (X : (f_depth c6_front <>? Fin 64)%d = false). { change (negb (deqb (Fin 64) (Fin 64)) = false). cbn. unfold Reqb. destruct (Req_EM_T 64 64); [reflexivity|lra]. }
  rewrite X. 
  assert (Y : (dabs (Fin 0) >? lit (1 / 10000000))%d = false).
  { destruct (lit_tiny (1 / 10000000) ltac:(lra)) as (y & E & B). rewrite E. unfold dgtb. cbn. rewrite Rabs_R0. unfold Rltb. destruct (Rlt_dec y 0); [lra|reflexivity]. }
  rewrite Y. rewrite (add_is 0 0 0); [|lra|apply r_0]. reflexivity.
Qed.

(** Clock at [t] seconds, [k] sub-steps done. *)
Context (dp : list dbl).
Definition c6_params (t k : Z) : params :=
  mkParams 1 [Fin 0; Fin 64] [Fin 0; Fin 64] [None; Some 1%Z] [Fin 1; Fin 1] 1 1 [Fin 0] [Fin 0] dp [Fin (1 / 2)]
    (Fin (hours64 1200)) (Fin (hours64 3600)) (Fin (hours64 1200)) 3 (Fin 15495) (Fin 341) true false (Fin 1) (Fin 0) 120 (Fin (IZR t)) (Fin 3600) k false false false.
Definition c6_cal : calib := mkCal [Fin (1 / 2)] [Fin (1 / 8)] [Fin 2] [Fin (1 / 64)] [Fin 1] (Fin 341) (Fin 1).
Definition c6_state (t k : Z) (prev : list front) (mb : massbal) : state :=
  mkState [c6_front] prev [None; Some c6_soil] (c6_params t k) mb (Fin 0) (Fin 0) c6_cal None 1 [Fin 1] [Fin 0; Fin 0].
Definition c6_mb : massbal := mkMB (Fin 0) (Fin 32) (Fin 0) (Fin 0) (Fin 0) (Fin 0) (Fin 0) (Fin 0) (Fin 0) (Fin 0) (Fin 0) (Fin 0) (Fin 0) None.
Definition c6_upar : upar := mkU c6_env (Fin (hours64 1200)) 120 true (Fin 15495) (Fin 341) (Fin 1).
Definition c6_acc : acc := mkAcc (Fin 0) (Fin 0) (Fin 0) (Fin 32) (Fin 0) (Fin 0) (Fin 0) (Fin 0).

Lemma c6_hydro : forall pp precip von, sub_hydro c6_upar pp (Fin 0) (Fin 0) precip von (Fin 0) (Fin 32) [c6_front] [c6_front]
  = Ok (mkSub [c6_front] [c6_front] (Fin 0) (Fin 0) (Fin 0) (Fin 0) (Fin 0) (Fin 0)).
Proof.
  intros pp precip von. unfold sub_hydro, c6_upar. cbn [u_env u_dt u_closed u_nint u_wilting u_fc u_pmax].
  unfold dgtb at 1. rewrite ltb_64f by lra. cbn [bind]. change (wetting_front_free_drainage [c6_front]) with 1%Z.
  unfold create_decision. cbn [lget nth_error bind]. change (soil_of c6_env (f_layer c6_front)) with (Ok c6_soil). cbn [bind f_theta c6_front s_theta_e c6_soil].
  replace (Fin (1 / 2) + lit (1 / 1000000000000) >=? Fin (1 / 2))%d with true.
  2: { symmetry. destruct (lit_tiny (1 / 1000000000000) ltac:(lra)) as (y & E & B). rewrite E. cbn [dadd]. rewrite rnd_small by (apply fits; lra).
    pose proof (near_mono (1 / 2) (1 / 2 + y) ltac:(lra)) as M. assert (H : b64_near (1 / 2) = 1 / 2). { pose proof r_half as Q. rewrite rnd_small in Q by (apply fits; lra). injection Q as Q. exact Q. }
    rewrite H in M. unfold dgeb. cbn. unfold Rleb. destruct (Rle_dec _ _); [reflexivity|contradiction]. }
  cbn [orb bind b_ponded]. unfold dgtb. rewrite ltb_64f by lra. cbn [andb]. unfold sub_no_insert. cbn [b_ponded u_pmax b_head b_prev b_aet b_volin b_rech]. rewrite ltb_64t by lra. cbn [bind].
  fold c6_front. unfold sub_move. cbn [u_env u_dt b_volin b_aet b_head b_prev]. rewrite c6_move. cbn [bind b_ponded b_head b_prev b_volin b_runoff b_on b_aet b_rech].
  assert (Z : lgar_dzdt_calc c6_env true 120 (Fin 0) [c6_front] = Ok [c6_front]).
  { unfold lgar_dzdt_calc, dzdt_loop. cbn [f_K c6_front]. rewrite ltb_64f by lra. reflexivity. }
  rewrite Z. reflexivity.
Qed.
Lemma c6_tick : forall t, (0 <= t <= 1000000)%Z -> (Fin (IZR t) + Fin (hours64 1200) * hr_to_sec)%d = Fin (IZR (t + 1200)).
Proof.
  intros t T. unfold hr_to_sec. rewrite (lit_IZR 3600) by lia. destruct (divisor_exact 1200 ltac:(lia) ltac:(exists 3%Z; reflexivity)) as (_ & _ & Q). cbn [dmul].
  assert (B := hours64_bounds 1200 ltac:(lia)). assert (e1 : eps = / 9007199254740992) by reflexivity. rewrite e1 in B.
  rewrite rnd_small by (apply fits; lra). rewrite Q. cbn [dadd]. rewrite <- plus_IZR. apply rnd_IZR. lia.
Qed.
Lemma dfmax_00 : dfmax (Fin 0) (Fin 0) = Fin 0.
Proof. cbn. unfold Rltb. destruct (Rlt_dec 0 0); reflexivity. Qed.
Lemma c6_substep : forall t k prev mb, (0 <= t <= 1000000)%Z ->
  substep c6_upar (c6_state t k prev mb) c6_acc = Ok (c6_state (t + 1200) (k + 1) [c6_front] (mb <| mb_local := Some (Fin 0) |>), c6_acc).
Proof.
  intros t k prev mb T. unfold substep. cbn [u_dt c6_upar a_on a_end c6_acc].
  change (p_time (st_p (c6_state t k prev mb))) with (Fin (IZR t)). rewrite c6_tick by assumption.
  change (st_precip (c6_state t k prev mb)) with (Fin 0). change (st_pet (c6_state t k prev mb)) with (Fin 0). rewrite dfmax_00.
  assert (MC : exists y, mm_to_cm = Fin y). { destruct (lit_tiny (1 / 10) ltac:(lra)) as (y & E & _). exists y. exact E. }
  destruct MC as (y & ->). rewrite !mul_0l. rewrite (add_is 0 0 0); [|lra|apply r_0].
  assert (CV : clean_volon (Fin 0) = Fin 0). { unfold clean_volon. rewrite dfmax_00. destruct (_ >? _)%d; reflexivity. }
  rewrite CV.
  match goal with |- context [lgar_calc_mass_bal ?a ?b] => change (lgar_calc_mass_bal a b) with (lgar_calc_mass_bal [Fin 0; Fin 64] [c6_front]) end.
  rewrite c6_mass. cbn [bind].
  change (st_head (c6_state t k prev mb)) with [c6_front]. change (listCopy [c6_front]) with [c6_front].
  fold c6_upar. rewrite c6_hydro. cbn [bind b_head b_prev b_runoff b_aet b_on b_rech b_volin].
  match goal with |- context [lgar_calc_mass_bal ?a ?b] => change (lgar_calc_mass_bal a b) with (lgar_calc_mass_bal [Fin 0; Fin 64] [c6_front]) end.
  rewrite c6_mass. cbn [bind].
  assert (LB : local_balance (Fin 32) (Fin 0) (Fin 0) (Fin 0) (Fin 0) (Fin 0) (Fin 0) (Fin 32) = Fin 0).
  { unfold local_balance. rewrite (add_is 32 0 32); [|lra|apply (rnd_IZR 32); lia]. rewrite (add_is 32 0 32); [|lra|apply (rnd_IZR 32); lia]. repeat (rewrite (sub_is 32 0 32); [|lra|apply (rnd_IZR 32); lia]). apply sub_is; [lra|apply r_0]. }
  rewrite LB.
  replace (dabs (Fin 0) >? lit (1 / 10000))%d with false.
  2: { symmetry. destruct (lit_tiny (1 / 10000) ltac:(lra)) as (z & E & B). rewrite E. unfold dgtb. cbn. rewrite Rabs_R0. unfold Rltb. destruct (Rlt_dec z 0); [lra|reflexivity]. }
  cbn [lget nth_error bind]. unfold dgtb. change (f_depth c6_front) with (Fin 64). rewrite ltb_64t by lra. cbn [cassert bind]. rewrite dfmax_00. cbn [a_precip a_pet a_aet a_in a_runoff a_rech].
  match goal with |- Ok (_, ?a) = Ok (_, ?b) => assert (EA : a = b) end. { unfold c6_acc. f_equal; apply add_is; lra || apply r_0. }
  rewrite EA. reflexivity.
Qed.

Definition c6_xs : list step :=
  let st t k prev mb := c6_state t k prev mb in let mb1 := c6_mb <| mb_local := Some (Fin 0) |> in
  [mkStep (c6_state 0 0 [] c6_mb) c6_acc (c6_state 1200 1 [c6_front] mb1) c6_acc;
   mkStep (c6_state 1200 1 [c6_front] mb1) c6_acc (c6_state 2400 2 [c6_front] mb1) c6_acc;
   mkStep (c6_state 2400 2 [c6_front] mb1) c6_acc (c6_state 3600 3 [c6_front] mb1) c6_acc].

Definition c6_start : state := c6_state 0 0 [] c6_mb.
Lemma c6_executed : exists s', executed c6_start c6_upar c6_xs s' /\ (exists b, st_out s' = Some b) /\ p_nfronts (st_p s') = 1%Z /\ (exists x, p_theta_wf (st_p s') = [x]) /\ exists x, p_depth_wf (st_p s') = [x].
Proof.
  unfold c6_start. set (s0 := c6_state 0 0 [] c6_mb).
  assert (X : update_prologue s0 = Ok (s0, Fin 0)) by reflexivity.
  assert (S : update_steps s0 = Ok (s0, Fin (hours64 1200), 3%Z)).
  { unfold update_steps. change (p_adaptive (st_p s0)) with false. cbv iota zeta. match goal with |- context [d2i ?x] => change x with (Fin (hours64 3600) / Fin (hours64 1200) + lit (1 / 100000000))%d end.
    rewrite (guarded 3600 1200 3) by lia. reflexivity. }
  assert (S1 : substep c6_upar s0 c6_acc = Ok (c6_state 1200 1 [c6_front] (c6_mb <| mb_local := Some (Fin 0) |>), c6_acc)) by exact (c6_substep 0 0 [] c6_mb ltac:(lia)).
  assert (S2 : substep c6_upar (c6_state 1200 1 [c6_front] (c6_mb <| mb_local := Some (Fin 0) |>)) c6_acc = Ok (c6_state 2400 2 [c6_front] (c6_mb <| mb_local := Some (Fin 0) |>), c6_acc))
    by exact (c6_substep 1200 1 [c6_front] (c6_mb <| mb_local := Some (Fin 0) |>) ltac:(lia)).
  assert (S3 : substep c6_upar (c6_state 2400 2 [c6_front] (c6_mb <| mb_local := Some (Fin 0) |>)) c6_acc = Ok (c6_state 3600 3 [c6_front] (c6_mb <| mb_local := Some (Fin 0) |>), c6_acc))
    by exact (c6_substep 2400 2 [c6_front] (c6_mb <| mb_local := Some (Fin 0) |>) ltac:(lia)).
  set (s3 := c6_state 3600 3 [c6_front] (c6_mb <| mb_local := Some (Fin 0) |>)).
  assert (F : exists s', finish_update s3 c6_acc (Fin 0) = Ok s' /\ (exists b, st_out s' = Some b) /\ p_nfronts (st_p s') = 1%Z /\ (exists x, p_theta_wf (st_p s') = [x]) /\ exists x, p_depth_wf (st_p s') = [x]).
  { unfold finish_update. change (giuh_convolution_integral (a_runoff c6_acc) (g_N s3) (g_ord s3) (g_queue s3)) with (giuh_convolution_integral (Fin 0) 1 [Fin 1] [Fin 0; Fin 0]).
    assert (G : exists q, giuh_convolution_integral (Fin 0) 1 [Fin 1] [Fin 0; Fin 0] = Ok q) by (eexists; reflexivity). destruct G as ([g q] & ->). cbn [bind].
    change (mb_local (st_mb s3)) with (Some (Fin 0)). cbv iota zeta. eexists. split; [reflexivity|]. split; [eexists; reflexivity|]. split; [reflexivity|]. split; eexists; reflexivity. }
  destruct F as (s' & F & F'). exists s'. split; [|exact F'].
  assert (R : runs c6_upar s0 c6_acc c6_xs s3 c6_acc).
  { unfold c6_xs. eapply runs_cons; [exact S1|eapply runs_cons; [exact S2|eapply runs_cons; [exact S3|apply runs_nil]]]. }
  split.
  - unfold Update. change (p_invalid (st_p s0)) with false. cbv iota. rewrite X. cbn [bind].
    change (lgar_calc_mass_bal (p_cum (st_p s0)) (st_head s0)) with (lgar_calc_mass_bal [Fin 0; Fin 64] [c6_front]). rewrite c6_mass. cbn [bind].
    change (st_precip s0) with (Fin 0). change (st_pet s0) with (Fin 0). 
    replace (Fin 0 >=? Fin 0)%d with true by (unfold dgeb; cbn; unfold Rleb; destruct (Rle_dec 0 0); [reflexivity|lra]). cbn [cassert bind]. rewrite S. cbn [bind].
    change (mkU _ _ _ _ _ _ _) with c6_upar. change (acc0 (Fin 32) (mb_on_ts (st_mb s0))) with c6_acc. change (Z.to_nat 3) with 3%nat. cbn [subcycle_loop].
    assert (E : forall t k prev mb, (t < 3600)%Z -> (p_time (st_p (c6_state t k prev mb)) >=? p_endtime (st_p (c6_state t k prev mb)))%d = false).
    { intros t k prev mb L. change ((Fin (IZR t) >=? Fin 3600)%d = false). unfold dgeb. cbn. unfold Rleb. destruct (Rle_dec 3600 (IZR t)) as [Q|]; [apply le_IZR in Q; lia|reflexivity]. }
    rewrite S1. cbn [bind]. rewrite E by lia. cbn [andb]. rewrite S2. cbn [bind]. rewrite E by lia. cbn [andb].
    rewrite S3. cbn [bind]. destruct (_ && _)%bool; exact F.
  - change (p_invalid (st_p s0)) with false. cbv iota. exists s0, (Fin 0), (Fin 32), s0, 3%Z, s3, c6_acc. split; [exact X|]. split; [exact c6_mass|]. split; [exact S|]. split; [reflexivity|]. split; [exact R|].
    split; [left; reflexivity|exact F].
Qed.
End Column.
End B64.
