(** Worked example: light rain on a very dry column makes the reported evapotranspiration negative. *)

From Coq Require Import Reals Lra ZArith List Bool Lia.
From RecordUpdate Require Import RecordSet.
From Verif Require Import Outcome Dbl Exact Types ListOps Soil Giuh Fronts Infil Move State Update Lib Spec_Common Spec_Update Spec_Soil
  Pf_Dbl Pf_Pow Pf_Update Pf_Clock Pf_Soil Ex_Saturated Ex_Soil.
Import ListNotations.
Import RecordSetNotations.
Open Scope R_scope.

(** Water content at 10^10 cm of suction, and at the head after one iteration of lgar_theta_mass_balance. *)
Definition dr_th0 : R := vg_theta (1 / 10) (2 / 5) (1 / 100) 2 (1 / 2) 10000000000.
Definition dr_th1 : R := vg_theta (1 / 10) (2 / 5) (1 / 100) 2 (1 / 2) 9999000000.
Definition dr_front : front := mkF (Fin 100) (Fin dr_th0) (Fin 10000000000) (Fin 0) 1 1 true (Fin 0).
Definition dr_front1 : front := mkF (Fin 100) (Fin dr_th1) (Fin 9999000000) (Fin 0) 1 1 true (Fin 0).
(** Rain of one sub-step, cm. *)
Definition dr_q : R := 1 / 100000.
Definition dr_aet : R := 0 - (dr_q - 100 * (dr_th1 - dr_th0) - 1 / 1000000000000).
Definition dr_err : R := 2 * dr_q - 200 * (dr_th1 - dr_th0) - 1 / 1000000000000.
Definition dr_mb (local : option dbl) : massbal :=
  mkMB (Fin 0) (Fin (100 * dr_th0)) (Fin (100 * dr_th0)) (Fin 1) (Fin 1) (Fin 0) (Fin 0) (Fin 0) (Fin 0) (Fin 0) (Fin 0) (Fin 0) (Fin 0) local.
Definition dr_state (head prev : list front) (t : R) (k : Z) (out : option bout) (local : option dbl) : state :=
  mkState head prev [None; Some ex_soil] (ex_params 1 1 2 7200 t k dr_q 1 1 [Fin dr_th0] [Fin 1])
    (dr_mb local) (Fin (1 / 10000)) (Fin 0) ex_cal out 1 [Fin 1] [Fin 0; Fin 0].
(** It rained before, nothing is ponded, PET is zero. *)
Definition dr_start : state := dr_state [dr_front] [dr_front] 0 0 None (Some (Fin 0)).
Definition dr_upar : upar := mkU ex_env (Fin 1) 120 true (Fin 15495) (Fin 341) (Fin 2).

Section Run.
Local Existing Instance exact.
Context {cfg : Cfg}.

Lemma dr_small : forall x, 0 < x -> vg_Se (1 / 100) 2 (1 / 2) x <= / (1 / 100 * x).
Proof.
  intros x Hx. unfold vg_Se. assert (0 < 1 / 100 * x) by lra. rewrite pw_pos by assumption. rewrite Rpower_2 by assumption. set (y := 1 / 100 * x) in *.
  rewrite Rpower_Ropp. apply Rinv_le_contravar; [assumption|].
  rewrite <- (Rpower_half y) at 1 by assumption.
  assert (P : pw (y * y) (1 / 2) <= pw (1 + y * y) (1 / 2)) by (apply pw_le; nra). rewrite !pw_pos in P by nra. exact P.
Qed.

Lemma dr_bounds : 1 / 10 < dr_th0 /\ dr_th0 < dr_th1 /\ dr_th1 <= 1 / 10 + 31 / 10000000000.
Proof.
  unfold dr_th0, dr_th1.
  pose proof (theta_range (1 / 10) (2 / 5) (1 / 100) 2 (1 / 2) 10000000000 ltac:(lra) ltac:(lra) ltac:(lra) ltac:(lra) ltac:(lra)).
  pose proof (Se_h_decreasing (1 / 100) 2 (1 / 2) 9999000000 10000000000 ltac:(lra) ltac:(lra) ltac:(lra) ltac:(lra) ltac:(lra)).
  pose proof (dr_small 9999000000 ltac:(lra)). unfold vg_theta in *. split; [lra|]. split; lra.
Qed.

Lemma dr_theta1 : theta_of_h ex_soil (Fin 9999000000) = Fin dr_th1.
Proof. apply (theta_of_h_is ex_soil _ _ _ _ _ 1); [apply ex_vg|lra]. Qed.

Lemma dr_psi1 : h_of_Se ex_soil (Se_of_theta ex_soil (Fin dr_th1)) = Fin 9999000000.
Proof. rewrite <- dr_theta1. apply (h_inverse ex_soil _ _ _ _ _ _ _ ex_vg). lra. Qed.

Lemma dr_mass : lgar_calc_mass_bal [Fin 0; Fin 100] [dr_front] = Ok (Fin (100 * dr_th0)).
Proof. cbn. f_equal. f_equal. ring. Qed.
Lemma dr_mass1 : lgar_calc_mass_bal [Fin 0; Fin 100] [dr_front1] = Ok (Fin (100 * dr_th1)).
Proof. cbn. f_equal. f_equal. ring. Qed.

(** One pass of the loop ends it, because the head is above 10^7 cm; the water that does not fit is taken from AET. *)
Lemma dr_balance : (0 < fuel)%nat -> forall prior newm z, prior = 100 * dr_th0 + dr_q -> newm = 100 * dr_th0 -> z = 100 ->
  lgar_theta_mass_balance ex_env 1 ex_soil (Fin 10000000000) (Fin newm) (Fin prior) (Fin 0) [None; Some (Fin 0)] [None; Some (Fin z)] = Ok (Fin dr_th1, Fin dr_aet).
Proof.
  intros Hf prior newm z -> -> ->. destruct dr_bounds as (B0 & B1 & B2). unfold lgar_theta_mass_balance.
  assert (D0 : dabs (Fin (100 * dr_th0) - Fin (100 * dr_th0 + dr_q))%d = Fin dr_q).
  { cbn. f_equal. unfold dr_q. unfold Rabs. destruct (Rcase_abs _); lra. }
  rewrite D0. unfold tmb_tol. change (lit (1 / 1000000000000)) with (Fin (1 / 1000000000000)). rewrite leb_f by (unfold dr_q; lra).
  replace (dfmax (lit 1) (Fin 10000000000 / lit 100))%d with (Fin 100000000).
  2: { change (lit 1) with (Fin 1). change (lit 100) with (Fin 100). rewrite div_fin by lra. cbn. unfold Rltb. destruct (Rlt_dec _ _); [f_equal; lra|lra]. }
  destruct fuel as [|k]; [lia|]. cbn [tmb_loop t_delta]. unfold tmb_tol. change (lit (1 / 1000000000000)) with (Fin (1 / 1000000000000)).
  unfold dgtb at 1. rewrite ltb_t by (unfold dr_q; lra).
  assert (S : exists c, tmb_step ex_env 1 ex_soil (Fin (100 * dr_th0 + dr_q)) [None; Some (Fin 0)] [None; Some (Fin 100)]
     (mkT (Fin 10000000000) (Fin 10000000000) (Fin 100000000) false (Fin 0) (Fin (100 * dr_th0)) (Fin dr_q) (Fin dr_q) 0 false 0 false)
   = Ok (mkT (Fin 9999000000) (Fin 10000000000) (Fin (100000000 * (1 / 10))) true (Fin dr_th1) (Fin (100 * dr_th1)) (Fin (dr_q - 100 * (dr_th1 - dr_th0))) (Fin dr_q) c false 1 false, true)).
  { unfold tmb_step. cbn [t_iter t_aug t_factor t_new t_psi t_prev t_switched t_sat t_dprev t_count Z.add Z.gtb Z.compare andb orb negb Pos.compare Pos.compare_cont].
    unfold dgtb at 1. rewrite ltb_f by (unfold dr_q; lra). change (lit (1 / 10)) with (Fin (1 / 10)). cbn [dmul dsub rnd exact].
    replace (10000000000 - 1 / 10 * (100000000 * (1 / 10))) with 9999000000 by lra. rewrite ltb_f by lra. cbn [orb andb]. rewrite dr_theta1.
    unfold tmb_mass. cbn [uget aget nth_error Z.ltb Z.compare Z.to_nat Pos.to_nat Pos.iter_op Init.Nat.add bind Z.sub Z.opp Z.add Z.pos_sub zfor].
    assert (EM : (Fin 0 + Fin 100 * (Fin dr_th1 - Fin 0))%d = Fin (100 * dr_th1)). { cbn. f_equal. ring. } change (uget [None; Some (Fin 100)] 1) with (Ok (Fin 100)). change (uget [None; Some (Fin 0)] 1) with (Ok (Fin 0)). cbn [bind]. rewrite EM.
    cbn [zfor bind Z.to_nat]. change (lit (1 / 1000000000000000)) with (Fin (1 / 1000000000000000)).
    replace (dabs (Fin (100 * dr_th1) - Fin (100 * dr_th0 + dr_q)))%d with (Fin (dr_q - 100 * (dr_th1 - dr_th0))).
    2: { cbn. f_equal. unfold dr_q. unfold Rabs. destruct (Rcase_abs _); lra. }
    replace (dabs (Fin 9999000000 - Fin 10000000000) <? Fin (1 / 1000000000000000))%d with false.
    2: { symmetry. cbn. apply Rltb_false. unfold Rabs. destruct (Rcase_abs _); lra. }
    cbn [andb]. destruct (dabs (_ - Fin dr_q) <? _)%d; cbn [Z.add Z.eqb Pos.eqb]; change (lit 10000000) with (Fin 10000000); unfold dgtb; rewrite ltb_t by lra; eexists; reflexivity. }
  destruct S as (c & S). rewrite S. cbn [bind t_delta t_sat t_theta t_psi andb negb].
  unfold dgtb. rewrite ltb_t by (unfold dr_q; lra). cbn [andb]. change (s_theta_e ex_soil) with (Fin (2 / 5)). unfold dgeb. rewrite leb_f by lra. cbn [andb].
  f_equal. f_equal. unfold dr_aet. cbn. f_equal. rewrite Rabs_right by (unfold dr_q; lra). reflexivity.
Qed.

Lemma dr_move : (0 < fuel)%nat ->
  lgar_move_wetting_fronts ex_env (Fin 1) (Fin dr_q) 1 (Fin (100 * dr_th0)) (Fin 0) [dr_front] [dr_front] = Ok ([dr_front1], Fin dr_aet, Fin 0).
Proof.
  intro Hf. destruct dr_bounds as (B0 & B1 & B2). unfold lgar_move_wetting_fronts. cbn [e_cum e_nlayers ex_env aget Z.ltb Z.compare nth_error Z.to_nat Pos.to_nat Pos.iter_op Init.Nat.add bind].
  change (listLength [dr_front]) with 1%Z. cbn [length move_loop].
  assert (M : move_one ex_env (Fin 1) (Fin dr_q) 1 [dr_front] 1 (Z.of_nat 1) [dr_front] (Fin 0) = Ok ([dr_front1], Fin dr_aet)).
  { unfold move_one. cbn [Z.of_nat Pos.of_succ_nat]. unfold findFront, findFrontOld.
    cbn [pos_of f_num dr_front Z.eqb Pos.eqb Z.add Pos.add Pos.succ Z.ltb Z.compare Pos.compare Pos.compare_cont orb andb lget nth_error bind f_layer].
    change (soil_of ex_env 1) with (Ok ex_soil). cbn [bind negb andb Z.eqb Pos.eqb e_nlayers ex_env].
    cbn [pget lget nth_error bind]. change (aget (e_cum ex_env) (1 - 1)) with (Ok (Fin 0)). cbn [bind].
    unfold balance_theta.
    change (masses_above ex_env 1 ?a ?b None ?st) with (Ok st).
    change (repeat (@None dbl) (Z.to_nat (1 + 1))) with [@None dbl; None].
    cbn [bind].
    change (aset [@None dbl; None] 1 ?x) with (Ok [@None dbl; x]). cbn [bind].
    change (water_added 1 1 (Fin dr_q) (Fin 0)) with (Fin dr_q - (Fin 0 + Fin 0))%d.
    cbn [set_depth set_theta f_depth f_theta f_psi f_dzdt dr_front dmul dadd dsub rnd exact].
    rewrite dr_balance; try assumption; try ring. cbn [bind].
    replace (clamp_theta ex_soil (Fin dr_th1)) with (Fin dr_th1).
    2: { symmetry. unfold clamp_theta. cbn. unfold Rltb. destruct (Rlt_dec _ _); [|lra]. cbn. unfold Rltb. destruct (Rlt_dec _ _); [|lra]. reflexivity. }
    rewrite dr_psi1. cbn. f_equal. f_equal. unfold dr_front1. f_equal. unfold set_psi, set_theta. cbn. f_equal. f_equal. ring. }
  rewrite M. cbn [bind].
  assert (C : closure ex_env (Fin (100 * dr_th0)) (Fin dr_q) [dr_front1] (Fin dr_aet) = Ok ([dr_front1], Fin dr_aet, Fin 0)).
  { unfold closure. change (lgar_wetting_fronts_cross_layer_boundary ex_env [dr_front1]) with (Ok [dr_front1]). cbn [bind].
    change (wetting_front_free_drainage [dr_front1]) with 1%Z.
    change (soil_of ex_env 1) with (Ok ex_soil). cbn [bind]. unfold dgtb. rewrite (ltb_t 0 (100 * dr_th0)) by lra. cbn [cassert bind].
    change (findFront 1 [dr_front1]) with (Some 0%nat). cbn [lget nth_error bind f_theta dr_front1 s_theta_e ex_soil e_cum ex_env].
    match goal with |- context [if ?c then _ else Ok ([dr_front1], _, Fin 0)] => replace c with false end; [reflexivity|].
    symmetry. cbn. apply Rltb_false. unfold Rabs. destruct (Rcase_abs _); lra. }
  rewrite C. cbn [bind].
  change (merge_phases ex_env [dr_front1]) with (Ok ([dr_front1], Fin 0, Fin 0)). cbn [bind].
  change (refresh_psi ex_env [dr_front1]) with (Ok [dr_front1]). cbn [bind].
  unfold fix_single. change (aget (e_cum ex_env) 1) with (Ok (Fin 100)). cbn [bind].
  assert (X : (f_depth dr_front1 <>? Fin 100)%d = false) by (change (negb (deqb (Fin 100) (Fin 100)) = false); rewrite eqb_t; reflexivity).
  rewrite X.
  assert (Y : (dabs (Fin 0) >? lit (1 / 10000000))%d = false).
  { cbn. rewrite Rabs_R0. apply Rltb_false. lra. }
  rewrite Y. replace (Fin 0 + Fin 0)%d with (Fin 0) by (cbn; f_equal; ring). reflexivity.
Qed.

Lemma dr_capacity : infiltration_capacity ex_env true 120 (Fin 1) (Fin 0) (Fin dr_q) (Fin dr_q) 1 [dr_front] = Ok (Fin 1).
Proof.
  destruct dr_bounds as (B0 & B1 & B2).
  unfold infiltration_capacity. change (listLength [dr_front]) with 1%Z.
  change (pget [dr_front] (findFront 1 [dr_front])) with (Ok dr_front). cbn [bind f_layer dr_front].
  change (soil_of ex_env 1) with (Ok ex_soil). cbn [bind lget nth_error].
  change (aget (e_frozen ex_env) (f_layer dr_front)) with (Ok (Fin 1)).
  cbn [bind e_nlayers ex_env Z.eqb Pos.eqb]. change (soil_of _ _) with (Ok ex_soil). cbn [bind].
  change (f_theta dr_front) with (Fin dr_th0). change (s_theta_e ex_soil) with (Fin (2 / 5)).
  rewrite eqb_f by lra. cbn [andb].
  change (aget (e_frozen ex_env) (f_layer dr_front)) with (Ok (Fin 1)). cbn [bind].
  change (e_cum ex_env) with [Fin 0; Fin 100]. rewrite dr_mass. cbn [bind]. rewrite ex_storage. cbn [bind].
  replace (dfmax (Fin dr_q - Fin dr_q * Fin 1)%d (Fin 0)) with (Fin 0)
    by (cbn; unfold Rltb; destruct (Rlt_dec _ _); [reflexivity|f_equal; lra]).
  change (s_Ksat ex_soil) with (Fin 1). change (f_depth dr_front) with (Fin 100). change (lit 1) with (Fin 1).
  replace (Fin 0 + Fin 0)%d with (Fin 0) by (cbn; f_equal; ring). rewrite div_fin by lra.
  replace ((Fin 40 - Fin (100 * dr_th0)) / Fin 1)%d with (Fin (40 - 100 * dr_th0)) by (cbn; destruct (Req_EM_T _ _); [lra|f_equal; field; lra]).
  replace (Fin 1 * Fin 1 * (Fin 1 + Fin (0 / 100)))%d with (Fin 1) by (cbn; f_equal; lra).
  unfold dgtb. rewrite ltb_f by lra. reflexivity.
Qed.

Lemma dr_partition : surface_partition (Fin 1) (Fin dr_q) (Fin 0) (Fin 2) (Fin 1) = (Fin 0, Fin 0, Fin dr_q).
Proof.
  unfold surface_partition.
  replace (dfmax (Fin dr_q - Fin 1 * Fin 1 - Fin 0 * Fin 0)%d (Fin 0)) with (Fin 0)
    by (cbn; unfold dr_q, Rltb; destruct (Rlt_dec _ _); [reflexivity|lra]).
  rewrite div_fin by lra.
  replace (dfmin (Fin dr_q) (Fin 1 * Fin 1 + Fin (0 / 1)))%d with (Fin dr_q) by (cbn; unfold dr_q, Rltb; destruct (Rlt_dec _ _); [reflexivity|lra]).
  unfold dgtb. rewrite (ltb_t 0 2) by lra. replace (Fin dr_q - Fin dr_q)%d with (Fin 0) by (cbn; f_equal; ring). reflexivity.
Qed.

Lemma dr_hydro : (0 < fuel)%nat -> forall pp, pp <> 0 ->
  sub_hydro dr_upar (Fin pp) (Fin dr_q) (Fin 0) (Fin dr_q) (Fin 0) (Fin dr_q) (Fin (100 * dr_th0)) [dr_front] [dr_front]
  = Ok (mkSub [dr_front1] [dr_front] (Fin dr_aet) (Fin 0) (Fin dr_q) (Fin 0) (Fin 0) (Fin 0)).
Proof.
  intros Hf pp Hpp. unfold sub_hydro, dr_upar. cbn [u_env u_dt u_closed u_nint u_wilting u_fc u_pmax].
  unfold dgtb at 1. rewrite ltb_f by lra. cbn [bind]. change (wetting_front_free_drainage [dr_front]) with 1%Z.
  unfold create_decision. cbn [lget nth_error bind]. change (soil_of ex_env (f_layer dr_front)) with (Ok ex_soil). cbn [bind].
  rewrite eqb_f by assumption. cbn [andb].
  match goal with |- context [if ?c then false else false] => replace (if c then false else false) with false by (destruct c; reflexivity) end.
  cbn [bind b_ponded].
  replace (Fin dr_q >? Fin 0)%d with true by (symmetry; apply ltb_t; unfold dr_q; lra). cbn [andb negb].
  unfold sub_insert, lgar_insert_water. cbn [u_env u_dt u_closed u_nint u_pmax b_aet b_ponded b_volin b_head b_prev b_rech].
  rewrite dr_capacity. cbn [bind]. rewrite dr_partition. cbn [bind]. rewrite ltb_f by lra. cbn [bind].
  unfold sub_move. cbn [u_env u_dt b_volin b_aet b_head b_prev]. rewrite dr_move by assumption. cbn [bind b_ponded b_head b_prev b_volin b_runoff b_on b_aet b_rech].
  assert (Z : lgar_dzdt_calc ex_env true 120 (Fin 0) [dr_front1] = Ok [dr_front1]).
  { unfold lgar_dzdt_calc, dzdt_loop. cbn [f_K dr_front1]. rewrite ltb_f by lra. reflexivity. }
  rewrite Z. reflexivity.
Qed.

Lemma dr_substep : (0 < fuel)%nat ->
  substep dr_upar dr_start (acc0 (Fin (100 * dr_th0)) (Fin 0))
  = Ok (dr_state [dr_front1] [dr_front] (0 + 1 * 3600) 1 None (Some (Fin dr_err)),
        mkAcc (Fin (0 + dr_q)) (Fin 0) (Fin (0 + dr_aet)) (Fin (100 * dr_th1)) (Fin (0 + dr_q)) (Fin 0) (Fin 0) (Fin 0)).
Proof.
  intro Hf. destruct dr_bounds as (B0 & B1 & B2). unfold substep, acc0. cbn [u_dt dr_upar a_on a_end].
  replace (dfmax (st_precip dr_start) (Fin 0)) with (Fin (1 / 10000))
    by (cbn; unfold Rltb; destruct (Rlt_dec _ _); [lra|reflexivity]).
  replace (dfmax (st_pet dr_start) (Fin 0)) with (Fin 0)
    by (cbn; unfold Rltb; destruct (Rlt_dec _ _); reflexivity).
  change mm_to_cm with (Fin (1 / 10)).
  replace (Fin 0 * Fin (1 / 10))%d with (Fin 0) by (cbn; f_equal; ring).
  replace (Fin (1 / 10000) * Fin (1 / 10))%d with (Fin dr_q) by (cbn; f_equal; unfold dr_q; lra).
  replace (Fin dr_q * Fin 1)%d with (Fin dr_q) by (cbn; f_equal; lra).
  replace (Fin dr_q + Fin 0)%d with (Fin dr_q) by (cbn; f_equal; lra).
  replace (clean_volon (Fin 0)) with (Fin 0).
  2: { symmetry. unfold clean_volon. replace (dfmax (Fin 0) (Fin 0)) with (Fin 0) by (cbn; unfold Rltb; destruct (Rlt_dec _ _); reflexivity).
       change (lit (1 / 1000000000000)) with (Fin (1 / 1000000000000)). unfold dgtb. rewrite ltb_f by lra. reflexivity. }
  match goal with |- context [lgar_calc_mass_bal ?a ?b] => change (lgar_calc_mass_bal a b) with (lgar_calc_mass_bal [Fin 0; Fin 100] [dr_front]) end.
  rewrite dr_mass. cbn [bind].
  change (st_head dr_start) with [dr_front]. change (listCopy [dr_front]) with [dr_front].
  match goal with |- context [sub_hydro dr_upar ?x] => change x with (Fin dr_q) end.
  rewrite dr_hydro by (assumption || (unfold dr_q; lra)). cbn [bind b_head b_prev b_runoff b_aet b_on b_rech b_volin].
  match goal with |- context [lgar_calc_mass_bal ?a ?b] => change (lgar_calc_mass_bal a b) with (lgar_calc_mass_bal [Fin 0; Fin 100] [dr_front1]) end.
  rewrite dr_mass1. cbn [bind].
  match goal with |- context [local_balance ?a ?b ?c ?dd ?e ?g ?h ?i] => replace (local_balance a b c dd e g h i) with (Fin dr_err) end.
  2: { cbn. f_equal. unfold dr_err, dr_aet. lra. }
  replace (dabs (Fin dr_err) >? lit (1 / 10000))%d with false.
  2: { symmetry. cbn. apply Rltb_false. unfold dr_err, dr_q in *. unfold Rabs. destruct (Rcase_abs _); lra. }
  cbn [lget nth_error bind]. unfold dgtb. change (f_depth dr_front1) with (Fin 100). rewrite ltb_t by lra. cbn [cassert bind].
  replace (Fin 0 * Fin 1)%d with (Fin 0) by (cbn; f_equal; ring).
  replace (dfmax (Fin 0) (Fin 0)) with (Fin 0) by (cbn; unfold Rltb; destruct (Rlt_dec _ _); reflexivity).
  cbn [dadd a_precip a_pet a_aet a_in a_runoff a_rech rnd exact].
  replace (0 + 0) with 0 by ring. reflexivity.
Qed.

Lemma dr_steps : update_steps dr_start = Ok (dr_start, Fin 1, 1%Z).
Proof.
  unfold update_steps. change (p_adaptive (st_p dr_start)) with false. cbv iota zeta.
  match goal with |- context [d2i ?x] => change x with (Fin 1 / Fin 1 + lit (1 / 100000000))%d end.
  replace (d2i (Fin 1 / Fin 1 + lit (1 / 100000000))%d) with (Ok 1%Z); [reflexivity|].
  rewrite div_fin by lra. change (lit (1 / 100000000)) with (Fin (1 / 100000000)). cbn [dadd rnd exact d2i].
  replace (trunc (1 / 1 + 1 / 100000000)) with 1%Z; [reflexivity|]. symmetry. apply trunc_nat; [lia|]. lra.
Qed.

Lemma dr_update : (0 < fuel)%nat -> exists s' o a, Update dr_start = Ok s' /\ st_out s' = Some o /\ o_aet o = Fin a /\ a < 0.
Proof.
  intro Hf. destruct dr_bounds as (B0 & B1 & B2).
  unfold Update. change (p_invalid (st_p dr_start)) with false. cbv iota.
  change (update_prologue dr_start) with (Ok (dr_start, Fin 0)). cbn [bind].
  change (lgar_calc_mass_bal (p_cum (st_p dr_start)) (st_head dr_start)) with (lgar_calc_mass_bal [Fin 0; Fin 100] [dr_front]).
  rewrite dr_mass. cbn [bind].
  change (st_precip dr_start) with (Fin (1 / 10000)). change (st_pet dr_start) with (Fin 0). unfold dgeb. rewrite !leb_t by lra. cbn [cassert bind].
  rewrite dr_steps. cbn [bind]. change (Z.to_nat 1) with 1%nat. cbn [subcycle_loop].
  match goal with |- context [substep ?u ?s ?a] => change (substep u s a) with (substep dr_upar dr_start (acc0 (Fin (100 * dr_th0)) (Fin 0))) end.
  rewrite dr_substep by assumption. cbn [bind].
  match goal with |- context [if ?c then Ok ?x else Ok ?x] => replace (if c then Ok x else Ok x) with (Ok x) by (destruct c; reflexivity) end.
  cbn [bind]. unfold finish_update.
  match goal with |- context [giuh_convolution_integral ?a ?b ?c ?dd] => replace (giuh_convolution_integral a b c dd) with (@Ok (dbl * list dbl) (Fin 0, [Fin 0; Fin 0])) end.
  2: { symmetry. reval. feq. }
  cbn [bind].
  match goal with |- context [mb_local ?x] => change (mb_local x) with (Some (Fin dr_err)) end. cbv iota zeta.
  do 3 eexists. split; [reflexivity|]. split; [reflexivity|]. split; [reflexivity|]. unfold dr_aet, dr_q. lra.
Qed.
End Run.

Lemma dr_refutes : forall cfg : Cfg, (0 < fuel)%nat ->
  exists s' o a, st_pet dr_start = Fin 0 /\ @Update exact cfg dr_start = Ok s' /\ st_out s' = Some o /\ o_aet o = Fin a /\ a < 0.
Proof. intros cfg Hf. destruct (dr_update Hf) as (s' & o & a & H). exists s', o, a. split; [reflexivity|exact H]. Qed.
