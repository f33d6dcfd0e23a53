(** Worked example: an unsaturated one-layer column with ponded water, on which the ponding limit is exceeded. *)

From Coq Require Import Reals Lra ZArith List Bool Lia.
From RecordUpdate Require Import RecordSet.
From Verif Require Import Outcome Dbl Exact Types ListOps Soil Giuh Fronts Infil Move State Update Lib Spec_Common Spec_Update
  Pf_Dbl Pf_Pow Pf_Update Pf_Clock Ex_Saturated.
Import ListNotations.
Import RecordSetNotations.
Open Scope R_scope.

(** Effective saturation 4/5: theta = 17/50 at 75 cm of suction, in the soil of Ex_Saturated. *)
Definition un_front : front := mkF (Fin 100) (Fin (17 / 50)) (Fin 75) (Fin (1 / 10)) 1 1 true (Fin 0).
Definition un_mb (local : option dbl) : massbal :=
  mkMB (Fin 1) (Fin 34) (Fin 34) (Fin 1) (Fin 0) (Fin 1) (Fin 0) (Fin 0) (Fin 0) (Fin 0) (Fin 0) (Fin 0) (Fin 0) local.
Definition un_state (t : R) (k : Z) (pp : R) (fi : Z) (out : option bout) (local : option dbl) : state :=
  mkState [un_front] [un_front] [None; Some ex_soil] (ex_params 1 1 2 7200 t k pp fi 1 [Fin (17 / 50)] [Fin 1])
    (un_mb local) (Fin (201 / 10)) (Fin 0) ex_cal out 1 [Fin 1] [Fin 0; Fin 0].
(** 1 cm on the surface, rain of 20.1 mm/h for one hour, at most 2 cm of ponding. *)
Definition un_start : state := un_state 0 0 1 1 None (Some (Fin 0)).
Definition un_upar : upar := mkU ex_env (Fin 1) 120 true (Fin 15495) (Fin 341) (Fin 2).

Section Run.
Local Existing Instance exact.
Context {cfg : Cfg}.

Lemma un_theta : theta_of_h ex_soil (Fin 75) = Fin (17 / 50).
Proof.
  unfold theta_of_h, calc_theta_from_h, ex_soil. cbn [s_alpha s_n s_m s_theta_e s_theta_r].
  replace (Fin (1 / 100) * Fin 75)%d with (Fin (3 / 4)) by (cbn; f_equal; lra).
  rewrite pow_pos, Rpower_2 by lra. change (lit 1) with (Fin 1).
  replace (Fin 1 + Fin (3 / 4 * (3 / 4)))%d with (Fin (5 / 4 * (5 / 4))) by (cbn; f_equal; lra).
  rewrite pow_pos, Rpower_half by lra. rewrite div_fin by lra. cbn. f_equal. lra.
Qed.

Lemma un_psi : h_of_Se ex_soil (Se_of_theta ex_soil (Fin (17 / 50))) = Fin 75.
Proof.
  unfold h_of_Se, calc_h_from_Se, Se_of_theta, calc_Se_from_theta, ex_soil. cbn [s_alpha s_n s_m s_theta_e s_theta_r].
  replace ((Fin (17 / 50) - Fin (1 / 10)) / (Fin (2 / 5) - Fin (1 / 10)))%d with (Fin (4 / 5))
    by (cbn; destruct (Req_EM_T _ 0); [lra|f_equal; field; lra]).
  change (lit 1) with (Fin 1). change (lit (-1)) with (Fin (-1)).
  rewrite (div_fin (-1)), (div_fin 1 2), (div_fin 1 (1 / 100)) by lra.
  replace (-1 / (1 / 2)) with (-2) by lra. rewrite pow_pos, Rpower_m2 by lra.
  replace (Fin (/ (4 / 5 * (4 / 5))) - Fin 1)%d with (Fin (3 / 4 * (3 / 4))) by (cbn; f_equal; lra).
  rewrite pow_pos, Rpower_half by lra. cbn. f_equal. lra.
Qed.

Lemma un_mass : lgar_calc_mass_bal [Fin 0; Fin 100] [un_front] = Ok (Fin 34).
Proof. cbn. f_equal. f_equal. lra. Qed.

Lemma un_clamp : clamp_theta ex_soil (Fin (17 / 50)) = Fin (17 / 50).
Proof.
  unfold clamp_theta. cbn. unfold Rltb. destruct (Rlt_dec _ _); [|lra]. cbn. unfold Rltb. destruct (Rlt_dec _ _); [|lra]. reflexivity.
Qed.

Lemma un_move : lgar_move_wetting_fronts ex_env (Fin 1) (Fin 0) 1 (Fin 34) (Fin 0) [un_front] [un_front] = Ok ([un_front], Fin 0, Fin 0).
Proof.
  unfold lgar_move_wetting_fronts. cbn [e_cum e_nlayers ex_env aget Z.ltb Z.compare nth_error Z.to_nat Pos.to_nat Pos.iter_op Init.Nat.add bind].
  change (listLength [un_front]) with 1%Z. cbn [length move_loop].
  assert (M : move_one ex_env (Fin 1) (Fin 0) 1 [un_front] 1 (Z.of_nat 1) [un_front] (Fin 0) = Ok ([un_front], Fin 0)).
  { unfold move_one. cbn [Z.of_nat Pos.of_succ_nat]. unfold findFront, findFrontOld.
    cbn [pos_of f_num un_front Z.eqb Pos.eqb Z.add Pos.add Pos.succ Z.ltb Z.compare Pos.compare Pos.compare_cont orb andb lget nth_error bind f_layer].
    change (soil_of ex_env 1) with (Ok ex_soil). cbn [bind negb andb Z.eqb Pos.eqb e_nlayers ex_env].
    cbn [pget lget nth_error bind]. change (aget (e_cum ex_env) (1 - 1)) with (Ok (Fin 0)). cbn [bind].
    unfold balance_theta.
    change (masses_above ex_env 1 ?a ?b None ?st) with (Ok st).
    change (repeat (@None dbl) (Z.to_nat (1 + 1))) with [@None dbl; None].
    cbn [bind].
    change (aset [@None dbl; None] 1 ?x) with (Ok [@None dbl; x]). cbn [bind].
    unfold lgar_theta_mass_balance.
    match goal with |- context [if ?c then Ok (theta_of_h ex_soil _, _) else _] => replace c with true end.
    2: { symmetry. cbn. apply Rleb_true. match goal with |- Rabs ?x <= _ => replace x with 0 by ring end. rewrite Rabs_R0. lra. }
    cbn [bind set_depth f_psi un_front]. rewrite un_theta, un_clamp, un_psi. cbn. f_equal. f_equal. unfold un_front. f_equal.
    unfold set_psi, set_theta. cbn. f_equal. f_equal. ring. }
  rewrite M. cbn [bind].
  assert (C : closure ex_env (Fin 34) (Fin 0) [un_front] (Fin 0) = Ok ([un_front], Fin 0, Fin 0)).
  { unfold closure. change (lgar_wetting_fronts_cross_layer_boundary ex_env [un_front]) with (Ok [un_front]). cbn [bind].
    change (wetting_front_free_drainage [un_front]) with 1%Z.
    change (soil_of ex_env 1) with (Ok ex_soil). cbn [bind]. unfold dgtb. rewrite (ltb_t 0 34) by lra. cbn [cassert bind].
    change (findFront 1 [un_front]) with (Some 0%nat). cbn [lget nth_error bind f_theta un_front s_theta_e ex_soil e_cum ex_env].
    match goal with |- context [if ?c then _ else Ok ([un_front], Fin 0, Fin 0)] => replace c with false end; [reflexivity|].
    symmetry. cbn. apply Rltb_false. unfold Rabs. destruct (Rcase_abs _); lra. }
  rewrite C. cbn [bind].
  change (merge_phases ex_env [un_front]) with (Ok ([un_front], Fin 0, Fin 0)). cbn [bind].
  change (refresh_psi ex_env [un_front]) with (Ok [un_front]). cbn [bind].
  unfold fix_single. change (aget (e_cum ex_env) 1) with (Ok (Fin 100)). cbn [bind].
  assert (X : (f_depth un_front <>? Fin 100)%d = false) by (change (negb (deqb (Fin 100) (Fin 100)) = false); rewrite eqb_t; reflexivity).
  rewrite X.
  assert (Y : (dabs (Fin 0) >? lit (1 / 10000000))%d = false).
  { cbn. rewrite Rabs_R0. apply Rltb_false. lra. }
  rewrite Y. replace (Fin 0 + Fin 0)%d with (Fin 0) by (cbn; f_equal; ring). reflexivity.
Qed.

(** The soil would take 1.01 cm of the 3.01 cm on the surface. *)
Lemma un_capacity : infiltration_capacity ex_env true 120 (Fin 1) (Fin 0) (Fin (301 / 100)) (Fin (201 / 100)) 1 [un_front] = Ok (Fin (101 / 100)).
Proof.
  unfold infiltration_capacity. change (listLength [un_front]) with 1%Z.
  change (pget [un_front] (findFront 1 [un_front])) with (Ok un_front). cbn [bind f_layer un_front].
  change (soil_of ex_env 1) with (Ok ex_soil). cbn [bind lget nth_error].
  change (aget (e_frozen ex_env) (f_layer un_front)) with (Ok (Fin 1)).
  cbn [bind e_nlayers ex_env Z.eqb Pos.eqb]. change (soil_of _ _) with (Ok ex_soil). cbn [bind].
  change (f_theta un_front) with (Fin (17 / 50)). change (s_theta_e ex_soil) with (Fin (2 / 5)).
  rewrite eqb_f by lra. cbn [andb].
  change (aget (e_frozen ex_env) (f_layer un_front)) with (Ok (Fin 1)). cbn [bind].
  change (e_cum ex_env) with [Fin 0; Fin 100]. rewrite un_mass. cbn [bind]. rewrite ex_storage. cbn [bind].
  replace (dfmax (Fin (301 / 100) - Fin (201 / 100) * Fin 1)%d (Fin 0)) with (Fin 1)
    by (cbn; unfold Rltb; destruct (Rlt_dec _ _); [lra|f_equal; lra]).
  change (s_Ksat ex_soil) with (Fin 1). change (f_depth un_front) with (Fin 100). change (lit 1) with (Fin 1).
  replace (Fin 0 + Fin 1)%d with (Fin 1) by (cbn; f_equal; ring). rewrite div_fin by lra.
  replace ((Fin 40 - Fin 34) / Fin 1)%d with (Fin 6) by (cbn; destruct (Req_EM_T _ _); [lra|f_equal; field; lra]).
  replace (Fin 1 * Fin 1 * (Fin 1 + Fin (1 / 100)))%d with (Fin (101 / 100)) by (cbn; f_equal; lra).
  unfold dgtb. rewrite ltb_f by lra. reflexivity.
Qed.

(** It would take 1 cm when nothing was ponded before the rain. *)
Lemma un_capacity_half : infiltration_capacity ex_env true 120 (Fin 1) (Fin 0) (Fin (1 / 2)) (Fin (1 / 2)) 1 [un_front] = Ok (Fin 1).
Proof.
  unfold infiltration_capacity. change (listLength [un_front]) with 1%Z.
  change (pget [un_front] (findFront 1 [un_front])) with (Ok un_front). cbn [bind f_layer un_front].
  change (soil_of ex_env 1) with (Ok ex_soil). cbn [bind lget nth_error].
  change (aget (e_frozen ex_env) (f_layer un_front)) with (Ok (Fin 1)).
  cbn [bind e_nlayers ex_env Z.eqb Pos.eqb]. change (soil_of _ _) with (Ok ex_soil). cbn [bind].
  change (f_theta un_front) with (Fin (17 / 50)). change (s_theta_e ex_soil) with (Fin (2 / 5)).
  rewrite eqb_f by lra. cbn [andb].
  change (aget (e_frozen ex_env) (f_layer un_front)) with (Ok (Fin 1)). cbn [bind].
  change (e_cum ex_env) with [Fin 0; Fin 100]. rewrite un_mass. cbn [bind]. rewrite ex_storage. cbn [bind].
  replace (dfmax (Fin (1 / 2) - Fin (1 / 2) * Fin 1)%d (Fin 0)) with (Fin 0)
    by (cbn; unfold Rltb; destruct (Rlt_dec _ _); [reflexivity|f_equal; lra]).
  change (s_Ksat ex_soil) with (Fin 1). change (f_depth un_front) with (Fin 100). change (lit 1) with (Fin 1).
  replace (Fin 0 + Fin 0)%d with (Fin 0) by (cbn; f_equal; ring). rewrite div_fin by lra.
  replace ((Fin 40 - Fin 34) / Fin 1)%d with (Fin 6) by (cbn; destruct (Req_EM_T _ _); [lra|f_equal; field; lra]).
  replace (Fin 1 * Fin 1 * (Fin 1 + Fin (0 / 100)))%d with (Fin 1) by (cbn; f_equal; lra).
  unfold dgtb. rewrite ltb_f by lra. reflexivity.
Qed.

(** Exactly 2 cm would remain, which equals the maximum: nothing happens. *)
Lemma un_partition : surface_partition (Fin 1) (Fin (301 / 100)) (Fin 0) (Fin 2) (Fin (101 / 100)) = (Fin 0, Fin (301 / 100), Fin 0).
Proof.
  unfold surface_partition.
  replace (dfmax (Fin (301 / 100) - Fin (101 / 100) * Fin 1 - Fin 0 * Fin 0)%d (Fin 0)) with (Fin 2)
    by (cbn; unfold Rltb; destruct (Rlt_dec _ _); [lra|f_equal; lra]).
  unfold dgtb. rewrite (ltb_t 0 2), (ltb_f 2 2) by lra. reflexivity.
Qed.

Lemma un_hydro : forall pp,
  sub_hydro un_upar pp (Fin (201 / 100)) (Fin 0) (Fin (201 / 100)) (Fin 1) (Fin (301 / 100)) (Fin 34) [un_front] [un_front]
  = Ok (mkSub [un_front] [un_front] (Fin 0) (Fin (301 / 100)) (Fin 0) (Fin 0) (Fin (301 / 100)) (Fin 0)).
Proof.
  intros pp. unfold sub_hydro, un_upar. cbn [u_env u_dt u_closed u_nint u_wilting u_fc u_pmax].
  unfold dgtb at 1. rewrite ltb_f by lra. cbn [bind]. change (wetting_front_free_drainage [un_front]) with 1%Z.
  unfold create_decision. cbn [lget nth_error bind]. change (soil_of ex_env (f_layer un_front)) with (Ok ex_soil). cbn [bind].
  replace (Fin 1 >? Fin 0)%d with true by (symmetry; apply ltb_t; lra). rewrite orb_true_r. cbn [bind b_ponded].
  replace (Fin (301 / 100) >? Fin 0)%d with true by (symmetry; apply ltb_t; lra). cbn [andb negb].
  unfold sub_insert, lgar_insert_water. cbn [u_env u_dt u_closed u_nint u_pmax b_aet b_ponded b_volin b_head b_prev b_rech].
  rewrite un_capacity. cbn [bind]. rewrite un_partition. cbn [bind]. rewrite ltb_f by lra. cbn [bind].
  unfold sub_move. cbn [u_env u_dt b_volin b_aet b_head b_prev]. rewrite un_move. cbn [bind b_ponded b_head b_prev b_volin b_runoff b_on b_aet b_rech].
  assert (Z : lgar_dzdt_calc ex_env true 120 (Fin (301 / 100)) [un_front] = Ok [un_front]).
  { unfold lgar_dzdt_calc, dzdt_loop. cbn [f_K un_front]. rewrite ltb_f by lra. reflexivity. }
  rewrite Z. reflexivity.
Qed.

Lemma un_substep :
  substep un_upar (un_state 0 0 1 1 None (Some (Fin 0))) (acc0 (Fin 34) (Fin 1))
  = Ok (un_state (0 + 1 * 3600) 1 (201 / 100) 1 None (Some (Fin 0)),
        mkAcc (Fin (0 + 201 / 100)) (Fin 0) (Fin 0) (Fin 34) (Fin 0) (Fin (301 / 100)) (Fin 0) (Fin 0)).
Proof.
  unfold substep, acc0. cbn [u_dt un_upar a_on a_end].
  replace (dfmax (st_precip (un_state 0 0 1 1 None (Some (Fin 0)))) (Fin 0)) with (Fin (201 / 10))
    by (cbn; unfold Rltb; destruct (Rlt_dec _ _); [lra|reflexivity]).
  replace (dfmax (st_pet (un_state 0 0 1 1 None (Some (Fin 0)))) (Fin 0)) with (Fin 0)
    by (cbn; unfold Rltb; destruct (Rlt_dec _ _); reflexivity).
  change mm_to_cm with (Fin (1 / 10)).
  replace (Fin 0 * Fin (1 / 10))%d with (Fin 0) by (cbn; f_equal; ring).
  replace (Fin (201 / 10) * Fin (1 / 10))%d with (Fin (201 / 100)) by (cbn; f_equal; lra).
  replace (Fin (201 / 100) * Fin 1)%d with (Fin (201 / 100)) by (cbn; f_equal; lra).
  replace (Fin (201 / 100) + Fin 1)%d with (Fin (301 / 100)) by (cbn; f_equal; lra).
  rewrite ex_clean by lra.
  match goal with |- context [lgar_calc_mass_bal ?a ?b] => change (lgar_calc_mass_bal a b) with (lgar_calc_mass_bal [Fin 0; Fin 100] [un_front]) end.
  rewrite un_mass. cbn [bind].
  change (st_head (un_state ?a ?b ?c ?g ?h ?i)) with [un_front]. change (listCopy [un_front]) with [un_front].
  rewrite un_hydro. cbn [bind b_head b_prev b_runoff b_aet b_on b_rech b_volin].
  match goal with |- context [lgar_calc_mass_bal ?a ?b] => change (lgar_calc_mass_bal a b) with (lgar_calc_mass_bal [Fin 0; Fin 100] [un_front]) end.
  rewrite un_mass. cbn [bind].
  match goal with |- context [local_balance ?a ?b ?c ?dd ?e ?g ?h ?i] => replace (local_balance a b c dd e g h i) with (Fin 0) end.
  2: { cbn. f_equal. lra. }
  replace (dabs (Fin 0) >? lit (1 / 10000))%d with false by (symmetry; cbn; rewrite Rabs_R0; apply Rltb_false; lra).
  cbn [lget nth_error bind]. unfold dgtb. change (f_depth un_front) with (Fin 100). rewrite ltb_t by lra. cbn [cassert bind].
  replace (Fin 0 * Fin 1)%d with (Fin 0) by (cbn; f_equal; ring).
  replace (dfmax (Fin 0) (Fin 0)) with (Fin 0) by (cbn; unfold Rltb; destruct (Rlt_dec _ _); reflexivity).
  cbn [dadd a_precip a_pet a_aet a_in a_runoff a_rech rnd exact]. rewrite !Rplus_0_r.
  reflexivity.
Qed.

Lemma un_steps : update_steps un_start = Ok (un_start, Fin 1, 1%Z).
Proof.
  unfold update_steps. change (p_adaptive (st_p un_start)) with false. cbv iota zeta.
  match goal with |- context [d2i ?x] => change x with (Fin 1 / Fin 1 + lit (1 / 100000000))%d end.
  replace (d2i (Fin 1 / Fin 1 + lit (1 / 100000000))%d) with (Ok 1%Z); [reflexivity|].
  rewrite div_fin by lra. change (lit (1 / 100000000)) with (Fin (1 / 100000000)). cbn [dadd rnd exact d2i].
  replace (trunc (1 / 1 + 1 / 100000000)) with 1%Z; [reflexivity|]. symmetry. apply trunc_nat; [lia|]. lra.
Qed.

Lemma un_update : exists s', Update un_start = Ok s' /\ p_pmax (st_p s') = Fin 2 /\ mb_on_ts (st_mb s') = Fin (301 / 100).
Proof.
  unfold Update. change (p_invalid (st_p un_start)) with false. cbv iota.
  change (update_prologue un_start) with (Ok (un_start, Fin 0)). cbn [bind].
  change (lgar_calc_mass_bal (p_cum (st_p un_start)) (st_head un_start)) with (lgar_calc_mass_bal [Fin 0; Fin 100] [un_front]).
  rewrite un_mass. cbn [bind].
  change (st_precip un_start) with (Fin (201 / 10)). change (st_pet un_start) with (Fin 0). unfold dgeb. rewrite !leb_t by lra. cbn [cassert bind].
  rewrite un_steps. cbn [bind]. change (Z.to_nat 1) with 1%nat. cbn [subcycle_loop].
  match goal with |- context [substep ?u ?s ?a] => change (substep u s a) with (substep un_upar (un_state 0 0 1 1 None (Some (Fin 0))) (acc0 (Fin 34) (Fin 1))) end.
  rewrite un_substep. cbn [bind].
  match goal with |- context [if ?c then Ok ?x else Ok ?x] => replace (if c then Ok x else Ok x) with (Ok x) by (destruct c; reflexivity) end.
  cbn [bind]. unfold finish_update.
  match goal with |- context [giuh_convolution_integral ?a ?b ?c ?dd] => replace (giuh_convolution_integral a b c dd) with (@Ok (dbl * list dbl) (Fin 0, [Fin 0; Fin 0])) end.
  2: { symmetry. reval. feq. }
  cbn [bind].
  match goal with |- context [mb_local ?x] => change (mb_local x) with (Some (Fin 0)) end. cbv iota zeta.
  eexists. split; [reflexivity|]. split; reflexivity.
Qed.
End Run.
