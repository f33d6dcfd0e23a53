(** Worked example: a negative wilting point turns the evapotranspiration into NaN; the water balance check does not notice. *)

From Coq Require Import Reals Lra ZArith List Bool Lia.
From RecordUpdate Require Import RecordSet.
From Verif Require Import Outcome Dbl Exact Types ListOps Soil Giuh Fronts Infil Move State Update Lib Spec_Common Spec_Update
  Pf_Dbl Pf_Pow Pf_Update Pf_Clock Ex_Saturated.
Import ListNotations.
Import RecordSetNotations.
Open Scope R_scope.

(** As ex_soil, with n = 3/2. *)
Definition na_soil : soil :=
  mkSoil (Fin (1 / 10)) (Fin (2 / 5)) (Fin (1 / 100)) (Fin (3 / 2)) (Fin (1 / 3)) (Fin 1) (Fin 10) (Fin 0) (Fin 1).
Definition na_env : env := mkEnv 1 [Fin 0; Fin 100] [None; Some 1%Z] [None; Some na_soil] [Fin 1; Fin 1].
Definition na_params (t : R) (k : Z) : params :=
  mkParams 1 [Fin 0; Fin 100] [Fin 0; Fin 100] [None; Some 1%Z] [Fin 1; Fin 1] 1 0 [] [] [Fin 1] [Fin (2 / 5)]
    (Fin 1) (Fin 1) (Fin 1) 1 (Fin (-100)) (Fin 341) true false (Fin 0) (Fin 0) 120 (Fin t) (Fin 7200) k false false false.
Definition na_state (head prev : list front) (t : R) (k : Z) (local : option dbl) : state :=
  mkState head prev [None; Some na_soil] (na_params t k) (ex_mb0 <| mb_local := local |>) (Fin 0) (Fin 2) ex_cal None 1 [Fin 1] [Fin 0; Fin 0].
(** A saturated column of 40 cm of water, no rain, PET of 2 mm/h for one hour. *)
Definition na_start : state := na_state [ex_front] [ex_front] 0 0 None.
Definition na_upar : upar := mkU na_env (Fin 1) 120 true (Fin (-100)) (Fin 341) (Fin 0).
(** The column afterwards: all water that is not residual is gone. *)
Definition na_front : front := mkF (Fin 100) (Fin (1 / 10)) PInf (Fin 1) 1 1 true (Fin 0).

Section Run.
Local Existing Instance exact.
Context {cfg : Cfg}.

Lemma mul_nan_r : forall a, dmul a NaN = NaN. Proof. intros [?| | |]; reflexivity. Qed.
Lemma div_nan_r : forall a, ddiv a NaN = NaN. Proof. intros [?| | |]; reflexivity. Qed.
Lemma sub_nan_r : forall a, dsub a NaN = NaN. Proof. intros [?| | |]; reflexivity. Qed.
Lemma add_nan_r : forall a, dadd a NaN = NaN. Proof. intros [?| | |]; reflexivity. Qed.

Lemma pow_nan : forall y, y <> 0 -> dpow NaN (Fin y) = NaN.
Proof. intros y H. unfold dpow. rewrite eqb_f by assumption. reflexivity. Qed.

Lemma not_int : as_int (3 / 2) = None.
Proof.
  unfold as_int. destruct (Req_EM_T (IZR (Int_part (3 / 2))) (3 / 2)) as [E|]; [|reflexivity]. exfalso.
  assert (H : IZR (2 * Int_part (3 / 2)) = IZR 3) by (rewrite mult_IZR; lra). apply eq_IZR in H. lia.
Qed.

Lemma na_wp : theta_of_h na_soil (Fin (-100)) = NaN.
Proof.
  unfold theta_of_h, calc_theta_from_h, na_soil. cbn [s_alpha s_n s_m s_theta_e s_theta_r].
  replace (Fin (1 / 100) * Fin (-100))%d with (Fin (-1)) by (cbn; f_equal; lra).
  replace (dpow (Fin (-1)) (Fin (3 / 2))) with NaN.
  2: { symmetry. unfold dpow. rewrite !eqb_f by lra. destruct (Rlt_dec 0 (-1)); [lra|]. destruct (Req_EM_T (-1) 0); [lra|].
       rewrite not_int. reflexivity. }
  rewrite add_nan_r, pow_nan by lra. rewrite div_nan_r. reflexivity.
Qed.

Lemma na_aet : forall pet dt, calc_aet na_env pet dt (Fin (-100)) (Fin 341) [ex_front] = Ok NaN.
Proof.
  intros pet dt. unfold calc_aet. cbn [lget nth_error bind]. change (soil_of na_env (f_layer ex_front)) with (Ok na_soil). cbn [bind].
  rewrite na_wp, sub_nan_r. cbn [dmul ddiv dadd]. try rewrite add_nan_r.
  assert (H : h_of_Se na_soil (Se_of_theta na_soil NaN) = NaN).
  { unfold h_of_Se, calc_h_from_Se, Se_of_theta, calc_Se_from_theta. cbn [dsub ddiv].
    change (s_m na_soil) with (Fin (1 / 3)). change (s_n na_soil) with (Fin (3 / 2)). change (lit (-1)) with (Fin (-1)). change (lit 1) with (Fin 1).
    rewrite !div_fin by lra. rewrite pow_nan by lra. cbn [dsub]. rewrite pow_nan by lra. rewrite mul_nan_r. reflexivity. }
  rewrite H, div_nan_r. change (lit 3) with (Fin 3). rewrite pow_nan by lra. rewrite add_nan_r, div_nan_r, mul_nan_r. change (NaN * dt)%d with NaN. cbn [dltb]. unfold dgtb. destruct (pet * dt)%d; reflexivity.
Qed.

Lemma na_psi : h_of_Se na_soil (Se_of_theta na_soil (Fin (1 / 10))) = PInf.
Proof.
  unfold h_of_Se, calc_h_from_Se, Se_of_theta, calc_Se_from_theta, na_soil. cbn [s_alpha s_n s_m s_theta_e s_theta_r].
  replace ((Fin (1 / 10) - Fin (1 / 10)) / (Fin (2 / 5) - Fin (1 / 10)))%d with (Fin 0)
    by (cbn; destruct (Req_EM_T _ 0); [lra|f_equal; field; lra]).
  change (lit 1) with (Fin 1). change (lit (-1)) with (Fin (-1)).
  rewrite !div_fin by lra. rewrite pow_zero_neg by lra. cbn [dsub].
  replace (dpow PInf (Fin (1 / (3 / 2)))) with PInf.
  - cbn. unfold inf_sign. destruct (Rlt_dec _ _); [reflexivity|lra].
  - unfold dpow. rewrite eqb_f by lra. cbn [deqb]. destruct (Rlt_dec _ _); [reflexivity|lra].
Qed.

Lemma na_move : (0 < fuel)%nat -> 
  lgar_move_wetting_fronts na_env (Fin 1) (Fin 0) 1 (Fin 40) NaN [ex_front] [ex_front] = Ok ([na_front], NaN, Fin 0).
Proof.
  intro Hfuel. unfold lgar_move_wetting_fronts. cbn [e_cum e_nlayers na_env aget Z.ltb Z.compare nth_error Z.to_nat Pos.to_nat Pos.iter_op Init.Nat.add bind].
  change (listLength [ex_front]) with 1%Z. cbn [length move_loop].
  assert (M : move_one na_env (Fin 1) (Fin 0) 1 [ex_front] 1 (Z.of_nat 1) [ex_front] NaN = Ok ([na_front], NaN)).
  { unfold move_one. cbn [Z.of_nat Pos.of_succ_nat]. unfold findFront, findFrontOld.
    cbn [pos_of f_num ex_front Z.eqb Pos.eqb Z.add Pos.add Pos.succ Z.ltb Z.compare Pos.compare Pos.compare_cont orb andb lget nth_error bind f_layer].
    change (soil_of na_env 1) with (Ok na_soil). cbn [bind negb andb Z.eqb Pos.eqb e_nlayers na_env].
    cbn [pget lget nth_error bind]. change (aget (e_cum na_env) (1 - 1)) with (Ok (Fin 0)). cbn [bind].
    unfold balance_theta.
    change (masses_above na_env 1 ?a ?b None ?st) with (Ok st).
    change (repeat (@None dbl) (Z.to_nat (1 + 1))) with [@None dbl; None].
    cbn [bind].
    change (aset [@None dbl; None] 1 ?x) with (Ok [@None dbl; x]). cbn [bind].
    replace (water_added 1 1 (Fin 0) NaN) with NaN by reflexivity. try rewrite add_nan_r.
    unfold lgar_theta_mass_balance. rewrite sub_nan_r. cbn [dabs dleb].
    destruct fuel as [|k]; [lia|]. cbn [tmb_loop t_delta dgtb dltb bind t_theta t_psi t_sat].
    replace (tmb_tol <? NaN)%d with false by (symmetry; unfold tmb_tol; reflexivity).
    cbn [bind t_theta t_delta t_psi t_sat]. replace (NaN >? tmb_tol)%d with false by reflexivity. cbn [andb].
    change (s_theta_e na_soil) with (Fin (2 / 5)). cbn [bind t_theta t_delta t_psi t_sat]. unfold dgeb. rewrite leb_f by lra. cbn [andb bind].
    replace (clamp_theta na_soil (Fin 0)) with (Fin (1 / 10)).
    2: { symmetry. unfold clamp_theta. cbn. unfold Rltb. destruct (Rlt_dec _ _); [|lra]. cbn. unfold Rltb. destruct (Rlt_dec _ _); [lra|reflexivity]. }
    rewrite na_psi. cbn. f_equal. f_equal. unfold na_front. f_equal. unfold set_psi, set_theta, set_depth. cbn. f_equal. f_equal. ring. }
  rewrite M. cbn [bind].
  assert (C : closure na_env (Fin 40) (Fin 0) [na_front] NaN = Ok ([na_front], NaN, Fin 0)).
  { unfold closure. change (lgar_wetting_fronts_cross_layer_boundary na_env [na_front]) with (Ok [na_front]). cbn [bind].
    change (wetting_front_free_drainage [na_front]) with 1%Z.
    change (soil_of na_env 1) with (Ok na_soil). cbn [bind]. unfold dgtb. rewrite (ltb_t 0 40) by lra. cbn [cassert bind].
    change (findFront 1 [na_front]) with (Some 0%nat). cbn [lget nth_error bind f_theta na_front s_theta_e na_soil e_cum na_env].
    match goal with |- context [if ?c then _ else Ok ([na_front], NaN, Fin 0)] => replace c with false end; [reflexivity|].
    symmetry. cbn. apply Rltb_false. unfold Rabs. destruct (Rcase_abs _); lra. }
  rewrite C. cbn [bind].
  change (merge_phases na_env [na_front]) with (Ok ([na_front], Fin 0, Fin 0)). cbn [bind].
  change (refresh_psi na_env [na_front]) with (Ok [na_front]). cbn [bind].
  unfold fix_single. change (aget (e_cum na_env) 1) with (Ok (Fin 100)). cbn [bind].
  assert (X : (f_depth na_front <>? Fin 100)%d = false) by (change (negb (deqb (Fin 100) (Fin 100)) = false); rewrite eqb_t; reflexivity).
  rewrite X.
  assert (Y : (dabs (Fin 0) >? lit (1 / 10000000))%d = false).
  { cbn. rewrite Rabs_R0. apply Rltb_false. lra. }
  rewrite Y. replace (Fin 0 + Fin 0)%d with (Fin 0) by (cbn; f_equal; ring). reflexivity.
Qed.

Lemma na_mass : lgar_calc_mass_bal [Fin 0; Fin 100] [na_front] = Ok (Fin 10).
Proof. cbn. f_equal. f_equal. lra. Qed.

Lemma na_hydro : (0 < fuel)%nat -> forall pp pr von,
  sub_hydro na_upar pp pr (Fin (2 / 10)) (Fin 0) von (Fin 0) (Fin 40) [ex_front] [ex_front]
  = Ok (mkSub [na_front] [ex_front] NaN (Fin 0) (Fin 0) (Fin 0) (Fin 0) (Fin 0)).
Proof.
  intros Hf pp pr von. unfold sub_hydro, na_upar. cbn [u_env u_dt u_closed u_nint u_wilting u_fc u_pmax].
  unfold dgtb at 1. rewrite ltb_t by lra. rewrite na_aet. cbn [bind]. change (wetting_front_free_drainage [ex_front]) with 1%Z.
  unfold create_decision. cbn [lget nth_error bind]. change (soil_of na_env (f_layer ex_front)) with (Ok na_soil). cbn [bind].
  change (f_theta ex_front) with (Fin (2 / 5)). change (s_theta_e na_soil) with (Fin (2 / 5)).
  replace (Fin (2 / 5) + lit (1 / 1000000000000) >=? Fin (2 / 5))%d with true by (symmetry; cbn; apply Rleb_true; lra).
  cbn [orb bind b_ponded]. unfold dgtb at 1. rewrite ltb_f by lra. cbn [andb].
  unfold sub_no_insert. cbn [b_ponded u_pmax b_head b_prev b_aet b_volin b_rech bind]. rewrite ltb_f by lra.
  unfold sub_move. cbn [u_env u_dt b_volin b_aet b_head b_prev b_ponded b_runoff b_on b_rech bind]. rewrite na_move by assumption.
  cbn [bind b_ponded b_head b_prev b_volin b_runoff b_on b_aet b_rech].
  assert (Z : lgar_dzdt_calc na_env true 120 (Fin 0) [na_front] = Ok [na_front]).
  { unfold lgar_dzdt_calc, dzdt_loop. cbn [f_K na_front]. rewrite ltb_f by lra. reflexivity. }
  rewrite Z. cbn [bind]. replace (Fin 0 - Fin 0)%d with (Fin 0) by (cbn; f_equal; ring). reflexivity.
Qed.

Lemma na_substep : (0 < fuel)%nat ->
  substep na_upar na_start (acc0 (Fin 40) (Fin 0))
  = Ok (na_state [na_front] [ex_front] (0 + 1 * 3600) 1 (Some NaN),
        mkAcc (Fin (0 + 0)) (Fin (0 + 2 / 10)) NaN (Fin 10) (Fin (0 + 0)) (Fin 0) (Fin (0 + 0)) (Fin (0 + 0))).
Proof.
  intro Hf. unfold substep, acc0. cbn [u_dt na_upar a_on a_end].
  replace (dfmax (st_precip na_start) (Fin 0)) with (Fin 0)
    by (cbn; unfold Rltb; destruct (Rlt_dec _ _); reflexivity).
  replace (dfmax (st_pet na_start) (Fin 0)) with (Fin 2)
    by (cbn; unfold Rltb; destruct (Rlt_dec _ _); [lra|reflexivity]).
  change mm_to_cm with (Fin (1 / 10)).
  replace (Fin 0 * Fin (1 / 10))%d with (Fin 0) by (cbn; f_equal; ring).
  replace (Fin 2 * Fin (1 / 10))%d with (Fin (2 / 10)) by (cbn; f_equal; lra).
  replace (Fin (2 / 10) * Fin 1)%d with (Fin (2 / 10)) by (cbn; f_equal; lra).
  replace (Fin 0 * Fin 1)%d with (Fin 0) by (cbn; f_equal; lra).
  replace (Fin 0 + Fin 0)%d with (Fin 0) by (cbn; f_equal; lra).
  rewrite ex_clean by lra.
  match goal with |- context [lgar_calc_mass_bal ?a ?b] => change (lgar_calc_mass_bal a b) with (lgar_calc_mass_bal [Fin 0; Fin 100] [ex_front]) end.
  rewrite ex_mass. cbn [bind].
  change (st_head na_start) with [ex_front]. change (listCopy [ex_front]) with [ex_front].
  rewrite na_hydro by assumption. cbn [bind b_head b_prev b_runoff b_aet b_on b_rech b_volin].
  match goal with |- context [lgar_calc_mass_bal ?a ?b] => change (lgar_calc_mass_bal a b) with (lgar_calc_mass_bal [Fin 0; Fin 100] [na_front]) end.
  rewrite na_mass. cbn [bind].
  match goal with |- context [local_balance ?a ?b ?c ?dd ?e ?g ?h ?i] => replace (local_balance a b c dd e g h i) with NaN end.
  2: { unfold local_balance. rewrite sub_nan_r. reflexivity. }
  cbn [dabs]. replace (NaN >? lit (1 / 10000))%d with false by reflexivity.
  cbn [lget nth_error bind]. unfold dgtb. change (f_depth na_front) with (Fin 100). rewrite ltb_t by lra. cbn [cassert bind].
  replace (dfmax (Fin (2 / 10)) (Fin 0)) with (Fin (2 / 10)) by (cbn; unfold Rltb; destruct (Rlt_dec _ _); [lra|reflexivity]).
  cbn [dadd a_precip a_pet a_aet a_in a_runoff a_rech rnd exact]. reflexivity.
Qed.

Lemma na_steps : update_steps na_start = Ok (na_start, Fin 1, 1%Z).
Proof.
  unfold update_steps. change (p_adaptive (st_p na_start)) with false. cbv iota zeta.
  match goal with |- context [d2i ?x] => change x with (Fin 1 / Fin 1 + lit (1 / 100000000))%d end.
  replace (d2i (Fin 1 / Fin 1 + lit (1 / 100000000))%d) with (Ok 1%Z); [reflexivity|].
  rewrite div_fin by lra. change (lit (1 / 100000000)) with (Fin (1 / 100000000)). cbn [dadd rnd exact d2i].
  replace (trunc (1 / 1 + 1 / 100000000)) with 1%Z; [reflexivity|]. symmetry. apply trunc_nat; [lia|]. lra.
Qed.

(** Update returns, the reported residual is NaN, and 30 of the 40 cm of water have vanished. *)
Lemma na_update : (0 < fuel)%nat -> exists s' o, Update na_start = Ok s' /\ st_out s' = Some o /\ o_mb o = NaN /\
  mb_start (st_mb s') = Fin 40 /\ mb_end (st_mb s') = Fin 10 /\ st_head s' = [na_front].
Proof.
  intro Hf. unfold Update. change (p_invalid (st_p na_start)) with false. cbv iota.
  change (update_prologue na_start) with (Ok (na_start, Fin 0)). cbn [bind].
  change (lgar_calc_mass_bal (p_cum (st_p na_start)) (st_head na_start)) with (lgar_calc_mass_bal [Fin 0; Fin 100] [ex_front]).
  rewrite ex_mass. cbn [bind].
  change (st_precip na_start) with (Fin 0). change (st_pet na_start) with (Fin 2). unfold dgeb. rewrite !leb_t by lra. cbn [cassert bind].
  rewrite na_steps. cbn [bind]. change (Z.to_nat 1) with 1%nat. cbn [subcycle_loop].
  match goal with |- context [substep ?u ?s ?a] => change (substep u s a) with (substep na_upar na_start (acc0 (Fin 40) (Fin 0))) end.
  rewrite na_substep by assumption. cbn [bind].
  match goal with |- context [if ?c then Ok ?x else Ok ?x] => replace (if c then Ok x else Ok x) with (Ok x) by (destruct c; reflexivity) end.
  cbn [bind]. unfold finish_update.
  match goal with |- context [giuh_convolution_integral ?a ?b ?c ?dd] => replace (giuh_convolution_integral a b c dd) with (@Ok (dbl * list dbl) (Fin 0, [Fin 0; Fin 0])) end.
  2: { symmetry. reval. feq. }
  cbn [bind].
  match goal with |- context [mb_local ?x] => change (mb_local x) with (Some NaN) end. cbv iota zeta.
  eexists. eexists. split; [reflexivity|]. split; [reflexivity|]. split; [reflexivity|]. split; [reflexivity|]. split; reflexivity.
Qed.
End Run.
