(** Worked example for the velocities: rain of 20 mm/h on the unsaturated column of which 15 mm fit into the new front and 5 mm stay on the surface. *)

From Coq Require Import Reals Lra ZArith List Bool Lia.
From Verif Require Import Outcome Dbl Exact Types ListOps Soil Fronts Infil Move State Update Lib Spec_Common Spec_Soil Pf_Dbl Pf_Pow Pf_Soil Pf_Single Ex_Saturated Ex_Unsaturated Ex_Soil Ex_Growth Ex_NewFront.
Import ListNotations.
Open Scope R_scope.

Definition sp_start (pm : R) : state :=
  mkState [un_front] [un_front] [None; Some ex_soil] (ex_params 1 1 pm 7200 0 0 0 1 1 [Fin (17 / 50)] [Fin 1]) gw_mb (Fin 20) (Fin 0) ex_cal None 1 [Fin 1] [Fin 0; Fin 0].

Section Run.
Local Existing Instance exact.
Context {cfg : Cfg}.

Definition sp_new (psi k v : R) : front := mkF (Fin 25) (Fin (2 / 5)) (Fin psi) (Fin k) 1 1 false (Fin v).
Definition sp_old : front := mkF (Fin 100) (Fin (17 / 50)) (Fin 75) (Fin (1 / 10)) 1 2 true (Fin 0).

Lemma sp_create : exists psi k, 0 <= k <= 1 /\ lgar_create_surficial_front ex_env (Fin 2) (Fin 25) (Fin (17 / 50)) [un_front] = Ok ([sp_new psi k 0; sp_old], Fin (1 / 2), Fin (3 / 2)).
Proof.
  assert (SE : Se_of_theta ex_soil (Fin (2 / 5)) = Fin 1). { unfold Se_of_theta, calc_Se_from_theta. change (s_theta_r ex_soil) with (Fin (1 / 10)). change (s_theta_e ex_soil) with (Fin (2 / 5)). cbn [dsub]. change (Fin (2 / 5) - Fin (1 / 10))%d with (Fin (2 / 5 - 1 / 10)). rewrite div_fin by lra. f_equal. lra. }
  assert (KE : K_of_Se ex_soil (Fin 1) (Fin (1 * 1)) = Fin (vg_K (1 * 1) (1 / 2) 1)) by (apply K_of_Se_is; lra).
  pose proof (vg_K_range (1 * 1) (1 / 2) 1 ltac:(lra) ltac:(lra) ltac:(lra)) as KR.
  assert (HE : exists psi, h_of_Se ex_soil (Fin 1) = Fin psi) by (eexists; apply (h_of_Se_is _ _ _ _ _ _ _ _ ex_vg); lra). destruct HE as [psi HE].
  exists psi, (vg_K (1 * 1) (1 / 2) 1 * 1). split; [lra|]. unfold lgar_create_surficial_front. change (soil_of ex_env 1) with (Ok ex_soil). cbn [bind]. change (s_theta_e ex_soil) with (Fin (2 / 5)).
  change (Fin 25 * (Fin (2 / 5) - Fin (17 / 50)))%d with (Fin (25 * (2 / 5 - 17 / 50))). assert (FT : (Fin (25 * (2 / 5 - 17 / 50)) >? Fin 2)%d = false) by (apply ltb_f; lra). rewrite !FT. change (aget (e_cum ex_env) 1) with (Ok (Fin 100)). cbn [bind].
  change (aget (e_frozen ex_env) 1) with (Ok (Fin 1)). cbn [bind]. rewrite SE, HE. change (s_Ksat ex_soil * Fin 1)%d with (Fin (1 * 1)). rewrite KE. cbn [listInsertFirst bump map].
  match goal with |- context [(f_depth ?a >? f_depth ?b)%d] => replace (f_depth a >? f_depth b)%d with false by (symmetry; apply ltb_f; lra) end. cbn [bind].
  change (Fin 2 - Fin (25 * (2 / 5 - 17 / 50)))%d with (Fin (2 - 25 * (2 / 5 - 17 / 50))). replace (2 - 25 * (2 / 5 - 17 / 50)) with (1 / 2) by lra. replace (25 * (2 / 5 - 17 / 50)) with (3 / 2) by lra. reflexivity.
Qed.
(** The velocity of the new front at the ponded depth [h]. *)
Definition sp_v (k h : R) : R := 50 / 3 * ((25 / 2 + h) / 25 + k).

Lemma sp_dzdt : forall psi k v h, 0 <= k <= 1 -> 0 <= h <= 2 -> lgar_dzdt_calc ex_env true 120 (Fin h) [sp_new psi k v; sp_old] = Ok [sp_new psi k (sp_v k h); sp_old].
Proof.
  intros psi k v h Hk Hh. unfold lgar_dzdt_calc. cbn [dzdt_loop]. change (f_K (sp_new psi k v)) with (Fin k). change (f_K sp_old) with (Fin (1 / 10)). rewrite !ltb_f by lra.
  change (f_layer (sp_new psi k v)) with 1%Z. change (f_layer sp_old) with 1%Z. change (soil_of ex_env 1) with (Ok ex_soil). change (aget (e_frozen ex_env) 1) with (Ok (Fin 1)). cbn [bind]. change (f_bottom (sp_new psi k v)) with false. cbv iota.
  assert (V : dzdt_front ex_env true 120 (Fin h) (sp_new psi k v) sp_old = Ok (Fin (sp_v k h))).
  { unfold dzdt_front. change (f_layer (sp_new psi k v)) with 1%Z. change (soil_of ex_env 1) with (Ok ex_soil). change (aget (e_frozen ex_env) 1) with (Ok (Fin 1)). cbn [bind]. change (1 >? 1)%Z with false. cbv iota. cbn [bind].
    change (f_theta sp_old) with (Fin (17 / 50)). change (f_theta (sp_new psi k v)) with (Fin (2 / 5)). unfold dgtb at 1. rewrite ltb_f by lra. rewrite nf_drive. cbn [bind]. change (1 =? 1)%Z with true. cbv iota. cbn [bind].
    change (Fin (2 / 5) - Fin (17 / 50))%d with (Fin (2 / 5 - 17 / 50)). assert (DT : (Fin (2 / 5 - 17 / 50) >? Fin 0)%d = true) by (apply ltb_t; lra). rewrite !DT. change (f_depth (sp_new psi k v)) with (Fin 25). change (f_K (sp_new psi k v)) with (Fin k). change (s_Ksat ex_soil * Fin 1)%d with (Fin (1 * 1)). change (lit 1) with (Fin 1).
    change (Fin (1 * 1) * (Fin (25 / 2) + Fin h))%d with (Fin (1 * 1 * (25 / 2 + h))). rewrite !div_fin by lra. cbn [dadd dmul rnd exact].
    replace (1 / (2 / 5 - 17 / 50) * (1 * 1 * (25 / 2 + h) / 25 + k)) with (sp_v k h) by (unfold sp_v; field). assert (0 < sp_v k h < 10000) by (unfold sp_v; lra).
    rewrite eqb_f by lra. cbn [andb]. change (lit 10000) with (Fin 10000). unfold dgtb. rewrite ltb_f by lra. reflexivity. }
  rewrite V. reflexivity.
Qed.

Lemma sp_hydro : forall pm, 1 / 4 <= pm <= 2 -> exists psi k, 0 <= k <= 1 /\
  sub_hydro (ex_upar 1 pm) (Fin 0) (Fin 2) (Fin 0) (Fin 2) (Fin 0) (Fin 2) (Fin 34) [un_front] [un_front]
  = Ok (mkSub [sp_new psi k (sp_v k (if Rlt_dec (1 / 2) pm then 0 else pm)); sp_old] [sp_new psi k 0; sp_old] (Fin 0) (Fin (if Rlt_dec (1 / 2) pm then 0 else pm)) (Fin (3 / 2)) (Fin (if Rlt_dec (1 / 2) pm then 0 else 1 / 2 - pm)) (Fin (if Rlt_dec (1 / 2) pm then 1 / 2 else pm)) (Fin 0)).
Proof.
  intros pm Hp. destruct sp_create as (psi & k & Hk & EC). exists psi, k. split; [exact Hk|].
  unfold sub_hydro. cbn [u_env u_dt u_closed u_nint u_wilting u_fc u_pmax ex_upar]. unfold dgtb at 1. rewrite ltb_f by lra. cbn [bind].
  change (wetting_front_free_drainage [un_front]) with 1%Z. unfold create_decision. cbn [lget nth_error bind]. change (soil_of ex_env (f_layer un_front)) with (Ok ex_soil). cbn [bind].
  change (f_theta un_front + lit (1 / 1000000000000))%d with (Fin (17 / 50 + 1 / 1000000000000)). change (s_theta_e ex_soil) with (Fin (2 / 5)).
  replace (Fin (17 / 50 + 1 / 1000000000000) >=? Fin (2 / 5))%d with false by (symmetry; unfold dgeb, dleb; apply Rleb_false; lra).
  replace (Fin 0 >? Fin 0)%d with false by (symmetry; apply ltb_f; lra). replace (Fin 2 >? Fin 0)%d with true by (symmetry; apply ltb_t; lra). rewrite eqb_t by reflexivity. cbn [orb andb bind].
  unfold sub_create. cbn [u_env u_dt u_closed u_nint]. rewrite un_move. cbn [bind].
  assert (Eq : (if Fin 0 <>? Fin 0 then Fin 0 else Fin 0)%d = Fin 0) by (destruct (_ <>? _)%d; reflexivity). rewrite Eq.
  rewrite (proj1 nf_concrete). cbn [bind lget nth_error]. change (u_env (ex_upar 1 pm)) with ex_env. change (f_theta un_front) with (Fin (17 / 50)). rewrite EC. cbn [bind b_ponded negb]. rewrite andb_false_r. cbn [bind].
  unfold sub_no_insert. cbn [b_ponded u_pmax b_head b_prev b_aet b_volin b_runoff b_on b_rech]. change (u_pmax (ex_upar 1 pm)) with (Fin pm). unfold dltb, Rltb. unfold listCopy.
  destruct (Rlt_dec (1 / 2) pm); cbn [b_ponded b_head b_prev b_aet b_volin b_runoff b_on b_rech]; rewrite sp_dzdt by lra; reflexivity.
Qed.
Lemma sp_substep : forall pm, 1 / 4 <= pm <= 2 -> exists psi k t a', 0 <= k <= 1 /\ substep (ex_upar 1 pm) (sp_start pm) (acc0 (Fin 34) (Fin 0)) = Ok (t, a') /\
  a_on a' = Fin (if Rlt_dec (1 / 2) pm then 1 / 2 else pm) /\ a_in a' = Fin (3 / 2) /\ st_head t = [sp_new psi k (sp_v k (if Rlt_dec (1 / 2) pm then 0 else pm)); sp_old].
Proof.
  intros pm Hp. destruct (sp_hydro pm Hp) as (psi & k & Hk & E). exists psi, k. unfold substep, acc0. cbn [a_on a_end]. change (u_dt (ex_upar 1 pm)) with (Fin 1).
  replace (dfmax (st_precip (sp_start pm)) (Fin 0)) with (Fin 20) by (change (st_precip (sp_start pm)) with (Fin 20); rewrite fmax_fin, Rmax_left by lra; reflexivity).
  replace (dfmax (st_pet (sp_start pm)) (Fin 0)) with (Fin 0) by (change (st_pet (sp_start pm)) with (Fin 0); rewrite fmax_fin, Rmax_left by lra; reflexivity).
  change mm_to_cm with (Fin (1 / 10)). replace (Fin 0 * Fin (1 / 10))%d with (Fin 0) by (cbn; f_equal; ring). replace (Fin 20 * Fin (1 / 10))%d with (Fin 2) by (cbn; f_equal; lra).
  replace (Fin 2 * Fin 1)%d with (Fin 2) by (cbn; f_equal; lra). replace (Fin 2 + Fin 0)%d with (Fin 2) by (cbn; f_equal; lra).
  match goal with |- context [p_cum ?q] => change (p_cum q) with [Fin 0; Fin 100]; change (p_precip_prev q) with (Fin 0) end.
  change (st_head (sp_start pm)) with [un_front]. rewrite un_mass. cbn [bind]. unfold listCopy.
  replace (clean_volon (Fin 0)) with (Fin 0). 2: { unfold clean_volon. rewrite fmax_fin, Rmax_left by lra. cbv zeta. change (lit (1 / 1000000000000)) with (Fin (1 / 1000000000000)). unfold dgtb. rewrite ltb_f by lra. reflexivity. }
  rewrite E. cbn [bind b_head b_prev b_aet b_rech b_runoff b_on b_volin].
  match goal with |- context [sp_v k ?x] => set (hh := x) end.
  assert (EM : lgar_calc_mass_bal [Fin 0; Fin 100] [sp_new psi k (sp_v k hh); sp_old] = Ok (Fin (71 / 2))) by (reval; feq). rewrite EM. cbn [bind].
  unfold local_balance. match goal with |- context [dabs ?x] => replace x with (Fin 0) by (destruct (Rlt_dec (1 / 2) pm); cbn; f_equal; lra) end.
  replace (dabs (Fin 0) >? lit (1 / 10000))%d with false by (symmetry; cbn; rewrite Rabs_R0; apply Rltb_false; lra).
  cbn [lget nth_error bind]. change (f_depth (sp_new psi k (sp_v k hh))) with (Fin 25). unfold dgtb. rewrite ltb_t by lra. cbn [cassert bind].
  eexists _, _. split; [exact Hk|]. split; [reflexivity|]. split; [reflexivity|]. split; [cbn; f_equal; lra|reflexivity].
Qed.
End Run.
