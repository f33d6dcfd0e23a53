(** A concrete run of the standalone program: configuration and forcing file, the state after Initialize, and one step with rain on a saturated column. *)

From Coq Require Import String Ascii Reals Lra ZArith List Bool Lia.
From RecordUpdate Require Import RecordSet.
From Verif Require Import Outcome Dbl Exact Types ListOps Soil Giuh Fronts Infil Move State Update Lib Spec_Common Spec_Update Pf_Dbl Pf_Pow Pf_Update Pf_Clock
  Bmi Config Driver Spec_Bmi Spec_Config Spec_Driver Spec_Run Pf_Config Pf_Forcing Pf_DriverRun Ex_Config.
Import ListNotations.
Import RecordSetNotations.
Open Scope R_scope.

(** Soil: theta_r = 1/10, theta_e = 2/5, alpha = 1/100, n = 2, m = 1/2, Ksat = 1.  Layer of 100 cm. *)
Definition dr_soil : soil :=
  mkSoil (Fin (1 / 10)) (Fin (2 / 5)) (Fin (1 / 100)) (Fin 2) (Fin (1 / 2)) (Fin 1) (Fin (4765 / 147)) (Fin (23825 / 588)) (Fin 1).
Definition dr_front : front := mkF (Fin 100) (Fin (2 / 5)) (Fin 0) (Fin 1) 1 1 true (Fin 0).
Definition dr_env : env := mkEnv 1 [Fin 0; Fin 100] [None; Some 1%Z] [None; Some dr_soil] [Fin 1; Fin 1].

(** Parameters of the run: time step [d], forcing resolution [f], maximum ponded depth [pm], end time [te]; clock at [t], [k] steps done, rain [pp] before. *)
Definition dr_params (d f pm te t : R) (k : Z) (pp : R) (fi nf : Z) (th dp : list dbl) : params :=
  mkParams 1 [Fin 0; Fin 100] [Fin 0; Fin 100] [None; Some 1%Z] [Fin 1; Fin 1] nf 1 [Fin 0] [Fin 0] dp th
    (Fin d) (Fin f) (Fin d) fi (Fin 15495) (Fin 341) true false (Fin pm) (Fin pp) 120 (Fin t) (Fin te) k false false false.
Definition dr_cal : calib := mkCal [Fin (2 / 5)] [Fin (1 / 10)] [Fin 2] [Fin (1 / 100)] [Fin 1] (Fin 341) (Fin (3 / 2)).

(** State with rain [r] mm/h and ledger [mb]; unit hydrograph with the single ordinate 1. *)
Definition dr_state (p : params) (mb : massbal) (r : R) (out : option bout) (prev : list front) (q : R) : state :=
  mkState [dr_front] prev [None; Some dr_soil] p mb (Fin r) (Fin 0) dr_cal out 1 [Fin 1] [Fin q; Fin 0].

Section Run.
Local Existing Instance exact.
Context {cfg : Cfg}.

Lemma dr_theta : theta_of_h dr_soil (Fin 0) = Fin (2 / 5).
Proof.
  unfold theta_of_h, calc_theta_from_h, dr_soil. cbn [s_alpha s_n s_m s_theta_e s_theta_r].
  replace (Fin (1 / 100) * Fin 0)%d with (Fin 0) by (cbn; f_equal; ring).
  rewrite pow_zero by lra. rewrite !exact_lit.
  replace (Fin 1 + Fin 0)%d with (Fin 1) by (cbn; f_equal; ring).
  rewrite pow_one. rewrite div_fin by lra. cbn. f_equal. lra.
Qed.

Lemma dr_psi : h_of_Se dr_soil (Se_of_theta dr_soil (Fin (2 / 5))) = Fin 0.
Proof.
  unfold h_of_Se, calc_h_from_Se, Se_of_theta, calc_Se_from_theta, dr_soil. cbn [s_alpha s_n s_m s_theta_e s_theta_r].
  replace ((Fin (2 / 5) - Fin (1 / 10)) / (Fin (2 / 5) - Fin (1 / 10)))%d with (Fin 1)
    by (cbn; destruct (Req_EM_T _ 0); [lra|f_equal; field; lra]).
  rewrite !exact_lit, (div_fin (-1)), (div_fin 1 2), (div_fin 1 (1 / 100)) by lra.
  rewrite pow_one.
  replace (Fin 1 - Fin 1)%d with (Fin 0) by (cbn; f_equal; ring).
  rewrite pow_zero by lra. cbn. f_equal. ring.
Qed.

Lemma dr_mass : lgar_calc_mass_bal [Fin 0; Fin 100] [dr_front] = Ok (Fin 40).
Proof. cbn. f_equal. f_equal. lra. Qed.

Lemma dr_storage : max_storage dr_env = Ok (Fin 40).
Proof. reval. feq. Qed.

Lemma closure_loop_done : forall k e p target l mass err factor dn sw aug it,
  dgtb (dabs (err - closure_tol)) (lit (1 / 10000000000)) = false ->
  closure_loop k e p target l mass err factor dn sw aug it = Ok (l, err, false).
Proof. intros k e p target l mass err factor dn sw aug it H. destruct k; cbn [closure_loop]; rewrite H; reflexivity. Qed.

Lemma dr_clamp : clamp_theta dr_soil (Fin (2 / 5)) = Fin (2 / 5).
Proof. unfold clamp_theta. cbn. unfold Rltb. destruct (Rlt_dec _ _); [lra|]. cbn. unfold Rltb. destruct (Rlt_dec _ _); [|lra]. reflexivity. Qed.

Lemma dr_move : forall d, lgar_move_wetting_fronts dr_env (Fin d) (Fin 0) 1 (Fin 40) (Fin 0) [dr_front] [dr_front] = Ok ([dr_front], Fin 0, Fin 0).
Proof.
  intro d. unfold lgar_move_wetting_fronts. cbn [e_cum e_nlayers dr_env aget Z.ltb Z.compare nth_error Z.to_nat Pos.to_nat Pos.iter_op Init.Nat.add bind].
  change (listLength [dr_front]) with 1%Z. cbn [length move_loop].
  assert (M : move_one dr_env (Fin d) (Fin 0) 1 [dr_front] 1 (Z.of_nat 1) [dr_front] (Fin 0) = Ok ([dr_front], Fin 0)).
  { unfold move_one. cbn [Z.of_nat Pos.of_succ_nat]. unfold findFront, findFrontOld.
    cbn [pos_of f_num dr_front Z.eqb Pos.eqb Z.add Pos.add Pos.succ Z.ltb Z.compare Pos.compare Pos.compare_cont orb andb lget nth_error bind f_layer].
    change (soil_of dr_env 1) with (Ok dr_soil). cbn [bind negb andb Z.eqb Pos.eqb e_nlayers dr_env].
    cbn [pget lget nth_error bind]. change (aget (e_cum dr_env) (1 - 1)) with (Ok (Fin 0)). cbn [bind].
    unfold balance_theta.
    change (masses_above dr_env 1 ?a ?b None ?st) with (Ok st).
    change (repeat (@None dbl) (Z.to_nat (1 + 1))) with [@None dbl; None].
    cbn [bind]. 
    change (aset [@None dbl; None] 1 ?x) with (Ok [@None dbl; x]). cbn [bind].
    unfold lgar_theta_mass_balance.
        match goal with |- context [if ?c then Ok (theta_of_h dr_soil _, _) else _] => replace c with true end.
    2: { symmetry. cbn. apply Rleb_true. match goal with |- Rabs ?x <= _ => replace x with 0 by ring end. rewrite Rabs_R0. lra. }
    cbn [bind set_depth f_psi dr_front]. rewrite dr_theta, dr_clamp, dr_psi. cbn. f_equal. f_equal. unfold dr_front. f_equal.
    unfold set_psi, set_theta. cbn. f_equal. f_equal. ring. }
  rewrite M. cbn [bind].
  assert (C : closure dr_env (Fin 40) (Fin 0) [dr_front] (Fin 0) = Ok ([dr_front], Fin 0, Fin 0)).
  { unfold closure. change (lgar_wetting_fronts_cross_layer_boundary dr_env [dr_front]) with (Ok [dr_front]). cbn [bind].
    change (wetting_front_free_drainage [dr_front]) with 1%Z.
    change (soil_of dr_env 1) with (Ok dr_soil). cbn [bind]. unfold dgtb. rewrite (ltb_t 0 40) by lra. cbn [cassert bind].
    change (findFront 1 [dr_front]) with (Some 0%nat). cbn [lget nth_error bind f_theta dr_front s_theta_e dr_soil e_cum dr_env].
    match goal with |- context [if ?c then _ else Ok ([dr_front], Fin 0, Fin 0)] => replace c with true end.
    2: { symmetry. cbn. apply Rltb_true. match goal with |- Rabs ?x < _ => replace x with 0 by ring end. rewrite Rabs_R0. lra. }
    rewrite dr_mass. cbn [bind]. rewrite closure_loop_done; [reflexivity|].
    cbn. apply Rltb_false. match goal with |- Rabs (Rabs ?x - _) <= _ => replace x with 0 by ring end. rewrite Rabs_R0.
    unfold Rabs. destruct (Rcase_abs _); lra. }
  rewrite C. cbn [bind].
  change (merge_phases dr_env [dr_front]) with (Ok ([dr_front], Fin 0, Fin 0)). cbn [bind].
  change (refresh_psi dr_env [dr_front]) with (Ok [dr_front]). cbn [bind].
  unfold fix_single. change (aget (e_cum dr_env) 1) with (Ok (Fin 100)). cbn [bind].
  assert (X : (f_depth dr_front <>? Fin 100)%d = false). { change (negb (deqb (Fin 100) (Fin 100)) = false). rewrite eqb_t; reflexivity. }
  rewrite X. 
  assert (Y : (dabs (Fin 0) >? lit (1 / 10000000))%d = false).
  { cbn. rewrite Rabs_R0. apply Rltb_false. lra. }
  rewrite Y. replace (Fin 0 + Fin 0)%d with (Fin 0) by (cbn; f_equal; ring). reflexivity.
Qed.

(** The infiltration capacity of the saturated column is zero. *)
Lemma dr_capacity : forall d w r, 0 < d ->
  infiltration_capacity dr_env true 120 (Fin d) (Fin 0) (Fin w) (Fin r) 1 [dr_front] = Ok (Fin 0).
Proof.
  intros d w r Hd. unfold infiltration_capacity. change (listLength [dr_front]) with 1%Z.
  change (pget [dr_front] (findFront 1 [dr_front])) with (Ok dr_front). cbn [bind f_layer dr_front].
  change (soil_of dr_env 1) with (Ok dr_soil). cbn [bind lget nth_error].
  change (aget (e_frozen dr_env) (f_layer (mkF (Fin 100) (Fin (2 / 5)) (Fin 0) (Fin 1) 1 1 true (Fin 0)))) with (Ok (Fin 1)).
  cbn [bind e_nlayers dr_env Z.eqb Pos.eqb]. change (soil_of _ _) with (Ok dr_soil). cbn [bind].
  change (f_theta dr_front) with (Fin (2 / 5)). change (s_theta_e dr_soil) with (Fin (2 / 5)).
  rewrite (eqb_t (2 / 5) (2 / 5) eq_refl). cbn [andb].
  change (aget (e_frozen dr_env) (f_layer dr_front)) with (Ok (Fin 1)). cbn [bind].
  change (e_cum dr_env) with [Fin 0; Fin 100]. rewrite dr_mass. cbn [bind].
  rewrite dr_storage. cbn [bind].
  set (h := dfmax (Fin w - Fin r * Fin d)%d (Fin 0)).
  assert (H : exists x, h = Fin x /\ 0 <= x). { unfold h. cbn. unfold Rltb. destruct (Rlt_dec _ _); eexists; split; try reflexivity; lra. }
  destruct H as (x & -> & Hx). change (s_Ksat dr_soil) with (Fin 1). change (f_depth dr_front) with (Fin 100).
  change (lit 1) with (Fin 1).
  replace (Fin 0 + Fin x)%d with (Fin x) by (cbn; f_equal; ring). rewrite !(div_fin _ 100), !(div_fin _ d) by lra.
  replace ((Fin 40 - Fin 40) / Fin d)%d with (Fin 0) by (cbn; destruct (Req_EM_T _ _); [lra|f_equal; field; lra]).
  replace (0 / d) with 0 by (field; lra).
  match goal with |- context [dfmin ?a (Fin 0)] => replace (dfmin a (Fin 0)) with (Fin 0) end.
  - unfold dgtb. rewrite ltb_f by lra. reflexivity.
  - cbn. unfold Rltb. destruct (Rlt_dec _ _); [|reflexivity]. exfalso.
    assert (0 <= x / 100) by lra. lra.
Qed.

(** Water on the surface after a step with [w] on it, and runoff. *)
Definition dr_on (pm w : R) : R := Rmin w pm.
Definition dr_off (pm w : R) : R := w - Rmin w pm.

Lemma dr_partition : forall d w pm, 0 < d -> 0 < w -> 0 <= pm ->
  surface_partition (Fin d) (Fin w) (Fin 0) (Fin pm) (Fin 0) = (Fin (dr_off pm w), Fin (dr_on pm w), Fin 0).
Proof.
  intros d w pm Hd Hw Hp. unfold surface_partition, dr_off, dr_on.
  replace (Fin w - Fin 0 * Fin d - Fin 0 * Fin 0)%d with (Fin w) by (cbn; f_equal; ring).
  replace (dfmax (Fin w) (Fin 0)) with (Fin w) by (dcrush; reflexivity).
  rewrite div_fin by lra. replace (Fin 0 * Fin d + Fin (0 / d))%d with (Fin 0) by (cbn; f_equal; field; lra).
  replace (dfmin (Fin w) (Fin 0)) with (Fin 0) by (dcrush; reflexivity).
  unfold Rmin, dgtb. destruct (Rlt_dec 0 pm) as [P|P].
  - rewrite (ltb_t 0 pm) by assumption. destruct (Rle_dec w pm) as [L|L].
    + destruct (Rlt_dec w pm) as [L'|L'].
      * rewrite ltb_t by assumption. cbn. repeat f_equal; ring.
      * assert (w = pm) as -> by lra. rewrite ltb_f by lra. repeat f_equal; ring.
    + rewrite ltb_f by lra. rewrite ltb_t by lra. cbn. reflexivity.
  - assert (pm = 0) as -> by lra. rewrite (ltb_f 0 0), (ltb_f w 0) by lra. destruct (Rle_dec w 0); [lra|]. cbn. repeat f_equal; ring.
Qed.

Definition dr_upar (d pm : R) : upar := mkU dr_env (Fin d) 120 true (Fin 15495) (Fin 341) (Fin pm).

Lemma dr_hydro : forall d pm pp pr precip von w, 0 < d -> 0 <= pm -> 0 <= w ->
  sub_hydro (dr_upar d pm) pp (Fin pr) (Fin 0) precip von (Fin w) (Fin 40) [dr_front] [dr_front]
  = Ok (mkSub [dr_front] [dr_front] (Fin 0) (Fin (dr_on pm w)) (Fin 0) (Fin (dr_off pm w)) (Fin (dr_on pm w)) (Fin 0)).
Proof.
  intros d pm pp pr precip von w Hd Hp Hw. unfold sub_hydro, dr_upar. cbn [u_env u_dt u_closed u_nint u_wilting u_fc u_pmax].
  unfold dgtb at 1. rewrite ltb_f by lra. cbn [bind]. change (wetting_front_free_drainage [dr_front]) with 1%Z.
  unfold create_decision. cbn [lget nth_error bind]. change (soil_of dr_env (f_layer dr_front)) with (Ok dr_soil). cbn [bind f_theta dr_front s_theta_e dr_soil].
  replace (Fin (2 / 5) + lit (1 / 1000000000000) >=? Fin (2 / 5))%d with true
    by (symmetry; cbn; apply Rleb_true; lra).
  cbn [orb bind b_ponded].
  assert (I : (if (Fin w >? Fin 0)%d && negb false
     then sub_insert (mkU dr_env (Fin d) 120 true (Fin 15495) (Fin 341) (Fin pm)) 1 (Fin pr) (mkSub [dr_front] [dr_front] (Fin 0) (Fin w) (Fin 0) (Fin 0) (Fin 0) (Fin 0))
     else Ok (sub_no_insert (mkU dr_env (Fin d) 120 true (Fin 15495) (Fin 341) (Fin pm)) (mkSub [dr_front] [dr_front] (Fin 0) (Fin w) (Fin 0) (Fin 0) (Fin 0) (Fin 0))))
     = Ok (mkSub [dr_front] [dr_front] (Fin 0) (Fin (dr_on pm w)) (Fin 0) (Fin (dr_off pm w)) (Fin (dr_on pm w)) (Fin 0))).
  { destruct (Rlt_dec 0 w) as [L|L].
    - unfold dgtb. rewrite ltb_t by assumption. cbn [negb andb].
      unfold sub_insert, lgar_insert_water. cbn [u_env u_dt u_closed u_nint u_pmax b_aet b_ponded b_volin b_head b_prev b_rech].
      rewrite dr_capacity by assumption. cbn [bind]. rewrite dr_partition by assumption. cbn [bind].
      rewrite ltb_f; [reflexivity|]. unfold dr_off, Rmin. destruct (Rle_dec w pm); lra.
    - assert (w = 0) as -> by lra. unfold dgtb. rewrite ltb_f by lra. cbn [andb]. unfold sub_no_insert, dr_on, dr_off. cbn [b_ponded u_pmax b_head b_prev b_aet b_volin b_rech].
      unfold Rmin. destruct (Rlt_dec 0 pm).
      + rewrite ltb_t by assumption. destruct (Rle_dec 0 pm); [|lra]. repeat f_equal; ring.
      + assert (pm = 0) as -> by lra. rewrite ltb_f by lra. destruct (Rle_dec 0 0); [|lra]. cbn. repeat f_equal; ring. }
  fold dr_front. rewrite I. cbn [bind]. unfold sub_move. cbn [u_env u_dt b_volin b_aet b_head b_prev]. rewrite dr_move. cbn [bind b_ponded b_head b_prev b_volin b_runoff b_on b_aet b_rech].
  assert (Z : lgar_dzdt_calc dr_env true 120 (Fin (dr_on pm w)) [dr_front] = Ok [dr_front]).
  { unfold lgar_dzdt_calc, dzdt_loop. cbn [f_K dr_front]. rewrite ltb_f by lra. reflexivity. }
  rewrite Z. reflexivity.
Qed.

Lemma dr_clean : forall w, w = 0 \/ 1 / 1000000000000 < w -> clean_volon (Fin w) = Fin w.
Proof.
  intros w H. unfold clean_volon. replace (dfmax (Fin w) (Fin 0)) with (Fin w) by (dcrush; try reflexivity; exfalso; lra).
  unfold dgtb. rewrite exact_lit. destruct H as [->|H]; [rewrite ltb_f by lra|rewrite ltb_t by assumption]; reflexivity.
Qed.

Lemma dr_substep : forall d f pm te t k pp fi nf th dp mb r out prev q w ap ape aa ai ar arc,
  0 < d -> 0 <= pm -> 0 <= r -> 0 <= w -> w = 0 \/ 1 / 1000000000000 < w ->
  substep (dr_upar d pm) (dr_state (dr_params d f pm te t k pp fi nf th dp) mb r out prev q)
    (mkAcc (Fin ap) (Fin ape) (Fin aa) (Fin 40) (Fin ai) (Fin w) (Fin ar) (Fin arc))
  = Ok (dr_state (dr_params d f pm te (t + d * 3600) (k + 1) (r * (1 / 10) * d) fi nf th dp) (mb <| mb_local := Some (Fin 0) |>) r out [dr_front] q,
        mkAcc (Fin (ap + r * (1 / 10) * d)) (Fin ape) (Fin aa) (Fin 40) (Fin ai)
              (Fin (dr_on pm (r * (1 / 10) * d + w))) (Fin (ar + dr_off pm (r * (1 / 10) * d + w))) (Fin arc)).
Proof.
  intros d f pm te t k pp fi nf th dp mb r out prev q w ap ape aa ai ar arc Hd Hp Hr Hw Hw'.
  unfold substep. cbn [u_dt dr_upar a_on a_end].
  replace (dfmax (st_precip (dr_state (dr_params d f pm te t k pp fi nf th dp) mb r out prev q)) (Fin 0)) with (Fin r)
    by (cbn; unfold Rltb; destruct (Rlt_dec _ _); [lra|reflexivity]).
  replace (dfmax (st_pet (dr_state (dr_params d f pm te t k pp fi nf th dp) mb r out prev q)) (Fin 0)) with (Fin 0)
    by (cbn; unfold Rltb; destruct (Rlt_dec _ _); reflexivity).
  change mm_to_cm with (Fin (1 / 10)).
  replace (Fin 0 * Fin (1 / 10))%d with (Fin 0) by (cbn; f_equal; ring).
  replace (Fin r * Fin (1 / 10) * Fin d)%d with (Fin (r * (1 / 10) * d)) by reflexivity.
  replace (Fin r * Fin (1 / 10))%d with (Fin (r * (1 / 10))) by reflexivity.
  replace (Fin (r * (1 / 10) * d) + Fin w)%d with (Fin (r * (1 / 10) * d + w)) by reflexivity.
  rewrite dr_clean by assumption.
  match goal with |- context [lgar_calc_mass_bal ?a ?b] => change (lgar_calc_mass_bal a b) with (lgar_calc_mass_bal [Fin 0; Fin 100] [dr_front]) end.
  rewrite dr_mass. cbn [bind].
  change (st_head (dr_state ?a ?b ?c ?g ?h ?i)) with [dr_front]. change (listCopy [dr_front]) with [dr_front].
  assert (W : 0 <= r * (1 / 10) * d) by (apply Rmult_le_pos; lra).
  fold (dr_upar d pm). rewrite dr_hydro by lra. cbn [bind b_head b_prev b_runoff b_aet b_on b_rech b_volin].
  match goal with |- context [lgar_calc_mass_bal ?a ?b] => change (lgar_calc_mass_bal a b) with (lgar_calc_mass_bal [Fin 0; Fin 100] [dr_front]) end.
  rewrite dr_mass. cbn [bind].
  match goal with |- context [local_balance ?a ?b ?c ?dd ?e ?g ?h ?i] => replace (local_balance a b c dd e g h i) with (Fin 0) end.
  2: { cbn. f_equal. unfold dr_off, dr_on. ring. }
  replace (dabs (Fin 0) >? lit (1 / 10000))%d with false by (symmetry; cbn; rewrite Rabs_R0; apply Rltb_false; lra).
  cbn [lget nth_error bind]. unfold dgtb. change (f_depth dr_front) with (Fin 100). rewrite ltb_t by lra. cbn [cassert bind].
  replace (Fin 0 * Fin d)%d with (Fin 0) by (cbn; f_equal; ring).
  replace (dfmax (Fin 0) (Fin 0)) with (Fin 0) by (cbn; unfold Rltb; destruct (Rlt_dec _ _); reflexivity).
  cbn [dadd a_precip a_pet a_aet a_in a_runoff a_rech rnd exact]. rewrite !Rplus_0_r.
  reflexivity.
Qed.

(** One Update of two half-hour sub-steps with 20 mm/h of rain, at most 1.5 cm of ponding: the first centimetre stays on
    the surface, of the second one half a centimetre runs off. *)
Definition dr_mb0 : massbal := mkMB (Fin 0) (Fin 40) (Fin 0) (Fin 0) (Fin 0) (Fin 0) (Fin 0) (Fin 0) (Fin 0) (Fin 0) (Fin 0) (Fin 0) (Fin 0) None.
Definition dr_start : state :=
  dr_state (dr_params (1 / 2) 1 (3 / 2) 3600 0 0 0 2 1 [Fin (2 / 5)] [Fin 1]) dr_mb0 20 None [] 0.
Definition dr_p1 : params := dr_params (1 / 2) 1 (3 / 2) 3600 3600 2 1 2 1 [Fin (2 / 5)] [Fin 1].
Definition dr_end : state :=
  dr_state dr_p1
    (mkMB (Fin (3 / 2)) (Fin 40) (Fin 40) (Fin 2) (Fin 0) (Fin (3 / 2)) (Fin (1 / 2)) (Fin 0) (Fin 0) (Fin 0) (Fin (1 / 2)) (Fin (1 / 2)) (Fin 0) (Some (Fin 0)))
    20 (Some (mkOut (Fin (2 / 100)) (Fin 0) (Fin (4 / 10)) (Fin 0) (Fin 0) (Fin (1 / 200)) (Fin (1 / 200)) (Fin (1 / 200)) (Fin 0) (Fin 0) (Fin 0))) [dr_front] 0.

Definition dr_mb1 : massbal := dr_mb0 <| mb_local := Some (Fin 0) |>.
Definition dr_xs : list step :=
  let st t k pp mb prev := dr_state (dr_params (1 / 2) 1 (3 / 2) 3600 t k pp 2 1 [Fin (2 / 5)] [Fin 1]) mb 20 None prev 0 in
  let ac p on off := mkAcc (Fin p) (Fin 0) (Fin 0) (Fin 40) (Fin 0) (Fin on) (Fin off) (Fin 0) in
  [mkStep (st 0 0%Z 0 dr_mb0 []) (ac 0 0 0) (st 1800 1%Z 1 dr_mb1 [dr_front]) (ac 1 1 0);
   mkStep (st 1800 1%Z 1 dr_mb1 [dr_front]) (ac 1 1 0) (st 3600 2%Z 1 dr_mb1 [dr_front]) (ac 2 (3 / 2) (1 / 2))].

Lemma dr_finish : 
  finish_update (dr_state (dr_params (1 / 2) 1 (3 / 2) 3600 3600 2 1 2 1 [Fin (2 / 5)] [Fin 1]) dr_mb1 20 None [dr_front] 0)
    (mkAcc (Fin 2) (Fin 0) (Fin 0) (Fin 40) (Fin 0) (Fin (3 / 2)) (Fin (1 / 2)) (Fin 0)) (Fin 0) = Ok dr_end.
Proof.
  unfold finish_update.
  replace (giuh_convolution_integral _ _ _ _) with (@Ok (dbl * list dbl) (Fin (1 / 2), [Fin 0; Fin 0])).
  2: { symmetry. reval. feq. }
  cbn [bind].
  match goal with |- context [mb_local ?x] => change (mb_local x) with (Some (Fin 0)) end. cbv iota zeta.
  reval. repeat match goal with
  | |- ?x = ?x => reflexivity
  | |- Fin _ = Fin _ => apply f_equal; lra
  | |- @eq R _ _ => fail 1
  | |- _ = _ => f_equal
  end.
Qed.

Lemma dr_runs : runs (dr_upar (1 / 2) (3 / 2)) 
  (dr_state (dr_params (1 / 2) 1 (3 / 2) 3600 0 0 0 2 1 [Fin (2 / 5)] [Fin 1]) dr_mb0 20 None [] 0) (acc0 (Fin 40) (Fin 0))
  dr_xs
  (dr_state (dr_params (1 / 2) 1 (3 / 2) 3600 3600 2 1 2 1 [Fin (2 / 5)] [Fin 1]) dr_mb1 20 None [dr_front] 0)
  (mkAcc (Fin 2) (Fin 0) (Fin 0) (Fin 40) (Fin 0) (Fin (3 / 2)) (Fin (1 / 2)) (Fin 0)).
Proof.
  unfold acc0, dr_xs.
  assert (O1 : dr_on (3 / 2) (20 * (1 / 10) * (1 / 2) + 0) = 1) by (unfold dr_on, Rmin; destruct (Rle_dec _ _); lra).
  assert (O2 : dr_off (3 / 2) (20 * (1 / 10) * (1 / 2) + 0) = 0) by (unfold dr_off, Rmin; destruct (Rle_dec _ _); lra).
  assert (O3 : dr_on (3 / 2) (20 * (1 / 10) * (1 / 2) + 1) = 3 / 2) by (unfold dr_on, Rmin; destruct (Rle_dec _ _); lra).
  assert (O4 : dr_off (3 / 2) (20 * (1 / 10) * (1 / 2) + 1) = 1 / 2) by (unfold dr_off, Rmin; destruct (Rle_dec _ _); lra).
  assert (T1 : 0 + 1 / 2 * 3600 = 1800) by lra. assert (T2 : 1800 + 1 / 2 * 3600 = 3600) by lra.
  assert (P1 : 0 + 20 * (1 / 10) * (1 / 2) = 1) by lra. assert (P2 : 1 + 20 * (1 / 10) * (1 / 2) = 2) by lra.
  assert (P3 : 20 * (1 / 10) * (1 / 2) = 1) by lra.
  eapply runs_cons; [|eapply runs_cons; [|apply runs_nil]].
  - rewrite dr_substep by lra. rewrite O1, O2, T1, P1, P3. rewrite Rplus_0_r. reflexivity.
  - rewrite dr_substep by lra. rewrite O3, O4, T2, P2, P3. rewrite Rplus_0_l. reflexivity.
Qed.

Lemma dr_count : d2i (Fin 1 / Fin (1 / 2) + lit (1 / 100000000))%d = Ok 2%Z.
Proof.
  rewrite div_fin by lra. change (lit (1 / 100000000)) with (Fin (1 / 100000000)). cbn [dadd lit rnd exact d2i].
  replace (trunc (1 / (1 / 2) + 1 / 100000000)) with 2%Z; [reflexivity|].
  symmetry. apply trunc_nat; [lia|]. lra.
Qed.

Lemma dr_steps : update_steps dr_start = Ok (dr_state (dr_params (1 / 2) 1 (3 / 2) 3600 0 0 0 2 1 [Fin (2 / 5)] [Fin 1]) dr_mb0 20 None [] 0, Fin (1 / 2), 2%Z).
Proof.
  unfold update_steps. change (p_adaptive (st_p dr_start)) with false. cbv iota zeta.
  match goal with |- context [d2i ?x] => change x with (Fin 1 / Fin (1 / 2) + lit (1 / 100000000))%d end.
  rewrite dr_count. reflexivity.
Qed.

Lemma dr_executed : executed dr_start (dr_upar (1 / 2) (3 / 2)) dr_xs dr_end.
Proof.
  assert (X : update_prologue dr_start = Ok (dr_start, Fin 0)) by reflexivity.
  assert (K : exists s1 vcal volend s2 n s3 a,
    update_prologue dr_start = Ok (s1, vcal) /\
    lgar_calc_mass_bal (p_cum (st_p s1)) (st_head s1) = Ok volend /\
    update_steps s1 = Ok (s2, u_dt (dr_upar (1 / 2) (3 / 2)), n) /\
    dr_upar (1 / 2) (3 / 2) = mkU (env_of s2) (u_dt (dr_upar (1 / 2) (3 / 2))) (p_nint (st_p s2)) (p_closed (st_p s2)) (p_wilting (st_p s2)) (p_fc (st_p s2)) (p_pmax (st_p s2)) /\
    runs (dr_upar (1 / 2) (3 / 2)) s2 (acc0 volend (mb_on_ts (st_mb s2))) dr_xs s3 a /\
    (length dr_xs = Z.to_nat n \/ (ngen = false /\ (0 < length dr_xs < Z.to_nat n)%nat /\ dgeb (p_time (st_p s3)) (p_endtime (st_p s3)) = true)) /\
    finish_update s3 a vcal = Ok dr_end).
  { exists dr_start, (Fin 0), (Fin 40). do 4 eexists. split; [exact X|]. split; [exact dr_mass|]. split; [exact dr_steps|].
    split; [reflexivity|]. split; [exact dr_runs|]. split; [left; reflexivity|]. exact dr_finish. }
  split; [|exact K].
  unfold Update. change (p_invalid (st_p dr_start)) with false. cbv iota. rewrite X. cbn [bind].
  change (lgar_calc_mass_bal (p_cum (st_p dr_start)) (st_head dr_start)) with (lgar_calc_mass_bal [Fin 0; Fin 100] [dr_front]).
  rewrite dr_mass. cbn [bind].
  change (st_precip dr_start) with (Fin 20). change (st_pet dr_start) with (Fin 0). unfold dgeb. rewrite !leb_t by lra. cbn [cassert bind].
  rewrite dr_steps. cbn [bind]. 
  match goal with |- context [subcycle_loop ?n ?u ?s ?a] =>
    assert (L : subcycle_loop n u s a = Ok (dr_state (dr_params (1 / 2) 1 (3 / 2) 3600 3600 2 1 2 1 [Fin (2 / 5)] [Fin 1]) dr_mb1 20 None [dr_front] 0,
      mkAcc (Fin 2) (Fin 0) (Fin 0) (Fin 40) (Fin 0) (Fin (3 / 2)) (Fin (1 / 2)) (Fin 0))) end.
  { pose proof dr_runs as R. unfold dr_xs in R. inversion R as [|? ? ? ? ? ? ? S1 R1]; subst. inversion R1 as [|? ? ? ? ? ? ? S2 R2]; subst.
    change (Z.to_nat 2) with 2%nat. cbn [subcycle_loop].
    match goal with |- context [substep ?u ?s ?a] => change (substep u s a) with
      (substep (dr_upar (1 / 2) (3 / 2)) (dr_state (dr_params (1 / 2) 1 (3 / 2) 3600 0 0 0 2 1 [Fin (2 / 5)] [Fin 1]) dr_mb0 20 None [] 0) (acc0 (Fin 40) (Fin 0))) end.
    rewrite S1. cbn [bind].
    match goal with |- context [(?a >=? ?b)%d] => replace (a >=? b)%d with false by (symmetry; cbn; apply Rleb_false; lra) end.
    cbn [andb].
    match goal with |- context [substep ?u ?s ?a] => change u with (dr_upar (1 / 2) (3 / 2)) end.
    rewrite S2. cbn [bind]. destruct (_ && _)%bool; reflexivity. }
  rewrite L. cbn [bind]. exact dr_finish.
Qed.

Lemma dr_update : Update dr_start = Ok dr_end.
Proof. exact (proj1 dr_executed). Qed.

(** ** Configuration *)
Open Scope string_scope.
Definition dr_lines : list string := [
  "verbosity=none";
  "forcing_file=./rain.csv";
  "soil_params_file=./soil.dat";
  "layer_thickness=100.0[cm]";
  "initial_psi=0.0[cm]";
  "timestep=1800[sec]";
  "endtime=3600[s]";
  "forcing_resolution=1.0[hr]";
  "ponded_depth_max=1.5[cm]";
  "use_closed_form_G=true";
  "layer_soil_type=1";
  "max_valid_soil_types=1";
  "wilting_point_psi=15495.0[cm]";
  "field_capacity_psi=341[cm]";
  "giuh_ordinates=1.0"].
Definition dr_row : row := full_row "loam" (Fin (1 / 10)) (Fin (2 / 5)) (Fin (1 / 100)) (Fin 2) (Fin 1).
Definition dr_files (f : string) : option (list row) := if String.eqb f "./soil.dat" then Some [dr_row] else None.
Definition dr_conf : conf :=
  mkConf (Some [Fin 100]) (Some [1%Z]) (Some [Fin 1]) None (Some (Fin 0)) (Some 1%Z) (Some "./soil.dat") (Some (Fin 15495)) (Some (Fin 341)) true false
    (Some (Fin (1 / 2))) (Some (Fin 3600)) (Some (Fin 1)) false (Some (Fin (3 / 2))) false.

Lemma dr_one : d2i (Fin 1) = Ok 1%Z.
Proof. unfold d2i. rewrite (trunc_nat 1 1) by (try lia; cbn; lra). reflexivity. Qed.
Lemma dr_config : config_lines conf0 dr_lines = Ok dr_conf.
Proof.
  cbv -[IZR powerRZ Rmult Rplus Rdiv Rinv Rminus Ropp Rltb Rleb Req_EM_T Rlt_dec Rle_dec ddiv trunc d2i dgtb dltb dleb deqb dgeb lit].
  change (lit 3600) with (Fin 3600). change (lit 1) with (Fin 1).
  replace (powerRZ 10 (-1)) with (1 / 10) by (change (powerRZ 10 (-1)) with (/ 10 ^ 1); field). replace (powerRZ 10 0) with 1 by reflexivity.
  rewrite (div_fin _ 3600), (div_fin _ 1) by lra.
  replace (1 * 1800 * 1 / 3600) with (1 / 2) by lra. replace (1 * 3600 * 1) with 3600 by lra. replace (1 * 10 * (1 / 10) / 1) with 1 by lra.
  replace (1 * 1 * 1) with 1 by lra. replace (1 * 15 * (1 / 10)) with (3 / 2) by lra. rewrite dr_one. unfold dgtb. rewrite (ltb_t 0 (1 / 2)), (ltb_t 0 3600), (ltb_t 0 1) by lra. rewrite ltb_f by lra.
  cbv beta iota. replace (1 * 1000 * (1 / 10)) with 100 by lra. replace (1 * 0 * (1 / 10)) with 0 by lra. replace (1 * 10 * (1 / 10)) with 1 by lra.
  replace (1 * 154950 * (1 / 10)) with 15495 by lra. replace (1 * 341 * 1) with 341 by lra. reflexivity.
Qed.

Lemma dr_K : K_of_Se dr_soil (Se_of_theta dr_soil (Fin (2 / 5))) (Fin 1) = Fin 1.
Proof.
  unfold K_of_Se, calc_K_from_Se, Se_of_theta, calc_Se_from_theta, dr_soil. cbn [s_alpha s_n s_m s_theta_e s_theta_r].
  replace ((Fin (2 / 5) - Fin (1 / 10)) / (Fin (2 / 5) - Fin (1 / 10)))%d with (Fin 1)
    by (cbn; destruct (Req_EM_T _ 0); [lra|f_equal; field; lra]).
  change (lit 1) with (Fin 1). rewrite (div_fin 1) by lra. rewrite pow_one.
  replace (Fin 1 - Fin 1)%d with (Fin 0) by (cbn; f_equal; ring).
  rewrite pow_zero by lra. replace (Fin 1 - Fin 0)%d with (Fin 1) by (cbn; f_equal; ring). rewrite pow_one.
  replace (dsqrt (Fin 1)) with (Fin 1); [cbn; f_equal; ring|]. cbn. destruct (Rlt_dec 1 0); [lra|]. rewrite sqrt_1. reflexivity.
Qed.

Definition dr_state0 : state := dr_start <| st_precip := Fin (-1) |> <| st_pet := Fin (-1) |>.

Lemma dr_derive : forall junk, exists w, derive (Fin 15495) junk (Fin (1 / 10)) (Fin (2 / 5)) (Fin (1 / 100)) (Fin 2) (Fin 1) "loam" = Ok (mkEntry "loam" dr_soil w).
Proof.
  intro junk. eexists. unfold derive. repeat match goal with |- context [lit ?x] => change (lit x) with (Fin x) end. rewrite (ltb_t 1 2) by lra. cbv zeta. rewrite (div_fin 1 2) by lra.
  replace (Fin 1 - Fin (1 / 2))%d with (Fin (1 / 2)) by (cbn; f_equal; lra). rewrite (div_fin 2 (1 / 2)) by lra.
  replace (Fin 1 + Fin (2 / (1 / 2)))%d with (Fin 5) by (cbn; f_equal; lra). replace (Fin 5 - Fin 3)%d with (Fin 2) by (cbn; f_equal; lra).
  rewrite (div_fin 2 2) by lra.
  match goal with |- context [cassert (Fin 0 <? ?x)%d] => replace x with (Fin (4765 / 147)) end.
  2: { match goal with |- _ = (?a / ?b)%d => let u := eval cbn in a in let v := eval cbn in b in change a with u; change b with v end. rewrite div_fin by lra. f_equal. field. }
  rewrite (ltb_t 0) by lra. cbn [cassert bind]. replace (2 / 2) with 1 by lra. rewrite (div_fin 3 1) by lra. unfold dr_soil.
  match goal with |- context [(?a / (Fin 1 + Fin (3 / 1)))%d] => let u := eval cbn in a in change a with u end.
  replace (Fin 1 + Fin (3 / 1))%d with (Fin 4) by (cbn; f_equal; lra). rewrite div_fin by lra.
  replace (4765 / 147 * (2 + 3 / 1) / 4) with (23825 / 588) by field. reflexivity.
Qed.

Lemma dr_init : forall junk, Initialize dr_files junk dr_lines = Ok dr_state0.
Proof.
  intro junk. unfold Initialize, InitFromConfigFile. rewrite dr_config. cbn [bind].
  unfold init_rest. cbn [cf_maxtypes cf_stype cf_file cf_wp cf_thick cf_psi cf_timestep cf_endtime cf_fc cf_fres cf_giuh cf_sft cf_soilz cf_pmax dr_conf need known bind].
  change (1 + 1 <? 0)%Z with false. cbn [bind]. destruct (dr_derive junk) as (w & W).
  assert (T : lgar_read_vG_param_file (dr_files "./soil.dat") 1 (Fin 15495) junk (repeat None (Z.to_nat (1 + 1))) = Ok [None; Some (mkEntry "loam" dr_soil w)]).
  { change (dr_files "./soil.dat") with (Some [dr_row]). unfold lgar_read_vG_param_file. cbn [read_rows]. unfold read_row.
    change (scan dr_row loc0) with (mkLoc (Some "loam") (map Some [Fin (1 / 10); Fin (2 / 5); Fin (1 / 100); Fin 2; Fin 1])).
    cbn [l_name l_vals map known bind]. change (String.length "loam") with 4%nat. cbn [Z.of_nat Pos.of_succ_nat Pos.succ]. cbv iota.
    change (30 <=? 4)%Z with false. change (25 <? 4)%Z with false. change (4 =? 25)%Z with false. cbv iota. 
    change (repeat (@None entry) (Z.to_nat (1 + 1))) with [@None entry; None]. change (aget [@None entry; None] 1) with (Ok (@None entry)). cbn [bind]. rewrite W. cbn [bind]. reflexivity. }
  rewrite T. cbn [bind length]. change (any_invalid 1 1 (None :: map Some [1%Z]) 1) with (Ok false). cbn [bind].
  assert (Rs : resample (Fin 1) [Fin 1] = Ok (1%Z, [None; Some (Fin 1)])).
  { unfold resample. change (lit 1) with (Fin 1). rewrite (div_fin 1 1) by lra. replace (1 / 1) with 1 by lra. rewrite dr_one. cbn [bind]. reval. feq. destruct (Req_EM_T 1 0); [lra|]. do 2 f_equal. lra. }
  rewrite Rs. cbn [bind]. rewrite dr_count. cbn [bind].
  assert (Cu : running (Fin 0) [Fin 100] = [Fin 100]) by (cbn; repeat f_equal; lra). rewrite Cu.
  assert (Hd : InitializeWettingFronts (Z.of_nat 1) (Fin 0) (None :: map Some [1%Z]) [Fin 0; Fin 100] (repeat (lit 1) 2) [None; Some (mkEntry "loam" dr_soil w)] = Ok [dr_front]).
  { unfold InitializeWettingFronts. change (Z.to_nat (Z.of_nat 1)) with 1%nat. cbn [zfor].
    change (uget (None :: map Some [1%Z]) 1) with (Ok 1%Z). cbn [bind]. change (uget [None; Some (mkEntry "loam" dr_soil w)] 1) with (Ok (mkEntry "loam" dr_soil w)). cbn [bind en_soil].
    change (aget [Fin 0; Fin 100] 1) with (Ok (Fin 100)). cbn [bind]. rewrite dr_theta.
    match goal with |- context [listInsertFront ?a ?b ?c ?d ?e ?g ?h ?i] => let v := eval cbv -[IZR Rdiv Rmult Rinv] in (listInsertFront a b c d e g h i) in change (listInsertFront a b c d e g h i) with v end.
    cbn [bind lget nth_error]. change (aget (repeat (lit 1) 2) 1) with (Ok (Fin 1)). cbn [bind f_theta].
    change (s_Ksat dr_soil) with (Fin 1). replace (Fin 1 * Fin 1)%d with (Fin 1) by (cbn; f_equal; ring). rewrite dr_K. reflexivity. }
  rewrite Hd. cbn [bind]. rewrite dr_mass. cbn [bind]. change (Z.of_nat 1 =? listLength [dr_front])%Z with true. cbn [cassert bind]. cbv zeta.
  cbn [sr_p sr_N sr_ord sr_tab sr_head sr_vol p_nlayers p_stype]. change (layer_values (Z.to_nat (Z.of_nat 1)) 1 (None :: map Some [1%Z]) [None; Some (mkEntry "loam" dr_soil w)] [dr_front]) with (Ok [(dr_front, dr_soil)]).
  cbn [bind]. change (zfor 0 (Z.to_nat 1) (fun i a => o <- uget [None; Some (Fin 1)] (i + 1) ;; Ok (a ++ [o])%list) []) with (Ok [Fin 1]). cbn [bind map fst snd].
  replace (f_depth dr_front * lit (1 / 100))%d with (Fin 1) by (cbn; f_equal; lra).
  reflexivity.
Qed.

(** ** Forcing and the run *)
Definition dr_rain : string := file_of ["Time,P(mm/h),PET(mm/h)"; "2016-10-01 00:00:00,20.0,0.0"; "2016-10-01 01:00:00,5,0.1"].
Definition dr_texts (f : string) : option string := if String.eqb f "./rain.csv" then Some dr_rain else None.
Definition dr_forcing : forcing := mkForcing ["2016-10-01 00:00:00"; "2016-10-01 01:00:00"] [Fin 20; Fin 5] [Fin 0; Fin (1 / 10)].
Lemma dr_read : ReadForcingData dr_texts dr_lines = Ok dr_forcing.
Proof.
  cbv -[IZR powerRZ Rmult Rplus Rdiv Rinv Rminus Ropp].
  replace (powerRZ 10 (-1)) with (1 / 10) by (change (powerRZ 10 (-1)) with (/ 10 ^ 1); field). replace (powerRZ 10 0) with 1 by reflexivity.
  repeat match goal with
  | |- ?x = ?x => reflexivity
  | |- Fin _ = Fin _ => apply f_equal; lra
  | |- @eq R _ _ => fail 1
  | |- _ = _ => f_equal
  end.
Qed.
Definition dr_out : outrow := mkRowOut "2016-10-01 00:00:00"
  (map D [Fin (2 / 100); Fin 0; Fin 0; Fin (1 / 200); Fin (1 / 200); Fin (4 / 10); Fin (1 / 200); Fin 0; Fin 0; Fin 0; Fin 0]) [dr_front].
Lemma dr_steps_count : d2i (Fin 3600 / (Fin 1 * lit 3600))%d = Ok 1%Z.
Proof.
  change (lit 3600) with (Fin 3600). replace (Fin 1 * Fin 3600)%d with (Fin 3600) by (cbn; f_equal; lra). rewrite div_fin by lra. replace (3600 / 3600) with 1 by lra. apply dr_one.
Qed.
Lemma dr_run : forall junk, simulate dr_files dr_texts junk dr_lines = Ok (mkResult [dr_out] (mkObj dr_end (repeat None 11)) (Fin 0)).
Proof.
  intro junk. unfold simulate. rewrite dr_init. cbn [bind]. cbv zeta. unfold GetEndTime, GetTimeStep. cbn [ob_s].
  change (p_endtime (st_p dr_state0)) with (Fin 3600). change (p_fres (st_p dr_state0)) with (Fin 1). rewrite dr_steps_count. cbn [bind]. rewrite dr_read. cbn [bind].
  change (1 <=? Z.of_nat (List.length (fo_pet dr_forcing)))%Z with true. cbn [cassert bind]. change (Z.to_nat 1) with 1%nat. cbn [drive]. unfold drive_step.
  change (aget (fo_precip dr_forcing) 0) with (Ok (Fin 20)). cbn [bind]. rewrite set_precip. cbn [bind]. change (aget (fo_pet dr_forcing) 0) with (Ok (Fin 0)). cbn [bind]. rewrite set_pet. cbn [bind].
  unfold bmi_Update. cbn [ob_s]. change (dr_state0 <| st_precip := Fin 20 |> <| st_pet := Fin 0 |>) with dr_start. rewrite dr_update. cbn [bind ob_pre ob_s].
  reval. repeat match goal with
  | |- ?x = ?x => reflexivity
  | |- Fin _ = Fin _ => apply f_equal; lra
  | |- @eq R _ _ => fail 1
  | |- _ = _ => f_equal
  end.
Qed.

(** The configuration is a good one. *)
Ltac a_natural := match goal with |- exists k, natural ?m k /\ _ => let k := eval vm_compute in (fold_left (fun a d => 10 * a + d)%nat (nu_int m) 0%nat) in exists k; split; [apply natural_check; chk|lia] end.
Ltac a_types n ns := apply (gl_types _ (num n) (map num ns)); [assigned|cbn [map]; repeat (apply Forall_cons; [a_natural|]); apply Forall_nil].
Lemma dr_basic : basic_config dr_files dr_lines [num "100.0"] [num "1"] [num "1.0"] (num "0.0") (1 / 2) 1 1 [dr_row].
Proof.
  constructor.
  - unfold dr_lines.
    apply Forall_cons; [a_comment|]. apply Forall_cons; [a_comment|]. apply Forall_cons; [a_file "./soil.dat"|].
    apply Forall_cons; [a_vector "layer_thickness" "100.0" (@nil string)|]. apply Forall_cons; [a_number "initial_psi" "0.0"|].
    apply Forall_cons; [a_time "timestep" "1800" "[sec]" 1%R|]. apply Forall_cons; [a_time "endtime" "3600" "[s]" 1%R|].
    apply Forall_cons; [a_time "forcing_resolution" "1.0" "[hr]" 3600%R|]. apply Forall_cons; [a_number "ponded_depth_max" "1.5"|].
    apply Forall_cons; [a_flag "use_closed_form_G" true|]. apply Forall_cons; [a_types "1" (@nil string)|].
    apply Forall_cons; [apply (gl_max _ (num "1") 1); [assigned|apply natural_check; chk|lia]|].
    apply Forall_cons; [a_number "wilting_point_psi" "15495.0"|]. apply Forall_cons; [a_number "field_capacity_psi" "341"|].
    apply Forall_cons; [a_vector "giuh_ordinates" "1.0" (@nil string)|]. apply Forall_nil.
  - apply required_check. chk.
  - exists "layer_thickness=100.0[cm]". split; [a_last 3%nat|]. split; [assigned|]. split; [discriminate|]. split; [goods|]. repeat (constructor; [values; lra|]). constructor.
  - exists "layer_soil_type=1". split; [a_last 10%nat|]. split; [assigned|]. split; [discriminate|]. goods.
  - exists "giuh_ordinates=1.0". split; [a_last 14%nat|]. split; [assigned|]. split; [discriminate|]. split; [goods|]. repeat (constructor; [values; lra|]). constructor.
  - exists "initial_psi=0.0[cm]". split; [a_last 4%nat|]. split; [assigned|]. split; [good|]. values. lra.
  - exists "soil_params_file=./soil.dat", "./soil.dat". split; [a_last 2%nat|]. split; [assigned|]. split; [cbn; repeat split; discriminate|]. split; [reflexivity|].
    constructor; [|constructor]. exists "loam", (1 / 10), (2 / 5), (1 / 100), 2, 1. split; [reflexivity|]. split; [cbn; lia|]. lra.
  - exists (num "1800"), "[sec]", 1%R. split; [change (last_line "timestep" "timestep=1800[sec]" dr_lines); a_last 5%nat|]. split; [key|]. split; [good|]. values. lra.
  - exists (num "1.0"), "[hr]", 3600%R. split; [change (last_line "forcing_resolution" "forcing_resolution=1.0[hr]" dr_lines); a_last 7%nat|]. split; [key|]. split; [good|]. values. lra.
  - lra.
  - left. exists "max_valid_soil_types=1", (num "1"), 1%nat. split; [a_last 11%nat|]. split; [assigned|]. split; [apply natural_check; chk|]. split; [lia|reflexivity].
  - lia.
  - right; cbn; intuition discriminate.
Qed.
Lemma dr_good : good_config dr_files dr_lines [num "100.0"] [num "1"] [num "1.0"] (num "0.0") (1 / 2) 1 1 [dr_row].
Proof.
  split; [|lra]. split; [exact dr_basic|]. intros i L. cbn in L. destruct i as [|i]; [exists (num "1"), 1%nat|lia]. split; [reflexivity|]. split; [apply natural_check; chk|]. cbn. lia.
Qed.
Lemma dr_cells : cells_cover dr_lines [num "100.0"].
Proof. left. cbn. intuition discriminate. Qed.
Lemma dr_ends : ends_at dr_lines 3600.
Proof.
  exists (num "3600"), "[s]", 1%R. split; [good|]. split; [cbn; tauto|]. split; [change (last_line "endtime" "endtime=3600[s]" dr_lines); a_last 6%nat|]. values. lra.
Qed.
Lemma dr_driven : driven dr_state0 [("2016-10-01 00:00:00", Fin 20, Fin 0)] [dr_out] dr_end.
Proof.
  exact (dr_cons dr_state0 "2016-10-01 00:00:00" (Fin 20) (Fin 0) dr_end
    (mkOut (Fin (2 / 100)) (Fin 0) (Fin (4 / 10)) (Fin 0) (Fin 0) (Fin (1 / 200)) (Fin (1 / 200)) (Fin (1 / 200)) (Fin 0) (Fin 0) (Fin 0)) [] [] dr_end dr_update eq_refl (dr_nil dr_end)).
Qed.
End Run.

(** ** The rows of the forcing file *)
Definition dr_frows : list (option frow) :=
  [Some (mkFrow "2016-10-01 00:00:00" (num "20.0") (num "0.0") []); None; Some (mkFrow "2016-10-01 01:00:00" (num "5") (num "0.1") ["dry"])].
Lemma dr_fine : Forall (@fine exact) (complete_rows dr_frows).
Proof.
  cbn [complete_rows dr_frows]. repeat (apply Forall_cons; [|]); try apply Forall_nil.
  all: split; [split; [good|split; [good|]]|split; eexists; reflexivity].
  all: split; [repeat constructor; vm_compute; repeat split; discriminate|vm_compute; discriminate].
Qed.
Lemma dr_first : first_line "forcing_file" "forcing_file=./rain.csv" dr_lines.
Proof.
  split; [right; exists "./rain.csv"; reflexivity|]. exists ["verbosity=none"], (skipn 2 dr_lines). split; [reflexivity|]. intros x [<-|[]] [H|[v H]]; vm_compute in H; discriminate.
Qed.
Definition dr_dir (t : string) (f : string) : option string := if String.eqb f "./rain.csv" then Some t else None.
Lemma dr_rows_case : exists t, dr_dir t "./rain.csv" = Some (file_of ("Time,P,PET" :: map row_line dr_frows)) /\ free_of newline "Time,P,PET" /\ Forall (@fine exact) (complete_rows dr_frows) /\
  first_line "forcing_file" "forcing_file=./rain.csv" dr_lines /\
  t = file_of ["Time,P,PET"; "2016-10-01 00:00:00,20.0,0.0"; ""; "2016-10-01 01:00:00,5,0.1,dry"].
Proof.
  eexists. split; [reflexivity|]. split; [vm_compute; repeat split; discriminate|]. split; [exact dr_fine|]. split; [exact dr_first|reflexivity].
Qed.
Lemma dr_short_case : good_cells ["2016-10-01 00:30:00"; text (num "7")] /\ good_numeral (num "7") /\ finite (@rnd exact (value (num "7"))) /\
  csv ["2016-10-01 00:30:00"; text (num "7")] = "2016-10-01 00:30:00,7".
Proof.
  split; [split; [repeat constructor; vm_compute; repeat split; discriminate|vm_compute; discriminate]|]. split; [good|]. split; [eexists; reflexivity|reflexivity].
Qed.

(** ** A client of the interface *)
Section Client.
Local Existing Instance exact.
Context {cfg : Cfg}.
Definition dr_calls : list call :=
  [CSet "precipitation_rate" [D (Fin 20)]; CSet "potential_evapotranspiration_rate" [D (Fin 0)]; CGet "soil_moisture_wetting_fronts"; CUpdate; CGet "surface_runoff"].
Lemma dr_client : along proper dr_calls (mkObj dr_state0 (repeat None 11)) /\ do_calls dr_calls (mkObj dr_state0 (repeat None 11)) = Ok (mkObj dr_end (repeat None 11)).
Proof.
  assert (A1 : do_call (CSet "precipitation_rate" [D (Fin 20)]) (mkObj dr_state0 (repeat None 11)) = Ok (mkObj (dr_state0 <| st_precip := Fin 20 |>) (repeat None 11))) by reflexivity.
  assert (A2 : do_call (CSet "potential_evapotranspiration_rate" [D (Fin 0)]) (mkObj (dr_state0 <| st_precip := Fin 20 |>) (repeat None 11)) = Ok (mkObj dr_start (repeat None 11))) by reflexivity.
  assert (A4 : do_call CUpdate (mkObj dr_start (repeat None 11)) = Ok (mkObj dr_end (repeat None 11))) by (cbn [do_call]; unfold bmi_Update; cbn [ob_s]; rewrite dr_update; reflexivity).
  split.
  - unfold dr_calls. split; [|intros o H; rewrite A1 in H; apply Ok_inj in H; subst o].
    { intros _. split; [intros [E|[E|[]]]; discriminate|]. split; [reflexivity|]. repeat constructor. }
    split; [|intros o H; rewrite A2 in H; apply Ok_inj in H; subst o].
    { intros _. split; [intros [E|[E|[]]]; discriminate|]. split; [reflexivity|]. repeat constructor. }
    split; [|intros o H].
    { intro H. cbn in H. intuition discriminate. }
    change (Ok (mkObj dr_start (repeat None 11)) = Ok o) in H. apply Ok_inj in H. subst o.
    split; [exact Logic.I|]. intros o H'. rewrite A4 in H'. apply Ok_inj in H'. subst o. split; [|intros; exact Logic.I]. intros _. discriminate.
  - unfold dr_calls. cbn [do_calls]. rewrite A1. cbn [bind]. rewrite A2. cbn [bind].
    match goal with |- context [do_call (CGet ?n) ?o] => change (do_call (CGet n) o) with (Ok o) end. cbn [bind]. rewrite A4. reflexivity.
Qed.
End Client.
