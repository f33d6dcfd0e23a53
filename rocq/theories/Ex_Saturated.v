(** A concrete run of the model: a saturated one-layer column under rain.  Used as the worked example beside the theorems. *)

From Coq Require Import Reals Lra ZArith List Bool Lia.
From RecordUpdate Require Import RecordSet.
From Verif Require Import Outcome Dbl Exact Types ListOps Soil Giuh Fronts Infil Move State Update Lib Spec_Common Spec_Update Pf_Dbl Pf_Pow Pf_Update Pf_Clock.
Import ListNotations.
Import RecordSetNotations.
Open Scope R_scope.

(** Soil: theta_r = 1/10, theta_e = 2/5, alpha = 1/100, n = 2, m = 1/2, Ksat = 1.  Layer of 100 cm. *)
Definition ex_soil : soil :=
  mkSoil (Fin (1 / 10)) (Fin (2 / 5)) (Fin (1 / 100)) (Fin 2) (Fin (1 / 2)) (Fin 1) (Fin 10) (Fin 0) (Fin 1).
Definition ex_front : front := mkF (Fin 100) (Fin (2 / 5)) (Fin 0) (Fin 1) 1 1 true (Fin 0).
Definition ex_env : env := mkEnv 1 [Fin 0; Fin 100] [None; Some 1%Z] [None; Some ex_soil] [Fin 1; Fin 1].

(** Parameters of the run: time step [d], forcing resolution [f], maximum ponded depth [pm], end time [te]; clock at [t], [k] steps done, rain [pp] before. *)
Definition ex_params (d f pm te t : R) (k : Z) (pp : R) (fi nf : Z) (th dp : list dbl) : params :=
  mkParams 1 [Fin 0; Fin 100] [Fin 0; Fin 100] [None; Some 1%Z] [Fin 1; Fin 1] nf 0 [] [] dp th
    (Fin d) (Fin f) (Fin d) fi (Fin 15495) (Fin 341) true false (Fin pm) (Fin pp) 120 (Fin t) (Fin te) k false false false.
Definition ex_cal : calib := mkCal [] [] [] [] [] (Fin 0) (Fin 0).

(** State with rain [r] mm/h and ledger [mb]; unit hydrograph with the single ordinate 1. *)
Definition ex_state (p : params) (mb : massbal) (r : R) (out : option bout) (prev : list front) (q : R) : state :=
  mkState [ex_front] prev [None; Some ex_soil] p mb (Fin r) (Fin 0) ex_cal out 1 [Fin 1] [Fin q; Fin 0].

Section Run.
Local Existing Instance exact.
Context {cfg : Cfg}.

Lemma ex_theta : theta_of_h ex_soil (Fin 0) = Fin (2 / 5).
Proof.
  unfold theta_of_h, calc_theta_from_h, ex_soil. cbn [s_alpha s_n s_m s_theta_e s_theta_r].
  replace (Fin (1 / 100) * Fin 0)%d with (Fin 0) by (cbn; f_equal; ring).
  rewrite pow_zero by lra. rewrite !exact_lit.
  replace (Fin 1 + Fin 0)%d with (Fin 1) by (cbn; f_equal; ring).
  rewrite pow_one. rewrite div_fin by lra. cbn. f_equal. lra.
Qed.

Lemma ex_psi : h_of_Se ex_soil (Se_of_theta ex_soil (Fin (2 / 5))) = Fin 0.
Proof.
  unfold h_of_Se, calc_h_from_Se, Se_of_theta, calc_Se_from_theta, ex_soil. cbn [s_alpha s_n s_m s_theta_e s_theta_r].
  replace ((Fin (2 / 5) - Fin (1 / 10)) / (Fin (2 / 5) - Fin (1 / 10)))%d with (Fin 1)
    by (cbn; destruct (Req_EM_T _ 0); [lra|f_equal; field; lra]).
  rewrite !exact_lit, (div_fin (-1)), (div_fin 1 2), (div_fin 1 (1 / 100)) by lra.
  rewrite pow_one.
  replace (Fin 1 - Fin 1)%d with (Fin 0) by (cbn; f_equal; ring).
  rewrite pow_zero by lra. cbn. f_equal. ring.
Qed.

Lemma ex_mass : lgar_calc_mass_bal [Fin 0; Fin 100] [ex_front] = Ok (Fin 40).
Proof. cbn. f_equal. f_equal. lra. Qed.

Lemma ex_storage : max_storage ex_env = Ok (Fin 40).
Proof. reval. feq. Qed.

Lemma closure_loop_done : forall k e p target l mass err factor dn sw aug it,
  dgtb (dabs (err - closure_tol)) (lit (1 / 10000000000)) = false ->
  closure_loop k e p target l mass err factor dn sw aug it = Ok (l, err, false).
Proof. intros k e p target l mass err factor dn sw aug it H. destruct k; cbn [closure_loop]; rewrite H; reflexivity. Qed.

Lemma ex_clamp : clamp_theta ex_soil (Fin (2 / 5)) = Fin (2 / 5).
Proof. unfold clamp_theta. cbn. unfold Rltb. destruct (Rlt_dec _ _); [lra|]. cbn. unfold Rltb. destruct (Rlt_dec _ _); [|lra]. reflexivity. Qed.

Lemma ex_move : forall d, lgar_move_wetting_fronts ex_env (Fin d) (Fin 0) 1 (Fin 40) (Fin 0) [ex_front] [ex_front] = Ok ([ex_front], Fin 0, Fin 0).
Proof.
  intro d. unfold lgar_move_wetting_fronts. cbn [e_cum e_nlayers ex_env aget Z.ltb Z.compare nth_error Z.to_nat Pos.to_nat Pos.iter_op Init.Nat.add bind].
  change (listLength [ex_front]) with 1%Z. cbn [length move_loop].
  assert (M : move_one ex_env (Fin d) (Fin 0) 1 [ex_front] 1 (Z.of_nat 1) [ex_front] (Fin 0) = Ok ([ex_front], Fin 0)).
  { unfold move_one. cbn [Z.of_nat Pos.of_succ_nat]. unfold findFront, findFrontOld.
    cbn [pos_of f_num ex_front Z.eqb Pos.eqb Z.add Pos.add Pos.succ Z.ltb Z.compare Pos.compare Pos.compare_cont orb andb lget nth_error bind f_layer].
    change (soil_of ex_env 1) with (Ok ex_soil). cbn [bind negb andb Z.eqb Pos.eqb e_nlayers ex_env].
    cbn [pget lget nth_error bind]. change (aget (e_cum ex_env) (1 - 1)) with (Ok (Fin 0)). cbn [bind].
    unfold balance_theta.
    change (masses_above ex_env 1 ?a ?b None ?st) with (Ok st).
    change (repeat (@None dbl) (Z.to_nat (1 + 1))) with [@None dbl; None].
    cbn [bind]. 
    change (aset [@None dbl; None] 1 ?x) with (Ok [@None dbl; x]). cbn [bind].
    unfold lgar_theta_mass_balance.
        match goal with |- context [if ?c then Ok (theta_of_h ex_soil _, _) else _] => replace c with true end.
    2: { symmetry. cbn. apply Rleb_true. match goal with |- Rabs ?x <= _ => replace x with 0 by ring end. rewrite Rabs_R0. lra. }
    cbn [bind set_depth f_psi ex_front]. rewrite ex_theta, ex_clamp, ex_psi. cbn. f_equal. f_equal. unfold ex_front. f_equal.
    unfold set_psi, set_theta. cbn. f_equal. f_equal. ring. }
  rewrite M. cbn [bind].
  assert (C : closure ex_env (Fin 40) (Fin 0) [ex_front] (Fin 0) = Ok ([ex_front], Fin 0, Fin 0)).
  { unfold closure. change (lgar_wetting_fronts_cross_layer_boundary ex_env [ex_front]) with (Ok [ex_front]). cbn [bind].
    change (wetting_front_free_drainage [ex_front]) with 1%Z.
    change (soil_of ex_env 1) with (Ok ex_soil). cbn [bind]. unfold dgtb. rewrite (ltb_t 0 40) by lra. cbn [cassert bind].
    change (findFront 1 [ex_front]) with (Some 0%nat). cbn [lget nth_error bind f_theta ex_front s_theta_e ex_soil e_cum ex_env].
    match goal with |- context [if ?c then _ else Ok ([ex_front], Fin 0, Fin 0)] => replace c with true end.
    2: { symmetry. cbn. apply Rltb_true. match goal with |- Rabs ?x < _ => replace x with 0 by ring end. rewrite Rabs_R0. lra. }
    rewrite ex_mass. cbn [bind]. rewrite closure_loop_done; [reflexivity|].
    cbn. apply Rltb_false. match goal with |- Rabs (Rabs ?x - _) <= _ => replace x with 0 by ring end. rewrite Rabs_R0.
    unfold Rabs. destruct (Rcase_abs _); lra. }
  rewrite C. cbn [bind].
  change (merge_phases ex_env [ex_front]) with (Ok ([ex_front], Fin 0, Fin 0)). cbn [bind].
  change (refresh_psi ex_env [ex_front]) with (Ok [ex_front]). cbn [bind].
  unfold fix_single. change (aget (e_cum ex_env) 1) with (Ok (Fin 100)). cbn [bind].
  assert (X : (f_depth ex_front <>? Fin 100)%d = false). { change (negb (deqb (Fin 100) (Fin 100)) = false). rewrite eqb_t; reflexivity. }
  rewrite X. 
  assert (Y : (dabs (Fin 0) >? lit (1 / 10000000))%d = false).
  { cbn. rewrite Rabs_R0. apply Rltb_false. lra. }
  rewrite Y. replace (Fin 0 + Fin 0)%d with (Fin 0) by (cbn; f_equal; ring). reflexivity.
Qed.

(** The infiltration capacity of the saturated column is zero. *)
Lemma ex_capacity : forall d w r, 0 < d ->
  infiltration_capacity ex_env true 120 (Fin d) (Fin 0) (Fin w) (Fin r) 1 [ex_front] = Ok (Fin 0).
Proof.
  intros d w r Hd. unfold infiltration_capacity. change (listLength [ex_front]) with 1%Z.
  change (pget [ex_front] (findFront 1 [ex_front])) with (Ok ex_front). cbn [bind f_layer ex_front].
  change (soil_of ex_env 1) with (Ok ex_soil). cbn [bind lget nth_error].
  change (aget (e_frozen ex_env) (f_layer (mkF (Fin 100) (Fin (2 / 5)) (Fin 0) (Fin 1) 1 1 true (Fin 0)))) with (Ok (Fin 1)).
  cbn [bind e_nlayers ex_env Z.eqb Pos.eqb]. change (soil_of _ _) with (Ok ex_soil). cbn [bind].
  change (f_theta ex_front) with (Fin (2 / 5)). change (s_theta_e ex_soil) with (Fin (2 / 5)).
  rewrite (eqb_t (2 / 5) (2 / 5) eq_refl). cbn [andb].
  change (aget (e_frozen ex_env) (f_layer ex_front)) with (Ok (Fin 1)). cbn [bind].
  change (e_cum ex_env) with [Fin 0; Fin 100]. rewrite ex_mass. cbn [bind].
  rewrite ex_storage. cbn [bind].
  set (h := dfmax (Fin w - Fin r * Fin d)%d (Fin 0)).
  assert (H : exists x, h = Fin x /\ 0 <= x). { unfold h. cbn. unfold Rltb. destruct (Rlt_dec _ _); eexists; split; try reflexivity; lra. }
  destruct H as (x & -> & Hx). change (s_Ksat ex_soil) with (Fin 1). change (f_depth ex_front) with (Fin 100).
  change (lit 1) with (Fin 1).
  replace (Fin 0 + Fin x)%d with (Fin x) by (cbn; f_equal; ring). rewrite !(div_fin _ 100), !(div_fin _ d) by lra.
  replace ((Fin 40 - Fin 40) / Fin d)%d with (Fin 0) by (cbn; destruct (Req_EM_T _ _); [lra|f_equal; field; lra]).
  replace (0 / d) with 0 by (field; lra).
  match goal with |- context [dfmin ?a (Fin 0)] => replace (dfmin a (Fin 0)) with (Fin 0) end.
  - unfold dgtb. rewrite ltb_f by lra. reflexivity.
  - cbn. unfold Rltb. destruct (Rlt_dec _ _); [|reflexivity]. exfalso.
    assert (0 <= x / 100) by lra. lra.
Qed.

(** Water on the surface after a step with [w] on it, and runoff. *)
Definition ex_on (pm w : R) : R := Rmin w pm.
Definition ex_off (pm w : R) : R := w - Rmin w pm.

Lemma ex_partition : forall d w pm, 0 < d -> 0 < w -> 0 <= pm ->
  surface_partition (Fin d) (Fin w) (Fin 0) (Fin pm) (Fin 0) = (Fin (ex_off pm w), Fin (ex_on pm w), Fin 0).
Proof.
  intros d w pm Hd Hw Hp. unfold surface_partition, ex_off, ex_on.
  replace (Fin w - Fin 0 * Fin d - Fin 0 * Fin 0)%d with (Fin w) by (cbn; f_equal; ring).
  replace (dfmax (Fin w) (Fin 0)) with (Fin w) by (dcrush; reflexivity).
  rewrite div_fin by lra. replace (Fin 0 * Fin d + Fin (0 / d))%d with (Fin 0) by (cbn; f_equal; field; lra).
  replace (dfmin (Fin w) (Fin 0)) with (Fin 0) by (dcrush; reflexivity).
  unfold Rmin, dgtb. destruct (Rlt_dec 0 pm) as [P|P].
  - rewrite (ltb_t 0 pm) by assumption. destruct (Rle_dec w pm) as [L|L].
    + destruct (Rlt_dec w pm) as [L'|L'].
      * rewrite ltb_t by assumption. cbn. repeat f_equal; ring.
      * assert (w = pm) as -> by lra. rewrite ltb_f by lra. repeat f_equal; ring.
    + rewrite ltb_f by lra. rewrite ltb_t by lra. cbn. reflexivity.
  - assert (pm = 0) as -> by lra. rewrite (ltb_f 0 0), (ltb_f w 0) by lra. destruct (Rle_dec w 0); [lra|]. cbn. repeat f_equal; ring.
Qed.

Definition ex_upar (d pm : R) : upar := mkU ex_env (Fin d) 120 true (Fin 15495) (Fin 341) (Fin pm).

Lemma ex_hydro : forall d pm pp pr precip von w, 0 < d -> 0 <= pm -> 0 <= w ->
  sub_hydro (ex_upar d pm) pp (Fin pr) (Fin 0) precip von (Fin w) (Fin 40) [ex_front] [ex_front]
  = Ok (mkSub [ex_front] [ex_front] (Fin 0) (Fin (ex_on pm w)) (Fin 0) (Fin (ex_off pm w)) (Fin (ex_on pm w)) (Fin 0)).
Proof.
  intros d pm pp pr precip von w Hd Hp Hw. unfold sub_hydro, ex_upar. cbn [u_env u_dt u_closed u_nint u_wilting u_fc u_pmax].
  unfold dgtb at 1. rewrite ltb_f by lra. cbn [bind]. change (wetting_front_free_drainage [ex_front]) with 1%Z.
  unfold create_decision. cbn [lget nth_error bind]. change (soil_of ex_env (f_layer ex_front)) with (Ok ex_soil). cbn [bind f_theta ex_front s_theta_e ex_soil].
  replace (Fin (2 / 5) + lit (1 / 1000000000000) >=? Fin (2 / 5))%d with true
    by (symmetry; cbn; apply Rleb_true; lra).
  cbn [orb bind b_ponded].
  assert (I : (if (Fin w >? Fin 0)%d && negb false
     then sub_insert (mkU ex_env (Fin d) 120 true (Fin 15495) (Fin 341) (Fin pm)) 1 (Fin pr) (mkSub [ex_front] [ex_front] (Fin 0) (Fin w) (Fin 0) (Fin 0) (Fin 0) (Fin 0))
     else Ok (sub_no_insert (mkU ex_env (Fin d) 120 true (Fin 15495) (Fin 341) (Fin pm)) (mkSub [ex_front] [ex_front] (Fin 0) (Fin w) (Fin 0) (Fin 0) (Fin 0) (Fin 0))))
     = Ok (mkSub [ex_front] [ex_front] (Fin 0) (Fin (ex_on pm w)) (Fin 0) (Fin (ex_off pm w)) (Fin (ex_on pm w)) (Fin 0))).
  { destruct (Rlt_dec 0 w) as [L|L].
    - unfold dgtb. rewrite ltb_t by assumption. cbn [negb andb].
      unfold sub_insert, lgar_insert_water. cbn [u_env u_dt u_closed u_nint u_pmax b_aet b_ponded b_volin b_head b_prev b_rech].
      rewrite ex_capacity by assumption. cbn [bind]. rewrite ex_partition by assumption. cbn [bind].
      rewrite ltb_f; [reflexivity|]. unfold ex_off, Rmin. destruct (Rle_dec w pm); lra.
    - assert (w = 0) as -> by lra. unfold dgtb. rewrite ltb_f by lra. cbn [andb]. unfold sub_no_insert, ex_on, ex_off. cbn [b_ponded u_pmax b_head b_prev b_aet b_volin b_rech].
      unfold Rmin. destruct (Rlt_dec 0 pm).
      + rewrite ltb_t by assumption. destruct (Rle_dec 0 pm); [|lra]. repeat f_equal; ring.
      + assert (pm = 0) as -> by lra. rewrite ltb_f by lra. destruct (Rle_dec 0 0); [|lra]. cbn. repeat f_equal; ring. }
  fold ex_front. rewrite I. cbn [bind]. unfold sub_move. cbn [u_env u_dt b_volin b_aet b_head b_prev]. rewrite ex_move. cbn [bind b_ponded b_head b_prev b_volin b_runoff b_on b_aet b_rech].
  assert (Z : lgar_dzdt_calc ex_env true 120 (Fin (ex_on pm w)) [ex_front] = Ok [ex_front]).
  { unfold lgar_dzdt_calc, dzdt_loop. cbn [f_K ex_front]. rewrite ltb_f by lra. reflexivity. }
  rewrite Z. reflexivity.
Qed.

Lemma ex_clean : forall w, w = 0 \/ 1 / 1000000000000 < w -> clean_volon (Fin w) = Fin w.
Proof.
  intros w H. unfold clean_volon. replace (dfmax (Fin w) (Fin 0)) with (Fin w) by (dcrush; try reflexivity; exfalso; lra).
  unfold dgtb. rewrite exact_lit. destruct H as [->|H]; [rewrite ltb_f by lra|rewrite ltb_t by assumption]; reflexivity.
Qed.

Lemma ex_substep : forall d f pm te t k pp fi nf th dp mb r out prev q w ap ape aa ai ar arc,
  0 < d -> 0 <= pm -> 0 <= r -> 0 <= w -> w = 0 \/ 1 / 1000000000000 < w ->
  substep (ex_upar d pm) (ex_state (ex_params d f pm te t k pp fi nf th dp) mb r out prev q)
    (mkAcc (Fin ap) (Fin ape) (Fin aa) (Fin 40) (Fin ai) (Fin w) (Fin ar) (Fin arc))
  = Ok (ex_state (ex_params d f pm te (t + d * 3600) (k + 1) (r * (1 / 10) * d) fi nf th dp) (mb <| mb_local := Some (Fin 0) |>) r out [ex_front] q,
        mkAcc (Fin (ap + r * (1 / 10) * d)) (Fin ape) (Fin aa) (Fin 40) (Fin ai)
              (Fin (ex_on pm (r * (1 / 10) * d + w))) (Fin (ar + ex_off pm (r * (1 / 10) * d + w))) (Fin arc)).
Proof.
  intros d f pm te t k pp fi nf th dp mb r out prev q w ap ape aa ai ar arc Hd Hp Hr Hw Hw'.
  unfold substep. cbn [u_dt ex_upar a_on a_end].
  replace (dfmax (st_precip (ex_state (ex_params d f pm te t k pp fi nf th dp) mb r out prev q)) (Fin 0)) with (Fin r)
    by (cbn; unfold Rltb; destruct (Rlt_dec _ _); [lra|reflexivity]).
  replace (dfmax (st_pet (ex_state (ex_params d f pm te t k pp fi nf th dp) mb r out prev q)) (Fin 0)) with (Fin 0)
    by (cbn; unfold Rltb; destruct (Rlt_dec _ _); reflexivity).
  change mm_to_cm with (Fin (1 / 10)).
  replace (Fin 0 * Fin (1 / 10))%d with (Fin 0) by (cbn; f_equal; ring).
  replace (Fin r * Fin (1 / 10) * Fin d)%d with (Fin (r * (1 / 10) * d)) by reflexivity.
  replace (Fin r * Fin (1 / 10))%d with (Fin (r * (1 / 10))) by reflexivity.
  replace (Fin (r * (1 / 10) * d) + Fin w)%d with (Fin (r * (1 / 10) * d + w)) by reflexivity.
  rewrite ex_clean by assumption.
  match goal with |- context [lgar_calc_mass_bal ?a ?b] => change (lgar_calc_mass_bal a b) with (lgar_calc_mass_bal [Fin 0; Fin 100] [ex_front]) end.
  rewrite ex_mass. cbn [bind].
  change (st_head (ex_state ?a ?b ?c ?g ?h ?i)) with [ex_front]. change (listCopy [ex_front]) with [ex_front].
  assert (W : 0 <= r * (1 / 10) * d) by (apply Rmult_le_pos; lra).
  fold (ex_upar d pm). rewrite ex_hydro by lra. cbn [bind b_head b_prev b_runoff b_aet b_on b_rech b_volin].
  match goal with |- context [lgar_calc_mass_bal ?a ?b] => change (lgar_calc_mass_bal a b) with (lgar_calc_mass_bal [Fin 0; Fin 100] [ex_front]) end.
  rewrite ex_mass. cbn [bind].
  match goal with |- context [local_balance ?a ?b ?c ?dd ?e ?g ?h ?i] => replace (local_balance a b c dd e g h i) with (Fin 0) end.
  2: { cbn. f_equal. unfold ex_off, ex_on. ring. }
  replace (dabs (Fin 0) >? lit (1 / 10000))%d with false by (symmetry; cbn; rewrite Rabs_R0; apply Rltb_false; lra).
  cbn [lget nth_error bind]. unfold dgtb. change (f_depth ex_front) with (Fin 100). rewrite ltb_t by lra. cbn [cassert bind].
  replace (Fin 0 * Fin d)%d with (Fin 0) by (cbn; f_equal; ring).
  replace (dfmax (Fin 0) (Fin 0)) with (Fin 0) by (cbn; unfold Rltb; destruct (Rlt_dec _ _); reflexivity).
  cbn [dadd a_precip a_pet a_aet a_in a_runoff a_rech rnd exact]. rewrite !Rplus_0_r.
  reflexivity.
Qed.

(** One Update of two half-hour sub-steps with 20 mm/h of rain, at most 1.5 cm of ponding: the first centimetre stays on
    the surface, of the second one half a centimetre runs off. *)
Definition ex_mb0 : massbal := mkMB (Fin 0) (Fin 40) (Fin 0) (Fin 0) (Fin 0) (Fin 0) (Fin 0) (Fin 0) (Fin 0) (Fin 0) (Fin 0) (Fin 0) (Fin 0) None.
Definition ex_start : state :=
  ex_state (ex_params (1 / 2) 1 (3 / 2) 7200 0 0 0 1 1 [Fin (2 / 5)] [Fin 1]) ex_mb0 20 None [ex_front] 0.
Definition ex_p1 : params := ex_params (1 / 2) 1 (3 / 2) 7200 3600 2 1 2 1 [Fin (2 / 5)] [Fin 1].
Definition ex_end : state :=
  ex_state ex_p1
    (mkMB (Fin (3 / 2)) (Fin 40) (Fin 40) (Fin 2) (Fin 0) (Fin (3 / 2)) (Fin (1 / 2)) (Fin 0) (Fin 0) (Fin 0) (Fin (1 / 2)) (Fin (1 / 2)) (Fin 0) (Some (Fin 0)))
    20 (Some (mkOut (Fin (2 / 100)) (Fin 0) (Fin (4 / 10)) (Fin 0) (Fin 0) (Fin (1 / 200)) (Fin (1 / 200)) (Fin (1 / 200)) (Fin 0) (Fin 0) (Fin 0))) [ex_front] 0.

Definition ex_mb1 : massbal := ex_mb0 <| mb_local := Some (Fin 0) |>.
Definition ex_xs : list step :=
  let st t k pp mb prev := ex_state (ex_params (1 / 2) 1 (3 / 2) 7200 t k pp 2 1 [Fin (2 / 5)] [Fin 1]) mb 20 None prev 0 in
  let ac p on off := mkAcc (Fin p) (Fin 0) (Fin 0) (Fin 40) (Fin 0) (Fin on) (Fin off) (Fin 0) in
  [mkStep (st 0 0%Z 0 ex_mb0 [ex_front]) (ac 0 0 0) (st 1800 1%Z 1 ex_mb1 [ex_front]) (ac 1 1 0);
   mkStep (st 1800 1%Z 1 ex_mb1 [ex_front]) (ac 1 1 0) (st 3600 2%Z 1 ex_mb1 [ex_front]) (ac 2 (3 / 2) (1 / 2))].

Lemma ex_finish : 
  finish_update (ex_state (ex_params (1 / 2) 1 (3 / 2) 7200 3600 2 1 2 1 [Fin (2 / 5)] [Fin 1]) ex_mb1 20 None [ex_front] 0)
    (mkAcc (Fin 2) (Fin 0) (Fin 0) (Fin 40) (Fin 0) (Fin (3 / 2)) (Fin (1 / 2)) (Fin 0)) (Fin 0) = Ok ex_end.
Proof.
  unfold finish_update.
  replace (giuh_convolution_integral _ _ _ _) with (@Ok (dbl * list dbl) (Fin (1 / 2), [Fin 0; Fin 0])).
  2: { symmetry. reval. feq. }
  cbn [bind].
  match goal with |- context [mb_local ?x] => change (mb_local x) with (Some (Fin 0)) end. cbv iota zeta.
  reval. repeat match goal with
  | |- ?x = ?x => reflexivity
  | |- Fin _ = Fin _ => apply f_equal; lra
  | |- @eq R _ _ => fail 1
  | |- _ = _ => f_equal
  end.
Qed.

Lemma ex_runs : runs (ex_upar (1 / 2) (3 / 2)) 
  (ex_state (ex_params (1 / 2) 1 (3 / 2) 7200 0 0 0 2 1 [Fin (2 / 5)] [Fin 1]) ex_mb0 20 None [ex_front] 0) (acc0 (Fin 40) (Fin 0))
  ex_xs
  (ex_state (ex_params (1 / 2) 1 (3 / 2) 7200 3600 2 1 2 1 [Fin (2 / 5)] [Fin 1]) ex_mb1 20 None [ex_front] 0)
  (mkAcc (Fin 2) (Fin 0) (Fin 0) (Fin 40) (Fin 0) (Fin (3 / 2)) (Fin (1 / 2)) (Fin 0)).
Proof.
  unfold acc0, ex_xs.
  assert (O1 : ex_on (3 / 2) (20 * (1 / 10) * (1 / 2) + 0) = 1) by (unfold ex_on, Rmin; destruct (Rle_dec _ _); lra).
  assert (O2 : ex_off (3 / 2) (20 * (1 / 10) * (1 / 2) + 0) = 0) by (unfold ex_off, Rmin; destruct (Rle_dec _ _); lra).
  assert (O3 : ex_on (3 / 2) (20 * (1 / 10) * (1 / 2) + 1) = 3 / 2) by (unfold ex_on, Rmin; destruct (Rle_dec _ _); lra).
  assert (O4 : ex_off (3 / 2) (20 * (1 / 10) * (1 / 2) + 1) = 1 / 2) by (unfold ex_off, Rmin; destruct (Rle_dec _ _); lra).
  assert (T1 : 0 + 1 / 2 * 3600 = 1800) by lra. assert (T2 : 1800 + 1 / 2 * 3600 = 3600) by lra.
  assert (P1 : 0 + 20 * (1 / 10) * (1 / 2) = 1) by lra. assert (P2 : 1 + 20 * (1 / 10) * (1 / 2) = 2) by lra.
  assert (P3 : 20 * (1 / 10) * (1 / 2) = 1) by lra.
  eapply runs_cons; [|eapply runs_cons; [|apply runs_nil]].
  - rewrite ex_substep by lra. rewrite O1, O2, T1, P1, P3. rewrite Rplus_0_r. reflexivity.
  - rewrite ex_substep by lra. rewrite O3, O4, T2, P2, P3. rewrite Rplus_0_l. reflexivity.
Qed.

Lemma ex_count : d2i (Fin 1 / Fin (1 / 2) + lit (1 / 100000000))%d = Ok 2%Z.
Proof.
  rewrite div_fin by lra. change (lit (1 / 100000000)) with (Fin (1 / 100000000)). cbn [dadd lit rnd exact d2i].
  replace (trunc (1 / (1 / 2) + 1 / 100000000)) with 2%Z; [reflexivity|].
  symmetry. apply trunc_nat; [lia|]. lra.
Qed.

Lemma ex_steps : update_steps ex_start = Ok (ex_state (ex_params (1 / 2) 1 (3 / 2) 7200 0 0 0 2 1 [Fin (2 / 5)] [Fin 1]) ex_mb0 20 None [ex_front] 0, Fin (1 / 2), 2%Z).
Proof.
  unfold update_steps. change (p_adaptive (st_p ex_start)) with false. cbv iota zeta.
  match goal with |- context [d2i ?x] => change x with (Fin 1 / Fin (1 / 2) + lit (1 / 100000000))%d end.
  rewrite ex_count. reflexivity.
Qed.

Lemma ex_executed : executed ex_start (ex_upar (1 / 2) (3 / 2)) ex_xs ex_end.
Proof.
  assert (X : update_prologue ex_start = Ok (ex_start, Fin 0)) by reflexivity.
  assert (K : exists s1 vcal volend s2 n s3 a,
    update_prologue ex_start = Ok (s1, vcal) /\
    lgar_calc_mass_bal (p_cum (st_p s1)) (st_head s1) = Ok volend /\
    update_steps s1 = Ok (s2, u_dt (ex_upar (1 / 2) (3 / 2)), n) /\
    ex_upar (1 / 2) (3 / 2) = mkU (env_of s2) (u_dt (ex_upar (1 / 2) (3 / 2))) (p_nint (st_p s2)) (p_closed (st_p s2)) (p_wilting (st_p s2)) (p_fc (st_p s2)) (p_pmax (st_p s2)) /\
    runs (ex_upar (1 / 2) (3 / 2)) s2 (acc0 volend (mb_on_ts (st_mb s2))) ex_xs s3 a /\
    (length ex_xs = Z.to_nat n \/ (ngen = false /\ (0 < length ex_xs < Z.to_nat n)%nat /\ dgeb (p_time (st_p s3)) (p_endtime (st_p s3)) = true)) /\
    finish_update s3 a vcal = Ok ex_end).
  { exists ex_start, (Fin 0), (Fin 40). do 4 eexists. split; [exact X|]. split; [exact ex_mass|]. split; [exact ex_steps|].
    split; [reflexivity|]. split; [exact ex_runs|]. split; [left; reflexivity|]. exact ex_finish. }
  split; [|exact K].
  unfold Update. change (p_invalid (st_p ex_start)) with false. cbv iota. rewrite X. cbn [bind].
  change (lgar_calc_mass_bal (p_cum (st_p ex_start)) (st_head ex_start)) with (lgar_calc_mass_bal [Fin 0; Fin 100] [ex_front]).
  rewrite ex_mass. cbn [bind].
  change (st_precip ex_start) with (Fin 20). change (st_pet ex_start) with (Fin 0). unfold dgeb. rewrite !leb_t by lra. cbn [cassert bind].
  rewrite ex_steps. cbn [bind]. 
  match goal with |- context [subcycle_loop ?n ?u ?s ?a] =>
    assert (L : subcycle_loop n u s a = Ok (ex_state (ex_params (1 / 2) 1 (3 / 2) 7200 3600 2 1 2 1 [Fin (2 / 5)] [Fin 1]) ex_mb1 20 None [ex_front] 0,
      mkAcc (Fin 2) (Fin 0) (Fin 0) (Fin 40) (Fin 0) (Fin (3 / 2)) (Fin (1 / 2)) (Fin 0))) end.
  { pose proof ex_runs as R. unfold ex_xs in R. inversion R as [|? ? ? ? ? ? ? S1 R1]; subst. inversion R1 as [|? ? ? ? ? ? ? S2 R2]; subst.
    change (Z.to_nat 2) with 2%nat. cbn [subcycle_loop].
    match goal with |- context [substep ?u ?s ?a] => change (substep u s a) with
      (substep (ex_upar (1 / 2) (3 / 2)) (ex_state (ex_params (1 / 2) 1 (3 / 2) 7200 0 0 0 2 1 [Fin (2 / 5)] [Fin 1]) ex_mb0 20 None [ex_front] 0) (acc0 (Fin 40) (Fin 0))) end.
    rewrite S1. cbn [bind].
    match goal with |- context [(?a >=? ?b)%d] => replace (a >=? b)%d with false by (symmetry; cbn; apply Rleb_false; lra) end.
    cbn [andb].
    match goal with |- context [substep ?u ?s ?a] => change u with (ex_upar (1 / 2) (3 / 2)) end.
    rewrite S2. cbn [bind]. destruct (_ && _)%bool; reflexivity. }
  rewrite L. cbn [bind]. exact ex_finish.
Qed.

Lemma ex_update : Update ex_start = Ok ex_end.
Proof. exact (proj1 ex_executed). Qed.
End Run.
