(** C45: the parts into which the surface water is shared are finite, for any rounding. *)

From Coq Require Import Reals Lra ZArith List Bool Lia.
From Verif Require Import Outcome Dbl Exact Binary64 Types ListOps Soil Fronts Infil Lib Spec_Common Spec_RoundMono Pf_Dbl Pf_Counts Pf_SurfNum Pf_Pow Ex_Saturated Ex_Unsaturated Ex_Surface Ex_Clock64 Ex_LedgerFp Ex_RoundMono Ex_NegInfil.
Import ListNotations.
Open Scope R_scope.

(** C45, any rounding: runoff, ponding and infiltration are finite numbers between 0 and the water on the surface, whatever the capacity is, infinite or NaN too, if it is not negative. *)
Theorem C45_surface_is_finite :
  forall (fp : Fp) (cfg : Cfg) e closed nint dt aet w precip wfd pm head q, rnd w = Fin w -> 0 <= w -> 0 < dt ->
  infiltration_capacity e closed nint (Fin dt) aet (Fin w) precip wfd head = Ok q -> not_negative q ->
  exists r on i, lgar_insert_water e closed nint (Fin dt) aet (Fin w) (Fin 0) precip wfd (Fin pm) head = Ok (Fin r, Fin on, Fin i) /\ 0 <= r <= w /\ 0 <= on <= w /\ 0 <= i <= w.
Proof. exact @insert_parts. Qed.
Print Assumptions C45_surface_is_finite.

(** C45, any rounding: a capacity that is NaN lets all the water in. *)
Theorem C45_nan_capacity_infiltrates_all :
  forall (fp : Fp) (cfg : Cfg) e closed nint dt aet w precip wfd pm head, 0 < dt ->
  infiltration_capacity e closed nint (Fin dt) aet (Fin w) precip wfd head = Ok NaN ->
  lgar_insert_water e closed nint (Fin dt) aet (Fin w) (Fin 0) precip wfd (Fin pm) head = Ok (Fin 0, Fin 0, Fin w).
Proof. exact @nan_all. Qed.
Print Assumptions C45_nan_capacity_infiltrates_all.

(** The capacity can be negative: saturated silt of data/vG_default_params_HYDRUS.dat (0.034 and 0.46) at head 0 has the water content the code gives it, one unit in the last place above theta_e.  In binary64
    its free storage is negative, and of 2 cm of rain a negative amount infiltrates and more than 2 cm run off. *)
Theorem C45_negative_infiltration_refuted :
  forall (cfg : Cfg) a n m, 0 < a -> 1 < n -> 0 < m < 1 ->
  exists s r0 e0 e c r i, @lit binary64 (34 / 1000) = Fin r0 /\ @lit binary64 (46 / 100) = Fin e0 /\ @rounded_soil binary64 s r0 e0 /\ s_alpha s = Fin a /\ s_n s = Fin n /\ s_m s = Fin m /\
    soil_of e 1 = Ok s /\ f_psi c = Fin 0 /\ f_theta c = @theta_of_h binary64 s (Fin 0) /\
    @lgar_insert_water binary64 cfg e true 120 (Fin 1) (Fin 0) (Fin 2) (Fin 0) (Fin 2) 1 (Fin 0) [c] = Ok (Fin r, Fin 0, Fin i) /\ i < 0 /\ 2 < r.
Proof.
  intros cfg a n m Ha Hn Hm. exists (sl_soil a n m), sl_r, sl_e, (ng_env a n m), (ng_front (Fin 0)), (2 - ng_cap), ng_cap. split; [exact sl_lit_r|]. split; [exact sl_lit_e|].
  split; [apply sl_rounded; assumption|]. do 5 (split; [reflexivity|]). split; [symmetry; apply sl_saturated; assumption|]. split; [apply ng_insert|]. unfold ng_cap. split; lra.
Qed.
Print Assumptions C45_negative_infiltration_refuted.

(** Example: the capacity of the saturated column in binary64 is 0 with 2 cm on it. *)
Example C45_finite_concrete : forall cfg : Cfg, @rnd binary64 2 = Fin 2 /\ not_negative (Fin 0) /\
  @infiltration_capacity binary64 cfg (c6_env (Fin 10) (Fin 0)) true 120 (Fin 1) (Fin 0) (Fin 2) (Fin 2) 1 [c6_front] = Ok (Fin 0).
Proof.
  intro cfg. split; [apply (rnd_IZR 2); lia|]. split; [|apply rn_capacity]. unfold not_negative. cbn. unfold Rltb. destruct (Rlt_dec 0 0); [lra|reflexivity].
Qed.

Local Existing Instance exact.
(** Example: a front of depth 0 has the capacity 0/0. *)
Example C45_nan_concrete : forall cfg : Cfg, @infiltration_capacity exact cfg ex_env true 120 (Fin 1) (Fin 0) (Fin (1 / 2)) (Fin (1 / 2)) 1 [set_depth un_front (Fin 0)] = Ok NaN.
Proof.
  intro cfg. set (z := set_depth un_front (Fin 0)). assert (M : exists m, @lgar_calc_mass_bal exact [Fin 0; Fin 100] [z] = Ok m) by (eexists; reflexivity). destruct M as (m & M).
  unfold infiltration_capacity. change (listLength [z]) with 1%Z. change (pget [z] (findFront 1 [z])) with (Ok z). cbn [bind]. change (f_layer z) with 1%Z.
  change (soil_of ex_env 1) with (Ok ex_soil). cbn [bind lget nth_error]. change (f_layer z) with 1%Z. change (aget (e_frozen ex_env) 1) with (Ok (Fin 1)).
  cbn [bind e_nlayers ex_env Z.eqb Pos.eqb]. change (soil_of _ _) with (Ok ex_soil). cbn [bind].
  change (f_theta z) with (Fin (17 / 50)). change (s_theta_e ex_soil) with (Fin (2 / 5)). rewrite eqb_f by lra. cbn [andb].
  change (e_frozen _) with [Fin 1; Fin 1]. change (aget [Fin 1; Fin 1] 1) with (Ok (Fin 1)). cbn [bind].
  change (e_cum _) with [Fin 0; Fin 100]. rewrite M. cbn [bind]. change (@max_storage exact _) with (@max_storage exact ex_env). rewrite ex_storage. cbn [bind].
  replace (dfmax (Fin (1 / 2) - Fin (1 / 2) * Fin 1)%d (Fin 0)) with (Fin 0) by (cbn; unfold Rltb; destruct (Rlt_dec _ _); [reflexivity|f_equal; lra]).
  change (s_Ksat ex_soil) with (Fin 1). change (f_depth z) with (Fin 0). change (lit 1) with (Fin 1). replace (Fin 0 + Fin 0)%d with (Fin 0) by (cbn; f_equal; ring).
  assert (Z : (Fin 0 / Fin 0)%d = NaN).
  { unfold ddiv. destruct (Req_EM_T 0 0) as [_|X]; [|destruct (X eq_refl)]. unfold inf_sign. repeat match goal with |- context [if ?d then _ else _] => destruct d end; try reflexivity; exfalso; lra. }
  rewrite Z. change (Fin 1 + NaN)%d with NaN. replace (Fin 1 * Fin 1 * NaN)%d with NaN by reflexivity. unfold dgtb. destruct ((_ - m) / Fin 1)%d; reflexivity.
Qed.
