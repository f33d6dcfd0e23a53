(** C83: the water of a simulation in a column of several layers. *)

From Coq Require Import String Reals Lra ZArith List Lia Bool.
From Verif Require Import Outcome Dbl Exact Types ListOps Soil Fronts Infil Move State Update Config Bmi Spec_Common Spec_Soil Spec_List Spec_Profile Spec_Storage Spec_Update Spec_Column Spec_Config
  Spec_Velocity Spec_Advance Spec_Balance Spec_Shares Spec_Physical Spec_Motion Spec_Upright Spec_Layered Pf_Layered Pf_Layered2 Pf_Layered3
  Ex_Saturated Ex_Safety Ex_TwoLayers Ex_Advance Ex_Books Ex_Config Ex_Motion Ex_Layered Ex_LayeredRain.
Import ListNotations.
Open Scope R_scope.
Local Existing Instance exact.

(** ** C83 *)

(** A sub-step that is not disturbed leaves the fronts in order, splits its rain and pond into infiltration, runoff and pond, accounts for its water up to [B], and hands over a
    sub-step of the same kind: the fronts in order, no negative pond, and [a_end] at the storage of the fronts. *)
Theorem C83_substep :
  forall (cfg : Cfg) (M : R) (qs : list part) (u : upar) (s : state) (a : acc) (B : R) (s' : state) (a' : acc),
    set_out M qs u s a -> @substep exact cfg u s a = Ok (s', a') -> @undisturbed cfg u (mkStep s a s' a') -> @off_by cfg u s a B ->
    balanced_step M u (mkStep s a s' a') B /\ set_out M qs u s' a'.
Proof.
  intros cfg M qs u s a B s' a' (HL & EE & HO & HC & (dt & Ed & Hd) & (pm & Em & Hm) & (p & Ep) & (on & Eo & Ho) & Ee) X U O.
  assert (P : placed (u_env u) M u s a p on dt pm) by (split; [reflexivity|]; auto 20).
  destruct (placed_step (u_env u) M qs HL u s a p on dt pm B s' a' P X U O) as (Q & on' & _ & P2 & P3 & P4 & P5 & P6 & P7 & P8 & P9 & P10 & P11 & P12). split; [exact Q|].
  split; [exact HL|]. split; [exact P2|]. split; [exact P8|]. split; [exact P7|]. split; [eauto|]. split; [eauto|]. split; [eexists; exact P9|]. split; [eauto|exact P12].
Qed.
Print Assumptions C83_substep.

(** When the sub-step may be off by less than the tolerance of the code's own check, a sub-step whose water movements complete is stopped by no failing balance: only the assertion on the
    velocities after it can stop it. *)
Theorem C83_balance_check_passes :
  forall (cfg : Cfg) (M : R) (qs : list part) (u : upar) (s : state) (a : acc) (B : R) (b : sub),
    set_out M qs u s a -> ~ @step_tie exact cfg u s a -> @step_upright exact cfg u s a -> @off_by cfg u s a B -> B + 1 / 1000000000000 <= 1 / 10000 ->
    at_step (@sub_hydro exact cfg) u s a = Ok b -> exists r, @substep exact cfg u s a = r /\ match r with Ok _ => True | Stop why => why = AssertFail end.
Proof.
  intros cfg M qs u s a B b (HL & EE & HO & HC & (dt & Ed & Hd) & (pm & Em & Hm) & (p & Ep) & (on & Eo & Ho) & Ee) T U O HB E.
  assert (P : placed (u_env u) M u s a p on dt pm) by (split; [reflexivity|]; auto 20).
  pose proof (placed_checked (u_env u) M qs HL u s a p on dt pm B b P T U O HB E) as X. eexists. split; [reflexivity|]. destruct (substep u s a); exact X.
Qed.
Print Assumptions C83_balance_check_passes.

(** A simulation of Updates and user edits in any order: the state stays of the same kind, and every sub-step is balanced. *)
Theorem C83_simulation :
  forall (cfg : Cfg) (M : R) (qs : list part) (s0 : state) (ys : list (step * R)) (s : state),
    layered M qs s0 -> @journey cfg s0 ys s -> layered M qs s /\ Forall (fun y => exists u, balanced_step M u (fst y) (snd y)) ys.
Proof. intros cfg M qs s0 ys s H J. destruct (journey_layered M qs s0 ys s H J) as (A & B & _). exact (conj A B). Qed.
Print Assumptions C83_simulation.

(** After its last Update the global balance that the program prints is bounded by what the sub-steps may be off. *)
Theorem C83_global_balance :
  forall (cfg : Cfg) (M : R) (qs : list part) (s0 : state) (ys : list (step * R)) (s : state) (u : upar) (zs : list (step * R)) (s' : state),
    layered M qs s0 -> fresh s0 -> @journey cfg s0 ys s -> @executed exact cfg s u (map fst zs) s' ->
    Forall (fun y => @undisturbed cfg u (fst y) /\ @off_by cfg u (x_s (fst y)) (x_a (fst y)) (snd y)) zs ->
    exists g, global_error (st_mb s') = Fin g /\ Rabs g <= Rsum (map (fun y => snd y + 2 / 1000000000000) (ys ++ zs)).
Proof. intros cfg M qs s0 ys s u zs s'. exact (layered_balance M qs s0 ys s u zs s'). Qed.
Print Assumptions C83_global_balance.

(** A well-formed configuration that does not ask for calibration starts such a simulation. *)
Theorem C83_configuration :
  forall files junk ls ts types gs psi dt fres max rows,
    good_config files ls ts types gs psi dt fres max rows -> ~ In "calib_params=true"%string ls ->
    exists s0 M qs, @Initialize exact files junk ls = Ok s0 /\ layered M qs s0 /\ fresh s0 /\ map pt_z qs = map value ts /\
      forall (cfg : Cfg) ys s, @journey cfg s0 ys s -> layered M qs s /\ Forall (fun y => exists u, balanced_step M u (fst y) (snd y)) ys.
Proof.
  intros files junk ls ts types gs psi dt fres max rows G C. destruct (layered_start files junk ls ts types gs psi dt fres max rows G C) as (s & M & qs & I & L & F & E & _).
  exists s, M, qs. do 4 (split; [assumption|]). intros cfg ys s'. exact (C83_simulation cfg M qs s ys s' L).
Qed.
Print Assumptions C83_configuration.

(** The saturated column of two layers: one Update of one sub-step. *)
Example C83_concrete : forall cfg : Cfg, layered 1 bk_column tw_start /\ fresh tw_start /\ set_out 1 bk_column tw_upar tw_start tw_acc0 /\
  @substep exact cfg tw_upar tw_start tw_acc0 = Ok (tw_next, tw_acc0) /\ @undisturbed cfg tw_upar tw_x /\ @off_by cfg tw_upar tw_start tw_acc0 tw_off /\ tw_off + 1 / 1000000000000 <= 1 / 10000 /\
  exists s, @executed exact cfg tw_start tw_upar [tw_x] s /\ @journey cfg tw_start [(tw_x, tw_off)] s.
Proof.
  intro cfg. destruct tw_layered as [A B]. destruct (@tw_good cfg) as [C D]. split; [exact A|]. split; [exact B|]. split.
  - split; [exact ti_layers|]. split; [reflexivity|]. split; [exact ti_orderly|]. split; [exact (ly_capillary _ _ _ A)|]. split; [exists 1; split; [reflexivity|lra]|].
    split; [exists 0; split; [reflexivity|lra]|]. split; [eexists; reflexivity|]. split; [exists 0; split; [reflexivity|lra]|]. change (Fin 40 = Fin (storage tw_head)). f_equal. cbn. lra.
  - split; [exact tw_substep|]. split; [exact C|]. split; [exact D|]. split; [|exact tw_journey]. unfold tw_off. rewrite Rabs_R0. rewrite Rmax_right by lra. lra.
Qed.

(** A column of two layers in which a wetting front moves from 20 to 24 cm in one sub-step of four hours, with 2.4 mm of rain. *)
Example C83_concrete_rain : forall cfg : Cfg, layered 1 bk_column ra_start /\ fresh ra_start /\ set_out 1 bk_column ra_upar ra_start ra_acc /\
  @off_by cfg ra_upar ra_start ra_acc ra_off /\ @off_by cfg ra_upar ra_start ra_acc ra_off_wet /\ ra_off + 1 / 1000000000000 <= 1 / 10000 /\
  (exists b, at_step (@sub_hydro exact cfg) ra_upar ra_start ra_acc = Ok b) /\
  (exists v s, @substep exact cfg ra_upar ra_start ra_acc = Ok (ra_next v, ra_acc') /\ @undisturbed cfg ra_upar (ra_x v) /\ @executed exact cfg ra_start ra_upar [ra_x v] s /\
    @journey cfg ra_start [(ra_x v, ra_off)] s) /\
  (forall v, map f_depth (st_head (ra_next v)) = [Fin 24; Fin 25; Fin 100] /\ storage (st_head (ra_next v)) = storage (st_head ra_start) + 6 / 25).
Proof.
  intro cfg. destruct ra_layered as [A B]. split; [exact A|]. split; [exact B|]. split.
  { split; [exact ti_layers|]. split; [reflexivity|]. split; [exact bk_orderly|]. split; [exact (ly_capillary _ _ _ A)|]. split; [exists 4; split; [reflexivity|lra]|].
    split; [exists 0; split; [reflexivity|lra]|]. split; [eexists; reflexivity|]. split; [exists 0; split; [reflexivity|lra]|]. reflexivity. }
  split; [exact ra_gap|]. split; [exact ra_wet|]. split; [unfold ra_off; rewrite Rabs_R0, Rmax_right by lra; lra|]. split.
  { rewrite ra_at. destruct (@ra_hydro cfg (Fin 0)) as (v & E). eexists. exact E. }
  split.
  - destruct (@ra_update cfg) as (v & s & E & X). exists v, s. split; [exact E|]. split; [exact (ra_undisturbed v)|]. split; [exact X|].
    change [(ra_x v, ra_off)] with ([] ++ [(ra_x v, ra_off)]).
    apply (jr_update ra_start [] ra_start ra_upar [(ra_x v, ra_off)] s); [apply jr_start|exact X|]. apply Forall_cons; [exact (conj (ra_undisturbed v) ra_gap)|apply Forall_nil].
  - intro v. split; [reflexivity|]. change (storage (ra_head v) = storage bk_head + 6 / 25). unfold storage, slabs. cbn. lra.
Qed.

(** The first configuration of the repository, of three layers, does not ask for calibration. *)
Example C83_phillipsburg : good_config repository' phillipsburg (map num ["44.0"; "131.0"; "25.0"]%string) (map num ["13"; "14"; "15"]%string)
  (map num ["0.06"; "0.51"; "0.28"; "0.12"; "0.03"]%string) (num "2000.0") (1 / 12) 1 15 seen /\ ~ In "calib_params=true"%string phillipsburg.
Proof. split; [exact phillipsburg_good|]. cbn. intro H. repeat (destruct H as [H|H]; [discriminate H|]). exact H. Qed.
