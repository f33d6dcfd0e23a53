(** C84: columns of several layers in dry weather. *)

From Coq Require Import String Reals Lra ZArith List Lia Bool.
From Verif Require Import Outcome Dbl Exact Types ListOps Soil Fronts Infil Move State Update Config Bmi Spec_Common Spec_Soil Spec_List Spec_Profile Spec_Storage Spec_Update Spec_Column Spec_Config
  Spec_Velocity Spec_Advance Spec_Balance Spec_Shares Spec_Physical Spec_Motion Spec_Upright Spec_Layered Spec_Rest Pf_Layered Pf_Layered2 Pf_Rest2 Pf_Rest3 Pf_Rest4
  Ex_Saturated Ex_Safety Ex_TwoLayers Ex_Velocity Ex_Advance Ex_Books Ex_Config Ex_Layered Ex_Rest.
Import ListNotations.
Open Scope R_scope.
Local Existing Instance exact.

(** ** C84 *)

(** A sub-step without rain or ponded water, from a column with one resting front per layer, all at the head [h]: it is not disturbed, so C83 accounts for its water; the column stays of
    this form, at a head that is no lower; nothing infiltrates or runs off, and nothing is left on the surface. *)
Theorem C84_substep :
  forall (cfg : Cfg) (M : R) (qs : list part) (u : upar) (s : state) (a : acc) (h : R) (s' : state) (a' : acc),
    set_out M qs u s a -> hydrostatic qs h (st_head s) -> dry s -> a_on a = Fin 0 -> rooting (u_wilting u) (u_fc u) -> @substep exact cfg u s a = Ok (s', a') ->
    exists h' B, @rest_step cfg qs h h' u (mkStep s a s' a') B /\ @undisturbed cfg u (mkStep s a s' a') /\ @off_by cfg u s a B /\ balanced_step M u (mkStep s a s' a') B /\
      set_out M qs u s' a' /\ dry s'.
Proof.
  intros cfg M qs u s a h s' a' (HL & EE & HO & HC & (dt & Ed & Hd) & (pm & Em & Hm) & _ & _ & Ee) HH ((p & Ep & Hp) & (pet & Epet)) Eo HR X.
  assert (P : placed (u_env u) M u s a p 0 dt pm). { split; [reflexivity|]. do 9 (split; [assumption|]). split; [lra|assumption]. }
  destruct (rest_substep (u_env u) M qs HL u s a p dt pm pet h P Hp Epet HR HH) as [T _]. rewrite X in T. destruct T as (h' & B & RS & UD & OB & Epet').
  exists h', B. split; [exact RS|]. split; [exact UD|]. split; [exact OB|].
  destruct (placed_step (u_env u) M qs HL u s a p 0 dt pm B s' a' P X UD OB) as (Q & on' & _ & P2 & P3 & P4 & P5 & P6 & P7 & P8 & P9 & P10 & P11 & P12). split; [exact Q|].
  split; [|split; [eexists; split; [exact P9|rewrite Rmax_right; lra]|eexists; exact Epet']].
  split; [exact HL|]. split; [exact P2|]. split; [exact P8|]. split; [exact P7|]. split; [eauto|]. split; [eauto|]. split; [eexists; exact P9|]. split; [eauto|exact P12].
Qed.
Print Assumptions C84_substep.

(** As long as the column holds water, such a sub-step ends, unless the iteration for the water contents never ends or the program's own check of the water balance stops it: no assertion
    fails and there is no undefined behaviour. *)
Theorem C84_stops :
  forall (cfg : Cfg) (M : R) (qs : list part) (u : upar) (s : state) (a : acc) (h : R) (why : reason),
    set_out M qs u s a -> hydrostatic qs h (st_head s) -> dry s -> a_on a = Fin 0 -> rooting (u_wilting u) (u_fc u) -> 0 < column_water qs h -> @substep exact cfg u s a = Stop why ->
    why = OutOfFuel \/ why = Abort.
Proof.
  intros cfg M qs u s a h why (HL & EE & HO & HC & (dt & Ed & Hd) & (pm & Em & Hm) & _ & _ & Ee) HH ((p & Ep & Hp) & (pet & Epet)) Eo HR HW X.
  assert (P : placed (u_env u) M u s a p 0 dt pm). { split; [reflexivity|]. do 9 (split; [assumption|]). split; [lra|assumption]. }
  destruct (rest_substep (u_env u) M qs HL u s a p dt pm pet h P Hp Epet HR HH) as [T _]. rewrite X in T. destruct T as [T|[T|[_ T]]]; [left; exact T|right; exact T|lra].
Qed.
Print Assumptions C84_stops.

(** Without evaporative demand it always ends, and nothing happens: the column stays at the same head, no water moves or leaves, and the water balance is exact. *)
Theorem C84_no_demand :
  forall (cfg : Cfg) (M : R) (qs : list part) (u : upar) (s : state) (a : acc) (h : R),
    set_out M qs u s a -> hydrostatic qs h (st_head s) -> dry s -> no_demand s -> a_on a = Fin 0 -> rooting (u_wilting u) (u_fc u) -> 0 < column_water qs h ->
    exists s' a', @substep exact cfg u s a = Ok (s', a') /\ hydrostatic qs h (st_head s') /\
      a_aet a' = (a_aet a + Fin 0)%d /\ a_rech a' = (a_rech a + Fin 0)%d /\ a_in a' = (a_in a + Fin 0)%d /\ a_runoff a' = (a_runoff a + Fin 0)%d /\ a_on a' = Fin 0 /\
      a_end a' = a_end a /\ residual (mkStep s a s' a') = Fin 0.
Proof.
  intros cfg M qs u s a h (HL & EE & HO & HC & (dt & Ed & Hd) & (pm & Em & Hm) & _ & _ & Ee) HH ((p & Ep & Hp) & _) (pet & Epet & Hpet) Eo HR HW.
  assert (P : placed (u_env u) M u s a p 0 dt pm). { split; [reflexivity|]. do 9 (split; [assumption|]). split; [lra|assumption]. }
  exact (proj2 (rest_substep (u_env u) M qs HL u s a p dt pm pet h P Hp Epet HR HH) Hpet HW).
Qed.
Print Assumptions C84_no_demand.

(** A column whose soils have no negative residual water content holds water at every head. *)
Theorem C84_holds_water :
  forall (e : env) (qs : list part) (h : R), strata e qs -> 0 <= h -> Forall (fun q => 0 <= pt_r q) qs -> 0 < column_water qs h.
Proof. intros e qs h. exact (water_positive qs e h). Qed.
Print Assumptions C84_holds_water.

(** A dry simulation, of any length: every Update and every user edit without rain.  All its sub-steps are undisturbed and of the form above, the head never falls, and at the end the
    column has again one resting front per layer and no water on the surface. *)
Theorem C84_dry_simulation :
  forall (cfg : Cfg) (M : R) (qs : list part) (s0 : state) (xs : list step) (s : state) (h : R),
    layered M qs s0 -> resting qs h s0 -> dry s0 -> @history exact cfg dry s0 xs s ->
    exists ys h', map fst ys = xs /\ @journey cfg s0 ys s /\ Forall (fun y => exists u h1 h2, h <= h1 /\ @rest_step cfg qs h1 h2 u (fst y) (snd y)) ys /\
      h <= h' /\ layered M qs s /\ resting qs h' s /\ dry s.
Proof. intros cfg M qs s0 xs s h. exact (history_rest M qs s0 xs s h). Qed.
Print Assumptions C84_dry_simulation.

(** After its last Update the global balance that the program prints is bounded by the tolerance of the iteration and twice the demand that the sub-steps drop. *)
Theorem C84_global_balance :
  forall (cfg : Cfg) (M : R) (qs : list part) (s0 : state) (xs : list step) (s : state) (u : upar) (zs : list step) (s' : state) (h : R),
    layered M qs s0 -> fresh s0 -> resting qs h s0 -> dry s0 -> @history exact cfg dry s0 xs s -> @executed exact cfg s u zs s' ->
    exists ys g, map fst ys = xs ++ zs /\ Forall (fun y => exists u h1 h2, h <= h1 /\ @rest_step cfg qs h1 h2 u (fst y) (snd y)) ys /\
      global_error (st_mb s') = Fin g /\ Rabs g <= Rsum (map (fun y => snd y + 2 / 1000000000000) ys).
Proof.
  intros cfg M qs s0 xs s u zs s' h HL HF HR HD H X.
  destruct (history_rest M qs s0 xs s h HL HR HD H) as (ys & h1 & I1 & I2 & I3 & I4 & I5 & I6 & I7).
  destruct (executed_rest M qs s u zs s' h1 I5 I6 I7 X) as (ws & h2 & J1 & [J2 J3] & J4 & _).
  rewrite <- J1 in X. destruct (layered_balance M qs s0 ys s u ws s' HL HF I2 X J2) as (g & G1 & G2).
  exists (ys ++ ws), g. split; [rewrite map_app; congruence|]. split; [|split; [exact G1|exact G2]].
  apply Forall_app. split; [exact I3|]. eapply Forall_impl; [|exact J3]. intros y (v & k1 & k2 & A & B). exists v, k1, k2. split; [lra|exact B].
Qed.
Print Assumptions C84_global_balance.

(** A simulation without rain and without evaporative demand leaves the column as it was, however long it is. *)
Theorem C84_still :
  forall (cfg : Cfg) (M : R) (qs : list part) (s0 : state) (xs : list step) (s : state) (h : R),
    layered M qs s0 -> resting qs h s0 -> dry s0 -> no_demand s0 -> 0 < column_water qs h -> @history exact cfg (fun s => dry s /\ no_demand s) s0 xs s -> resting qs h s /\ layered M qs s.
Proof. intros cfg M qs s0 xs s h A B C D E F. destruct (history_still M qs s0 xs s h A B C D E F) as (X & Y & _). exact (conj Y X). Qed.
Print Assumptions C84_still.

(** Every well-formed configuration that does not ask for calibration starts at rest, at its initial head. *)
Theorem C84_configuration :
  forall files junk ls ts types gs psi dt fres max rows,
    good_config files ls ts types gs psi dt fres max rows -> ~ In "calib_params=true"%string ls -> rooting_lines ls ->
    exists s0 M qs, @Initialize exact files junk ls = Ok s0 /\ layered M qs s0 /\ fresh s0 /\ map pt_z qs = map value ts /\ resting qs (value psi) s0 /\ dry s0 /\
      forall (cfg : Cfg) xs s, @history exact cfg dry s0 xs s -> exists h', value psi <= h' /\ resting qs h' s.
Proof.
  intros files junk ls ts types gs psi dt fres max rows G C R. destruct (resting_start files junk ls ts types gs psi dt fres max rows G C R) as (s & M & qs & I & L & F & E & H & D & _).
  exists s, M, qs. do 6 (split; [assumption|]). intros cfg xs s' X. destruct (history_rest M qs s xs s' (value psi) L H D X) as (ys & h' & _ & _ & _ & A & _ & B & _). exists h'. exact (conj A B).
Qed.
Print Assumptions C84_configuration.

(** Layers of 25 and 75 cm at a head of 75 cm, with any demand. *)
Example C84_concrete : forall pet, set_out 1 bk_column tw_upar (hy_start pet) hy_acc /\ hydrostatic bk_column 75 (st_head (hy_start pet)) /\ dry (hy_start pet) /\ a_on hy_acc = Fin 0 /\
  rooting (u_wilting tw_upar) (u_fc tw_upar) /\ 0 < column_water bk_column 75 /\ (pet <= 0 -> no_demand (hy_start pet)).
Proof.
  intro pet. split.
  - split; [exact ti_layers|]. split; [reflexivity|]. split; [exact hy_orderly|]. split; [exact ve_capillary|]. split; [exists 1; split; [reflexivity|lra]|].
    split; [exists 0; split; [reflexivity|lra]|]. split; [eexists; reflexivity|]. split; [exists 0; split; [reflexivity|lra]|]. change (Fin 34 = Fin (storage hy_head)). rewrite hy_storage. reflexivity.
  - split; [exact hy_hydrostatic|]. split; [exact (hy_dry pet)|]. split; [reflexivity|]. split; [exact hy_rooting|]. split; [rewrite hy_water; lra|]. intro H. exists pet. split; [reflexivity|exact H].
Qed.

(** The saturated column: one Update of one sub-step, without demand. *)
Example C84_concrete_simulation : forall cfg : Cfg, layered 1 bk_column tw_start /\ fresh tw_start /\ resting bk_column 0 tw_start /\ dry tw_start /\ no_demand tw_start /\ 0 < column_water bk_column 0 /\
  strata ti_env bk_column /\ Forall (fun q => 0 <= pt_r q) bk_column /\
  exists s, @history exact cfg dry tw_start [tw_x] s /\ @history exact cfg (fun s => dry s /\ no_demand s) tw_start [tw_x] s /\ @executed exact cfg tw_start tw_upar [tw_x] s.
Proof.
  intro cfg. destruct tw_layered as [A B]. destruct tw_resting as (C & D & E). do 5 (split; [assumption|]). split; [rewrite tw_water; lra|]. split; [exact bk_strata|].
  split; [repeat (apply Forall_cons || apply Forall_nil); cbn; lra|]. destruct (@tw_update cfg) as (s & _ & _ & X). exists s.
  split; [|split; [|exact X]]; change [tw_x] with ([] ++ [tw_x]); exact (hist_update _ _ _ _ _ _ _ (hist_start _ _) X).
Qed.

(** The first configuration of the repository, of three layers. *)
Example C84_phillipsburg : good_config repository' phillipsburg (map num ["44.0"; "131.0"; "25.0"]%string) (map num ["13"; "14"; "15"]%string)
  (map num ["0.06"; "0.51"; "0.28"; "0.12"; "0.03"]%string) (num "2000.0") (1 / 12) 1 15 seen /\ ~ In "calib_params=true"%string phillipsburg /\ rooting_lines phillipsburg.
Proof. split; [exact phillipsburg_good|]. split; [|exact phillipsburg_rooting]. cbn. intro H. repeat (destruct H as [H|H]; [discriminate H|]). exact H. Qed.
