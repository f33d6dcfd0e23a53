(** Simulations of columns of several layers (exact arithmetic). *)

From Coq Require Import Reals Lra ZArith List Bool Lia.
From RecordUpdate Require Import RecordSet.
From Verif Require Import Outcome Dbl Exact Types ListOps Soil Fronts Infil Move State Update Lib Spec_Common Spec_Soil Spec_List Spec_Update Spec_Profile Spec_Storage Spec_Velocity Spec_Column Spec_Advance Spec_Balance Spec_Shares
  Spec_Physical Spec_Meet Spec_Motion Spec_Upright Spec_Layered Pf_Dbl Pf_Pow Pf_Single Pf_Soil Pf_SoilAny Pf_Update Pf_Profile Pf_Structure Pf_Storage Pf_SubSingle Pf_Surface Pf_Physical Pf_Level Pf_Shares Pf_Ledger Pf_Motion Pf_Motion2 Pf_OneLayer Pf_Layered.
Import ListNotations RecordSetNotations.
Open Scope R_scope.

Section Run.
Local Existing Instance exact.
Context {cfg : Cfg}.
Variables (M : R) (qs : list part).

(** Sub-steps of one Update. *)
Lemma runs_layered : forall u s a xs s' a' e, layers M qs e -> runs u s a xs s' a' -> forall ys p on dt pm, xs = map fst ys -> Forall (fun y => undisturbed u (fst y) /\ off_by u (x_s (fst y)) (x_a (fst y)) (snd y)) ys ->
  placed e M u s a p on dt pm ->
  (exists p' on', placed e M u s' a' p' on' dt pm) /\ Forall (fun y => balanced_step M u (fst y) (snd y)) ys /\ same_settings (st_p s') (st_p s) /\ st_soils s' = st_soils s.
Proof.
  intros u s a xs s' a' e HL H. induction H as [s a|s a s1 a1 xs s2 a2 E H IH]; intros ys p on dt pm Ey HY PL.
  - destruct ys; [|discriminate]. split; [exists p, on; exact PL|]. split; [constructor|]. split; [repeat split|reflexivity].
  - destruct ys as [|[y B] ys]; [discriminate|]. cbn [map fst] in Ey. injection Ey as E1 E2. subst y. apply Forall_cons_iff in HY as [[Y1 Y2] HY]. cbn [fst snd x_s x_a] in Y1, Y2.
    destruct (placed_step e M qs HL u s a p on dt pm B s1 a1 PL E Y1 Y2) as (B1 & on' & P1). destruct (IH ys (Rmax p 0) on' dt pm E2 HY P1) as (I1 & I2 & I3 & I4).
    destruct (substep_inv _ _ _ _ _ E) as (v1 & b & v2 & mbl & p1 & p2 & p3 & p4 & _ & _ & _ & _ & _ & _ & _ & _ & _ & J & _).
    split; [exact I1|]. split; [constructor; [exact B1|exact I2]|]. subst s1. split; [|exact I4].
    unfold same_settings in *. decompose [and] I3. repeat split; assumption.
Qed.

(** Frozen soil only changes the conductivity factors. *)
Lemma layers_frozen : forall e fr, layers M qs e -> length fr = length (e_frozen e) -> (forall k, (1 <= k <= e_nlayers e)%Z -> exists x, aget fr k = Ok (Fin x) /\ 0 < x <= 1) ->
  layers M qs (mkEnv (e_nlayers e) (e_cum e) (e_stype e) (e_soils e) fr).
Proof.
  intros e fr [H1 H2 H3 H4 H5 H6] Len Hf. set (e' := mkEnv (e_nlayers e) (e_cum e) (e_stype e) (e_soils e) fr).
  assert (ST : strata e' qs).
  { destruct H6 as (Q1 & Q2 & ss & [C1 C2 C3 C4 C5] & Q3). split; [exact Q1|]. split; [exact Q2|]. exists ss. split; [|exact Q3]. constructor; try assumption. cbn [e' e_frozen]. rewrite Len. exact C5. }
  constructor; [exact (strata_env e' qs ST)|exact H2|exact H3| | |exact ST].
  - intros k Hk. destruct (Hf k Hk) as (x & Ex & Hx). exists x. split; [exact Ex|lra].
  - intros k Hk. destruct (Hf k Hk) as (x & Ex & Hx). exists x. split; [exact Ex|lra].
Qed.
Lemma orderly_frozen : forall e fr l, orderly M e l -> orderly M (mkEnv (e_nlayers e) (e_cum e) (e_stype e) (e_soils e) fr) l.
Proof.
  intros e fr l [H1 H2 H3 H4 H5 H6 H7]. constructor; try assumption. eapply Forall_impl; [|exact H3]. intros f [A B C]. constructor; assumption.
Qed.

Lemma prologue_layered : forall s s1 v, layered M qs s -> update_prologue s = Ok (s1, v) -> layered M qs s1 /\ v = Fin 0.
Proof.
  intros s s1 v H E. unfold update_prologue in E. bind_inv E p Ep. cbv zeta in E.
  assert (Hp : p = st_p s \/ exists fr, p = (st_p s) <| p_frozen := fr |> /\ frozen_factor (p_nlayers (st_p s)) (p_cum (st_p s)) (p_soilTz (st_p s)) (p_soilT (st_p s)) (p_ncells (st_p s)) (p_frozen (st_p s)) = Ok fr).
  { destruct (p_sft (st_p s)); [bind_inv Ep fr Efr|]; apply Ok_inj in Ep; eauto. }
  assert (Hc : p_calib p = false) by (pose proof (ly_calib _ _ _ H) as C; destruct Hp as [-> | (fr & -> & _)]; exact C). rewrite Hc in E. apply Ok_inj, pair_equal_spec in E as [<- <-]. split; [|reflexivity].
  destruct H as [H1 H2 H3 H4 H5 H6 H7 H8 H9]. destruct Hp as [-> | (fr & -> & Efr)]; [constructor; assumption|].
  destruct (frozen_factor_range _ _ _ _ _ _ _ Efr) as (Len & G & _).
  constructor; try assumption.
  - apply (layers_frozen (env_of s) fr H3 Len). intros k Hk. destruct (G k Hk) as (x & Ex & L & U).
    destruct x as [x| | |]; try discriminate. exists x. split; [exact Ex|]. change (lit (5 / 100)) with (Fin (5 / 100)) in L. apply Rleb_true in L. apply Rleb_true in U. lra.
  - exact (orderly_frozen (env_of s) fr _ H4).
Qed.

Lemma steps_layered : forall s s2 dt n, layered M qs s -> update_steps s = Ok (s2, dt, n) -> layered M qs s2 /\ exists d, dt = Fin d /\ 0 < d.
Proof.
  intros s s2 dt n H E. destruct (steps_inv _ _ _ _ E) as (Edt & _ & ->). destruct H as [H1 H2 H3 H4 H5 H6 H7 H8 H9].
  destruct H7 as (d & m & fr & T1 & T2 & T3 & T4 & T5 & T6).
  assert (Hd : exists x, dt = Fin x /\ 0 < x).
  { subst dt. destruct (p_adaptive (st_p s)); [|eauto]. unfold adaptive_step. rewrite T2, T3. change (Fin m * lit 2)%d with (Fin (m * 2)).
    assert (K : forall x, 0 < x -> exists y, dfmin (Fin x) (Fin fr) = Fin y /\ 0 < y).
    { intros x Hx. rewrite fmin_fin. exists (Rmin x fr). split; [reflexivity|]. apply Rmin_glb_lt; assumption. }
    destruct (_ || _)%bool; [apply K; assumption|]. destruct (_ >? _)%d; apply K; lra. }
  clear Edt. destruct Hd as (x & -> & Hx). split; [|exists x; auto].
  constructor; try assumption. exists x, m, fr. repeat split; assumption.
Qed.

Lemma executed_layered : forall s u ys s', layered M qs s -> executed s u (map fst ys) s' -> Forall (fun y => undisturbed u (fst y) /\ off_by u (x_s (fst y)) (x_a (fst y)) (snd y)) ys ->
  layered M qs s' /\ Forall (fun y => balanced_step M u (fst y) (snd y)) ys /\ mb_calib (st_mb s') = (mb_calib (st_mb s) + Fin 0)%d.
Proof.
  intros s u ys s' H [E HX] HY. rewrite (ly_valid _ _ _ H) in HX. destruct HX as (s1 & vcal & volend & s2 & n & s3 & a & E1 & E2 & E3 & E4 & E5 & _ & E6).
  destruct (prologue_inv _ _ _ E1) as (M1 & _). destruct (prologue_layered _ _ _ H E1) as [H1 ->]. destruct (steps_layered _ _ _ _ H1 E3) as [H2 (d & Ed & Hd)].
  destruct (steps_inv _ _ _ _ E3) as (_ & _ & E7).
  assert (Q : st_head s2 = st_head s1 /\ p_cum (st_p s2) = p_cum (st_p s1)) by (rewrite E7; split; reflexivity). destruct Q as [Q1 Q2].
  assert (EU : u_env u = env_of s2) by (rewrite E4; reflexivity).
  destruct (ly_pond _ _ _ H2) as (pm & Epm & Hpm). destruct (ly_on _ _ _ H2) as (on & Eon & Hon). destruct (ly_rain _ _ _ H2) as (p & Ep). pose proof (ly_layers _ _ _ H2) as HL. pose proof (ly_fronts _ _ _ H2) as O.
  assert (PL : placed (env_of s2) M u s2 (acc0 volend (mb_on_ts (st_mb s2))) p on d pm).
  { unfold placed. split; [exact EU|]. split; [reflexivity|]. split; [rewrite E4; exact Epm|]. split; [exact Hpm|]. split; [exact Ed|]. split; [exact Hd|].
    split; [rewrite E4; exact (ly_capillary _ _ _ H2)|]. split; [exact O|]. split; [exact Ep|]. cbn [acc0 a_on a_end]. split; [exact Eon|]. split; [exact Hon|].
    pose proof (mass_of (env_of s2) (la_env _ _ _ HL) (top_zero _ _ _ HL) _ (orderly_str _ M qs HL _ O) (orderly_measured _ M qs HL _ O)) as K.
    change (e_cum (env_of s2)) with (p_cum (st_p s2)) in K. rewrite Q1, Q2 in K. rewrite K in E2. apply Ok_inj in E2. rewrite Q1. symmetry. exact E2. }
  destruct (runs_layered u s2 _ _ s3 a (env_of s2) HL E5 ys p on d pm eq_refl HY PL) as ((p' & on' & PL3) & R2 & R3 & R4).
  split; [|split; [exact R2|]].
  - destruct PL3 as (_ & Es3 & _ & _ & _ & _ & _ & O3 & Ep3 & Eon3 & Hon3 & _).
    destruct (finish_inv _ _ _ _ E6) as (g & q & mbl & Eg & _ & ->). rewrite <- Es3 in O3, HL.
    destruct H2 as [G1 G2 G3 G4 G5 G6 G7 G8 G9]. unfold same_settings in R3. destruct R3 as (K1 & K2 & K3 & K4 & K5 & K6 & K7 & K8 & K9 & K10 & K11 & K12 & K13 & K14).
    constructor.
    + etransitivity; [exact K1|exact G1].
    + etransitivity; [exact K2|exact G2].
    + exact HL.
    + exact O3.
    + rewrite <- K7, <- K8, <- Es3 in G5. exact G5.
    + destruct G6 as (pm' & F1 & F2). exists pm'. split; [etransitivity; [exact K9|exact F1]|exact F2].
    + destruct G7 as (x & m & fr & F1 & F2 & F3 & F4). exists x, m, fr. split; [etransitivity; [exact K12|exact F1]|]. split; [etransitivity; [exact K13|exact F2]|]. split; [etransitivity; [exact K14|exact F3]|exact F4].
    + exists on'. split; [exact Eon3|exact Hon3].
    + exists p'. exact Ep3.
  - destruct (finish_inv _ _ _ _ E6) as (g & q & mbl & _ & _ & ->). change (mb_calib (st_mb s3) + Fin 0 = mb_calib (st_mb s) + Fin 0)%d. f_equal.
    assert (W : forall u s a xs s' a', runs u s a xs s' a' -> mb_calib (st_mb s') = mb_calib (st_mb s)).
    { clear. intros u s a xs s' a' H. apply (runs_ind_inv (fun s' _ => mb_calib (st_mb s') = mb_calib (st_mb s)) u) in H; auto. intros s1 a1 s2 a2 HI E.
      destruct (substep_inv _ _ _ _ _ E) as (v1 & b & v2 & mbl & p1 & p2 & p3 & p4 & _ & _ & _ & _ & _ & _ & _ & _ & _ & -> & _). exact HI. }
    rewrite (W _ _ _ _ _ _ E5), <- M1. rewrite E7. reflexivity.
Qed.

Lemma edit_layered : forall s s', layered M qs s -> user_edit s s' -> finite (st_precip s') -> layered M qs s'.
Proof.
  intros s s' [H1 H2 H3 H4 H5 H6 H7 H8 H9] (pr & pet & T & cal & out & nf & tw & dw & ->) F. constructor; assumption.
Qed.

Lemma journey_layered : forall s0 ys s, layered M qs s0 -> journey s0 ys s ->
  layered M qs s /\ Forall (fun y => exists u, balanced_step M u (fst y) (snd y)) ys /\ history (fun s => finite (st_precip s)) s0 (map fst ys) s /\ (mb_calib (st_mb s0) = Fin 0 -> mb_calib (st_mb s) = Fin 0).
Proof.
  intros s0 ys s H0 H. induction H as [|ys s s' H IH E F|ys s u zs s' H IH E HY].
  - split; [exact H0|]. split; [constructor|]. split; [constructor|auto].
  - destruct IH as (I1 & I2 & I3 & I4). split; [exact (edit_layered _ _ I1 E F)|]. split; [exact I2|]. split; [econstructor; eassumption|].
    intro Z. destruct E as (pr & pet & T & cal & out & nf & tw & dw & ->). exact (I4 Z).
  - destruct IH as (I1 & I2 & I3 & I4). destruct (executed_layered _ _ _ _ I1 E HY) as (J1 & J2 & J3). split; [exact J1|]. split; [|split].
    + apply Forall_app. split; [exact I2|]. eapply Forall_impl; [|exact J2]. intros y Hy. exists u. exact Hy.
    + rewrite map_app. econstructor; eassumption.
    + intro Z. rewrite J3, (I4 Z). cbn. f_equal. lra.
Qed.

Lemma layered_sum : forall ys, Forall (fun y : step * R => exists u, balanced_step M u (fst y) (snd y)) ys ->
  Rabs (Rsum (map (fun x => val (residual x)) (map fst ys)) + Rsum (map (fun x => dropped (val (ponded_before x))) (map fst ys))) <= Rsum (map (fun y => snd y + 2 / 1000000000000) ys).
Proof.
  intros ys H. induction H as [|[x C] ys (u & _ & dt & p & on & vin & ro & on' & av & q & m & _ & _ & _ & Eon & Hon & _ & _ & _ & _ & _ & _ & _ & _ & _ & Em & Hm) _ IH]; cbn [map Rsum fst snd] in *; [rewrite Rplus_0_r, Rabs_R0; lra|].
  rewrite Em, Eon. cbn [val]. set (A := Rsum (map (fun x => val (residual x)) (map fst ys))) in *. set (B := Rsum (map (fun x => dropped (val (ponded_before x))) (map fst ys))) in *.
  assert (Hd : 0 <= dropped on <= 1 / 1000000000000) by (unfold dropped; destruct (Rle_dec on (1 / 1000000000000)); lra).
  replace (m + A + (dropped on + B)) with (m + dropped on + (A + B)) by ring. eapply Rle_trans; [apply Rabs_triang|]. apply Rplus_le_compat; [|exact IH].
  eapply Rle_trans; [apply Rabs_triang|]. rewrite (Rabs_right (dropped on)) by lra. lra.
Qed.

Theorem layered_balance : forall s0 ys s u zs s', layered M qs s0 -> fresh s0 -> journey s0 ys s -> executed s u (map fst zs) s' ->
  Forall (fun y => undisturbed u (fst y) /\ off_by u (x_s (fst y)) (x_a (fst y)) (snd y)) zs ->
  exists g, global_error (st_mb s') = Fin g /\ Rabs g <= Rsum (map (fun y => snd y + 2 / 1000000000000) (ys ++ zs)).
Proof.
  intros s0 ys s u zs s' H0 HF H E HY. destruct (journey_layered _ _ _ H0 H) as (I1 & I2 & I3 & I4). destruct (executed_layered _ _ _ _ I1 E HY) as (J1 & J2 & J3).
  assert (A : Forall (fun y : step * R => exists u, balanced_step M u (fst y) (snd y)) (ys ++ zs)).
  { apply Forall_app. split; [exact I2|]. eapply Forall_impl; [|exact J2]. intros y Hy. exists u. exact Hy. }
  assert (Z : mb_calib (st_mb s0) = Fin 0) by (destruct HF as (_ & _ & _ & _ & _ & Z & _); exact Z).
  eexists. split; [|exact (layered_sum _ A)]. rewrite map_app. eapply (history_global (fun s => finite (st_precip s)) s0 (map fst ys) s u (map fst zs) s' HF (ly_valid _ _ _ H0) I3 E).
  - rewrite <- map_app. apply Forall_map. eapply Forall_impl; [|exact A]. intros y (u' & _ & dt & p & on & vin & ro & on' & av & q & m & _ & _ & _ & _ & _ & _ & _ & _ & _ & _ & _ & _ & _ & _ & Em & _). exists m. exact Em.
  - rewrite J3, (I4 Z). eexists. reflexivity.
Qed.
End Run.
