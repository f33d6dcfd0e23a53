(** Proofs about simulations of a column of one soil layer. *)

From Coq Require Import Reals Lra ZArith List Lia Bool.
From RecordUpdate Require Import RecordSet.
From Verif Require Import Outcome Dbl Exact Types ListOps Soil Giuh Fronts Infil Move State Update Lib Spec_Common Spec_List Spec_Soil Spec_Update Spec_Profile Spec_Storage Spec_Velocity Spec_Single Spec_SubSingle Spec_OneLayer
  Pf_Dbl Pf_SoilAny Pf_Update Pf_Ledger Pf_Signs Pf_SafeUpdate Pf_Single Pf_SingleMerge Pf_SubSingle.
Import ListNotations.
Import RecordSetNotations.
Open Scope R_scope.

Section Run.
Local Existing Instance exact.
Context {cfg : Cfg}.

(** A sub-step leaves the parameters alone except for the clock and the rain. *)
Definition same_settings (p q : params) : Prop :=
  p_invalid p = p_invalid q /\ p_calib p = p_calib q /\ p_nlayers p = p_nlayers q /\ p_cum p = p_cum q /\ p_stype p = p_stype q /\
  p_frozen p = p_frozen q /\ p_closed p = p_closed q /\ p_nint p = p_nint q /\ p_pmax p = p_pmax q /\ p_wilting p = p_wilting q /\
  p_fc p = p_fc q /\ p_timestep p = p_timestep q /\ p_mints p = p_mints q /\ p_fres p = p_fres q.

(** The totals of an Update are numbers. *)
Definition counted (a : acc) : Prop := Forall finite [a_precip a; a_pet a; a_aet a; a_end a; a_in a; a_on a; a_runoff a; a_rech a].
Lemma fin_add : forall x y, finite x -> finite y -> finite (x + y)%d.
Proof. intros x y (p & ->) (q & ->). eexists. reflexivity. Qed.
Lemma fin_mul : forall x y, finite x -> finite y -> finite (x * y)%d.
Proof. intros x y (p & ->) (q & ->). eexists. reflexivity. Qed.
Lemma fin_Fin : forall x, finite (Fin x).
Proof. intro x. exists x. reflexivity. Qed.

Lemma giuh_fin : forall r N ord q o q', finite r -> Forall finite ord -> Forall finite q ->
  giuh_convolution_integral r N ord q = Ok (o, q') -> finite o /\ Forall finite q'.
Proof.
  intros r N ord q o q' Hr Ho Hq H. unfold giuh_convolution_integral in H.
  bind_inv H q1 Eq1. bind_inv H q2 Eq2. bind_inv H now Enow. bind_inv H q3 Eq3. bind_inv H q4 Eq4. injection H as <- <-.
  apply aset_Forall with (P := finite) in Eq1; auto using fin_Fin.
  apply Pf_Signs.zfor_inv with (I := Forall finite) in Eq2; auto.
  2:{ intros i s s' Hs E. bind_inv E x Ex. bind_inv E y Ey. eapply aset_Forall; [eassumption| |eassumption].
      apply fin_add; [eapply aget_Forall; [|eassumption]; assumption|]. apply fin_mul; [eapply aget_Forall; [|eassumption]; assumption|assumption]. }
  apply Pf_Signs.zfor_inv with (I := Forall finite) in Eq3; auto.
  2:{ intros i s s' Hs E. bind_inv E x Ex. eapply aset_Forall; [eassumption| |eassumption]. eapply aget_Forall; [|eassumption]; assumption. }
  split; [eapply aget_Forall; [|eassumption]; assumption|]. eapply aset_Forall; [eassumption| |eassumption]. apply fin_Fin.
Qed.

Lemma kept_counted : forall dt st a st' a' t e, a_end a' = Fin e -> water_kept dt st a st' a' t -> surface_kept dt st a a' -> counted a -> counted a'.
Proof.
  intros dt st a st' a' t e Ee (p & on & on' & et & ro & q & _ & _ & E1 & E2 & E3 & E4 & _) (p' & pet & o & o' & i & ro' & _ & _ & _ & _ & E5 & _ & E6 & E7 & _) H.
  unfold counted in *. repeat match goal with Q : Forall _ (_ :: _) |- _ => apply Forall_cons_iff in Q as [? ?] end.
  rewrite Ee, E1, E2, E3, E4, E5, E6, E7. repeat constructor; auto using fin_add, fin_Fin.
Qed.

Lemma runs_balanced : forall u s sl r te D dt a xs s' a', plain u sl r te D dt -> 0 <= r -> runs u s a xs s' a' ->
  placed u te D s a -> rooted sl (st_head s) ->
  placed u te D s' a' /\ rooted sl (st_head s') /\ same_settings (st_p s') (st_p s) /\ st_soils s' = st_soils s /\ Forall (kept_step sl te D) xs /\
  g_ord s' = g_ord s /\ g_queue s' = g_queue s /\ (counted a -> counted a') /\ (xs <> [] -> exists m, mb_local (st_mb s') = Some (Fin m)).
Proof.
  intros u s sl r te D dt a xs s' a' HP Hr H. induction H as [s a|s a s1 a1 xs s2 a2 E H IH]; intros PL RT.
  - split; [exact PL|]. split; [exact RT|]. split; [repeat split|]. split; [reflexivity|]. split; [constructor|]. do 2 (split; [reflexivity|]). split; [auto|congruence].
  - pose proof (substep_any u sl r te D dt s a HP PL ltac:(intro; split; assumption)) as Q. rewrite E in Q. destruct Q as (Q1 & (m & Em & Hm) & Q2 & Q3 & _ & Q4).
    destruct (IH Q1 (Q3 RT)) as (I1 & I2 & I3 & I4 & I5 & I6 & I7 & I8 & I9). split; [exact I1|]. split; [exact I2|].
    destruct (substep_inv _ _ _ _ _ E) as (v1 & b & v2 & mbl & p1 & p2 & p3 & p4 & _ & _ & _ & _ & _ & _ & J).
    assert (S1 : same_settings (st_p s1) (st_p s) /\ st_soils s1 = st_soils s /\ g_ord s1 = g_ord s /\ g_queue s1 = g_queue s).
    { decompose [and] J. subst s1. split; [repeat split|]. split; [reflexivity|]. split; reflexivity. }
    destruct S1 as (S1 & S1' & S2' & S3'). split; [|split; [congruence|split]].
    + unfold same_settings in *. decompose [and] I3. decompose [and] S1. repeat split; congruence.
    + constructor; [|exact I5]. clear I9. split; [exists (u_env u), r; split; [apply (pl_single _ _ _ _ _ _ HP)|apply (pc_fronts _ _ _ _ _ Q1)]|].
      split; [exact (Q3 RT)|]. split; [exists m; split; [unfold residual; cbn [x_s']; rewrite Em; reflexivity|exact Hm]|].
      split; [exact (pc_on _ _ _ _ _ PL)|]. exists dt. split; [apply (pl_pos _ _ _ _ _ _ HP)|split; [exact Q2|exact Q4]].
    + split; [congruence|]. split; [congruence|]. split; [intro C; apply I8; eapply kept_counted; [exact (pc_end _ _ _ _ _ Q1)|exact Q2|exact Q4|exact C]|].
      intros _. destruct xs as [|y ys]; [|apply I9; discriminate]. inversion H; subst. eauto.
Qed.

(** Frozen soil only changes the conductivity factors. *)
Lemma single_frozen : forall e fr sl r te D, single e sl r te D -> (exists x, aget fr 1 = Ok (Fin x) /\ 0 < x) -> (forall k, (1 <= k <= e_nlayers e)%Z -> exists x, aget fr k = Ok x) ->
  single (mkEnv (e_nlayers e) (e_cum e) (e_stype e) (e_soils e) fr) sl r te D.
Proof.
  intros e fr sl r te D [H1 H2 H3 H4 H5 H6 H7] Hx Hf. constructor; try assumption. destruct H1 as [G1 G2 G3 G4 G5]. constructor; assumption.
Qed.
Lemma settled_frozen : forall e fr te D l, settled e te D l -> settled (mkEnv (e_nlayers e) (e_cum e) (e_stype e) (e_soils e) fr) te D l.
Proof. intros e fr te D l [[G1 G2 G3 G4 G5 G6 G7 G8 G9] H2 H3]. constructor; [constructor; assumption|assumption|assumption]. Qed.

Lemma prologue_single : forall sl r te D s s1 v, one_layer sl r te D s -> update_prologue s = Ok (s1, v) -> one_layer sl r te D s1 /\ v = Fin 0.
Proof.
  intros sl r te D s s1 v H E. unfold update_prologue in E. bind_inv E p Ep. cbv zeta in E.
  assert (Hp : p = st_p s \/ exists fr, p = (st_p s) <| p_frozen := fr |> /\ frozen_factor (p_nlayers (st_p s)) (p_cum (st_p s)) (p_soilTz (st_p s)) (p_soilT (st_p s)) (p_ncells (st_p s)) (p_frozen (st_p s)) = Ok fr).
  { destruct (p_sft (st_p s)); [bind_inv Ep fr Efr|]; apply Ok_inj in Ep; eauto. }
  assert (Hc : p_calib p = false) by (pose proof (ol_calib _ _ _ _ _ H) as C; destruct Hp as [-> | (fr & -> & _)]; exact C). rewrite Hc in E. apply Ok_inj, pair_equal_spec in E as [<- <-]. split; [|reflexivity].
  destruct H as [H1 H2 H3 H4 H5 H6 H7 H8 H9 H10 H11 H12 H13]. destruct Hp as [-> | (fr & -> & Efr)]; [constructor; assumption|].
  destruct (frozen_factor_range _ _ _ _ _ _ _ Efr) as (_ & G & _). pose proof (sg_n _ _ _ _ _ H3) as N.
  assert (HS : single (mkEnv (e_nlayers (env_of s)) (e_cum (env_of s)) (e_stype (env_of s)) (e_soils (env_of s)) fr) sl r te D).
  { apply single_frozen; [exact H3| |intros k Hk; destruct (G k Hk) as (x & Ex & _); eauto]. destruct (G 1%Z) as (x & Ex & L & U); [change (p_nlayers (st_p s)) with (e_nlayers (env_of s)); rewrite N; lia|].
    destruct x as [x| | |]; try discriminate. exists x. split; [exact Ex|]. change (lit (5 / 100)) with (Fin (5 / 100)) in L. apply Rleb_true in L. lra. }
  constructor; try assumption.
  exact (settled_frozen _ fr _ _ _ H5).
Qed.

Lemma steps_single : forall sl r te D s s2 dt n, one_layer sl r te D s -> update_steps s = Ok (s2, dt, n) ->
  one_layer sl r te D s2 /\ exists d, dt = Fin d /\
    plain (mkU (env_of s2) dt (p_nint (st_p s2)) (p_closed (st_p s2)) (p_wilting (st_p s2)) (p_fc (st_p s2)) (p_pmax (st_p s2))) sl r te D d.
Proof.
  intros sl r te D s s2 dt n H E. destruct (steps_inv _ _ _ _ E) as (Edt & _ & ->). destruct H as [H1 H2 H3 H4 H5 H6 H7 H8 H9 H10 H11 H12 H13].
  destruct H10 as (d & m & fr & T1 & T2 & T3 & T4 & T5 & T6). destruct H12 as [(pr & Epr) (pe & Epe)].
  assert (Hd : exists x, dt = Fin x /\ 0 < x).
  { subst dt. destruct (p_adaptive (st_p s)); [|eauto]. unfold adaptive_step. rewrite T2, T3. change (Fin m * lit 2)%d with (Fin (m * 2)).
    assert (K : forall x, 0 < x -> exists y, dfmin (Fin x) (Fin fr) = Fin y /\ 0 < y).
    { intros x Hx. rewrite fmin_fin. exists (Rmin x fr). split; [reflexivity|]. apply Rmin_glb_lt; assumption. }
    destruct (_ || _)%bool; [apply K; assumption|]. destruct (_ >? _)%d; apply K; lra. }
  clear Edt. destruct Hd as (x & -> & Hx). split.
  - constructor; try assumption; [|split; [exists pr; exact Epr|exists pe; exact Epe]]. exists x, m, fr. repeat split; assumption.
  - exists x. split; [reflexivity|]. constructor; cbn [u_env u_dt u_closed u_nint u_pmax u_wilting u_fc]; try assumption; reflexivity.
Qed.

Lemma executed_single : forall sl r te D s u xs s', one_layer sl r te D s -> executed s u xs s' -> one_layer sl r te D s' /\ Forall (kept_step sl te D) xs /\ (xs <> [] -> published s') /\ mb_calib (st_mb s') = (mb_calib (st_mb s) + Fin 0)%d.
Proof.
  intros sl r te D s u xs s' H [E HX]. rewrite (ol_valid _ _ _ _ _ H) in HX. destruct HX as (s1 & vcal & volend & s2 & n & s3 & a & E1 & E2 & E3 & E4 & E5 & _ & E6).
  destruct (prologue_inv _ _ _ E1) as (M1 & _). destruct (prologue_single _ _ _ _ _ _ _ H E1) as [H1 ->]. destruct (steps_single _ _ _ _ _ _ _ _ H1 E3) as [H2 (d & Ed & HP)]. rewrite Ed in E4, HP.
  rewrite <- E4 in HP. destruct (steps_inv _ _ _ _ E3) as (_ & _ & E7).
  assert (Q : st_head s2 = st_head s1 /\ p_cum (st_p s2) = p_cum (st_p s1)) by (rewrite E7; split; reflexivity). destruct Q as [Q1 Q2].
  assert (PL : placed u te D s2 (acc0 volend (mb_on_ts (st_mb s2)))).
  { pose proof (ol_fronts _ _ _ _ _ H2) as HF. pose proof (ol_single _ _ _ _ _ H2) as HS.
    assert (EU : u_env u = env_of s2) by (rewrite E4; reflexivity).
    constructor; [rewrite EU; reflexivity|rewrite EU; exact HF| |exact (ol_on _ _ _ _ _ H2)|apply (ol_forced _ _ _ _ _ H2)|apply (ol_forced _ _ _ _ _ H2)].
    cbn [acc0 a_end]. pose proof (sd_graded _ _ _ _ HF) as G. pose proof (single_mass _ _ _ _ _ _ HS (graded_str _ _ _ _ _ _ _ HS G) (gr_measured _ _ _ _ G)) as K.
    change (e_cum (env_of s2)) with (p_cum (st_p s2)) in K. rewrite Q1, Q2 in K. rewrite K in E2. apply Ok_inj in E2. rewrite Q1. symmetry. exact E2. }
  destruct (runs_balanced u s2 sl r te D d _ _ _ _ HP (ol_residual _ _ _ _ _ H) E5 PL (ol_rooted _ _ _ _ _ H2)) as (R1 & R2 & R3 & R4 & R5 & R6 & R7 & R8 & R9).
  assert (CA : counted a).
  { apply R8. pose proof (pc_end _ _ _ _ _ PL) as Q3. cbn [acc0 a_end] in Q3. destruct (ol_on _ _ _ _ _ H2) as (on & Eon & _). unfold counted, acc0. cbn [a_precip a_pet a_aet a_end a_in a_on a_runoff a_rech]. rewrite Q3, Eon. repeat constructor; apply fin_Fin. }
  assert (GI : Forall finite (g_ord s3) /\ Forall finite (g_queue s3)) by (rewrite R6, R7; apply (ol_giuh _ _ _ _ _ H2)).
  unfold counted in CA. repeat match goal with Q : Forall _ (_ :: _) |- _ => apply Forall_cons_iff in Q as [? ?] end.
  split; [|split; [exact R5|split]].
  - destruct (finish_inv _ _ _ _ E6) as (g & q & mbl & Eg & _ & ->).
    assert (EU : u_env u = env_of s3).
    { rewrite E4. cbn [u_env]. unfold env_of. unfold same_settings in R3. decompose [and] R3. rewrite R4. congruence. }
    pose proof (pl_single _ _ _ _ _ _ HP) as HS. pose proof (pc_fronts _ _ _ _ _ R1) as HF. pose proof (pl_capillary _ _ _ _ _ _ HP) as HC. rewrite EU in HS, HF, HC.
    destruct H2 as [G1 G2 G3 G4 G5 G6 G7 G8 G9 G10 G11 G12 G13]. unfold same_settings in R3. destruct R3 as (K1 & K2 & K3 & K4 & K5 & K6 & K7 & K8 & K9 & K10 & K11 & K12 & K13 & K14).
    constructor.
    + etransitivity; [exact K1|exact G1].
    + etransitivity; [exact K2|exact G2].
    + exact HS.
    + exact G4.
    + exact HF.
    + exact R2.
    + rewrite E4 in HC. cbn [u_closed u_nint] in HC. rewrite <- K7, <- K8 in HC. exact HC.
    + destruct G8 as (pm & F1 & F2). exists pm. split; [etransitivity; [exact K9|exact F1]|exact F2].
    + destruct G9 as (wp & fc & F1 & F2 & F3). exists wp, fc. split; [etransitivity; [exact K10|exact F1]|]. split; [etransitivity; [exact K11|exact F2]|exact F3].
    + destruct G10 as (x & m & fr & F1 & F2 & F3 & F4). exists x, m, fr. split; [etransitivity; [exact K12|exact F1]|]. split; [etransitivity; [exact K13|exact F2]|]. split; [etransitivity; [exact K14|exact F3]|exact F4].
    + exact (pc_on _ _ _ _ _ R1).
    + split; [exact (pc_precip _ _ _ _ _ R1)|exact (pc_pet _ _ _ _ _ R1)].
    + split; [exact (proj1 GI)|]. eapply giuh_fin; [|exact (proj1 GI)|exact (proj2 GI)|exact Eg]. assumption.
  - intro NE. destruct (finish_inv _ _ _ _ E6) as (g & q & mbl & Eg & Em & ->). destruct (R9 NE) as (m & Em'). rewrite Em' in Em. injection Em as <-.
    assert (FR : finite (a_runoff a)) by assumption. destruct (giuh_fin _ _ _ _ _ _ FR (proj1 GI) (proj2 GI) Eg) as [Fg _].
    pose proof (gr_measured _ _ _ _ (sd_graded _ _ _ _ (pc_fronts _ _ _ _ _ R1))) as ME.
    split; [|split].
    + eexists. split; [reflexivity|]. cbn [o_precip o_in o_end o_aet o_rech o_runoff o_giuh o_Q o_Qgw o_pet o_mb]. assert (Fc : finite cm_to_m) by (eexists; reflexivity). repeat constructor; apply fin_mul; auto using fin_Fin.
    + change (Forall finite (map f_theta (st_head s3))). apply Forall_map. eapply Forall_impl; [|exact ME]. intros f [_ Q]. exact Q.
    + change (Forall finite (map (fun f => f_depth f * cm_to_m)%d (st_head s3))). apply Forall_map. eapply Forall_impl; [|exact ME]. intros f [Q _]. apply fin_mul; [exact Q|eexists; reflexivity].
  - destruct (finish_inv _ _ _ _ E6) as (g & q & mbl & _ & _ & ->). change (mb_calib (st_mb s3) + Fin 0 = mb_calib (st_mb s) + Fin 0)%d. f_equal.
    assert (W : forall u s a xs s' a', runs u s a xs s' a' -> mb_calib (st_mb s') = mb_calib (st_mb s)).
    { clear. intros u s a xs s' a' H. apply (runs_ind_inv (fun s' _ => mb_calib (st_mb s') = mb_calib (st_mb s)) u) in H; auto. intros s1 a1 s2 a2 HI E.
      destruct (substep_inv _ _ _ _ _ E) as (v1 & b & v2 & mbl & p1 & p2 & p3 & p4 & _ & _ & _ & _ & _ & _ & _ & _ & _ & -> & _). exact HI. }
    rewrite (W _ _ _ _ _ _ E5), <- M1. rewrite E7. reflexivity.
Qed.

Lemma edit_single : forall sl r te D s s', one_layer sl r te D s -> user_edit s s' -> known_weather s' -> one_layer sl r te D s'.
Proof.
  intros sl r te D s s' [H1 H2 H3 H4 H5 H6 H7 H8 H9 H10 H11 H12 H13] (pr & pet & T & cal & out & nf & tw & dw & ->) F. constructor; assumption.
Qed.

Lemma history_single : forall sl r te D s0 xs s, one_layer sl r te D s0 -> history known_weather s0 xs s -> one_layer sl r te D s /\ Forall (kept_step sl te D) xs.
Proof.
  intros sl r te D s0 xs s H0 H. induction H as [|xs s s' H IH E F|xs s u ys s' H IH E].
  - split; [exact H0|constructor].
  - destruct IH as [I1 I2]. split; [exact (edit_single _ _ _ _ _ _ I1 E F)|exact I2].
  - destruct IH as [I1 I2]. destruct (executed_single _ _ _ _ _ _ _ _ I1 E) as (J1 & J2 & _ & _). split; [exact J1|apply Forall_app; auto].
Qed.

Lemma history_calib_zero : forall sl r te D s0 xs s, one_layer sl r te D s0 -> mb_calib (st_mb s0) = Fin 0 -> history known_weather s0 xs s -> mb_calib (st_mb s) = Fin 0.
Proof.
  intros sl r te D s0 xs s H0 Z H. induction H as [|xs s s' H IH E F|xs s u ys s' H IH E].
  - exact Z.
  - destruct E as (pr & pet & T & cal & out & nf & tw & dw & ->). exact IH.
  - destruct (history_single _ _ _ _ _ _ _ H0 H) as [I1 _]. destruct (executed_single _ _ _ _ _ _ _ _ I1 E) as (_ & _ & _ & ->). rewrite IH. cbn. f_equal. lra.
Qed.

(** Tolerance of a list of sub-steps. *)
Lemma balanced_sum : forall sl te D xs, Forall (kept_step sl te D) xs ->
  Rabs (Rsum (map (fun x => val (residual x)) xs) + Rsum (map (fun x => dropped (val (ponded_before x))) xs)) <= Rsum (map (fun x => slack (st_head (x_s x)) + 1 / 1000000000000) xs).
Proof.
  intros sl te D xs H. induction H as [|x xs (_ & _ & (m & Em & Hm) & (on & Eon & Hon) & _) _ IH]; cbn [map Rsum]; [rewrite Rplus_0_r, Rabs_R0; lra|].
  rewrite Em, Eon. cbn [val]. set (A := Rsum (map (fun x => val (residual x)) xs)) in *. set (B := Rsum (map (fun x => dropped (val (ponded_before x))) xs)) in *.
  assert (Hd : 0 <= dropped on <= 1 / 1000000000000) by (unfold dropped; destruct (Rle_dec on (1 / 1000000000000)); lra).
  replace (m + A + (dropped on + B)) with (m + dropped on + (A + B)) by ring. eapply Rle_trans; [apply Rabs_triang|]. apply Rplus_le_compat; [|exact IH].
  eapply Rle_trans; [apply Rabs_triang|]. rewrite (Rabs_right (dropped on)) by lra. lra.
Qed.

Theorem simulation_balance : forall sl r te D s0 xs s u ys s', one_layer sl r te D s0 -> fresh s0 -> history known_weather s0 xs s -> executed s u ys s' ->
  exists g, global_error (st_mb s') = Fin g /\ Rabs g <= Rsum (map (fun x => slack (st_head (x_s x)) + 1 / 1000000000000) (xs ++ ys)).
Proof.
  intros sl r te D s0 xs s u ys s' H0 HF H E. destruct (history_single _ _ _ _ _ _ _ H0 H) as [I1 I2]. destruct (executed_single _ _ _ _ _ _ _ _ I1 E) as (J1 & J2 & _ & J3).
  assert (A : Forall (kept_step sl te D) (xs ++ ys)) by (apply Forall_app; auto).
  assert (Z : mb_calib (st_mb s0) = Fin 0) by (destruct HF as (_ & _ & _ & _ & _ & Z & _); exact Z).
  eexists. split; [|exact (balanced_sum _ _ _ _ A)]. eapply (history_global known_weather s0 xs s u ys s' HF (ol_valid _ _ _ _ _ H0) H E).
  - eapply Forall_impl; [|exact A]. intros x (_ & _ & (m & Em & _) & _). exists m. exact Em.
  - rewrite J3, (history_calib_zero _ _ _ _ _ _ _ H0 Z H). eexists. reflexivity.
Qed.

(** ** Where an Update can stop *)

Lemma held_stops : forall closed r l why, 0 <= r -> held_up closed r l why -> substep_stops closed l why.
Proof. intros closed r l why Hr [[[[Q1 Q2]|Q]|[Q1 Q2]]|[Q|[Q1 Q2]]]; unfold substep_stops; auto 10. Qed.

Lemma loop_stops : forall k u s a sl r te D dt why, plain u sl r te D dt -> 0 <= r -> placed u te D s a -> rooted sl (st_head s) -> subcycle_loop k u s a = Stop why ->
  exists xs s' a', runs u s a xs s' a' /\ (length xs < k)%nat /\ substep u s' a' = Stop why /\ substep_stops (u_closed u) (st_head s') why.
Proof.
  induction k as [|k IH]; intros u s a sl r te D dt why HP Hr PL RT E; cbn [subcycle_loop] in E; [discriminate|].
  pose proof (substep_any u sl r te D dt s a HP PL ltac:(intro; split; assumption)) as Q. destruct (substep u s a) as [[s1 a1]|w] eqn:ES; cbn [bind] in E.
  - destruct (_ && _)%bool; [discriminate|]. destruct Q as (Q1 & _ & _ & Q2 & _). destruct (IH u s1 a1 sl r te D dt why HP Hr Q1 (Q2 RT) E) as (xs & s' & a' & X1 & X2 & X3 & X4).
    exists (mkStep s a s1 a1 :: xs), s', a'. split; [econstructor; eassumption|]. split; [cbn [length]; lia|]. auto.
  - injection E as <-. exists [], s, a. split; [constructor|]. split; [cbn; lia|]. split; [exact ES|]. eapply held_stops; eassumption.
Qed.

Theorem update_single : forall sl r te D s, one_layer sl r te D s -> prepared s ->
  ends (fun why => exists u s2 a2 xs s3 a3, runs u s2 a2 xs s3 a3 /\ st_head s2 = st_head s /\ u_closed u = p_closed (st_p s) /\ substep u s3 a3 = Stop why /\ substep_stops (p_closed (st_p s)) (st_head s3) why)
       (fun s' => one_layer sl r te D s' /\ published s') (Update s).
Proof.
  intros sl r te D s H PR. destruct (Update s) as [s'|why] eqn:EU.
  - cbn [ends]. destruct (executed_exists _ _ EU) as (u & xs & X). destruct (executed_single _ _ _ _ _ _ _ _ H X) as (J1 & _ & J2 & _). split; [exact J1|apply J2].
    destruct X as [_ X]. rewrite (ol_valid _ _ _ _ _ H) in X. destruct X as (s1 & vcal & volend & s2 & n & s3 & a & E1 & _ & E3 & _ & _ & E5 & _).
    destruct (pr_steps _ PR) as (s2' & dt' & n' & E3' & Hn). destruct (prologue_inv _ _ _ E1) as (M1 & M2 & _ & _ & _ & _ & _ & _ & _ & _ & M3 & M4 & M5 & M6 & _).
    destruct (steps_inv _ _ _ _ E3) as (Q1 & Q2 & _). destruct (steps_inv _ _ _ _ E3') as (Q3 & Q4 & _).
    assert (QD : u_dt u = dt') by (rewrite Q1, Q3, M1, M2, M3, M6; unfold adaptive_step; rewrite M4, M5; reflexivity). rewrite M5, QD, Q4 in Q2. apply Ok_inj in Q2. subst n'.
    intros ->. cbn [length] in E5. destruct E5 as [Q|(_ & Q & _)]; lia.
  - cbn [ends]. unfold Update in EU. rewrite (ol_valid _ _ _ _ _ H) in EU.
    destruct (update_prologue s) as [[s1 vcal]|w] eqn:E1; cbn [bind] in EU.
    2:{ exfalso. unfold update_prologue in E1. destruct (p_sft (st_p s)) eqn:SF.
        - destruct (pr_frozen _ PR SF) as (fr & Ef). rewrite Ef in E1. cbn [bind] in E1. match type of E1 with (if ?b then _ else _) = _ => change b with (p_calib (st_p s)) in E1 end. rewrite (ol_calib _ _ _ _ _ H) in E1. discriminate.
        - cbn [bind] in E1. rewrite (ol_calib _ _ _ _ _ H) in E1. discriminate. }
    destruct (prologue_inv _ _ _ E1) as (M1 & M2 & M7 & _ & _ & MG1 & MG2 & MG3 & _ & _ & M3 & M4 & M5 & M6 & _). destruct (prologue_single _ _ _ _ _ _ _ H E1) as [H1 _].
    pose proof (ol_fronts _ _ _ _ _ H1) as HF. pose proof (ol_single _ _ _ _ _ H1) as HS. pose proof (sd_graded _ _ _ _ HF) as G.
    pose proof (single_mass _ _ _ _ _ _ HS (graded_str _ _ _ _ _ _ _ HS G) (gr_measured _ _ _ _ G)) as K. change (e_cum (env_of s1)) with (p_cum (st_p s1)) in K. rewrite K in EU. cbn [bind] in EU.
    unfold dgeb in EU. rewrite M2, M7, (pr_precip _ PR), (pr_pet _ PR) in EU. cbn [cassert bind] in EU.
    destruct (pr_steps _ PR) as (s2' & dt' & n & E3' & Hn). destruct (steps_inv _ _ _ _ E3') as (Q3 & Q4 & _).
    destruct (update_steps s1) as [[[s2 dt] n1]|w] eqn:E3.
    2:{ exfalso. unfold update_steps in E3. cbv zeta in E3. match type of E3 with bind (d2i (?a / ?b + _)%d) _ = _ => change a with (p_fres (st_p s1)) in E3; change b with (if p_adaptive (st_p s1) then adaptive_step (st_p s1) (st_precip s1) (mb_on_ts (st_mb s1)) else p_timestep (st_p s1)) in E3 end.
        rewrite M1, M2, M3, M5, M6 in E3. unfold adaptive_step in E3, Q3. rewrite M4, M5 in E3. rewrite <- Q3, Q4 in E3. discriminate. }
    cbn [bind] in EU. destruct (steps_single _ _ _ _ _ _ _ _ H1 E3) as [H2 (d & Ed & HP)]. destruct (steps_inv _ _ _ _ E3) as (_ & _ & E7). rewrite Ed in EU, HP.
    set (u := mkU _ _ _ _ _ _ _) in *.
    assert (HH : st_head s2 = st_head s1) by (rewrite E7; reflexivity).
    assert (HH1 : st_head s1 = st_head s /\ p_closed (st_p s1) = p_closed (st_p s)).
    { unfold update_prologue in E1. bind_inv E1 p Ep. cbv zeta in E1. assert (Hp : p_calib p = false /\ p_closed p = p_closed (st_p s)).
      { pose proof (ol_calib _ _ _ _ _ H) as C. destruct (p_sft (st_p s)); [bind_inv Ep fr Efr|]; apply Ok_inj in Ep; subst p; split; try reflexivity; exact C. }
      destruct Hp as [Hp1 Hp2]. rewrite Hp1 in E1. apply Ok_inj, pair_equal_spec in E1 as [<- _]. split; [reflexivity|exact Hp2]. }
    destruct HH1 as [HH1 HC1].
    assert (PL : placed u te D s2 (acc0 (Fin (storage (st_head s1))) (mb_on_ts (st_mb s2)))).
    { constructor; [reflexivity|exact (ol_fronts _ _ _ _ _ H2)|cbn [acc0 a_end]; rewrite HH; reflexivity|exact (ol_on _ _ _ _ _ H2)|apply (ol_forced _ _ _ _ _ H2)|apply (ol_forced _ _ _ _ _ H2)]. }
    assert (HC2 : u_closed u = p_closed (st_p s)) by (unfold u; cbn [u_closed]; rewrite E7; exact HC1).
    destruct (subcycle_loop _ u s2 _) as [[s3 a]|w] eqn:EL; cbn [bind] in EU.
    + exfalso. destruct (loop_runs _ _ _ _ _ _ EL) as (xs & X1 & X2).
      destruct (runs_balanced u s2 sl r te D d _ _ _ _ HP (ol_residual _ _ _ _ _ H) X1 PL (ol_rooted _ _ _ _ _ H2)) as (_ & _ & _ & _ & _ & R6 & R7 & _ & R9).
      assert (RN : g_N s3 = g_N s2).
      { clear - X1. apply (runs_ind_inv (fun s' _ => g_N s' = g_N s2) u) in X1; auto. intros t1 b1 t2 b2 HI E. destruct (substep_inv _ _ _ _ _ E) as (v1 & b & v2 & mbl & p1 & p2 & p3 & p4 & _ & _ & _ & _ & _ & _ & _ & _ & _ & -> & _). exact HI. }
      assert (NE : xs <> []). { intros ->. cbn [length] in X2. destruct (steps_inv _ _ _ _ E3) as (Q1 & Q2 & _). assert (QD : dt = dt') by (rewrite Q1, Q3, M1, M2, M3, M6; unfold adaptive_step; rewrite M4, M5; reflexivity).
        rewrite M5, QD, Q4 in Q2. apply Ok_inj in Q2. subst n1. destruct X2 as [Q|(_ & Q & _)]; lia. }
      destruct (R9 NE) as (m & Em). destruct (pr_giuh _ PR) as (N1 & N2 & N3).
      assert (GE : g_N s3 = g_N s /\ g_ord s3 = g_ord s /\ g_queue s3 = g_queue s) by (rewrite RN, R6, R7, E7; repeat split; assumption). destruct GE as (GE1 & GE2 & GE3).
      destruct (giuh_ok (a_runoff a) (g_N s3) (g_ord s3) (g_queue s3)) as (o & q' & Eg & _); [rewrite GE1; assumption|rewrite GE1, GE2; assumption|rewrite GE1, GE3; assumption|].
      unfold finish_update in EU. rewrite Eg in EU. cbn [bind] in EU. rewrite Em in EU. discriminate.
    + injection EU as <-. destruct (loop_stops _ _ _ _ _ _ _ _ _ _ HP (ol_residual _ _ _ _ _ H) PL (ol_rooted _ _ _ _ _ H2) EL) as (xs & s3 & a3 & X1 & _ & X3 & X4).
      exists u, s2, (acc0 (Fin (storage (st_head s1))) (mb_on_ts (st_mb s2))), xs, s3, a3. split; [exact X1|]. split; [congruence|]. split; [exact HC2|]. split; [exact X3|]. rewrite <- HC2. exact X4.
Qed.
End Run.
