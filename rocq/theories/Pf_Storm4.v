(** Sub-steps and simulations of columns whose wetting fronts lie in the first layer: what the pass leaves is in order and accounts for its water (exact arithmetic). *)

From Coq Require Import Reals Lra ZArith List Bool Lia.
From RecordUpdate Require Import RecordSet.
From Verif Require Import Outcome Dbl Exact Types ListOps Soil Fronts Infil Move State Update Lib Spec_Common Spec_Soil Spec_List Spec_Update Spec_Profile Spec_Storage Spec_Velocity Spec_Advance Spec_Balance Spec_Shares
  Spec_Physical Spec_Meet Spec_Motion Spec_Upright Spec_Layered Spec_Rest Spec_Storm Pf_Dbl Pf_Pow Pf_Soil Pf_List Pf_Update Pf_Profile Pf_Structure Pf_Storage Pf_Merge Pf_Cross Pf_Repair Pf_SafeMove Pf_SafeUpdate Pf_Surface Pf_Single Pf_SingleMerge
  Pf_SubSingle Pf_Advance Pf_Physical Pf_Physical2 Pf_Velocity Pf_Fuel Pf_Level Pf_Level2 Pf_Shares Pf_Books Pf_Motion Pf_Motion2 Pf_Motion3 Pf_Drier Pf_Drier2 Pf_OneLayer Pf_Layered Pf_Layered2 Pf_Rest Pf_Rest2 Pf_Storm Pf_Storm2 Pf_Storm3.
Import ListNotations RecordSetNotations.
Open Scope R_scope.
Local Existing Instance exact.

Section Step.
Context {cfg : Cfg}.
Variables (e : env) (M : R) (qs : list part).
Hypothesis HL : layers M qs e.
Let HE := la_env _ _ _ HL.
Let HV := la_soils _ _ _ HL.
Let HM := la_most _ _ _ HL.
Let HF := la_frozen _ _ _ HL.
Let HC := la_conducting _ _ _ HL.
Let HQ := la_strata _ _ _ HL.

(** The motion of a sub-step that completes. *)
Lemma hydro_moved : forall u pp pr pe pc vo w old l b, u_env u = e -> sub_hydro u pp pr pe pc vo w old l l = Ok b ->
  exists vin aet l1 a1, hydro_motion u pp pr pe pc vo w l l vin aet /\ move_loop (length l) e (u_dt u) vin (wetting_front_free_drainage l) l (listLength l) l aet = Ok (l1, a1).
Proof.
  intros u pp pr pe pc vo w old l b Eu E. unfold sub_hydro in E. cbv zeta in E. bind_inv E aet0 Ea. bind_inv E create Ec. bind_inv E b1 Q1. bind_inv E b2 Q2. bind_inv E b3 Q3. clear E.
  assert (LO : forall vin aet x, lgar_move_wetting_fronts e (u_dt u) vin (wetting_front_free_drainage l) old aet l l = Ok x ->
    exists l1 a1, move_loop (length l) e (u_dt u) vin (wetting_front_free_drainage l) l (listLength l) l aet = Ok (l1, a1)).
  { intros vin aet x X. unfold lgar_move_wetting_fronts in X. bind_inv X z Ez. cbv zeta in X. bind_inv X y Ey. destruct y as [l1 a1]. eauto. }
  destruct create.
  - unfold sub_create in Q1. cbv zeta in Q1. rewrite Eu in Q1. bind_inv Q1 x2 Q5. destruct (LO _ _ _ Q5) as (l1 & a1 & X). exists (Fin 0), aet0, l1, a1. split; [|exact X].
    exists aet0, true. auto.
  - apply Ok_inj in Q1. subst b1. rewrite andb_true_r in Q2. cbn [b_ponded] in Q2.
    assert (GG : b_head b2 = l /\ b_prev b2 = l).
    { destruct (w >? Fin 0)%d.
      - unfold sub_insert in Q2. cbn [b_aet b_ponded b_volin b_head b_prev b_rech] in Q2. bind_inv Q2 x Qx. destruct x as [[ro po] vv]. destruct (ro <? Fin 0)%d; [discriminate|]. apply Ok_inj in Q2. subst b2. split; reflexivity.
      - apply Ok_inj in Q2. subst b2. unfold sub_no_insert. destruct (_ <? _)%d; split; reflexivity. }
    destruct GG as [B1 B2]. unfold sub_move in Q3. rewrite B1, B2, Eu in Q3. bind_inv Q3 x Q5. destruct (LO _ _ _ Q5) as (l1 & a1 & X). exists (b_volin b2), (b_aet b2), l1, a1. split; [|exact X].
    exists aet0, false. split; [exact Ea|]. split; [exact Ec|]. exists b2. auto.
Qed.

Lemma created : forall l f r pp pc vo, l = f :: r -> create_decision e l pp pc vo = Ok true -> (pc >? Fin 0)%d = true /\ exists s, soil_of e (f_layer f) = Ok s /\ (f_theta f + lit (1 / 1000000000000) >=? s_theta_e s)%d = false.
Proof.
  intros l f r pp pc vo -> E. unfold create_decision in E. cbn [lget nth_error bind] in E. bind_inv E s Es. cbv zeta in E. apply Ok_inj in E.
  destruct (f_theta f + lit (1 / 1000000000000) >=? s_theta_e s)%d eqn:S; [discriminate|]. destruct (vo >? Fin 0)%d; [discriminate|]. cbn [orb] in E. apply andb_true_iff in E as [_ E]. split; [exact E|]. exists s. auto.
Qed.

Theorem storm_upright : forall u pp pr pe pc vo w old l dt, u_env u = e -> u_dt u = Fin dt -> 0 < dt -> capillary (u_closed u) (u_nint u) e -> orderly M e l -> shallow e l ->
  0 <= pc -> pc <= w -> ~ hydro_tie u pp pr pe (Fin pc) vo (Fin w) old l l -> hydro_supplied u pp pr pe (Fin pc) vo (Fin w) old l l -> hydro_upright u pp pr pe (Fin pc) vo (Fin w) old l l.
Proof.
  intros u pp pr pe pc vo w old l dt Eu Edt Hdt HG O SH Hpc Hw HT SU. assert (HS := orderly_str e M qs HL l O). destruct (Str_head e l HE HS) as (f & r & El & Lf).
  assert (LP : forall vin aet, hydro_motion u pp pr pe (Fin pc) vo (Fin w) l l vin aet -> pass_upright e (u_dt u) vin (wetting_front_free_drainage l) aet l l).
  { intros vin aet HM0 l1 a1 Q. destruct (SU vin aet HM0) as (v & D & -> & -> & _ & CV). rewrite Edt in Q. destruct (pass_any e M qs HL dt v D l f r l1 a1 O SH El ltac:(lra) CV Q) as (av & _ & _ & NI & _). exact NI. }
  split; [intros vin aet HM0; rewrite Eu; exact (LP vin aet HM0)|].
  intros aet l' aet' pd dry d h s ff Ea Ec Em Ed Eh Es Ef. rewrite Eu in *.
  assert (HM0 : hydro_motion u pp pr pe (Fin pc) vo (Fin w) l l (Fin 0) aet) by (exists aet, true; rewrite Eu; auto).
  assert (NT : ~ move_tie e (u_dt u) (Fin 0) (wetting_front_free_drainage l) old aet l l).
  { intro T. apply HT. unfold hydro_tie. cbv zeta. rewrite Eu. exists aet, true. split; [exact Ea|]. split; [exact Ec|]. left. exact T. }
  destruct (SU _ _ HM0) as (v & D & Ev & EA & HD & CV). injection Ev as <-. subst aet. rewrite Edt in *. assert (PS := orderly_phys e M qs HL l O). assert (MV := orderly_moving e M l O).
  assert (Fdt : finite (Fin dt)) by (eexists; reflexivity).
  pose proof Em as Em'. unfold lgar_move_wetting_fronts in Em'. bind_inv Em' z Ez. cbv zeta in Em'. bind_inv Em' y Ey. destruct y as [l1 a1]. clear Em'.
  destruct (pass_any e M qs HL dt 0 D l f r l1 a1 O SH El ltac:(lra) CV Ey) as (av & -> & _ & NI & TH & _). specialize (TH HD).
  pose proof (move_surface e M HV HM HF HE _ _ _ _ _ _ _ _ _ _ _ _ HS PS MV (st_num _ _ HS) eq_refl Fdt NT Ey NI Em) as SF.
  pose proof (move_phys e M HV HM HF HE _ _ _ _ _ _ _ _ _ _ HS (st_num _ _ HS) eq_refl Fdt NT PS Em) as P'.
  pose proof (ends_Ok _ _ _ _ _ (move_ok e _ _ _ _ _ _ _ HE HS (st_num _ _ HS) eq_refl Fdt NT) Em) as S'. cbn [fst] in S'. destruct (Str_head e l' HE S') as (h' & r' & -> & Lh). pose proof Eh as Eh'. cbn in Eh'. apply Ok_inj in Eh'. subst h'.
  destruct l1 as [|f1 r1]; [discriminate SF|]. cbn in SF. injection SF as SF. specialize (TH f1 eq_refl). rewrite <- SF in TH.
  destruct (created l f r _ _ _ El Ec) as [PC (s' & Es' & NS)]. rewrite Lf, Es in Es'. apply Ok_inj in Es'. subst s'.
  pose proof (se_n _ HE) as N. destruct (HV 1%Z s ltac:(lia) Es) as (sr & te & a & n & m & k & V).
  apply Forall_cons_iff in P' as [P' _]. assert (Pf : phys e M f) by (rewrite El in PS; apply Forall_cons_iff in PS as [PS _]; exact PS).
  destruct (proj2 (phys_iff e M HV _) P') as [_ (s1 & r1' & te1 & a1' & n1 & m1 & k1 & t & Es1 & V1 & Et & Bt & _) _]. rewrite Lh, Es in Es1. apply Ok_inj in Es1. subst s1.
  assert (r1' = sr /\ te1 = te) as [-> ->]. { destruct V, V1. split; congruence. }
  destruct (proj2 (phys_iff e M HV _) Pf) as [_ (s2 & r2 & te2 & a2 & n2 & m2 & k2 & t2 & Es2 & V2 & Et2 & Bt2 & _) _].
  rewrite Et, Et2 in TH. cbn [val] in TH. rewrite Et2, (vg_e _ _ _ _ _ _ _ V) in NS. change (lit (1 / 1000000000000)) with (Fin (1 / 1000000000000)) in NS. cbn [dadd rnd exact] in NS. unfold dgeb in NS. cbn in NS. unfold Rleb in NS.
  destruct (Rle_dec _ _) as [|NS'] in NS; [discriminate|]. clear NS. assert (Lt : t < te) by lra. clear NS'.
  destruct (dry_positive e M qs HL (u_closed u) (u_nint u) dt h r' sr te s t dry d HG Hdt Lh Es (vg_r _ _ _ _ _ _ _ V) (vg_e _ _ _ _ _ _ _ V) Et ltac:(lra) Lt Ed) as (x & -> & Hx).
  assert (0 < pc). { unfold dgtb in PC. cbn in PC. unfold Rltb in PC. destruct (Rlt_dec 0 pc); [assumption|discriminate]. }
  rewrite Et. cbn [val]. apply Rgt_lt. apply (surficial_wetter s ff w x t te (vg_e _ _ _ _ _ _ _ V)); lra.
Qed.

Theorem storm_off : forall u pp pr pe pc vo w l b dt, u_env u = e -> u_dt u = Fin dt -> 0 < dt -> orderly M e l -> shallow e l ->
  hydro_supplied u pp pr pe pc vo w (Fin (storage l)) l l -> sub_hydro u pp pr pe pc vo w (Fin (storage l)) l l = Ok b ->
  exists vin D a1, hydro_met u pp pr pe pc vo w (Fin (storage l)) l l vin D a1 /\ a1 <= D /\ match l with f :: _ => f_bottom f = false -> a1 = D | [] => True end /\
    (match l with f :: _ => f_bottom f = true | [] => False end -> exists r, hydro_gap u pp pr pe pc vo w (Fin (storage l)) l l r /\ Rabs r <= tol + 2 * (D - a1)).
Proof.
  intros u pp pr pe pc vo w l b dt Eu Edt Hdt O SH SU E. assert (HS := orderly_str e M qs HL l O). destruct (Str_head e l HE HS) as (f & r & El & Lf).
  destruct (hydro_moved _ _ _ _ _ _ _ _ _ _ Eu E) as (vin & aet & l1 & a1 & HM0 & Q). destruct (SU vin aet HM0) as (v & D & -> & -> & _ & CV). pose proof Q as Q'. rewrite Edt in Q'.
  destruct (pass_any e M qs HL dt v D l f r l1 a1 O SH El ltac:(lra) CV Q') as (av & -> & HA & _ & _ & I1 & I2). exists v, D, av. split; [|split; [exact HA|split]].
  - split; [exact HM0|]. exists l1. rewrite Eu. exact Q.
  - subst l. exact I1.
  - intro B. assert (Bf : f_bottom f = true) by (subst l; exact B). eexists. split; [|exact (I2 Bf)]. exists v, (Fin D), l1, av. rewrite Eu. auto.
Qed.

(** ** The sub-step *)
Section Sub.
Variables (u : upar) (s : state) (a : acc) (p on dt pm : R).
Hypothesis PL : placed e M u s a p on dt pm.
Hypothesis SH : shallow e (st_head s).
Hypothesis SU : supplied u s a.
Hypothesis NT : ~ step_tie u s a.

Lemma storm_hydro : forall b, at_step sub_hydro u s a = Ok b -> exists B, step_upright u s a /\ off_by u s a B /\ (exists vin D a1, step_met u s a vin D a1 /\ a1 <= D /\ B <= storm_bound (st_head s) D a1 /\
    match st_head s with f :: _ => f_bottom f = false -> a1 = D | [] => True end).
Proof.
  intros b E. pose proof PL as (Eu & Es & Epm & Hpm & Edt & Hdt & HG & O & Ep & Eon & Hon & Eend). assert (HS := orderly_str e M qs HL _ O).
  set (rain := Rmax p 0 / 10 * dt). assert (Er : (dfmax (st_precip s) (Fin 0) * mm_to_cm * u_dt u)%d = Fin rain). { rewrite Ep, Edt, fmax_fin. change mm_to_cm with (Fin (1 / 10)). unfold rain. cbn. f_equal. field. }
  assert (H1 : 0 <= rain). { unfold rain. pose proof (Rmax_r p 0). apply Rmult_le_pos; lra. }
  assert (Ew : (dfmax (st_precip s) (Fin 0) * mm_to_cm * u_dt u + a_on a)%d = Fin (rain + on)) by (rewrite Er, Eon; reflexivity).
  assert (UP : step_upright u s a).
  { unfold step_upright, at_step. unfold supplied, at_step in SU. unfold step_tie in NT. cbv zeta in *. rewrite Ew, Er in *. exact (storm_upright u _ _ _ rain _ (rain + on) _ _ dt Eu Edt Hdt HG O SH H1 ltac:(lra) NT SU). }
  assert (X : exists vin D a1, step_met u s a vin D a1 /\ a1 <= D /\ match st_head s with f :: _ => f_bottom f = false -> a1 = D | [] => True end /\
    (match st_head s with f :: _ => f_bottom f = true | [] => False end -> exists r, step_gap u s a r /\ Rabs r <= tol + 2 * (D - a1))).
  { unfold step_met, step_gap, at_step. unfold supplied, at_step in SU. unfold at_step in E. cbv zeta in *. rewrite Eend in *. exact (storm_off u _ _ _ _ _ _ _ b dt Eu Edt Hdt O SH SU E). }
  destruct X as (vin & D & a1 & MET & HA & IN & BO). destruct (Str_head e _ HE HS) as (f & r & El & Lf). destruct (f_bottom f) eqn:Bf.
  - destruct BO as (x & GX & HX); [rewrite El; exact Bf|]. exists (Rmax (Rabs x) (2 / 10000000000)). split; [exact UP|]. split; [apply off_gap; exact GX|]. exists vin, D, a1. split; [exact MET|]. split; [exact HA|]. split; [|exact IN].
    unfold storm_bound. rewrite El, Bf. apply Rle_max_compat_r. exact HX.
  - exists (Rmax (INR (length (st_head s)) * tol + (D - a1)) (2 / 10000000000)). split; [exact UP|]. split.
    + apply (off_wet u s a f r vin D a1 El Bf); [|exact MET]. rewrite Eu. exact (shallow_column e M qs HL _ HS (orderly_measured e M qs HL _ O) SH).
    + exists vin, D, a1. split; [exact MET|]. split; [exact HA|]. split; [|exact IN]. rewrite El in IN. rewrite (IN Bf). unfold storm_bound. rewrite El at 2. rewrite Bf. replace (D - D) with 0 by ring. rewrite Rplus_0_r. apply Rle_refl.
Qed.

Lemma storm_substep : forall s' a', substep u s a = Ok (s', a') -> Forall (seated e) (st_head s') ->
  exists B, undisturbed u (mkStep s a s' a') /\ off_by u s a B /\ storm_step u (mkStep s a s' a') B.
Proof.
  intros s' a' E SE. pose proof PL as (Eu & _).
  destruct (substep_inv _ _ _ _ _ E) as (vs & b & ve & mbl & precip & pet & prate & petr & K1 & K2 & K3 & K4 & K5 & Eh & _).
  assert (Eb : at_step sub_hydro u s a = Ok b) by (unfold at_step; cbv zeta; rewrite <- K1, <- K2, <- K3; exact Eh).
  destruct (storm_hydro b Eb) as (B & UP & OB & ST). exists B. split; [|split; [exact OB|exact ST]]. split; [exact NT|]. split; [exact UP|]. cbn [x_s']. rewrite Eu. exact SE.
Qed.
End Sub.
End Step.

(** ** Simulations *)
Section Run.
Context {cfg : Cfg}.
Variables (M : R) (qs : list part).

Definition off_steps (u : upar) (ys : list (step * R)) : Prop :=
  Forall (fun y => undisturbed u (fst y) /\ off_by u (x_s (fst y)) (x_a (fst y)) (snd y)) ys.

Lemma runs_storm : forall u s a xs s' a' e, layers M qs e -> runs u s a xs s' a' -> forall p on dt pm, placed e M u s a p on dt pm -> Forall (stormy u) xs ->
  exists ys, map fst ys = xs /\ off_steps u ys /\ Forall (fun y => storm_step u (fst y) (snd y)) ys.
Proof.
  intros u s a xs s' a' e HL H. induction H as [s a|s a s1 a1 xs s2 a2 E H IH]; intros p on dt pm PL HY.
  - exists []. repeat split; constructor.
  - apply Forall_cons_iff in HY as [(Y1 & Y2 & Y3 & Y4) HY]. cbn [x_s x_a x_s'] in *. pose proof PL as (Eu & _). rewrite Eu in Y1, Y4.
    destruct (storm_substep e M qs HL u s a p on dt pm PL Y1 Y2 Y3 s1 a1 E Y4) as (B & UD & OB & ST).
    destruct (placed_step e M qs HL u s a p on dt pm B s1 a1 PL E UD OB) as (_ & on' & P1). destruct (IH (Rmax p 0) on' dt pm P1 HY) as (ys & I1 & I2 & I3).
    exists ((mkStep s a s1 a1, B) :: ys). cbn [map fst]. split; [f_equal; exact I1|]. split; constructor; auto.
Qed.

Lemma executed_storm : forall s u xs s', layered M qs s -> executed s u xs s' -> Forall (stormy u) xs ->
  exists ys, map fst ys = xs /\ off_steps u ys /\ Forall (fun y => storm_step u (fst y) (snd y)) ys /\ layered M qs s'.
Proof.
  intros s u xs s' H X HY. pose proof X as [E HX]. rewrite (ly_valid _ _ _ H) in HX. destruct HX as (s1 & vcal & volend & s2 & n & s3 & a & E1 & E2 & E3 & E4 & E5 & _ & E6).
  destruct (prologue_layered M qs _ _ _ H E1) as [H1 ->]. destruct (steps_layered M qs _ _ _ _ H1 E3) as [H2 (d & Ed & Hd)]. destruct (steps_inv _ _ _ _ E3) as (_ & _ & E7).
  assert (Q : st_head s2 = st_head s1 /\ p_cum (st_p s2) = p_cum (st_p s1)) by (rewrite E7; split; reflexivity). destruct Q as [Q1 Q2].
  assert (EU : u_env u = env_of s2) by (rewrite E4; reflexivity).
  destruct (ly_pond _ _ _ H2) as (pm & Epm & Hpm). destruct (ly_on _ _ _ H2) as (on & Eon & Hon). destruct (ly_rain _ _ _ H2) as (p & Ep). pose proof (ly_layers _ _ _ H2) as HL. pose proof (ly_fronts _ _ _ H2) as O.
  assert (PL : placed (env_of s2) M u s2 (acc0 volend (mb_on_ts (st_mb s2))) p on d pm).
  { unfold placed. split; [exact EU|]. split; [reflexivity|]. split; [rewrite E4; exact Epm|]. split; [exact Hpm|]. split; [exact Ed|]. split; [exact Hd|].
    split; [rewrite E4; exact (ly_capillary _ _ _ H2)|]. split; [exact O|]. split; [exact Ep|]. cbn [acc0 a_on a_end]. split; [exact Eon|]. split; [exact Hon|].
    pose proof (mass_of (env_of s2) (la_env _ _ _ HL) (top_zero _ _ _ HL) _ (orderly_str _ M qs HL _ O) (orderly_measured _ M qs HL _ O)) as K.
    change (e_cum (env_of s2)) with (p_cum (st_p s2)) in K. rewrite Q1, Q2 in K. rewrite K in E2. apply Ok_inj in E2. rewrite Q1. symmetry. exact E2. }
  destruct (runs_storm u s2 _ _ s3 a (env_of s2) HL E5 p on d pm PL HY) as (ys & I1 & I2 & I3). exists ys. split; [exact I1|]. split; [exact I2|]. split; [exact I3|].
  rewrite <- I1 in X. exact (proj1 (executed_layered M qs s u ys s' H X I2)).
Qed.

Theorem storm_journey : forall s0 xs s, layered M qs s0 -> storm s0 xs s ->
  exists ys, map fst ys = xs /\ journey s0 ys s /\ Forall (fun y => exists u, storm_step u (fst y) (snd y)) ys /\ layered M qs s.
Proof.
  intros s0 xs s H0 H. induction H as [|xs s s' H IH E F|xs s u zs s' H IH E HY].
  - exists []. split; [reflexivity|]. split; [constructor|]. split; [constructor|exact H0].
  - destruct IH as (ys & I1 & I2 & I3 & I4). exists ys. split; [exact I1|]. split; [exact (jr_edit _ _ _ _ I2 E F)|]. split; [exact I3|]. exact (edit_layered M qs _ _ I4 E F).
  - destruct IH as (ys & I1 & I2 & I3 & I4). destruct (executed_storm s u zs s' I4 E HY) as (ws & J1 & J2 & J3 & J4). exists (ys ++ ws). split; [rewrite map_app; congruence|].
    split; [rewrite <- J1 in E; exact (jr_update _ _ _ _ _ _ I2 E J2)|]. split; [|exact J4]. apply Forall_app. split; [exact I3|]. eapply Forall_impl; [|exact J3]. intros y Hy. exists u. exact Hy.
Qed.
End Run.
