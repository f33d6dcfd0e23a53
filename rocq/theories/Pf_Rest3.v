(** Simulations without rain in a column with one resting front per layer. *)

From Coq Require Import Reals Lra ZArith List Bool Lia.
From RecordUpdate Require Import RecordSet.
From Verif Require Import Outcome Dbl Exact Types ListOps Soil Fronts Infil Move State Update Lib Spec_Common Spec_List Spec_Soil Spec_Update Spec_Profile Spec_Column Spec_Storage Spec_Velocity Spec_Balance Spec_Advance Spec_Shares
  Spec_Physical Spec_Meet Spec_Motion Spec_Upright Spec_Layered Spec_Rest
  Pf_Dbl Pf_Pow Pf_Soil Pf_List Pf_Update Pf_Profile Pf_Structure Pf_Storage Pf_Single Pf_Shares Pf_Physical Pf_Motion Pf_OneLayer Pf_Layered Pf_Layered2 Pf_Rest Pf_Rest2.
Import ListNotations RecordSetNotations.
Open Scope R_scope.
Local Existing Instance exact.

Section Run.
Context {cfg : Cfg}.
Variables (M : R) (qs : list part).

Definition good_steps (u : upar) (h : R) (ys : list (step * R)) : Prop :=
  Forall (fun y => undisturbed u (fst y) /\ off_by u (x_s (fst y)) (x_a (fst y)) (snd y)) ys /\ Forall (fun y => exists u h1 h2, h <= h1 /\ rest_step qs h1 h2 u (fst y) (snd y)) ys.

Lemma one_head : forall e h h' l, strata e qs -> hydrostatic qs h l -> hydrostatic qs h' l -> h = h'.
Proof.
  intros e h h' l HQ H H'. pose proof (hs_nonempty e qs HQ h l H) as NE. apply (hs_iff qs) in H as (_ & _ & H). apply (hs_iff qs) in H' as (_ & _ & H'). destruct l as [|c r]; [contradiction|].
  destruct (H 0%nat c eq_refl) as (q & _ & _ & _ & _ & _ & P & _). destruct (H' 0%nat c eq_refl) as (q' & _ & _ & _ & _ & _ & P' & _). rewrite P in P'. injection P' as ->. reflexivity.
Qed.

Lemma runs_rest : forall u s a xs s' a' e, layers M qs e -> runs u s a xs s' a' -> forall h p pet dt pm, placed e M u s a p 0 dt pm -> p <= 0 -> st_pet s = Fin pet -> rooting (u_wilting u) (u_fc u) ->
  hydrostatic qs h (st_head s) ->
  exists ys h' p' pet', map fst ys = xs /\ good_steps u h ys /\ h <= h' /\ hydrostatic qs h' (st_head s') /\ placed e M u s' a' p' 0 dt pm /\ p' <= 0 /\ st_pet s' = Fin pet' /\
    (pet <= 0 -> 0 < column_water qs h -> h' = h /\ pet' <= 0).
Proof.
  intros u s a xs s' a' e HL H. induction H as [s a|s a s1 a1 xs s2 a2 E H IH]; intros h p pet dt pm PL Hp Epet HR HH.
  - exists [], h, p, pet. split; [reflexivity|]. split; [split; constructor|]. split; [lra|]. split; [exact HH|]. split; [exact PL|]. auto.
  - destruct (rest_substep e M qs HL u s a p dt pm pet h PL Hp Epet HR HH) as [T Z]. rewrite E in T. destruct T as (h1 & B & RS & UD & OB & Ep1).
    destruct (placed_step e M qs HL u s a p 0 dt pm B s1 a1 PL E UD OB) as (_ & on' & P1).
    assert (on' = 0) as ->. { pose proof P1 as (_ & _ & _ & _ & _ & _ & _ & _ & _ & Eon & _). pose proof (rs_on _ _ _ _ _ _ RS) as R0. cbn [x_a'] in R0. rewrite R0 in Eon. injection Eon as <-. reflexivity. }
    pose proof (rs_dries _ _ _ _ _ _ RS) as Hh. pose proof (rs_to _ _ _ _ _ _ RS) as H1. cbn [x_s'] in H1.
    destruct (IH h1 (Rmax p 0) (Rmax pet 0) dt pm P1 ltac:(rewrite Rmax_right; lra) Ep1 HR H1) as (ys & h' & p' & pet' & I1 & [I2 I3] & I4 & I5 & I6 & I7 & I8 & I9).
    exists ((mkStep s a s1 a1, B) :: ys), h', p', pet'. cbn [map fst]. split; [f_equal; exact I1|]. split.
    { split; constructor.
      - exact (conj UD OB).
      - exact I2.
      - exists u, h, h1. split; [lra|exact RS].
      - eapply Forall_impl; [|exact I3]. intros y (u0 & x1 & x2 & A & Bx). exists u0, x1, x2. split; [lra|exact Bx]. }
    split; [lra|]. split; [exact I5|]. split; [exact I6|]. split; [exact I7|]. split; [exact I8|].
    intros Hpet HW. destruct (Z Hpet HW) as (s'' & a'' & E' & H'' & _). rewrite E in E'. apply Ok_inj, pair_equal_spec in E' as [<- <-].
    pose proof (one_head e h h1 _ (la_strata _ _ _ HL) H'' H1). subst h1. apply I9; [rewrite Rmax_right; lra|exact HW].
Qed.

Lemma kept_settings : forall u s a xs s' a', runs u s a xs s' a' -> p_wilting (st_p s') = p_wilting (st_p s) /\ p_fc (st_p s') = p_fc (st_p s).
Proof.
  intros u s a xs s' a' H. apply (runs_ind_inv (fun s' _ => p_wilting (st_p s') = p_wilting (st_p s) /\ p_fc (st_p s') = p_fc (st_p s)) u) in H; auto. intros s1 a1 s2 a2 HI E.
  destruct (substep_inv _ _ _ _ _ E) as (v1 & b & v2 & mbl & p1 & p2 & p3 & p4 & _ & _ & _ & _ & _ & _ & _ & _ & _ & -> & _). exact HI.
Qed.

Lemma executed_rest : forall s u xs s' h, layered M qs s -> resting qs h s -> dry s -> executed s u xs s' ->
  exists ys h', map fst ys = xs /\ good_steps u h ys /\ h <= h' /\ layered M qs s' /\ resting qs h' s' /\ dry s' /\ (no_demand s -> 0 < column_water qs h -> h' = h /\ no_demand s').
Proof.
  intros s u xs s' h H (HH & Hon & HR) ((p & Ep & Hp) & (pet & Epet)) X. pose proof X as [E HX]. rewrite (ly_valid _ _ _ H) in HX. destruct HX as (s1 & vcal & volend & s2 & n & s3 & a & E1 & E2 & E3 & E4 & E5 & _ & E6).
  destruct (prologue_inv _ _ _ E1) as (M1 & M2 & M3 & _ & _ & _ & _ & _ & _ & _ & _ & _ & _ & _ & _ & _ & _ & _ & _ & _ & M4). rewrite (ly_calib _ _ _ H) in M4. destruct M4 as [M4 _].
  assert (W1 : p_wilting (st_p s1) = p_wilting (st_p s) /\ p_fc (st_p s1) = p_fc (st_p s)).
  { unfold update_prologue in E1. bind_inv E1 pp Epp. cbv zeta in E1.
    assert (Hpp : pp = st_p s \/ exists fr, pp = (st_p s) <| p_frozen := fr |>). { destruct (p_sft (st_p s)); [bind_inv Epp fr Efr|]; apply Ok_inj in Epp; eauto. }
    assert (Hc : p_calib pp = false) by (pose proof (ly_calib _ _ _ H) as C; destruct Hpp as [-> | (fr & ->)]; exact C). rewrite Hc in E1. apply Ok_inj, pair_equal_spec in E1 as [<- _]. destruct Hpp as [-> | (fr & ->)]; split; reflexivity. }
  destruct (prologue_layered M qs _ _ _ H E1) as [H1 ->]. destruct (steps_layered M qs _ _ _ _ H1 E3) as [H2 (d & Ed & Hd)].
  destruct (steps_inv _ _ _ _ E3) as (_ & _ & E7).
  assert (Q : st_head s2 = st_head s1 /\ p_cum (st_p s2) = p_cum (st_p s1) /\ st_precip s2 = st_precip s1 /\ st_pet s2 = st_pet s1 /\ st_mb s2 = st_mb s1 /\ p_wilting (st_p s2) = p_wilting (st_p s1) /\ p_fc (st_p s2) = p_fc (st_p s1)) by (rewrite E7; repeat split).
  destruct Q as (Q1 & Q2 & Q3 & Q4 & Q5 & Q6 & Q7). destruct W1 as [W1 W2].
  assert (EU : u_env u = env_of s2) by (rewrite E4; reflexivity).
  destruct (ly_pond _ _ _ H2) as (pm & Epm & Hpm). pose proof (ly_layers _ _ _ H2) as HL. pose proof (ly_fronts _ _ _ H2) as O.
  assert (Eon : mb_on_ts (st_mb s2) = Fin 0) by (rewrite Q5, M1; exact Hon).
  assert (PL : placed (env_of s2) M u s2 (acc0 volend (mb_on_ts (st_mb s2))) p 0 d pm).
  { unfold placed. split; [exact EU|]. split; [reflexivity|]. split; [rewrite E4; exact Epm|]. split; [exact Hpm|]. split; [exact Ed|]. split; [exact Hd|].
    split; [rewrite E4; exact (ly_capillary _ _ _ H2)|]. split; [exact O|]. split; [rewrite Q3, M2; exact Ep|]. cbn [acc0 a_on a_end]. split; [exact Eon|]. split; [lra|].
    pose proof (mass_of (env_of s2) (la_env _ _ _ HL) (top_zero _ _ _ HL) _ (orderly_str _ M qs HL _ O) (orderly_measured _ M qs HL _ O)) as K.
    change (e_cum (env_of s2)) with (p_cum (st_p s2)) in K. rewrite Q1, Q2 in K. rewrite K in E2. apply Ok_inj in E2. rewrite Q1. symmetry. exact E2. }
  assert (RU : rooting (u_wilting u) (u_fc u)) by (rewrite E4; cbn [u_wilting u_fc]; rewrite Q6, Q7, W1, W2; exact HR).
  assert (H0 : hydrostatic qs h (st_head s2)) by (rewrite Q1, M4; exact HH).
  destruct (runs_rest u s2 _ _ s3 a (env_of s2) HL E5 h p pet d pm PL Hp ltac:(rewrite Q4, M3; exact Epet) RU H0) as (ys & h' & p' & pet' & I1 & I2 & I3 & I4 & I5 & I6 & I7 & I8).
  exists ys, h'. split; [exact I1|]. split; [exact I2|]. split; [exact I3|]. split.
  { rewrite <- I1 in X. exact (proj1 (executed_layered M qs s u ys s' H X (proj1 I2))). }
  destruct (finish_inv _ _ _ _ E6) as (g & q & mbl & Eg & _ & ->). destruct (kept_settings _ _ _ _ _ _ E5) as [K1 K2]. destruct I5 as (_ & _ & _ & _ & _ & _ & _ & _ & Ep3 & Eon3 & _).
  split; [|split].
  - split; [exact I4|]. split; [exact Eon3|]. pose proof HR as RR. rewrite <- W1, <- W2, <- Q6, <- Q7, <- K1, <- K2 in RR. exact RR.
  - split; [exists p'; split; [exact Ep3|exact I6]|exists pet'; exact I7].
  - intros (pe & Epe & Hpe) HW. rewrite Epet in Epe. injection Epe as ->. destruct (I8 Hpe HW) as [I9 I10]. split; [exact I9|]. exists pet'. split; [exact I7|exact I10].
Qed.

Theorem history_rest : forall s0 xs s h, layered M qs s0 -> resting qs h s0 -> dry s0 -> history dry s0 xs s ->
  exists ys h', map fst ys = xs /\ journey s0 ys s /\ Forall (fun y => exists u h1 h2, h <= h1 /\ rest_step qs h1 h2 u (fst y) (snd y)) ys /\ h <= h' /\ layered M qs s /\ resting qs h' s /\ dry s.
Proof.
  intros s0 xs s h HL HR HD H. induction H as [|xs s s' H IH E F|xs s u zs s' H IH E].
  - exists [], h. split; [reflexivity|]. split; [constructor|]. split; [constructor|]. split; [lra|]. auto.
  - destruct IH as (ys & h' & I1 & I2 & I3 & I4 & I5 & I6 & I7). pose proof F as [(p & Ep & Hp) _]. assert (FP : finite (st_precip s')) by (exists p; exact Ep).
    exists ys, h'. split; [exact I1|]. split; [exact (jr_edit _ _ _ _ I2 E FP)|]. split; [exact I3|]. split; [exact I4|]. split; [exact (edit_layered M qs _ _ I5 E FP)|]. split; [|exact F].
    destruct E as (pr & pet & T & cal & out & nf & tw & dw & ->). exact I6.
  - destruct IH as (ys & h' & I1 & I2 & I3 & I4 & I5 & I6 & I7). destruct (executed_rest s u zs s' h' I5 I6 I7 E) as (ws & h'' & J1 & [J2 J3] & J4 & J5 & J6 & J7 & _).
    exists (ys ++ ws), h''. split; [rewrite map_app; congruence|]. split; [rewrite <- J1 in E; exact (jr_update _ _ _ _ _ _ I2 E J2)|]. split.
    { apply Forall_app. split; [exact I3|]. eapply Forall_impl; [|exact J3]. intros y (u0 & h1 & h2 & A & B). exists u0, h1, h2. split; [lra|exact B]. }
    split; [lra|]. auto.
Qed.

Theorem history_still : forall s0 xs s h, layered M qs s0 -> resting qs h s0 -> dry s0 -> no_demand s0 -> 0 < column_water qs h -> history (fun s => dry s /\ no_demand s) s0 xs s ->
  layered M qs s /\ resting qs h s /\ dry s /\ no_demand s.
Proof.
  intros s0 xs s h HL HR HD HN HW H. induction H as [|xs s s' H IH E [F N]|xs s u zs s' H IH E].
  - auto.
  - destruct IH as (I1 & I2 & I3 & I4). pose proof F as [(p & Ep & Hp) _]. assert (FP : finite (st_precip s')) by (exists p; exact Ep).
    split; [exact (edit_layered M qs _ _ I1 E FP)|]. split; [|split; [exact F|exact N]]. destruct E as (pr & pet & T & cal & out & nf & tw & dw & ->). exact I2.
  - destruct IH as (I1 & I2 & I3 & I4). destruct (executed_rest s u zs s' h I1 I2 I3 E) as (ws & h'' & J1 & _ & J4 & J5 & J6 & J7 & J8). destruct (J8 I4 HW) as [-> J9]. auto.
Qed.

Lemma water_positive : forall e h, strata e qs -> 0 <= h -> Forall (fun q => 0 <= pt_r q) qs -> 0 < column_water qs h.
Proof.
  intros e h HQ Hh HR. destruct HQ as (NE & Z & ss & _ & F). unfold column_water. revert ss F NE Z HR. generalize qs as l. induction l as [|q l IH]; intros ss F NE Z HR; [contradiction|].
  apply Forall_cons_iff in Z as [Zq Z]. apply Forall_cons_iff in HR as [Rq HR]. inversion F as [|s1 q1 ss1 l1 (ks & V) F' E1 E2]; subst. cbn [map Rsum].
  assert (P : 0 < pt_z q * pt_theta q h). { apply Rmult_lt_0_compat; [exact Zq|]. destruct V. pose proof (theta_range (pt_r q) (pt_e q) (pt_a q) (pt_n q) (pt_m q) h ltac:(lra) ltac:(lra) ltac:(lra) ltac:(lra) Hh) as X. unfold pt_theta. lra. }
  destruct l as [|q2 l]; [cbn; lra|]. specialize (IH ss1 F' ltac:(discriminate) Z HR). lra.
Qed.
End Run.
