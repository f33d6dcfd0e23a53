(** Proofs about Updates and runs of the standalone program in a drought, on columns of several layers. *)

From Coq Require Import String Ascii Reals Lra ZArith List Bool Lia.
From RecordUpdate Require Import RecordSet.
From Verif Require Import Outcome Dbl Exact Types ListOps Fronts State Giuh Update Bmi Config Driver Lib Spec_Common Spec_List Spec_Column Spec_Profile Spec_Update Spec_Bmi Spec_Config Spec_Run Spec_Driver
  Spec_Soil Spec_Storage Spec_Balance Spec_Shares Spec_Physical Spec_Motion Spec_Upright Spec_OneLayer Spec_OneConfig Spec_Layered Spec_Rest Spec_Drought
  Pf_List Pf_Dbl Pf_Pow Pf_Structure Pf_Update Pf_Ledger Pf_SafeUpdate Pf_SafeHistory Pf_Run Pf_Config Pf_Init Pf_InitState Pf_InitExact Pf_InitTotal Pf_Table Pf_Alone Pf_SafeMove Pf_Soil Pf_Storage Pf_Single Pf_Shares Pf_Motion Pf_Forcing Pf_ConfigThm Pf_RunExact Pf_DriverRun Pf_DriverBalance Pf_OneLayer Pf_OneConfig
  Pf_Layered Pf_Layered2 Pf_Rest Pf_Rest2 Pf_Rest3 Pf_Rest4.
Import ListNotations.
Import RecordSetNotations.
Open Scope string_scope.
Open Scope list_scope.
Open Scope R_scope.
Local Existing Instance exact.

(** ** The unit hydrograph of nothing *)
Lemma giuh_zero : forall N ord q o q', Forall finite ord -> Forall (eq (Fin 0)) q -> giuh_convolution_integral (Fin 0) N ord q = Ok (o, q') -> o = Fin 0 /\ Forall (eq (Fin 0)) q'.
Proof.
  intros N ord q o q' Ho Hq H. unfold giuh_convolution_integral in H.
  bind_inv H q1 Eq1. bind_inv H q2 Eq2. bind_inv H now Enow. bind_inv H q3 Eq3. bind_inv H q4 Eq4. injection H as <- <-.
  apply Pf_Signs.aset_Forall with (P := eq (Fin 0)) in Eq1; auto.
  apply Pf_Signs.zfor_inv with (I := Forall (eq (Fin 0))) in Eq2; auto.
  2:{ intros i s s' Hs E. bind_inv E x Ex. bind_inv E y Ey. eapply Pf_Signs.aset_Forall; [eassumption| |eassumption].
      pose proof (Pf_Signs.aget_Forall _ _ _ _ _ Hs Ex) as X. pose proof (Pf_Signs.aget_Forall _ _ _ _ _ Ho Ey) as (v & ->). cbn beta in X. rewrite <- X. cbn. f_equal. ring. }
  apply Pf_Signs.zfor_inv with (I := Forall (eq (Fin 0))) in Eq3; auto.
  2:{ intros i s s' Hs E. bind_inv E x Ex. eapply Pf_Signs.aset_Forall; [eassumption| |eassumption]. eapply Pf_Signs.aget_Forall; [|eassumption]; assumption. }
  split; [symmetry; eapply Pf_Signs.aget_Forall with (P := eq (Fin 0)); [|eassumption]; assumption|]. eapply Pf_Signs.aset_Forall; [eassumption| |eassumption]. reflexivity.
Qed.

Lemma loop_stops_at : forall {cfg : Cfg} k u s a why, subcycle_loop k u s a = Stop why -> exists xs s' a', runs u s a xs s' a' /\ substep u s' a' = Stop why.
Proof.
  intros cfg. induction k as [|k IH]; intros u s a why E; cbn [subcycle_loop] in E; [discriminate|].
  destruct (substep u s a) as [[s1 a1]|w] eqn:ES; cbn [bind] in E.
  - destruct (_ && _)%bool; [discriminate|]. destruct (IH u s1 a1 why E) as (xs & s' & a' & X1 & X2). exists (mkStep s a s1 a1 :: xs), s', a'. split; [econstructor; eassumption|exact X2].
  - injection E as <-. exists [], s, a. split; [constructor|exact ES].
Qed.

(** The totals of a dry Update. *)
Definition idle (a : acc) : Prop :=
  a_precip a = Fin 0 /\ a_in a = Fin 0 /\ a_runoff a = Fin 0 /\ finite (a_aet a) /\ finite (a_rech a) /\ exists e, a_pet a = Fin e /\ 0 <= e.
Definition lossless (a : acc) : Prop := a_pet a = Fin 0 /\ a_aet a = Fin 0 /\ a_rech a = Fin 0.
(** Nothing on its way through the unit hydrograph. *)
Definition parched (s : state) : Prop := Forall finite (g_ord s) /\ Forall (eq (Fin 0)) (g_queue s).

(** A recorded balance that the program accepts. *)
Definition checked (x : step) : Prop := (exists m, residual x = Fin m /\ Rabs m <= 1 / 10000) /\ ponded_before x = Fin 0.

(** A balance that closes. *)
Definition closed (x : step) : Prop := residual x = Fin 0 /\ ponded_before x = Fin 0.

Section Run.
Context {cfg : Cfg}.
Variables (M : R) (qs : list part).

Lemma step_idle : forall u s a s' a' e h p pet dt pm, layers M qs e -> placed e M u s a p 0 dt pm -> p <= 0 -> st_pet s = Fin pet -> rooting (u_wilting u) (u_fc u) ->
  hydrostatic qs h (st_head s) -> substep u s a = Ok (s', a') -> idle a ->
  idle a' /\ checked (mkStep s a s' a') /\ (exists m, mb_local (st_mb s') = Some (Fin m) /\ Rabs m <= 1 / 10000) /\
  (pet <= 0 -> 0 < column_water qs h -> (lossless a -> lossless a') /\ mb_local (st_mb s') = Some (Fin 0) /\ closed (mkStep s a s' a')).
Proof.
  intros u s a s' a' e h p pet dt pm HL PL Hp Epet HR HH E (A1 & A2 & A3 & A4 & A5 & (pe & A6 & A7)).
  destruct (rest_substep e M qs HL u s a p dt pm pet h PL Hp Epet HR HH) as [T Z]. rewrite E in T. destruct T as (h1 & B & RS & UD & OB & Ep1).
  destruct (placed_step e M qs HL u s a p 0 dt pm B s' a' PL E UD OB) as ((_ & (dt' & p' & on & vin & ro & on' & av & q & m & _ & _ & Q1 & Q2 & _ & _ & Q3 & _ & _ & Q4 & Q5 & _ & _ & _ & Q6 & _)) & _).
  cbn [x_s x_a x_s' x_a'] in *. pose proof PL as (_ & _ & _ & _ & Edt & Hdt & _ & _ & Ep & Eon & _). rewrite Ep in Q1. injection Q1 as <-.
  destruct (substep_inv _ _ _ _ _ E) as (v1 & b & v2 & mbl & p1 & p2 & p3 & p4 & _ & J1 & _ & J2 & _ & _ & _ & J3 & J4 & J5 & J6).
  assert (Em : mb_local (st_mb s') = Some mbl) by (rewrite J5; reflexivity). unfold residual in Q6. cbn [x_s'] in Q6. rewrite Em in Q6. clear J3. rewrite Q6 in Em, J4. clear Q6.
  assert (Bm : Rabs m <= 1 / 10000). { cbn [dabs] in J4. change (lit (1 / 10000)) with (Fin (1 / 10000)) in J4. unfold dgtb in J4. apply Rltb_false in J4. lra. }
  assert (Epa : exists z, a_pet a' = Fin (pe + z) /\ 0 <= z /\ (pet <= 0 -> z = 0)).
  { rewrite J6. cbn [a_pet]. rewrite A6, J2, J1, Epet, fmax_fin, Edt. change mm_to_cm with (Fin (1 / 10)). cbn [dmul rnd exact]. rewrite fmax_fin. exists (Rmax (Rmax pet 0 * (1 / 10) * dt) 0). split; [reflexivity|]. split; [apply Rmax_r|].
    intro N. rewrite (Rmax_right pet 0) by lra. replace (0 * (1 / 10) * dt) with 0 by ring. apply Rmax_left. lra. }
  destruct Epa as (z & Ez & Hz & Nz).
  split; [|split; [|split]].
  - split; [rewrite Q3, A1; cbn; f_equal; rewrite (Rmax_right p 0) by lra; lra|]. split; [pose proof (rs_in _ _ _ _ _ _ RS) as R1; cbn [x_a x_a'] in R1; rewrite R1, A2; cbn; f_equal; ring|].
    split; [pose proof (rs_runoff _ _ _ _ _ _ RS) as R1; cbn [x_a x_a'] in R1; rewrite R1, A3; cbn; f_equal; ring|].
    split; [rewrite Q4; apply fin_add; [exact A4|eexists; reflexivity]|]. split; [rewrite Q5; apply fin_add; [exact A5|eexists; reflexivity]|]. exists (pe + z). split; [exact Ez|lra].
  - split; [exists m; split; [unfold residual; cbn [x_s']; rewrite Em; reflexivity|exact Bm]|]. exact Eon.
  - exists m. split; [exact Em|exact Bm].
  - intros N W. destruct (Z N W) as (s'' & a'' & E' & _ & Z1 & Z2 & _ & _ & _ & _ & Z3). rewrite E in E'. apply Ok_inj, pair_equal_spec in E' as [<- <-]. split.
    + intros (L1 & L2 & L3). split; [rewrite Ez; f_equal; rewrite L1 in A6; injection A6 as <-; rewrite (Nz N); ring|]. split; [rewrite Z1, L2|rewrite Z2, L3]; cbn; f_equal; ring.
    + split; [|split; [exact Z3|exact Eon]]. unfold residual in Z3. cbn [x_s'] in Z3. rewrite Em in Z3 |- *. rewrite Z3. reflexivity.
Qed.

Lemma runs_idle : forall u s a xs s' a' e, layers M qs e -> runs u s a xs s' a' -> forall h p pet dt pm, placed e M u s a p 0 dt pm -> p <= 0 -> st_pet s = Fin pet -> rooting (u_wilting u) (u_fc u) ->
  hydrostatic qs h (st_head s) -> idle a ->
  idle a' /\ Forall checked xs /\ (xs <> [] -> exists m, mb_local (st_mb s') = Some (Fin m) /\ Rabs m <= 1 / 10000) /\
  (pet <= 0 -> 0 < column_water qs h -> (lossless a -> lossless a') /\ (xs <> [] -> mb_local (st_mb s') = Some (Fin 0)) /\ Forall closed xs) /\
  g_ord s' = g_ord s /\ g_queue s' = g_queue s /\ g_N s' = g_N s.
Proof.
  intros u s a xs s' a' e HL H. induction H as [s a|s a s1 a1 xs s2 a2 E H IH]; intros h p pet dt pm PL Hp Epet HR HH HI.
  - split; [exact HI|]. split; [constructor|]. split; [congruence|]. split; [|auto]. intros _ _. split; [auto|]. split; [congruence|constructor].
  - destruct (step_idle u s a s1 a1 e h p pet dt pm HL PL Hp Epet HR HH E HI) as (S1 & S2 & S3 & S4).
    destruct (rest_substep e M qs HL u s a p dt pm pet h PL Hp Epet HR HH) as [T Z]. rewrite E in T. destruct T as (h1 & B & RS & UD & OB & Ep1).
    destruct (placed_step e M qs HL u s a p 0 dt pm B s1 a1 PL E UD OB) as (_ & on' & P1).
    assert (on' = 0) as ->. { pose proof P1 as (_ & _ & _ & _ & _ & _ & _ & _ & _ & Eon & _). pose proof (rs_on _ _ _ _ _ _ RS) as R0. cbn [x_a'] in R0. rewrite R0 in Eon. injection Eon as <-. reflexivity. }
    pose proof (rs_to _ _ _ _ _ _ RS) as H1. cbn [x_s'] in H1.
    destruct (IH h1 (Rmax p 0) (Rmax pet 0) dt pm P1 ltac:(rewrite Rmax_right; lra) Ep1 HR H1 S1) as (I1 & I2 & I3 & I4 & I5 & I6 & I7).
    assert (G : g_ord s1 = g_ord s /\ g_queue s1 = g_queue s /\ g_N s1 = g_N s).
    { destruct (substep_inv _ _ _ _ _ E) as (v1 & b & v2 & mbl & p1 & p2 & p3 & p4 & _ & _ & _ & _ & _ & _ & _ & _ & _ & -> & _). repeat split. }
    destruct G as (G1 & G2 & G3).
    assert (NX : xs = [] -> s2 = s1) by (intros ->; inversion H; reflexivity).
    split; [exact I1|]. split; [constructor; assumption|]. split; [|split; [|split; [congruence|split; congruence]]].
    + intros _. destruct xs as [|y ys]; [rewrite (NX eq_refl); exact S3|apply I3; discriminate].
    + intros Np W. destruct (S4 Np W) as (S5 & S6 & S7). destruct (Z Np W) as (s'' & a'' & E' & H'' & _). rewrite E in E'. apply Ok_inj, pair_equal_spec in E' as [<- <-].
      pose proof (one_head qs e h h1 _ (la_strata _ _ _ HL) H'' H1). subst h1. destruct (I4 ltac:(rewrite Rmax_right; lra) W) as (I8 & I9 & I10). split; [auto|]. split; [|constructor; assumption].
      intros _. destruct xs as [|y ys]; [rewrite (NX eq_refl); exact S6|apply I9; discriminate].
Qed.

Lemma set_rest : forall s h s1 vcal volend s2 dt n, layered M qs s -> resting qs h s -> dry s -> update_prologue s = Ok (s1, vcal) ->
  lgar_calc_mass_bal (p_cum (st_p s1)) (st_head s1) = Ok volend -> update_steps s1 = Ok (s2, dt, n) ->
  let u := mkU (env_of s2) dt (p_nint (st_p s2)) (p_closed (st_p s2)) (p_wilting (st_p s2)) (p_fc (st_p s2)) (p_pmax (st_p s2)) in
  exists p pet d pm, layers M qs (env_of s2) /\ placed (env_of s2) M u s2 (acc0 volend (mb_on_ts (st_mb s2))) p 0 d pm /\ p <= 0 /\ st_pet s2 = Fin pet /\ st_pet s = Fin pet /\
    rooting (u_wilting u) (u_fc u) /\ hydrostatic qs h (st_head s2) /\ g_ord s2 = g_ord s /\ g_queue s2 = g_queue s /\ g_N s2 = g_N s.
Proof.
  intros s h s1 vcal volend s2 dt n H (HH & Hon & HR) ((p & Ep & Hp) & (pet & Epet)) E1 E2 E3 u.
  destruct (prologue_inv _ _ _ E1) as (M1 & M2 & M3 & _ & _ & MG1 & MG2 & MG3 & _ & _ & _ & _ & _ & _ & _ & _ & _ & _ & _ & _ & M4). rewrite (ly_calib _ _ _ H) in M4. destruct M4 as [M4 _].
  assert (W1 : p_wilting (st_p s1) = p_wilting (st_p s) /\ p_fc (st_p s1) = p_fc (st_p s)).
  { unfold update_prologue in E1. bind_inv E1 pp Epp. cbv zeta in E1.
    assert (Hpp : pp = st_p s \/ exists fr, pp = (st_p s) <| p_frozen := fr |>). { destruct (p_sft (st_p s)); [bind_inv Epp fr Efr|]; apply Ok_inj in Epp; eauto. }
    assert (Hc : p_calib pp = false) by (pose proof (ly_calib _ _ _ H) as C; destruct Hpp as [-> | (fr & ->)]; exact C). rewrite Hc in E1. apply Ok_inj, pair_equal_spec in E1 as [<- _]. destruct Hpp as [-> | (fr & ->)]; split; reflexivity. }
  destruct (prologue_layered M qs _ _ _ H E1) as [H1 ->]. destruct (steps_layered M qs _ _ _ _ H1 E3) as [H2 (d & Ed & Hd)].
  destruct (steps_inv _ _ _ _ E3) as (_ & _ & E7).
  assert (Q : st_head s2 = st_head s1 /\ p_cum (st_p s2) = p_cum (st_p s1) /\ st_precip s2 = st_precip s1 /\ st_pet s2 = st_pet s1 /\ st_mb s2 = st_mb s1 /\ p_wilting (st_p s2) = p_wilting (st_p s1) /\ p_fc (st_p s2) = p_fc (st_p s1)
    /\ g_ord s2 = g_ord s1 /\ g_queue s2 = g_queue s1 /\ g_N s2 = g_N s1) by (rewrite E7; repeat split).
  destruct Q as (Q1 & Q2 & Q3 & Q4 & Q5 & Q6 & Q7 & Q8 & Q9 & Q10). destruct W1 as [W1 W2].
  destruct (ly_pond _ _ _ H2) as (pm & Epm & Hpm). pose proof (ly_layers _ _ _ H2) as HL. pose proof (ly_fronts _ _ _ H2) as O.
  assert (Eon : mb_on_ts (st_mb s2) = Fin 0) by (rewrite Q5, M1; exact Hon).
  exists p, pet, d, pm. split; [exact HL|]. split.
  { unfold placed. split; [reflexivity|]. split; [reflexivity|]. split; [exact Epm|]. split; [exact Hpm|]. split; [exact Ed|]. split; [exact Hd|].
    split; [exact (ly_capillary _ _ _ H2)|]. split; [exact O|]. split; [rewrite Q3, M2; exact Ep|]. cbn [acc0 a_on a_end]. split; [exact Eon|]. split; [lra|].
    pose proof (mass_of (env_of s2) (la_env _ _ _ HL) (top_zero _ _ _ HL) _ (orderly_str _ M qs HL _ O) (orderly_measured _ M qs HL _ O)) as K.
    change (e_cum (env_of s2)) with (p_cum (st_p s2)) in K. rewrite Q1, Q2 in K. rewrite K in E2. apply Ok_inj in E2. rewrite Q1. symmetry. exact E2. }
  split; [exact Hp|]. split; [rewrite Q4, M3; exact Epet|]. split; [exact Epet|].
  split; [unfold u; cbn [u_wilting u_fc]; rewrite Q6, Q7, W1, W2; exact HR|].
  split; [rewrite Q1, M4; exact HH|]. repeat split; congruence.
Qed.

(** What a dry Update publishes. *)
Record drought_out (h : R) (b : bout) : Prop := {
  do_precip : o_precip b = Fin 0; do_in : o_in b = Fin 0; do_runoff : o_runoff b = Fin 0; do_giuh : o_giuh b = Fin 0; do_Q : o_Q b = Fin 0; do_Qgw : o_Qgw b = Fin 0;
  do_end : o_end b = Fin (column_water qs h / 100); do_aet : finite (o_aet b); do_rech : finite (o_rech b);
  do_pet : exists x, o_pet b = Fin x /\ 0 <= x; do_mb : exists x, o_mb b = Fin x /\ Rabs x <= 1 / 1000000 }.
Definition still_out (b : bout) : Prop := o_pet b = Fin 0 /\ o_aet b = Fin 0 /\ o_rech b = Fin 0 /\ o_mb b = Fin 0.

Lemma idle_start : forall v o, idle (acc0 v o) /\ lossless (acc0 v o).
Proof. intros v o. split; [|repeat split]. do 3 (split; [reflexivity|]). split; [eexists; reflexivity|]. split; [eexists; reflexivity|]. exists 0. split; [reflexivity|lra]. Qed.

Lemma executed_drought : forall s u xs s' h, layered M qs s -> resting qs h s -> dry s -> parched s -> executed s u xs s' -> xs <> [] ->
  exists ys h' b, map fst ys = xs /\ good_steps qs u h ys /\ Forall checked xs /\ h <= h' /\ layered M qs s' /\ resting qs h' s' /\ dry s' /\ parched s' /\ st_out s' = Some b /\ drought_out h' b /\
    (no_demand s -> 0 < column_water qs h -> h' = h /\ no_demand s' /\ still_out b /\ Forall closed xs).
Proof.
  intros s u xs s' h H HR HD (G1 & G2) X NE. destruct (executed_rest M qs s u xs s' h H HR HD X) as (ys & h' & I1 & I2 & I3 & I4 & I5 & I6 & I7).
  pose proof X as [E HX]. rewrite (ly_valid _ _ _ H) in HX. destruct HX as (s1 & vcal & volend & s2 & n & s3 & a & E1 & E2 & E3 & E4 & E5 & _ & E6).
  destruct (set_rest s h s1 vcal volend s2 (u_dt u) n H HR HD E1 E2 E3) as (p & pet & d & pm & HL & PL & Hp & Epet & Epet0 & RU & HH & K1 & K2 & K3). rewrite <- E4 in PL, RU.
  destruct (idle_start volend (mb_on_ts (st_mb s2))) as [S0 S1].
  destruct (runs_idle u s2 _ xs s3 a (env_of s2) HL E5 h p pet d pm PL Hp Epet RU HH S0) as ((A1 & A2 & A3 & A4 & A5 & (pe & A6 & A7)) & R2 & R3 & R4 & R5 & R6 & R7).
  destruct (runs_rest M qs u s2 _ _ s3 a (env_of s2) HL E5 h p pet d pm PL Hp Epet RU HH) as (zs & h2 & p' & pet' & _ & _ & _ & T4 & T5 & _).
  destruct (finish_inv _ _ _ _ E6) as (g & q & mbl & Eg & Em & Es'). rewrite A3 in Eg. rewrite R5, R6, K1, K2 in Eg. destruct (giuh_zero _ _ _ _ _ G1 G2 Eg) as [-> Q0].
  destruct (R3 NE) as (m & Em' & Bm). rewrite Em' in Em. injection Em as <-.
  assert (h2 = h') as -> by (apply (one_head qs (env_of s2) h2 h' (st_head s3) (la_strata _ _ _ HL) T4); destruct I5 as [Z _]; rewrite Es' in Z; exact Z).
  assert (Ee : a_end a = Fin (column_water qs h')).
  { destruct T5 as (_ & _ & _ & _ & _ & _ & _ & _ & _ & _ & _ & T6). rewrite T6. f_equal. exact (hs_storage qs h' _ T4). }
  assert (Cm : cm_to_m = Fin (1 / 100)) by reflexivity.
  exists ys, h'. eexists. split; [exact I1|]. split; [exact I2|]. split; [exact R2|]. split; [exact I3|]. split; [exact I4|]. split; [exact I5|]. split; [exact I6|].
  split; [rewrite Es'; split; [change (Forall finite (g_ord s3)); rewrite R5, K1; exact G1|exact Q0]|]. split; [rewrite Es'; reflexivity|]. split.
  - rewrite Cm. constructor; cbn [o_precip o_in o_end o_aet o_rech o_runoff o_giuh o_Q o_Qgw o_pet o_mb].
    + rewrite A1. cbn. f_equal. ring.
    + rewrite A2. cbn. f_equal. ring.
    + rewrite A3. cbn. f_equal. ring.
    + cbn. f_equal. ring.
    + cbn. f_equal. ring.
    + cbn. f_equal. ring.
    + rewrite Ee. cbn. f_equal. field.
    + apply fin_mul; [exact A4|eexists; reflexivity].
    + apply fin_mul; [exact A5|eexists; reflexivity].
    + rewrite A6. exists (pe * (1 / 100)). split; [reflexivity|lra].
    + exists (m * (1 / 100)). split; [reflexivity|]. rewrite Rabs_mult, (Rabs_pos_eq (1 / 100)) by lra. lra.
  - intros N W. destruct (I7 N W) as [-> I8]. split; [reflexivity|]. split; [exact I8|]. destruct N as (pe' & Epe & Hpe). rewrite Epet0 in Epe. injection Epe as <-.
    destruct (R4 Hpe W) as (L1 & L2 & L6). destruct (L1 S1) as (L3 & L4 & L5). specialize (L2 NE). rewrite Em' in L2. injection L2 as ->. rewrite Cm.
    split; [|exact L6]. unfold still_out. cbn [o_pet o_aet o_rech o_mb]. rewrite L3, L4, L5. repeat split; cbn; f_equal; ring.
Qed.

Theorem update_drought : forall s h, layered M qs s -> resting qs h s -> dry s -> parched s -> prepared s -> Forall (fun q => 0 <= pt_r q) qs ->
  (forall why, Update s = Stop why -> ~ no_demand s /\ (why = OutOfFuel \/ why = Abort)) /\ (forall u xs s', executed s u xs s' -> xs <> []).
Proof.
  intros s h H HR HD HG PR HW.
  assert (HC : forall h', 0 <= h' -> 0 < column_water qs h') by (intros h' P; exact (water_positive qs _ h' (la_strata _ _ _ (ly_layers _ _ _ H)) P HW)).
  destruct (pr_steps _ PR) as (s2' & dt' & n' & E3' & Hn). destruct (steps_inv _ _ _ _ E3') as (Q3 & Q4 & _). split.
  - intros why EU. unfold Update in EU. rewrite (ly_valid _ _ _ H) in EU.
    destruct (update_prologue s) as [[s1 vcal]|w] eqn:E1; cbn [bind] in EU.
    2:{ exfalso. unfold update_prologue in E1. destruct (p_sft (st_p s)) eqn:SF.
        - destruct (pr_frozen _ PR SF) as (fr & Ef). rewrite Ef in E1. cbn [bind] in E1. match type of E1 with (if ?b then _ else _) = _ => change b with (p_calib (st_p s)) in E1 end. rewrite (ly_calib _ _ _ H) in E1. discriminate.
        - cbn [bind] in E1. rewrite (ly_calib _ _ _ H) in E1. discriminate. }
    destruct (prologue_inv _ _ _ E1) as (M1 & M2 & M7 & _ & _ & MG1 & MG2 & MG3 & _ & _ & M3 & M4 & M5 & M6 & _). destruct (prologue_layered M qs _ _ _ H E1) as [H1 _].
    pose proof (ly_layers _ _ _ H1) as HL1. pose proof (ly_fronts _ _ _ H1) as O1.
    pose proof (mass_of (env_of s1) (la_env _ _ _ HL1) (top_zero _ _ _ HL1) _ (orderly_str _ M qs HL1 _ O1) (orderly_measured _ M qs HL1 _ O1)) as K.
    change (e_cum (env_of s1)) with (p_cum (st_p s1)) in K. rewrite K in EU. cbn [bind] in EU.
    unfold dgeb in EU. rewrite M2, M7, (pr_precip _ PR), (pr_pet _ PR) in EU. cbn [cassert bind] in EU.
    destruct (update_steps s1) as [[[s2 dt] n1]|w] eqn:E3.
    2:{ exfalso. unfold update_steps in E3. cbv zeta in E3. match type of E3 with bind (d2i (?a / ?b + _)%d) _ = _ => change a with (p_fres (st_p s1)) in E3; change b with (if p_adaptive (st_p s1) then adaptive_step (st_p s1) (st_precip s1) (mb_on_ts (st_mb s1)) else p_timestep (st_p s1)) in E3 end.
        rewrite M1, M2, M3, M5, M6 in E3. unfold adaptive_step in E3, Q3. rewrite M4, M5 in E3. rewrite <- Q3, Q4 in E3. discriminate. }
    cbn [bind] in EU. destruct (set_rest s h s1 vcal _ s2 dt n1 H HR HD E1 K E3) as (p & pet & d & pm & HL & PL & Hp & Epet & Epet0 & RU & HH & K1 & K2 & K3).
    set (u := mkU _ _ _ _ _ _ _) in *. destruct (idle_start (Fin (storage (st_head s1))) (mb_on_ts (st_mb s2))) as [S0 S1].
    destruct (subcycle_loop _ u s2 _) as [[s3 a]|w] eqn:EL; cbn [bind] in EU.
    + exfalso. destruct (loop_runs _ _ _ _ _ _ EL) as (xs & X1 & X2).
      destruct (runs_idle u s2 _ xs s3 a (env_of s2) HL X1 h p pet d pm PL Hp Epet RU HH S0) as (_ & _ & R3 & _ & R5 & R6 & R7).
      assert (NE : xs <> []). { intros ->. cbn [List.length] in X2. destruct (steps_inv _ _ _ _ E3) as (Q1 & Q2 & _). assert (QD : dt = dt') by (rewrite Q1, Q3, M1, M2, M3, M6; unfold adaptive_step; rewrite M4, M5; reflexivity).
        rewrite M5, QD, Q4 in Q2. apply Ok_inj in Q2. subst n1. destruct X2 as [Q|(_ & Q & _)]; lia. }
      destruct (R3 NE) as (m & Em & _). destruct (pr_giuh _ PR) as (N1 & N2 & N3).
      destruct (giuh_ok (a_runoff a) (g_N s3) (g_ord s3) (g_queue s3)) as (o & q' & Eg & _); [rewrite R7, K3; assumption|rewrite R7, K3, R5, K1; assumption|rewrite R7, K3, R6, K2; assumption|].
      unfold finish_update in EU. rewrite Eg in EU. cbn [bind] in EU. rewrite Em in EU. discriminate.
    + injection EU as <-. destruct (loop_stops_at _ _ _ _ _ EL) as (xs & s3 & a3 & X1 & X3).
      destruct (runs_rest M qs u s2 _ _ s3 a3 (env_of s2) HL X1 h p pet d pm PL Hp Epet RU HH) as (zs & h2 & p' & pet' & _ & _ & _ & T4 & T5 & T6 & T7 & T8).
      assert (H2 : 0 < column_water qs h2) by (apply HC; exact (hs_head _ _ _ T4)).
      destruct (rest_substep (env_of s2) M qs HL u s3 a3 p' d pm pet' h2 T5 T6 T7 RU T4) as [T Z]. rewrite X3 in T. split.
      * intros (pe & Epe & Hpe). rewrite Epet0 in Epe. injection Epe as <-. destruct (T8 Hpe ltac:(apply HC; exact (hs_head _ _ _ HH))) as [_ Hp']. destruct (Z Hp' H2) as (s4 & a4 & E' & _). rewrite X3 in E'. discriminate.
      * destruct T as [T|[T|[_ T]]]; [left; exact T|right; exact T|lra].
  - intros u xs s' [_ X] ->. rewrite (ly_valid _ _ _ H) in X. destruct X as (s1 & vcal & volend & s2 & n & s3 & a & E1 & _ & E3 & _ & _ & E5 & _).
    destruct (prologue_inv _ _ _ E1) as (M1 & M2 & _ & _ & _ & _ & _ & _ & _ & _ & M3 & M4 & M5 & M6 & _).
    destruct (steps_inv _ _ _ _ E3) as (Q1 & Q2 & _).
    assert (QD : u_dt u = dt') by (rewrite Q1, Q3, M1, M2, M3, M6; unfold adaptive_step; rewrite M4, M5; reflexivity). rewrite M5, QD, Q4 in Q2. apply Ok_inj in Q2. subst n'.
    cbn [List.length] in E5. destruct E5 as [Q|(_ & Q & _)]; lia.
Qed.
End Run.
