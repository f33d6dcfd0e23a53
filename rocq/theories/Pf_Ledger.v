(** The water ledger over sub-steps, Updates and histories (exact arithmetic). *)

From Coq Require Import Reals Lra ZArith List Bool Lia.
From RecordUpdate Require Import RecordSet.
From Verif Require Import Outcome Dbl Types ListOps Soil Giuh Fronts Infil Move State Update Exact Lib Spec_Common Pf_Dbl Spec_Update
  Pf_Update Pf_Surface Pf_SurfaceAny.
Import ListNotations.
Import RecordSetNotations.
Open Scope R_scope.

(** ** Surface water *)
Section Exactly.
Local Existing Instance exact.
Context {cfg : Cfg}.

Lemma clean_exact : forall w, clean_volon (Fin w) = Fin (w - dropped w).
Proof.
  intro w. unfold clean_volon, dropped. cbv zeta. dcrush; f_equal; lra.
Qed.

(** Totals that are finite at the end were finite all along. *)
Lemma runs_fin : forall u s a xs s' a', runs u s a xs s' a' ->
  (finite (a_precip a') -> finite (a_precip a)) /\ (finite (a_in a') -> finite (a_in a)) /\ (finite (a_runoff a') -> finite (a_runoff a)) /\
  (finite (a_aet a') -> finite (a_aet a)) /\ (finite (a_rech a') -> finite (a_rech a)).
Proof.
  intros u s a xs s' a' H. induction H as [|s a s1 a1 xs s2 a2 Hs Hr IH]; [auto 10|].
  destruct (substep_inv _ _ _ _ _ Hs) as (volstart & b & volend & mbl & precip & pet & prate & petr & _ & _ & _ & _ & _ & _ & _ & _ & _ & _ & Ea).
  destruct IH as (I1 & I2 & I3 & I4 & I5). subst a1. cbn in *.
  repeat split; intro F; [apply I1 in F|apply I2 in F|apply I3 in F|apply I4 in F|apply I5 in F]; destruct F as (r & F);
  apply fin_add in F as (x & y & -> & _); eexists; reflexivity.
Qed.

Lemma substep_surface : forall u s a s1 a1 w p i r,
  substep u s a = Ok (s1, a1) -> a_on a = Fin w -> a_precip a1 = Fin p -> a_in a1 = Fin i -> a_runoff a1 = Fin r ->
  exists p0 i0 r0 w1, a_precip a = Fin p0 /\ a_in a = Fin i0 /\ a_runoff a = Fin r0 /\ a_on a1 = Fin w1 /\
    w + (p - p0) = (i - i0) + (r - r0) + w1.
Proof.
  intros u s a s1 a1 w p i r Hs Hw Hp Hi Hr.
  destruct (substep_inv _ _ _ _ _ Hs) as (volstart & b & volend & mbl & precip & pet & prate & petr & _ & _ & Epr & _ & _ & Eh & _ & _ & _ & _ & Ea).
  subst a1. cbn in *. rewrite Hw in Eh.
  apply fin_add in Hp as (p0 & dp & -> & Edp & ->). apply fin_add in Hi as (i0 & di & -> & Edi & ->).
  apply fin_add in Hr as (r0 & dr & -> & Edr & ->). rewrite Edp in Eh. cbn in Eh.
  destruct (hydro_surface _ _ _ _ _ _ _ _ _ _ _ _ _ Eh Edi Edr) as (o & Eo & Ew).
  exists p0, i0, r0, o. repeat split; auto. lra.
Qed.

Lemma runs_surface : forall u s a xs s' a', runs u s a xs s' a' ->
  forall w p i r, a_on a = Fin w -> a_precip a' = Fin p -> a_in a' = Fin i -> a_runoff a' = Fin r ->
  exists p0 i0 r0 w1, a_precip a = Fin p0 /\ a_in a = Fin i0 /\ a_runoff a = Fin r0 /\ a_on a' = Fin w1 /\
    w + (p - p0) = (i - i0) + (r - r0) + w1.
Proof.
  intros u s a xs s' a' H. induction H as [s a|s a s1 a1 xs s2 a2 Hs Hr IH]; intros w p i r Hw Hp Hi Hro.
  - exists p, i, r, w. repeat split; auto. lra.
  - destruct (runs_fin _ _ _ _ _ _ Hr) as (F1 & F2 & F3 & _).
    destruct F1 as (p1 & Hp1); [eexists; eassumption|]. destruct F2 as (i1 & Hi1); [eexists; eassumption|].
    destruct F3 as (r1 & Hr1); [eexists; eassumption|].
    destruct (substep_surface _ _ _ _ _ _ _ _ _ Hs Hw Hp1 Hi1 Hr1) as (p0 & i0 & r0 & w1 & E1 & E2 & E3 & E4 & E5).
    destruct (IH _ _ _ _ E4 Hp Hi Hro) as (p0' & i0' & r0' & w2 & G1 & G2 & G3 & G4 & G5).
    rewrite Hp1 in G1. rewrite Hi1 in G2. rewrite Hr1 in G3. injection G1 as <-. injection G2 as <-. injection G3 as <-.
    exists p0, i0, r0, w2. repeat split; auto. lra.
Qed.

Lemma update_surface : forall s s' o w0 p i r,
  p_invalid (st_p s) = false -> Update s = Ok s' -> mb_on_ts (st_mb s) = Fin w0 ->
  st_out s' = Some o -> o_precip o = Fin p -> o_in o = Fin i -> o_runoff o = Fin r ->
  exists w1, mb_on_ts (st_mb s') = Fin w1 /\ w0 / 100 + p = i + r + w1 / 100.
Proof.
  intros s s' o w0 p i r Hv H Hw Ho Hp Hi Hr.
  destruct (Update_inv _ _ Hv H) as (s1 & vcal & volend & s2 & dt & n & s3 & a & E1 & E2 & _ & _ & E5 & E6 & E7).
  destruct (prologue_inv _ _ _ E1) as (Emb & _). destruct (steps_inv _ _ _ _ E5) as (_ & _ & Es2).
  destruct (loop_runs _ _ _ _ _ _ E6) as (xs & Hr1 & _).
  destruct (finish_inv _ _ _ _ E7) as (giuh & q & mbl & _ & _ & Es').
  subst s'. cbn in Ho. injection Ho as <-. cbn in Hp, Hi, Hr. cbn [st_mb mb_on_ts].
  apply fin_mul in Hp as (P & y1 & HP & Hy1 & ->). apply fin_mul in Hi as (I & y2 & HI & Hy2 & ->). apply fin_mul in Hr as (Ro & y3 & HR & Hy3 & ->).
  injection Hy1 as <-. injection Hy2 as <-. injection Hy3 as <-.
  assert (Hw2 : a_on (acc0 volend (mb_on_ts (st_mb s2))) = Fin w0) by (subst s2; cbn; rewrite Emb; assumption).
  destruct (runs_surface _ _ _ _ _ _ Hr1 _ _ _ _ Hw2 HP HI HR) as (p0 & i0 & r0 & w1 & G1 & G2 & G3 & G4 & G5).
  cbn in G1, G2, G3. injection G1 as <-. injection G2 as <-. injection G3 as <-.
  exists w1. split; [exact G4|]. lra.
Qed.

(** ** The ledger *)

(** One sub-step with a finite residual. *)
Lemma substep_ledger : forall u s a s1 a1 v w P Ro A Rc,
  substep u s a = Ok (s1, a1) ->
  lgar_calc_mass_bal (p_cum (st_p s)) (st_head s) = Ok (Fin v) ->
  a_on a = Fin w -> a_precip a = Fin P -> a_runoff a = Fin Ro -> a_aet a = Fin A -> a_rech a = Fin Rc ->
  finite (residual (mkStep s a s1 a1)) ->
  exists v1 w1 P1 R1 A1 Rc1,
    lgar_calc_mass_bal (p_cum (st_p s1)) (st_head s1) = Ok (Fin v1) /\ a_end a1 = Fin v1 /\
    a_on a1 = Fin w1 /\ a_precip a1 = Fin P1 /\ a_runoff a1 = Fin R1 /\ a_aet a1 = Fin A1 /\ a_rech a1 = Fin Rc1 /\
    v + w + (P1 - P) - (R1 - Ro) - (A1 - A) - (Rc1 - Rc) - w1 - v1 = val (residual (mkStep s a s1 a1)) + dropped w.
Proof.
  intros u s a s1 a1 v w P Ro A Rc Hs Hv Hw HP HR HA HRc Hf.
  destruct (substep_inv _ _ _ _ _ Hs) as (volstart & b & volend & mbl & precip & pet & prate & petr & _ & _ & _ & _ & E1 & _ & E2 & E3 & _ & Es & Ea).
  unfold residual in Hf. cbn [x_s'] in Hf. unfold residual. cbn [x_s'].
  rewrite Es in Hf. cbn in Hf. rewrite Hv in E1. injection E1 as <-. rewrite Hw, clean_exact in E3.
  destruct Hf as (r & Hf). rewrite Hf in E3. symmetry in E3. unfold local_balance in E3.
  apply fin_sub in E3 as (x1 & ve & E3 & Hve & Hr). apply fin_sub in E3 as (x2 & drc & E3 & Hdrc & ->).
  apply fin_sub in E3 as (x3 & w1 & E3 & Hw1 & ->). apply fin_sub in E3 as (x4 & dA & E3 & HdA & ->).
  apply fin_sub in E3 as (x5 & dR & E3 & HdR & ->). apply fin_add in E3 as (x6 & cw & E3 & Hcw & ->).
  apply fin_add in E3 as (x7 & dP & Hx7 & HdP & ->). injection Hx7 as <-. injection Hcw as <-.
  subst volend. subst s1 a1. cbn. rewrite Hf. cbn. rewrite HP, HR, HA, HRc, Hw1, HdP, HdR, HdA, Hdrc.
  exists ve, w1, (P + dP), (Ro + dR), (A + dA), (Rc + drc). repeat split; auto. rewrite Hr. ring.
Qed.

(** Sums over executed sub-steps. *)
Definition residuals (xs : list step) : R := Rsum (map (fun x => val (residual x)) xs).
Definition dropped_water (xs : list step) : R := Rsum (map (fun x => dropped (val (ponded_before x))) xs).

Lemma runs_ledger : forall u s a xs s' a', runs u s a xs s' a' ->
  forall v w P Ro A Rc,
  lgar_calc_mass_bal (p_cum (st_p s)) (st_head s) = Ok (Fin v) -> a_end a = Fin v ->
  a_on a = Fin w -> a_precip a = Fin P -> a_runoff a = Fin Ro -> a_aet a = Fin A -> a_rech a = Fin Rc ->
  Forall (fun x => finite (residual x)) xs ->
  exists v1 w1 P1 R1 A1 Rc1,
    lgar_calc_mass_bal (p_cum (st_p s')) (st_head s') = Ok (Fin v1) /\ a_end a' = Fin v1 /\
    a_on a' = Fin w1 /\ a_precip a' = Fin P1 /\ a_runoff a' = Fin R1 /\ a_aet a' = Fin A1 /\ a_rech a' = Fin Rc1 /\
    v + w + (P1 - P) - (R1 - Ro) - (A1 - A) - (Rc1 - Rc) - w1 - v1 = residuals xs + dropped_water xs.
Proof.
  intros u s a xs s' a' H. induction H as [s a|s a s1 a1 xs s2 a2 Hs Hr IH]; intros v w P Ro A Rc Hv He Hw HP HR HA HRc Hf.
  - exists v, w, P, Ro, A, Rc. repeat split; auto. unfold residuals, dropped_water. cbn. ring.
  - inversion Hf as [|? ? Hf1 Hf2]; subst.
    destruct (substep_ledger _ _ _ _ _ _ _ _ _ _ _ Hs Hv Hw HP HR HA HRc Hf1) as (v1 & w1 & P1 & R1 & A1 & Rc1 & G1 & G2 & G3 & G4 & G5 & G6 & G7 & G8).
    destruct (IH _ _ _ _ _ _ G1 G2 G3 G4 G5 G6 G7 Hf2) as (v2 & w2 & P2 & R2 & A2 & Rc2 & K1 & K2 & K3 & K4 & K5 & K6 & K7 & K8).
    exists v2, w2, P2, R2, A2, Rc2. repeat split; auto.
    unfold residuals, dropped_water in *. cbn [map Rsum]. unfold ponded_before at 1. cbn [x_a]. rewrite Hw. cbn [val]. lra.
Qed.

(** State of the books between Updates: all totals finite, the balance against the current profile is [g]. *)
Definition books (s : state) (g : R) : Prop :=
  exists v v0 P Ro A Rc C w,
    lgar_calc_mass_bal (p_cum (st_p s)) (st_head s) = Ok (Fin v) /\ mb_start (st_mb s) = Fin v0 /\
    mb_precip (st_mb s) = Fin P /\ mb_runoff (st_mb s) = Fin Ro /\ mb_aet (st_mb s) = Fin A /\ mb_rech (st_mb s) = Fin Rc /\
    mb_calib (st_mb s) = Fin C /\ mb_on (st_mb s) = Fin w /\ mb_on_ts (st_mb s) = Fin w /\
    g = v0 + P - Ro - A - w - Rc - v + C.

Lemma books_fresh : forall s, fresh s -> books s 0.
Proof.
  intros s ((v & E1 & E2) & H1 & H2 & H3 & H4 & H5 & H6 & H7 & _).
  exists v, v, 0, 0, 0, 0, 0, 0. repeat split; auto. ring.
Qed.

Lemma books_edit : forall s s' g, user_edit s s' -> books s g -> books s' g.
Proof. intros s s' g (pr & pet & T & cal & out & nf & tw & dw & ->) H. exact H. Qed.

(** The state changes of the sub-steps leave the books and the layering alone. *)
Lemma runs_frame : forall (fp : Fp) u s a xs s' a', runs u s a xs s' a' ->
  p_cum (st_p s') = p_cum (st_p s) /\ p_invalid (st_p s') = p_invalid (st_p s) /\
  mb_start (st_mb s') = mb_start (st_mb s) /\ mb_precip (st_mb s') = mb_precip (st_mb s) /\
  mb_runoff (st_mb s') = mb_runoff (st_mb s) /\ mb_aet (st_mb s') = mb_aet (st_mb s) /\ mb_rech (st_mb s') = mb_rech (st_mb s) /\
  mb_calib (st_mb s') = mb_calib (st_mb s) /\ mb_pet (st_mb s') = mb_pet (st_mb s) /\ g_N s' = g_N s /\ g_ord s' = g_ord s /\ g_queue s' = g_queue s /\
  st_cal s' = st_cal s /\ st_soils s' = st_soils s /\
  p_timestep (st_p s') = p_timestep (st_p s) /\ p_mints (st_p s') = p_mints (st_p s) /\ p_fres (st_p s') = p_fres (st_p s) /\
  p_pmax (st_p s') = p_pmax (st_p s) /\ p_endtime (st_p s') = p_endtime (st_p s) /\ p_adaptive (st_p s') = p_adaptive (st_p s).
Proof.
  intros fp u s a xs s' a' H. induction H as [|s a s1 a1 xs s2 a2 Hs Hr IH]; [repeat split|].
  destruct (substep_inv _ _ _ _ _ Hs) as (volstart & b & volend & mbl & precip & pet & prate & petr & _ & _ & _ & _ & _ & _ & _ & _ & _ & Es & _).
  subst s1. exact IH.
Qed.

Lemma update_books : forall s u xs s' g,
  p_invalid (st_p s) = false -> executed s u xs s' -> books s g -> Forall (fun x => finite (residual x)) xs ->
  finite (mb_calib (st_mb s')) ->
  books s' (g + residuals xs + dropped_water xs) /\ global_error (st_mb s') = Fin (g + residuals xs + dropped_water xs).
Proof.
  intros s u xs s' g Hv (_ & He) (v & v0 & P & Ro & A & Rc & C & w & B1 & B2 & B3 & B4 & B5 & B6 & B7 & B8 & B9 & Hg) Hf Hc.
  rewrite Hv in He. destruct He as (s1 & vcal & volend & s2 & n & s3 & a & E1 & E2 & E3 & E4 & E5 & E6 & E7).
  destruct (prologue_inv _ _ _ E1) as (Emb & _ & _ & _ & _ & _ & _ & _ & _ & Ecum & _ & _ & _ & _ & _ & _ & _ & _ & _ & _ & Hcal).
  destruct (steps_inv _ _ _ _ E3) as (_ & _ & Es2).
  destruct (finish_inv _ _ _ _ E7) as (giuh & q & mbl & _ & _ & Es').
  destruct (runs_frame _ _ _ _ _ _ _ E5) as (F1 & _ & F2 & F3 & F4 & F5 & F6 & F7 & _).
  assert (Emb2 : st_mb s2 = st_mb s) by (subst s2; cbn; assumption).
  assert (Ecum2 : p_cum (st_p s2) = p_cum (st_p s)) by (subst s2; cbn; assumption).
  assert (Ehd2 : st_head s2 = st_head s1) by (subst s2; reflexivity).
  assert (Hvc : exists x, vcal = Fin x).
  { subst s'. cbn in Hc. destruct Hc as (y & Hc). apply fin_add in Hc as (x1 & x2 & _ & -> & _). eauto. }
  destruct Hvc as (vc & ->).
  assert (Hvol : volend = Fin (v + vc)).
  { destruct (p_calib (st_p s)).
    - destruct Hcal as (bf & af & G1 & G2 & G3). rewrite B1 in G1. injection G1 as <-. rewrite Ecum, G2 in E2. injection E2 as <-.
      symmetry in G3. apply fin_sub in G3 as (x & y & -> & Hy & ->). injection Hy as <-. f_equal. ring.
    - destruct Hcal as (G1 & G2). injection G2 as ->. rewrite Ecum, G1, B1 in E2. injection E2 as <-. f_equal. ring. }
  subst volend.
  assert (K1 : lgar_calc_mass_bal (p_cum (st_p s2)) (st_head s2) = Ok (Fin (v + vc))) by (rewrite Ecum2, Ehd2, <- Ecum; assumption).
  assert (K2 : a_on (acc0 (Fin (v + vc)) (mb_on_ts (st_mb s2))) = Fin w) by (cbn; rewrite Emb2; assumption).
  destruct (runs_ledger _ _ _ _ _ _ E5 _ _ _ _ _ _ K1 eq_refl K2 eq_refl eq_refl eq_refl eq_refl Hf)
    as (v1 & w1 & P1 & R1 & A1 & Rc1 & L1 & L2 & L3 & L4 & L5 & L6 & L7 & L8).
  rewrite Emb2 in *.
  subst s'. cbn. unfold global_error. cbn.
  rewrite F2, F3, F4, F5, F6, F7, L2, L3, L4, L5, L6, L7, B2, B3, B4, B5, B6, B7. cbn.
  split.
  - exists v1, v0, (P + P1), (Ro + R1), (A + A1), (Rc + Rc1), (C + vc), w1. cbn.
    repeat split; auto.
    subst g. lra.
  - f_equal. subst g. lra.
Qed.

Lemma residuals_app : forall xs ys, residuals (xs ++ ys) = residuals xs + residuals ys.
Proof. intros. unfold residuals. rewrite map_app. induction (map _ xs); cbn; lra. Qed.
Lemma dropped_app : forall xs ys, dropped_water (xs ++ ys) = dropped_water xs + dropped_water ys.
Proof. intros. unfold dropped_water. rewrite map_app. induction (map _ xs); cbn; lra. Qed.

Lemma history_calib : forall Q s0 xs s, history Q s0 xs s -> p_invalid (st_p s0) = false ->
  p_invalid (st_p s) = false /\ (finite (mb_calib (st_mb s)) -> finite (mb_calib (st_mb s0))).
Proof.
  intros Q s0 xs s H Hv. induction H as [|xs s s' H IH He HQ|xs s u ys s' H IH He].
  - auto.
  - destruct He as (pr & pet & T & cal & out & nf & tw & dw & ->). exact IH.
  - destruct IH as [IH1 IH2]. destruct He as (_ & He). rewrite IH1 in He.
    destruct He as (s1 & vcal & volend & s2 & n & s3 & a & E1 & E2 & E3 & E4 & E5 & E6 & E7).
    destruct (prologue_inv _ _ _ E1) as (Emb & _ & _ & _ & _ & _ & _ & _ & _ & _ & _ & _ & _ & _ & _ & _ & _ & Hinv & _).
    destruct (steps_inv _ _ _ _ E3) as (_ & _ & Es2). destruct (finish_inv _ _ _ _ E7) as (giuh & q & mbl & _ & _ & Es').
    destruct (runs_frame _ _ _ _ _ _ _ E5) as (_ & F1 & _ & _ & _ & _ & _ & F7 & _).
    subst s'. cbn. rewrite F1, F7, Es2. cbn. rewrite Hinv, Emb. split; [assumption|].
    intros (y & Hy). apply fin_add in Hy as (x1 & x2 & Hx & _). apply IH2. eexists; eassumption.
Qed.

Lemma finish_calib : forall s u xs s', p_invalid (st_p s) = false -> executed s u xs s' -> finite (mb_calib (st_mb s')) -> finite (mb_calib (st_mb s)).
Proof.
  intros s u xs s' Hv He Hc.
  assert (H : history (fun _ => True) s ([] ++ xs) s') by (eapply hist_update; [constructor|eassumption]).
  apply history_calib in H as [_ H]; auto.
Qed.

Lemma history_books : forall Q s0 xs s g0, history Q s0 xs s -> p_invalid (st_p s0) = false -> books s0 g0 ->
  Forall (fun x => finite (residual x)) xs -> finite (mb_calib (st_mb s)) ->
  books s (g0 + residuals xs + dropped_water xs).
Proof.
  intros Q s0 xs s g0 H Hv. induction H as [|xs s s' H IH He HQ|xs s u ys s' H IH He]; intros B F Hc.
  - unfold residuals, dropped_water. cbn. rewrite !Rplus_0_r. assumption.
  - eapply books_edit; [eassumption|]. apply IH; auto. destruct He as (pr & pet & T & cal & out & nf & tw & dw & ->). exact Hc.
  - apply Forall_app in F as [F1 F2]. destruct (history_calib _ _ _ _ H Hv) as [Hi _].
    specialize (IH B F1 (finish_calib _ _ _ _ Hi He Hc)).
    destruct (update_books _ _ _ _ _ Hi He IH F2 Hc) as [K _]. rewrite residuals_app, dropped_app.
    replace (g0 + (residuals xs + residuals ys) + (dropped_water xs + dropped_water ys))
      with (g0 + residuals xs + dropped_water xs + residuals ys + dropped_water ys) by ring. assumption.
Qed.

(** The printed balance after a history that ends with an Update. *)
Lemma history_global : forall Q s0 xs s u ys s', fresh s0 -> p_invalid (st_p s0) = false ->
  history Q s0 xs s -> executed s u ys s' ->
  Forall (fun x => finite (residual x)) (xs ++ ys) -> finite (mb_calib (st_mb s')) ->
  global_error (st_mb s') = Fin (Rsum (map (fun x => val (residual x)) (xs ++ ys)) + Rsum (map (fun x => dropped (val (ponded_before x))) (xs ++ ys))).
Proof.
  intros Q s0 xs s u ys s' Hfr Hv H He F Hc. apply Forall_app in F as [F1 F2].
  destruct (history_calib _ _ _ _ H Hv) as [Hi _].
  pose proof (history_books _ _ _ _ 0 H Hv (books_fresh _ Hfr) F1 (finish_calib _ _ _ _ Hi He Hc)) as B.
  destruct (update_books _ _ _ _ _ Hi He B F2 Hc) as [_ K]. rewrite K. f_equal.
  fold (residuals (xs ++ ys)). fold (dropped_water (xs ++ ys)). rewrite residuals_app, dropped_app. ring.
Qed.
End Exactly.
