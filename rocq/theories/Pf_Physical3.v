(** Updates, calibration and histories keep the fronts physical (exact arithmetic). *)

From Coq Require Import Reals Lra ZArith List Bool Lia.
From RecordUpdate Require Import RecordSet.
From Verif Require Import Outcome Dbl Exact Types ListOps Soil Giuh Fronts Infil Move State Update Lib Spec_Common Spec_Soil Spec_List Spec_Update Spec_Profile Spec_Storage
  Spec_Calib Spec_Physical Pf_Dbl Pf_Pow Pf_Soil Pf_Structure Pf_Cross Pf_Repair Pf_SingleMerge Pf_SafeMove Pf_SafeUpdate Pf_Update Pf_Surface Pf_SurfaceAny Pf_Signs Pf_SoilAny Pf_BmiRun Pf_Calib Pf_Physical Pf_Physical2.
Import ListNotations.
Import RecordSetNotations.
Open Scope R_scope.

Section Histories.
Local Existing Instance exact.
Context {cfg : Cfg}.
Variable M : R.

Lemma runs_flags : forall u s a xs s' a', runs u s a xs s' a' -> p_calib (st_p s') = p_calib (st_p s) /\ p_pmax (st_p s') = p_pmax (st_p s) /\
  p_timestep (st_p s') = p_timestep (st_p s) /\ p_mints (st_p s') = p_mints (st_p s) /\ p_fres (st_p s') = p_fres (st_p s) /\ env_of s' = env_of s.
Proof.
  intros u s a xs s' a' HR. induction HR as [s a|s a s1 a1 xs s2 a2 HS HR IH]; [auto 10|].
  apply substep_inv in HS as (v1 & b & v2 & m & pc & pe & pr & per & _ & _ & _ & _ & _ & _ & _ & _ & _ & -> & _). exact IH.
Qed.

Definition suits (e : env) : Prop := vg_column e /\ conducts_at_most M e.

(** From the state in which the sub-steps start. *)
Lemma after_prologue : forall s u xs s' s1 vcal volend s2 n s3 a, sound_env (env_of s1) -> Str (env_of s1) (st_head s1) -> suits (env_of s1) ->
  physical_state M s1 -> finite (p_timestep (st_p s1)) /\ finite (p_mints (st_p s1)) /\ not_negative (p_mints (st_p s1)) /\ finite (p_fres (st_p s1)) ->
  update_prologue s = Ok (s1, vcal) -> update_steps s1 = Ok (s2, u_dt u, n) ->
  u = mkU (env_of s2) (u_dt u) (p_nint (st_p s2)) (p_closed (st_p s2)) (p_wilting (st_p s2)) (p_fc (st_p s2)) (p_pmax (st_p s2)) ->
  runs u s2 (acc0 volend (mb_on_ts (st_mb s2))) xs s3 a -> finish_update s3 a vcal = Ok s' ->
  Forall (fun x => ~ step_tie u (x_s x) (x_a x)) xs ->
  physical_state M s' /\ suits (env_of s') /\ Forall (fun x => Forall (physical_front M (env_of (x_s' x))) (st_head (x_s' x))) xs /\
  p_theta_wf (st_p s') = map f_theta (st_head s').
Proof.
  intros s u xs s' s1 vcal volend s2 n s3 a HE H [V1 V2] [P F (N1 & N2 & N3 & N4 & N5)] Fin3 EP ES EU HR EF HT.
  pose proof (step_finite _ _ _ _ ES Fin3) as Hdt. destruct (steps_inv _ _ _ _ ES) as (Edt & _ & E2).
  assert (Ndt : not_negative (u_dt u)) by (rewrite Edt; destruct (p_adaptive (st_p s1)); [apply adaptive_nn|]; assumption).
  assert (Eu : u_env u = env_of s1) by (rewrite EU, E2; reflexivity).
  assert (Npm : not_negative (u_pmax u)) by (rewrite EU, E2; exact N4).
  assert (Na : acc_nn (acc0 volend (mb_on_ts (st_mb s2)))).
  { repeat split; try apply nn_zero. cbn. rewrite E2. exact N5. }
  assert (P' : Forall (phys (env_of s1) M) (st_head s1)) by (eapply Forall_impl; [|exact P]; intros f; apply phys_iff; assumption).
  assert (Es2 : env_of s2 = env_of s1) by (rewrite E2; reflexivity).
  assert (Hs2 : st_head s2 = st_head s1) by (rewrite E2; reflexivity).
  rewrite <- Hs2 in P', H.
  destruct (runs_phys (env_of s1) M V1 V2 F HE u s2 _ xs s3 a HR Eu Hdt Ndt Npm HT Es2 H Na P') as [R1 R2].
  destruct (runs_nn _ _ _ _ _ _ Ndt Npm HR Na) as [(A1 & _) _].
  destruct (runs_flags _ _ _ _ _ _ HR) as (G1 & G2 & G3 & G4 & G5 & G6). rewrite E2 in G1, G2, G3, G4, G5, G6. cbn in G1, G2, G3, G4, G5.
  change (env_of s3 = env_of s1) in G6.
  apply finish_inv in EF as (gi & q & mbl & EG & _ & EQ).
  assert (Ee : env_of s' = env_of s1) by (rewrite EQ; exact G6).
  assert (Eh : st_head s' = st_head s3) by (rewrite EQ; reflexivity).
  split; [|split; [|split]].
  - constructor.
    + rewrite Ee, Eh. eapply Forall_impl; [|exact R1]. intros f. apply phys_iff. assumption.
    + rewrite Ee. exact F.
    + rewrite EQ. cbn. rewrite G2, G3, G4, G5. auto.
  - rewrite Ee. split; assumption.
  - clear - R2 V1 HR Es2. revert R2. induction HR as [s a|s a s1' a1 xs s2' a2 HS HR IH]; intro R2; [constructor|]. inversion R2 as [|x y B1 B2]; subst x y. cbn [x_s'] in B1.
    assert (Q : env_of s1' = env_of s1) by (apply substep_inv in HS as (v1 & b & v2 & m & pc & pe & pr & per & _ & _ & _ & _ & _ & _ & _ & _ & _ & -> & _); exact Es2).
    constructor; [|apply IH; assumption]. cbn [x_s']. rewrite Q. eapply Forall_impl; [|exact B1]. intros f. apply phys_iff. assumption.
  - rewrite EQ. reflexivity.
Qed.

Lemma frozen_kept : forall s p, frozen_in_range (env_of s) ->
  (if p_sft (st_p s) then fr <- frozen_factor (p_nlayers (st_p s)) (p_cum (st_p s)) (p_soilTz (st_p s)) (p_soilT (st_p s)) (p_ncells (st_p s)) (p_frozen (st_p s)) ;;
     Ok ((st_p s) <| p_frozen := fr |>) else Ok (st_p s)) = Ok p ->
  exists fr, p = (st_p s) <| p_frozen := fr |> /\ forall k, (1 <= k <= p_nlayers (st_p s))%Z -> exists x, aget fr k = Ok (Fin x) /\ 0 <= x <= 1.
Proof.
  intros s p F E. destruct (p_sft (st_p s)).
  - bind_inv E fr Efr. apply Ok_inj in E. subst p. exists fr. split; [reflexivity|]. destruct (frozen_factor_range _ _ _ _ _ _ _ Efr) as (_ & G & _).
    intros y Hy. destruct (G y Hy) as (x & Ex & L1 & L2). exists (val x). destruct x as [x| | |]; cbn in L1, L2; try discriminate. cbn [val]. split; [assumption|].
    unfold Rleb in *. destruct (Rle_dec _ x); [|discriminate]. destruct (Rle_dec x _); [|discriminate]. lra.
  - apply Ok_inj in E. subst p. exists (p_frozen (st_p s)). split; [destruct (st_p s); reflexivity|]. exact F.
Qed.

Lemma suits_env : forall e e', e_nlayers e' = e_nlayers e -> (forall k, (1 <= k <= e_nlayers e)%Z -> soil_of e' k = soil_of e k) -> suits e -> suits e'.
Proof.
  intros e e' EN ES [A B]. split.
  - intros k s Hk Es. rewrite EN in Hk. rewrite ES in Es by assumption. apply (A k); assumption.
  - intros k s ks Hk Es. rewrite EN in Hk. rewrite ES in Es by assumption. apply (B k); assumption.
Qed.

Lemma front_env : forall e e' f, e_nlayers e' = e_nlayers e -> (forall k, (1 <= k <= e_nlayers e)%Z -> soil_of e' k = soil_of e k) -> physical_front M e f -> physical_front M e' f.
Proof.
  intros e e' f EN ES [A (s & r & te & a & n & m & k & t & B1 & B2) C]. constructor; [rewrite EN; assumption| |assumption].
  exists s, r, te, a, n, m, k, t. split; [rewrite ES by assumption; assumption|assumption].
Qed.

Lemma values_soil : forall s k sl, calibration_fits M s -> (1 <= k <= p_nlayers (st_p s))%Z -> has_values (st_cal s) k sl ->
  exists r te a n m ks, vg_soil sl r te a n m ks /\ ks <= M.
Proof.
  intros s k sl F Hk (A1 & A2 & A3 & A4 & A5 & A6). destruct (cb_values _ _ F k Hk) as (tr & te & al & n & ks & B1 & B2 & B3 & B4 & B5 & C1 & C2 & C3 & C4).
  rewrite B2 in A1. rewrite B1 in A2. rewrite B4 in A3. rewrite B3 in A4. rewrite B5 in A5. apply Ok_inj in A1, A2, A3, A4, A5.
  exists tr, te, al, n, (1 - 1 / n), ks. split; [|lra].
  assert (D : 0 < 1 / n < 1) by (unfold Rdiv; rewrite Rmult_1_l; split; [apply Rinv_0_lt_compat; lra|rewrite <- Rinv_1; apply Rinv_lt_contravar; lra]).
  constructor; try congruence; try lra. rewrite A6, <- A3. change (lit 1) with (Fin 1). rewrite div_fin by lra. reflexivity.
Qed.

(** The calibration. *)
Lemma calibrated : forall s s1 v, sound_env (env_of s) -> Str (env_of s) (st_head s) -> physical_state M s -> calibration_fits M s -> p_calib (st_p s) = true ->
  update_prologue s = Ok (s1, v) -> suits (env_of s1) /\ physical_state M s1.
Proof.
  intros s s1 v HE H P CF HC EP. destruct P as [P1 P2 (N1 & N2 & N3 & N4 & N5)].
  assert (HP : profile (p_nlayers (st_p s)) (p_cum (st_p s)) (st_head s)) by (apply (Str_iff (env_of s)) in H; [apply H|apply HE]).
  destruct (prologue_calibrates _ _ _ HC EP) as (m0 & m1 & _ & _ & _ & _ & Epm & CL).
  destruct (calib_loop_spec _ _ _ _ _ _ _ _ CL) as (_ & (fs & F & El) & T). rewrite (cb_fronts _ _ CF) in F, El, T. rewrite Nat2Z.id in F, El, T.
  rewrite firstn_all in F, T. rewrite skipn_all, app_nil_r in El. cbn [app] in El. subst fs.
  unfold update_prologue in EP. cbv zeta in EP. bind_inv EP p Ep. destruct (frozen_kept s p P2 Ep) as (fr & -> & Bfr).
  change (p_calib ((st_p s) <| p_frozen := fr |>)) with (p_calib (st_p s)) in EP. rewrite HC in EP. bind_inv EP q Q1. destruct q as [s2 v2]. apply Ok_inj, pair_equal_spec in EP as [E1 _].
  unfold update_calibratable_parameters in Q1. cbv zeta in Q1. bind_inv Q1 b0 Eb. bind_inv Q1 q Q2. destruct q as [l soils]. bind_inv Q1 aft Ea. apply Ok_inj, pair_equal_spec in Q1 as [E2 _].
  assert (EN : p_nlayers (st_p s1) = p_nlayers (st_p s)) by (rewrite <- E1, <- E2; reflexivity).
  assert (ET : p_stype (st_p s1) = p_stype (st_p s)) by (rewrite <- E1, <- E2; reflexivity).
  assert (EF : p_frozen (st_p s1) = fr) by (rewrite <- E1, <- E2; reflexivity).
  assert (ES : p_timestep (st_p s1) = p_timestep (st_p s) /\ p_mints (st_p s1) = p_mints (st_p s) /\ p_fres (st_p s1) = p_fres (st_p s) /\ st_mb s1 = st_mb s) by (rewrite <- E1, <- E2; auto).
  clear E1 E2 Q2 Ea Ep.
  assert (L : forall k, (1 <= k <= p_nlayers (st_p s))%Z -> exists sl, soil_of (env_of s1) k = Ok sl /\ has_values (st_cal s) k sl).
  { intros k Hk. destruct (se_soil _ HE k Hk) as [sl Esl]. unfold soil_of in Esl. bind_inv Esl t Et. change (e_stype (env_of s)) with (p_stype (st_p s)) in Et.
    destruct (prof_bottom _ _ _ HP k Hk) as (i & f & Nf & Lf & _). destruct (last_exists (p_stype (st_p s)) t (st_head s) f) as [g Hg]; [eapply nth_error_In; exact Nf|rewrite Lf; exact Et|].
    destruct (last_sound _ _ _ _ Hg) as [Ig Tg]. apply In_nth_error in Ig as [j Nj]. pose proof (prof_range _ _ _ HP _ _ Nj) as Rg.
    assert (f_layer g = k) as Lg by (eapply (cb_types _ _ CF); eassumption).
    specialize (T t). rewrite Hg in T. destruct T as (s3 & s4 & _ & T2 & T3 & _). rewrite Lg in T3.
    exists s4. split; [|assumption]. unfold soil_of. cbn [env_of e_stype e_soils]. rewrite ET, Et. exact T2. }
  assert (V : suits (env_of s1)).
  { split.
    - intros k sl Hk Es. cbn [env_of e_nlayers] in Hk. rewrite EN in Hk. destruct (L k Hk) as (sl' & A & B). rewrite A in Es. apply Ok_inj in Es. subst sl'.
      destruct (values_soil s k sl CF Hk B) as (r & te & a & n & m & ks & W & _). exists r, te, a, n, m, ks. exact W.
    - intros k sl ks Hk Es Ek. cbn [env_of e_nlayers] in Hk. rewrite EN in Hk. destruct (L k Hk) as (sl' & A & B). rewrite A in Es. apply Ok_inj in Es. subst sl'.
      destruct (values_soil s k sl CF Hk B) as (r & te & a & n & m & ks' & W & B'). destruct W. congruence. }
  split; [exact V|]. destruct ES as (ES1 & ES2 & ES3 & ES4). constructor.
  - assert (G : Forall (phys (env_of s1) M) (st_head s1)).
    { assert (G0 : Forall (fun f => (1 <= f_layer f <= p_nlayers (st_p s))%Z /\ head_ok (f_psi f) /\ Kok M (f_K f)) (st_head s)).
      { eapply Forall_impl; [|exact P1]. intros f [A (sl & r & te & a & n & m & k & t & _ & _ & _ & _ & D) C]. split; [exact A|]. split; [|exact C].
        destruct D as [[-> _]|(h & -> & Hh & _)]; [left; reflexivity|right; eauto]. }
      clear - F L G0 EN. induction F as [|f f' r r' (sl & A & B) F IH]; [constructor|]. inversion_clear G0 as [|? ? (R1 & R2 & R3) R4]. constructor; [|auto]. subst f'.
      destruct (L _ R1) as (s2 & S2 & V2). split; [cbn [env_of e_nlayers]; rewrite EN; exact R1|]. split; [exact R2|]. split; [|exact R3].
      exists s2. split; [exact S2|]. cbn. eapply theta_values; eassumption. }
    eapply Forall_impl; [|exact G]. intros f. apply phys_iff. apply V.
  - intros k Hk. cbn [env_of e_nlayers e_frozen] in *. rewrite EN in Hk. rewrite EF. apply Bfr. exact Hk.
  - rewrite ES1, ES2, ES3, ES4, Epm. pose proof (cb_pmax _ _ CF). auto.
Qed.

Lemma executed_physical : forall s u xs s', sound_state s -> suits (env_of s) -> physical_state M s -> (p_calib (st_p s) = true -> calibration_fits M s) -> executed s u xs s' ->
  Forall (fun x => ~ step_tie u (x_s x) (x_a x)) xs ->
  physical_state M s' /\ suits (env_of s') /\ Forall (fun x => Forall (physical_front M (env_of (x_s' x))) (st_head (x_s' x))) xs /\
  (p_invalid (st_p s) = false -> p_theta_wf (st_p s') = map f_theta (st_head s')).
Proof.
  intros s u xs s' HS V P HC [HU HX] HT. destruct (p_invalid (st_p s)) eqn:Hv.
  - subst xs. unfold Update in HU. rewrite Hv in HU. apply Ok_inj in HU. subst s'. destruct P as [P1 P2 P3].
    split; [constructor; assumption|]. split; [exact V|]. split; [constructor|discriminate].
  - destruct HX as (s1 & vcal & volend & s2 & n & s3 & a & EP & EM & ES & EU & HR & _ & EF).
    assert (HE := ss_env _ HS). assert (H := sound_str _ HS).
    assert (HP := prologue_kept s s1 vcal HE H EP). destruct HP as (HE1 & H1 & K1).
    assert (Q : suits (env_of s1) /\ physical_state M s1).
    { destruct (p_calib (st_p s)) eqn:Ec; [exact (calibrated s s1 vcal HE H P (HC eq_refl) Ec EP)|]. destruct P as [P1 P2 P4].
      unfold update_prologue in EP. cbv zeta in EP. bind_inv EP p Ep. destruct (frozen_kept s p P2 Ep) as (fr & -> & Bfr).
      change (p_calib ((st_p s) <| p_frozen := fr |>)) with (p_calib (st_p s)) in EP. rewrite Ec in EP. apply Ok_inj in EP. apply pair_equal_spec in EP as [E1 _].
      assert (EN : e_nlayers (env_of s1) = e_nlayers (env_of s)) by (rewrite <- E1; reflexivity).
      assert (ESo : forall k, (1 <= k <= e_nlayers (env_of s))%Z -> soil_of (env_of s1) k = soil_of (env_of s) k) by (intros k _; rewrite <- E1; reflexivity).
      split; [eapply suits_env; eassumption|]. constructor.
      - replace (st_head s1) with (st_head s) by (rewrite <- E1; reflexivity). eapply Forall_impl; [|exact P1]. intros f. apply front_env; assumption.
      - intros k Hk. rewrite EN in Hk. destruct (Bfr k Hk) as (x & Ex & Bx). exists x. split; [rewrite <- E1; exact Ex|exact Bx].
      - rewrite <- E1. exact P4. }
    destruct Q as [V1 PS].
    assert (FT : finite (p_timestep (st_p s1)) /\ finite (p_mints (st_p s1)) /\ not_negative (p_mints (st_p s1)) /\ finite (p_fres (st_p s1))).
    { destruct K1 as (K2 & K3 & K4 & K5 & K6 & K7 & K8 & K9 & K10 & _). rewrite K10, K7, K8. apply HS. }
    destruct (after_prologue s u xs s' s1 vcal volend s2 n s3 a HE1 H1 V1 PS FT EP ES EU HR EF HT) as (Q1 & Q2 & Q3 & Q4). auto.
Qed.

Lemma edit_physical : forall s s', user_edit s s' -> physical_state M s -> suits (env_of s) -> physical_state M s' /\ suits (env_of s') /\ p_calib (st_p s') = p_calib (st_p s).
Proof. intros s s' (pr & pet & T & cal & out & nf & tw & dw & ->) [P1 P2 P3] V. split; [constructor; assumption|]. split; [exact V|reflexivity]. Qed.

Lemma calib_off : forall s u xs s', executed s u xs s' -> p_calib (st_p s) = false -> p_calib (st_p s') = false.
Proof. intros s u xs s' [HU _] C. destruct (Update_static _ _ HU) as [_ K]. destruct (p_invalid (st_p s)); [destruct K as (_ & _ & _ & ->); exact C|apply K]. Qed.

Lemma calm_physical : forall s0 s, sound_state s0 -> suits (env_of s0) -> physical_state M s0 -> p_calib (st_p s0) = false -> Spec_Profile.calm s0 s ->
  sound_state s /\ suits (env_of s) /\ physical_state M s /\ p_calib (st_p s) = false.
Proof.
  intros s0 s HS V P C HC. induction HC as [|s s' HC (IS & IV & IP & IC) E|s u xs s' HC (IS & IV & IP & IC) E T]; [auto| |].
  - destruct (edit_physical _ _ E IP IV) as (A & B & D). split; [eapply edit_sound; eassumption|]. split; [assumption|]. split; [assumption|congruence].
  - assert (IC' : p_calib (st_p s) = true -> calibration_fits M s) by congruence. destruct (executed_physical _ _ _ _ IS IV IP IC' E T) as (A & B & _). split; [eapply executed_sound; eassumption|].
    split; [assumption|]. split; [assumption|]. eapply calib_off; eassumption.
Qed.
End Histories.
