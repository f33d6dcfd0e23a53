(** Clock, sub-step length, forcing totals and published outputs of an Update. *)

From Coq Require Import Reals Lra ZArith List Bool Lia.
From RecordUpdate Require Import RecordSet.
From Verif Require Import Outcome Dbl Types ListOps Soil Giuh Fronts Infil Move State Update Exact Lib Spec_Common Pf_Dbl Spec_Update
  Pf_Update Pf_SurfaceAny Pf_Ledger Pf_Signs.
Import ListNotations.
Import RecordSetNotations.
Open Scope R_scope.

(** ** Truncation *)
Lemma Int_part_bounds : forall x, IZR (Int_part x) <= x < IZR (Int_part x) + 1.
Proof. intro x. pose proof (base_Int_part x). lra. Qed.

Lemma Int_part_unique : forall x z, IZR z <= x < IZR z + 1 -> Int_part x = z.
Proof.
  intros x z H. pose proof (Int_part_bounds x) as B.
  assert (IZR (Int_part x) < IZR (z + 1)) by (rewrite plus_IZR; lra).
  assert (IZR z < IZR (Int_part x + 1)) by (rewrite plus_IZR; lra).
  apply lt_IZR in H0. apply lt_IZR in H1. lia.
Qed.

Lemma trunc_nat : forall x z, (0 <= z)%Z -> IZR z <= x < IZR z + 1 -> trunc x = z.
Proof.
  intros x z Hz H. unfold trunc. apply IZR_le in Hz. destruct (Rlt_dec x 0); [lra|]. apply Int_part_unique. assumption.
Qed.

Lemma trunc_ge_1 : forall x, 1 <= x -> (1 <= trunc x)%Z.
Proof.
  intros x H. unfold trunc. destruct (Rlt_dec x 0); [lra|]. pose proof (Int_part_bounds x).
  assert (0 < IZR (Int_part x)) by lra. apply lt_IZR in H1. lia.
Qed.

Lemma d2i_Ok : forall d n, d2i d = Ok n -> exists x, d = Fin x /\ n = trunc x.
Proof. intros [x| | |] n H; cbn in H; try discriminate. destruct (_ && _)%bool; [|discriminate]. injection H as <-. eauto. Qed.

Section Any.
Context {fp : Fp} {cfg : Cfg}.

Lemma executed_valid : forall s u xs s', p_invalid (st_p s) = false -> executed s u xs s' ->
  exists s1 vcal volend s2 n s3 a,
    update_prologue s = Ok (s1, vcal) /\
    lgar_calc_mass_bal (p_cum (st_p s1)) (st_head s1) = Ok volend /\
    update_steps s1 = Ok (s2, u_dt u, n) /\
    u = mkU (env_of s2) (u_dt u) (p_nint (st_p s2)) (p_closed (st_p s2)) (p_wilting (st_p s2)) (p_fc (st_p s2)) (p_pmax (st_p s2)) /\
    runs u s2 (acc0 volend (mb_on_ts (st_mb s2))) xs s3 a /\
    (length xs = Z.to_nat n \/ (ngen = false /\ (0 < length xs < Z.to_nat n)%nat /\ dgeb (p_time (st_p s3)) (p_endtime (st_p s3)) = true)) /\
    finish_update s3 a vcal = Ok s'.
Proof. intros s u xs s' Hv (_ & He). rewrite Hv in He. exact He. Qed.

(** The counter of sub-steps. *)
Lemma runs_count : forall u s a xs s' a', runs u s a xs s' a' -> p_timesteps (st_p s') = (p_timesteps (st_p s) + Z.of_nat (length xs))%Z.
Proof.
  intros u s a xs s' a' H. induction H as [s a|s a s1 a1 xs s2 a2 Hs Hr IH]; [cbn; lia|].
  destruct (substep_inv _ _ _ _ _ Hs) as (volstart & b & volend & mbl & precip & pet & prate & petr & _ & _ & _ & _ & _ & _ & _ & _ & _ & -> & _).
  cbn in IH. cbn [length]. lia.
Qed.

(** The step length with the adaptive option. *)
Lemma adaptive_le : forall p pr w, dltb (p_fres p) (adaptive_step p pr w) = false.
Proof. intros. unfold adaptive_step. apply fmin_le_r. Qed.

Lemma rnd_ge_1 : forall x, 1 <= x -> dleb (Fin 1) (rnd x) = true.
Proof. intros x H. pose proof (rnd_mono 1 x H) as M. rewrite rnd_one in M. exact M. Qed.

Lemma adaptive_pos : forall p pr w m f, p_mints p = Fin m -> p_fres p = Fin f -> 0 < m -> 0 < f -> rnd m = Fin m ->
  exists d, adaptive_step p pr w = Fin d /\ 0 < d <= f.
Proof.
  intros p pr w m f Hm Hf Pm Pf Rm. unfold adaptive_step. rewrite Hm, Hf.
  assert (K : forall d, d = PInf \/ (exists y, d = Fin y /\ 0 < y) -> exists z, dfmin d (Fin f) = Fin z /\ 0 < z <= f).
  { intros d [-> | (y & -> & Hy)]; cbn.
    - exists f. split; [reflexivity|lra].
    - unfold Rltb. rcases; eexists; (split; [reflexivity|lra]). }
  apply K. destruct (_ || _)%bool; [eauto|]. destruct (_ >? _)%d; [|eauto].
  assert (L : dleb (Fin 1) (lit 2) = true) by (apply rnd_ge_1; lra).
  unfold lit in *. destruct (rnd 2) as [y| | |]; cbn in L; try discriminate.
  - apply Rleb_true in L. cbn.
    assert (M : dleb (rnd m) (rnd (m * y)) = true) by (apply rnd_mono; nra). rewrite Rm in M.
    pose proof (rnd_not_nan (m * y)).
    destruct (rnd (m * y)) as [z| | |]; cbn in M; try discriminate; auto. apply Rleb_true in M. right. exists z. split; [reflexivity|lra].
  - left. cbn. unfold inf_sign. rcases; auto; lra.
Qed.

Lemma adaptive_at_least_one : forall s u xs s' m f, p_invalid (st_p s) = false -> executed s u xs s' ->
  p_adaptive (st_p s) = true -> p_mints (st_p s) = Fin m -> p_fres (st_p s) = Fin f -> 0 < m -> 0 < f -> rnd m = Fin m ->
  (1 <= length xs)%nat /\ dltb (Fin f) (u_dt u) = false.
Proof.
  intros s u xs s' m f Hv He Ha Hm Hf Pm Pf Rm.
  destruct (executed_valid _ _ _ _ Hv He) as (s1 & vcal & volend & s2 & n & s3 & a & E1 & E2 & E3 & E4 & E5 & E6 & E7).
  destruct (prologue_inv _ _ _ E1) as (_ & _ & _ & _ & _ & _ & _ & _ & _ & _ & _ & Emt & Efr & Ead & _).
  destruct (steps_inv _ _ _ _ E3) as (Edt & En & _). rewrite Ead, Ha in Edt. rewrite <- Emt in Hm. rewrite <- Efr in Hf.
  destruct (adaptive_pos _ (st_precip s1) (mb_on_ts (st_mb s1)) _ _ Hm Hf Pm Pf Rm) as (d & Ed & Hd).
  rewrite Ed in Edt. rewrite Edt in *. rewrite Hf in En.
  split; [|cbn; unfold Rltb; rcases; auto; lra].
  assert (N : (1 <= n)%Z).
  { apply d2i_Ok in En as (x & Ex & ->). apply trunc_ge_1.
    cbn in Ex. destruct (Req_EM_T d 0); [lra|].
    assert (Q : 1 <= f / d) by (apply Rmult_le_reg_r with d; [lra|]; unfold Rdiv; rewrite Rmult_assoc, Rinv_l by assumption; lra).
    pose proof (rnd_ge_1 _ Q) as Q1. assert (Q2 : not_negative (lit (1 / 100000000))) by (apply nn_lit; lra).
    destruct (rnd (f / d)) as [y| | |]; cbn in Q1; try discriminate.
    - apply Rleb_true in Q1. destruct (lit (1 / 100000000)) as [e| | |]; try discriminate. apply nn_Fin_inv in Q2. cbn in Ex.
      assert (Q3 : dleb (Fin 1) (rnd (y + e)) = true) by (apply rnd_ge_1; lra). rewrite Ex in Q3. apply Rleb_true in Q3. assumption.
    - destruct (lit (1 / 100000000)); discriminate. }
  destruct E6 as [E6|(Hn & Hl & Hend)]; lia.
Qed.

(** Front arrays and storage after an Update. *)
Lemma update_outputs : forall s u xs s', p_invalid (st_p s) = false -> executed s u xs s' ->
  p_nfronts (st_p s') = Z.of_nat (length (st_head s')) /\
  p_theta_wf (st_p s') = map f_theta (st_head s') /\
  p_depth_wf (st_p s') = map (fun f => f_depth f * lit (1 / 100))%d (st_head s') /\
  exists o v, st_out s' = Some o /\ lgar_calc_mass_bal (p_cum (st_p s')) (st_head s') = Ok v /\ o_end o = (v * lit (1 / 100))%d.
Proof.
  intros s u xs s' Hv He.
  destruct (executed_valid _ _ _ _ Hv He) as (s1 & vcal & volend & s2 & n & s3 & a & E1 & E2 & E3 & E4 & E5 & E6 & E7).
  destruct (steps_inv _ _ _ _ E3) as (_ & _ & Es2).
  destruct (finish_inv _ _ _ _ E7) as (giuh & q & mbl & _ & _ & Es').
  assert (K : lgar_calc_mass_bal (p_cum (st_p s3)) (st_head s3) = Ok (a_end a)).
  { refine (runs_ind_inv (fun s a => lgar_calc_mass_bal (p_cum (st_p s)) (st_head s) = Ok (a_end a)) u _ _ _ _ _ _ E5 _).
    - intros t b t' b' _ Hs.
      destruct (substep_inv _ _ _ _ _ Hs) as (volstart & b0 & ve & mb & precip & pet & prate & petr & _ & _ & _ & _ & _ & _ & Hm & _ & _ & -> & ->).
      exact Hm.
    - subst s2. exact E2. }
  subst s'. cbn. repeat split; auto. eexists. exists (a_end a). split; [reflexivity|]. split; [exact K|reflexivity].
Qed.

(** Forcing that is not a non-negative number. *)
Lemma update_needs_forcing : forall s, p_invalid (st_p s) = false ->
  dgeb (st_precip s) (Fin 0) = false \/ dgeb (st_pet s) (Fin 0) = false ->
  exists r, Update s = Stop r /\
    (forall s1 v m, update_prologue s = Ok (s1, v) -> lgar_calc_mass_bal (p_cum (st_p s1)) (st_head s1) = Ok m -> r = AssertFail).
Proof.
  intros s Hv Hf. unfold Update. rewrite Hv.
  destruct (update_prologue s) as [[s1 v]|r] eqn:E1; cbn [bind]; [|exists r; split; [reflexivity|intros; discriminate]].
  destruct (prologue_inv _ _ _ E1) as (_ & Ep & Ee & _).
  destruct (lgar_calc_mass_bal _ _) as [m|r] eqn:E2; cbn [bind];
    [|exists r; split; [reflexivity|intros s1' v' m' H1 H2; injection H1 as <- <-; congruence]].
  exists AssertFail. split; [|auto]. rewrite Ep, Ee. unfold cassert.
  destruct (st_precip s >=? Fin 0)%d; [|reflexivity]. cbn [bind]. destruct (st_pet s >=? Fin 0)%d; [|reflexivity]. destruct Hf; discriminate.
Qed.

(** Invalid soil types. *)
Lemma invalid_update : forall s, p_invalid (st_p s) = true ->
  exists s' o, Update s = Ok s' /\ st_out s' = Some o /\
    st_head s' = st_head s /\ st_p s' = st_p s /\ st_soils s' = st_soils s /\ g_queue s' = g_queue s /\
    o_precip o = (st_precip s * lit (1 / 1000))%d /\ o_runoff o = o_precip o /\ o_Q o = o_precip o /\
    o_in o = Fin 0 /\ o_end o = Fin 0 /\ o_aet o = Fin 0 /\ o_rech o = Fin 0 /\ o_giuh o = Fin 0 /\ o_pet o = Fin 0 /\ o_Qgw o = Fin 0 /\ o_mb o = Fin 0.
Proof.
  intros s Hv. unfold Update. rewrite Hv. eexists. eexists. split; [reflexivity|]. cbn. repeat split.
Qed.

Lemma UpdateUntil_spec : forall t s, UpdateUntil t s = if dltb (Fin 0) t then Update s else Stop AssertFail.
Proof. intros t s. unfold UpdateUntil, dgtb. destruct (dltb (Fin 0) t); reflexivity. Qed.
End Any.

Section Exactly.
Local Existing Instance exact.
Context {cfg : Cfg}.

Lemma runs_time : forall u s a xs s' a', runs u s a xs s' a' -> forall t d, p_time (st_p s) = Fin t -> u_dt u = Fin d ->
  p_time (st_p s') = Fin (t + INR (length xs) * (d * 3600)).
Proof.
  intros u s a xs s' a' H. induction H as [s a|s a s1 a1 xs s2 a2 Hs Hr IH]; intros t d Ht Hd.
  - cbn. rewrite Ht. f_equal. ring.
  - destruct (substep_inv _ _ _ _ _ Hs) as (volstart & b & volend & mbl & precip & pet & prate & petr & _ & _ & _ & _ & _ & _ & _ & _ & _ & Es & _).
    erewrite (IH (t + d * 3600) d); [|subst s1; cbn; rewrite Ht, Hd; reflexivity|assumption].
    cbn [length]. rewrite S_INR. f_equal. ring.
Qed.

Lemma update_time : forall s u xs s' t d, p_invalid (st_p s) = false -> executed s u xs s' ->
  p_time (st_p s) = Fin t -> u_dt u = Fin d ->
  p_time (st_p s') = Fin (t + INR (length xs) * (d * 3600)) /\ p_timesteps (st_p s') = (p_timesteps (st_p s) + Z.of_nat (length xs))%Z.
Proof.
  intros s u xs s' t d Hv He Ht Hd.
  destruct (executed_valid _ _ _ _ Hv He) as (s1 & vcal & volend & s2 & n & s3 & a & E1 & E2 & E3 & E4 & E5 & E6 & E7).
  destruct (prologue_inv _ _ _ E1) as (_ & _ & _ & _ & _ & _ & _ & _ & _ & _ & _ & _ & _ & _ & Etm & _ & Ets & _).
  destruct (steps_inv _ _ _ _ E3) as (_ & _ & Es2).
  destruct (finish_inv _ _ _ _ E7) as (giuh & q & mbl & _ & _ & Es').
  subst s'. cbn. split.
  - eapply runs_time; [eassumption| |assumption]. subst s2. cbn. congruence.
  - rewrite (runs_count _ _ _ _ _ _ E5). subst s2. cbn. congruence.
Qed.

(** The sub-step length used and the number of sub-steps planned. *)
Lemma update_dt : forall s u xs s', p_invalid (st_p s) = false -> executed s u xs s' ->
  u_dt u = (if p_adaptive (st_p s) then adaptive_step (st_p s) (st_precip s) (mb_on_ts (st_mb s)) else p_timestep (st_p s)).
Proof.
  intros s u xs s' Hv He.
  destruct (executed_valid _ _ _ _ Hv He) as (s1 & vcal & volend & s2 & n & s3 & a & E1 & E2 & E3 & E4 & E5 & E6 & E7).
  destruct (prologue_inv _ _ _ E1) as (Emb & Epr & _ & _ & _ & _ & _ & _ & _ & _ & Et & Emt & Efr & Ead & _).
  destruct (steps_inv _ _ _ _ E3) as (Edt & _). rewrite Edt, Ead, Et, Epr, Emb.
  unfold adaptive_step. rewrite Emt, Efr. reflexivity.
Qed.

Lemma update_count : forall s u xs s' d f, p_invalid (st_p s) = false -> executed s u xs s' ->
  u_dt u = Fin d -> p_fres (st_p s) = Fin f -> 0 < d ->
  (length xs <= Z.to_nat (trunc (f / d + 1 / 100000000)))%nat /\
  (forall t e, p_time (st_p s) = Fin t -> p_endtime (st_p s) = Fin e -> 
     (ngen = true \/ t + INR (Z.to_nat (trunc (f / d + 1 / 100000000))) * (d * 3600) <= e) ->
     length xs = Z.to_nat (trunc (f / d + 1 / 100000000))).
Proof.
  intros s u xs s' d f Hv He Hd Hf Pd.
  pose proof (fun t Ht => update_time _ _ _ _ t d Hv He Ht Hd) as UT.
  destruct (executed_valid _ _ _ _ Hv He) as (s1 & vcal & volend & s2 & n & s3 & a & E1 & E2 & E3 & E4 & E5 & E6 & E7).
  destruct (prologue_inv _ _ _ E1) as (Emb & Epr & _ & _ & _ & _ & _ & _ & _ & _ & Et & Emt & Efr & Ead & Etm & Een & _).
  destruct (steps_inv _ _ _ _ E3) as (_ & En & Es2). rewrite Hd, Efr, Hf in En.
  apply d2i_Ok in En as (x & Ex & ->). cbn in Ex. destruct (Req_EM_T d 0) as [|Hn]; [lra|]. injection Ex as <-.
  split; [lia|]. intros t e Ht Hen Hcase. destruct E6 as [E6|(Hng & Hl & Hge)]; [assumption|]. exfalso.
  destruct Hcase as [Hcase|Hcase]; [congruence|].
  assert (Ht2 : p_time (st_p s2) = Fin t) by (subst s2; cbn; congruence).
  rewrite (runs_time _ _ _ _ _ _ E5 _ _ Ht2 Hd) in Hge.
  destruct (runs_frame _ _ _ _ _ _ _ E5) as (_ & _ & _ & _ & _ & _ & _ & _ & _ & _ & _ & _ & _ & _ & _ & _ & _ & _ & F & _).
  rewrite F in Hge. subst s2. cbn in Hge. rewrite Een, Hen in Hge. apply Rleb_true in Hge.
  destruct Hl as [_ Hl]. apply lt_INR in Hl. nra.
Qed.

Lemma update_full_step : forall s u xs s' t d f e k, p_invalid (st_p s) = false -> executed s u xs s' ->
  p_time (st_p s) = Fin t -> u_dt u = Fin d -> p_fres (st_p s) = Fin f -> p_endtime (st_p s) = Fin e ->
  0 < d -> f = INR k * d -> (ngen = true \/ t + f * 3600 <= e) ->
  length xs = k /\ p_time (st_p s') = Fin (t + f * 3600).
Proof.
  intros s u xs s' t d f e k Hv He Ht Hd Hf Hen Pd Hk Hcase.
  assert (T : trunc (f / d + 1 / 100000000) = Z.of_nat k).
  { apply trunc_nat; [lia|]. rewrite Hk. replace (INR k * d / d) with (INR k) by (field; lra). rewrite INR_IZR_INZ. lra. }
  destruct (update_count _ _ _ _ _ _ Hv He Hd Hf Pd) as [_ UC]. rewrite T, Nat2Z.id in UC.
  assert (L : length xs = k).
  { eapply UC; [eassumption|eassumption|]. destruct Hcase as [|Hcase]; [auto|right]. rewrite Hk in Hcase. lra. }
  split; [assumption|]. destruct (update_time _ _ _ _ _ _ Hv He Ht Hd) as [K _]. rewrite K, L, Hk. f_equal. ring.
Qed.

Lemma update_no_step : forall s u xs s' d f, p_invalid (st_p s) = false -> executed s u xs s' ->
  u_dt u = Fin d -> p_fres (st_p s) = Fin f -> 0 <= f -> f < d * (1 - 1 / 100000000) ->
  xs = [] /\ p_time (st_p s') = p_time (st_p s).
Proof.
  intros s u xs s' d f Hv He Hd Hf Pf Hlt. assert (Pd : 0 < d) by lra.
  assert (T : trunc (f / d + 1 / 100000000) = 0%Z).
  { apply trunc_nat; [lia|]. split.
    - assert (0 <= f / d) by (apply Rmult_le_pos; [assumption|left; apply Rinv_0_lt_compat; assumption]). lra.
    - assert (f / d < 1 - 1 / 100000000); [|lra]. apply Rmult_lt_reg_r with d; [assumption|]. unfold Rdiv at 1. rewrite Rmult_assoc, Rinv_l by lra. lra. }
  destruct (update_count _ _ _ _ _ _ Hv He Hd Hf Pd) as [UC _]. rewrite T in UC. cbn in UC.
  assert (xs = []) by (destruct xs; [reflexivity|cbn in UC; lia]). subst xs. split; [reflexivity|].
  destruct (executed_valid _ _ _ _ Hv He) as (s1 & vcal & volend & s2 & n & s3 & a & E1 & E2 & E3 & E4 & E5 & E6 & E7).
  destruct (prologue_inv _ _ _ E1) as (_ & _ & _ & _ & _ & _ & _ & _ & _ & _ & _ & _ & _ & _ & Etm & _).
  destruct (steps_inv _ _ _ _ E3) as (_ & _ & Es2). destruct (finish_inv _ _ _ _ E7) as (giuh & q & mbl & _ & _ & Es').
  inversion E5; subst. cbn. assumption.
Qed.

(** Forcing totals. *)
Lemma runs_forcing : forall u s a xs s' a', runs u s a xs s' a' -> forall r e d P E, st_precip s = Fin r -> st_pet s = Fin e -> u_dt u = Fin d ->
  0 <= r -> 0 <= e -> 0 <= d -> a_precip a = Fin P -> a_pet a = Fin E ->
  a_precip a' = Fin (P + INR (length xs) * (r * (1 / 10) * d)) /\ a_pet a' = Fin (E + INR (length xs) * (e * (1 / 10) * d)).
Proof.
  intros u s a xs s' a' H. induction H as [s a|s a s1 a1 xs s2 a2 Hs Hr IH]; intros r e d P E Hpr Hpe Hd Pr Pe Pd HP HE.
  - cbn. rewrite HP, HE. split; f_equal; ring.
  - destruct (substep_inv _ _ _ _ _ Hs) as (volstart & b & volend & mbl & precip & pet & prate & petr & E1 & E2 & E3 & E4 & _ & _ & _ & _ & _ & Es & Ea).
    assert (M1 : dfmax (Fin r) (Fin 0) = Fin r) by (dcrush; f_equal; lra).
    assert (M2 : dfmax (Fin e) (Fin 0) = Fin e) by (dcrush; f_equal; lra).
    rewrite Hpr, M1 in *. rewrite Hpe, M2 in *. rewrite Hd in *.
    assert (X1 : precip = Fin (r * (1 / 10) * d)) by (subst; reflexivity).
    assert (X2 : pet = Fin (e * (1 / 10) * d)) by (subst; reflexivity).
    assert (N2 : 0 <= e * (1 / 10) * d) by (apply Rmult_le_pos; lra).
    assert (M3 : dfmax pet (Fin 0) = pet) by (rewrite X2; dcrush; f_equal; lra).
    rewrite M3, X1, X2, HP, HE in Ea.
    destruct (IH r e d (P + r * (1 / 10) * d) (E + e * (1 / 10) * d)) as [K1 K2]; auto; try (subst s1 a1; reflexivity).
    rewrite K1, K2. cbn [length]. rewrite S_INR. split; f_equal; ring.
Qed.

Lemma update_forcing : forall s u xs s' r e d, p_invalid (st_p s) = false -> executed s u xs s' ->
  st_precip s = Fin r -> st_pet s = Fin e -> u_dt u = Fin d -> 0 <= d ->
  exists o, st_out s' = Some o /\
    o_precip o = Fin (r / 1000 * (INR (length xs) * d)) /\ o_pet o = Fin (e / 1000 * (INR (length xs) * d)).
Proof.
  intros s u xs s' r e d Hv He Hpr Hpe Hd Pd.
  destruct He as (HU & He). destruct (Update_inv _ _ Hv HU) as (s1' & vcal' & _ & _ & _ & _ & _ & _ & E1' & _ & G1 & G2 & _).
  rewrite Hv in He. destruct He as (s1 & vcal & volend & s2 & n & s3 & a & E1 & E2 & E3 & E4 & E5 & E6 & E7).
  rewrite E1 in E1'. injection E1' as <- <-.
  destruct (prologue_inv _ _ _ E1) as (_ & Ep & Ee & _). rewrite Ep, Hpr in G1. rewrite Ee, Hpe in G2.
  apply Rleb_true in G1. apply Rleb_true in G2.
  destruct (steps_inv _ _ _ _ E3) as (_ & _ & Es2). destruct (finish_inv _ _ _ _ E7) as (giuh & q & mbl & _ & _ & Es').
  destruct (runs_forcing _ _ _ _ _ _ E5 r e d 0 0) as [K1 K2]; auto; try (subst s2; cbn; congruence).
  subst s'. eexists. split; [reflexivity|]. cbn. rewrite K1, K2. cbn. split; f_equal; field.
Qed.

(** The cumulative balance with invalid soil types. *)
Lemma invalid_history : forall Q s0 xs s, history Q s0 xs s -> p_invalid (st_p s0) = true -> fresh s0 ->
  xs = [] /\ p_invalid (st_p s) = true /\ st_head s = st_head s0 /\ p_time (st_p s) = p_time (st_p s0) /\
  mb_start (st_mb s) = mb_start (st_mb s0) /\ mb_precip (st_mb s) = mb_runoff (st_mb s).
Proof.
  intros Q s0 xs s H Hv ((v & F0 & F1) & F2 & F3 & _). induction H as [|xs s s' H IH He HQ|xs s u ys s' H IH He].
  - repeat split; auto; congruence.
  - destruct He as (pr & pet & T & cal & out & nf & tw & dw & ->). exact IH.
  - destruct IH as (I1 & I2 & I3 & I4 & I5 & I6). destruct He as [HU He]. rewrite I2 in He. subst.
    unfold Update in HU. rewrite I2 in HU. injection HU as <-. cbn. rewrite I6. repeat split; auto.
Qed.

Lemma invalid_balance : forall Q s0 xs s s' r, history Q s0 xs s -> p_invalid (st_p s0) = true -> fresh s0 ->
  Update s = Ok s' -> mb_precip (st_mb s') = Fin r -> global_error (st_mb s') = Fin 0.
Proof.
  intros Q s0 xs s s' r H Hv Hf HU Hr.
  destruct (executed_exists _ _ HU) as (u & ys & He).
  destruct (invalid_history _ _ _ _ H Hv Hf) as (_ & J2 & _ & _ & J5 & _).
  assert (H' : history Q s0 (xs ++ ys) s') by (eapply hist_update; eassumption).
  destruct (invalid_history _ _ _ _ H' Hv Hf) as (_ & I2 & I3 & I4 & I5 & I6).
  destruct Hf as ((v & F0 & F1) & _). unfold global_error. rewrite <- I6, Hr, I5, F1.
  unfold Update in HU. rewrite J2 in HU. injection HU as <-. cbn. rewrite J5, F1. cbn. f_equal. ring.
Qed.
End Exactly.
