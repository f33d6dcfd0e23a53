(** Sub-steps, Updates and histories leave equal heads on both sides of a layer boundary (exact arithmetic). *)

From Coq Require Import String Reals Lra ZArith List Bool Lia.
From RecordUpdate Require Import RecordSet.
From Verif Require Import Outcome Dbl Exact Types ListOps Soil Giuh Fronts Infil Move State Update Config Bmi Lib Spec_Common Spec_Soil Spec_List Spec_Update Spec_Profile Spec_Storage
  Spec_Advance Spec_Calib Spec_Config Spec_Physical Spec_Column Spec_Balance Spec_Shares Spec_Meet Pf_Dbl Pf_Pow Pf_Soil Pf_List Pf_Structure Pf_Cross Pf_Repair Pf_SingleMerge Pf_SafeMove Pf_SafeUpdate Pf_Update Pf_Surface Pf_SurfaceAny Pf_Signs Pf_Frozen
  Pf_Calib Pf_Shares Pf_ConfigMore Pf_Physical Pf_Physical2 Pf_Physical3 Pf_Level.
Import ListNotations.
Import RecordSetNotations.
Open Scope R_scope.

Section Steps.
Local Existing Instance exact.
Context {cfg : Cfg}.
Variables (e : env) (M : R).
Hypothesis HV : vg_column e.
Hypothesis HM : conducts_at_most M e.
Hypothesis HF : frozen_in_range e.
Hypothesis HE : sound_env e.
Notation phys := (phys e M).

(** The front that is created at the surface. *)
Lemma surficial_phys : forall s ff ponded dry t1, soil_of e 1 = Ok s -> aget (e_frozen e) 1 = Ok ff -> not_negative ponded ->
  (exists t, t1 = Fin t /\ val (s_theta_r s) <= t <= val (s_theta_e s)) -> phys (surficial s ff ponded dry t1).
Proof.
  intros s ff ponded dry t1 Es Ef Np (t & -> & B). assert (R1 : (1 <= 1 <= e_nlayers e)%Z) by (destruct HE; lia).
  destruct (HV 1%Z s R1 Es) as (r & te & a & n & m & k & V). pose proof V as V'. destruct V'. rewrite vg_r, vg_e in B. cbn [val] in B. unfold surficial. cbv zeta. rewrite vg_e.
  set (th := if (_ >? _)%d then _ else _). assert (Bt : exists x, th = Fin x /\ r <= x <= te).
  { unfold th. destruct (dry * (Fin te - Fin t) >? ponded)%d eqn:C; [|exists te; split; [reflexivity|lra]]. eapply fits_range; eassumption. }
  destruct Bt as (x & -> & Bx). destruct (frozen_get e HF 1%Z ff R1 Ef) as (y & -> & By).
  destruct (conduct_from e M HM s r te a n m k x y 1%Z V Bx R1 Es By) as [(K & EK & BK) _]. destruct (head_from s r te a n m k x V Bx) as [A C].
  split; [exact R1|]. split; [exact A|]. split; [exists s; split; [exact Es|exact C]|]. cbn [f_K]. rewrite EK. exists (K * y). split; [reflexivity|]. split; nra.
Qed.

Lemma create_level : forall ponded dry h r l' w v, phys h -> f_layer h = 1%Z -> Forall phys (h :: r) -> Str e (h :: r) -> not_negative ponded -> level (h :: r) ->
  lgar_create_surficial_front e ponded dry (f_theta h) (h :: r) = Ok (l', w, v) -> level l'.
Proof.
  intros ponded dry h r l' w v Ph Hl H HS Np L E. unfold lgar_create_surficial_front in E. bind_inv E s Es. cbv zeta in E. bind_inv E z Ez. bind_inv E ff Ef.
  unfold listInsertFirst in E. bind_inv E l1 Q1. apply Ok_inj in E. injection E as <- _ _.
  set (f := surficial s ff ponded dry (f_theta h)).
  assert (Pf : phys f).
  { apply surficial_phys; try assumption. destruct (phys_within e M HV h s Ph) as (rr & te & a & n & m & k & t1 & V & Et & B); [rewrite Hl; exact Es|]. exists t1. destruct V. rewrite vg_r, vg_e. auto. }
  assert (PB : Forall phys (f :: bump 1 (h :: r))).
  { constructor; [exact Pf|]. unfold bump. apply Forall_map. eapply Forall_impl; [|exact H]. intros g Hg. apply phys_num. exact Hg. }
  assert (SB : Str e (f :: bump 1 (h :: r))) by (apply insert_str; auto).
  assert (LB : level (f :: bump 1 (h :: r))).
  { intros [|i] c n Ec En B; [injection Ec as <-; discriminate|]. change (nth_error (bump 1 (h :: r)) i = Some c) in Ec. change (nth_error (bump 1 (h :: r)) (S i) = Some n) in En. rewrite nth_error_bump in Ec, En.
    destruct (nth_error (h :: r) i) as [c0|] eqn:E1; [|discriminate]. destruct (nth_error (h :: r) (S i)) as [n0|] eqn:E2; [|discriminate]. injection Ec as <-. injection En as <-. exact (L i c0 n0 E1 E2 B). }
  change (set_dzdt _ _) with f in Q1. cbn [bump map] in Q1. change (f :: set_num h (f_num h + 1) :: map _ r) with (f :: bump 1 (h :: r)) in Q1.
  destruct (f_depth f >? _)%d; [|apply Ok_inj in Q1; subst l1; exact LB]. bind_inv Q1 l2 Q2.
  apply (cross_level e M HV HM HF l2 l1); [exact (merge_phys e M HV HM HF _ _ PB Q2)|exact (merge_level e M HV HM HF HE _ _ SB PB LB Q2)|exact Q1].
Qed.

Lemma dzdt_level : forall closed nint h l l', level l -> Str e l -> lgar_dzdt_calc e closed nint h l = Ok l' -> level l'.
Proof.
  intros closed nint h l l' L HS E. unfold lgar_dzdt_calc in E. destruct l as [|c r]; [discriminate|].
  assert (R : forall f, In f (c :: r) -> (1 <= f_layer f <= e_nlayers e)%Z) by (intros f Hf; apply In_nth_error in Hf as [i Ei]; eapply Str_range; eassumption).
  pose proof (ends_Ok _ _ _ _ _ (dzdt_loop_ok e closed nint h (c :: r) HE R) E) as [F _]. eapply level_sim; [|exact L].
  clear - F. induction F as [|f g l l' B F IH]; constructor; [|assumption]. rewrite B. split; reflexivity.
Qed.

Lemma hydro_level : forall u pp pr pe pc vo po ve l b, u_env u = e -> Str e l -> finite (u_dt u) -> not_negative po -> ~ hydro_tie u pp pr pe pc vo po ve l l ->
  ~ hydro_buried u pp pr pe pc vo po ve l l -> Forall phys l -> sub_hydro u pp pr pe pc vo po ve l l = Ok b -> level (b_head b).
Proof.
  intros u pp pr pe pc vo po ve l b Eu HS Hdt Npo HT HB H E. unfold sub_hydro in E. cbv zeta in E. rewrite Eu in E.
  bind_inv E aet Ea. bind_inv E create Ec. bind_inv E b1 Q1. bind_inv E b2 Q2. bind_inv E b3 Q3. bind_inv E l4 Q4. apply Ok_inj in E. subst b. cbn [b_head].
  assert (G : level (b_head b3) /\ Str e (b_head b3)); [|destruct G as [G1 G2]; eapply dzdt_level; eassumption].
  destruct create.
  - rewrite andb_false_r in Q2. apply Ok_inj in Q2, Q3. subst b2 b3. destruct (no_insert_head u b1) as [-> _].
    unfold sub_create in Q1. cbv zeta in Q1. rewrite Eu in Q1. bind_inv Q1 x2 Q5. destruct x2 as [[l1 a1] pd]. bind_inv Q1 x3 Q6. destruct x3 as [dry d]. bind_inv Q1 h Q7.
    bind_inv Q1 x4 Q8. destruct x4 as [[l2 w] v]. apply Ok_inj in Q1. subst b1. cbn [b_head].
    assert (T1 : ~ move_tie e (u_dt u) (Fin 0) (wetting_front_free_drainage l) ve aet l l).
    { intro T. apply HT. unfold hydro_tie. rewrite Eu. exists aet, true. split; [exact Ea|]. split; [exact Ec|]. left. exact T. }
    assert (B1 : ~ move_buried e (u_dt u) (Fin 0) (wetting_front_free_drainage l) ve aet l l).
    { intro T. apply HB. unfold hydro_buried. rewrite Eu. exists aet, true. split; [exact Ea|]. split; [exact Ec|]. exact T. }
    assert (P1 : Forall phys l1) by (eapply move_phys; try eassumption; [apply HS|reflexivity]).
    assert (L1 : level l1) by exact (move_level e M HV HM HF HE _ _ _ _ _ _ _ _ _ _ HS (st_num _ _ HS) eq_refl Hdt T1 B1 H Q5).
    pose proof (ends_Ok _ _ _ _ _ (move_ok e (u_dt u) (Fin 0) (wetting_front_free_drainage l) ve aet l l HE HS (st_num _ _ HS) eq_refl Hdt T1) Q5) as S1. cbn [fst] in S1.
    destruct (Str_head e l1 HE S1) as (h' & r & -> & Hh). cbn in Q7. apply Ok_inj in Q7. subst h'.
    assert (T2 : ~ create_tie e po dry (f_theta h) (h :: r)).
    { intro T. apply HT. unfold hydro_tie. rewrite Eu. exists aet, true. split; [exact Ea|]. split; [exact Ec|]. right. exists (h :: r), a1, pd, dry, d, h. auto. }
    split.
    + eapply (create_level po dry h r); try eassumption. inversion P1; assumption.
    + exact (ends_Ok _ _ _ _ _ (create_ok e po dry (f_theta h) (h :: r) HE S1 T2) Q8).
  - apply Ok_inj in Q1. subst b1. rewrite andb_true_r in Q2. cbn [b_ponded] in Q2.
    assert (B : b_head b2 = l /\ b_prev b2 = l).
    { destruct (po >? Fin 0)%d; [apply insert_head in Q2; exact Q2|]. apply Ok_inj in Q2. subst b2. apply no_insert_head. }
    destruct B as [B1 B2]. unfold sub_move in Q3. rewrite B1, B2, Eu in Q3. bind_inv Q3 x Q5. destruct x as [[l1 a1] re]. apply Ok_inj in Q3. subst b3. cbn [b_head].
    assert (T1 : ~ move_tie e (u_dt u) (b_volin b2) (wetting_front_free_drainage l) ve (b_aet b2) l l).
    { intro T. apply HT. unfold hydro_tie. rewrite Eu. exists aet, false. split; [exact Ea|]. split; [exact Ec|]. exists b2. split; [exact Q2|exact T]. }
    assert (T2 : ~ move_buried e (u_dt u) (b_volin b2) (wetting_front_free_drainage l) ve (b_aet b2) l l).
    { intro T. apply HB. unfold hydro_buried. rewrite Eu. exists aet, false. split; [exact Ea|]. split; [exact Ec|]. exists b2. split; [exact Q2|exact T]. }
    split; [exact (move_level e M HV HM HF HE _ _ _ _ _ _ _ _ _ _ HS (st_num _ _ HS) eq_refl Hdt T1 T2 H Q5)|].
    exact (ends_Ok _ _ _ _ _ (move_ok e (u_dt u) (b_volin b2) (wetting_front_free_drainage l) ve (b_aet b2) l l HE HS (st_num _ _ HS) eq_refl Hdt T1) Q5).
Qed.

Lemma substep_level : forall u s a s' a', u_env u = e -> env_of s = e -> Str e (st_head s) -> finite (u_dt u) -> not_negative (u_dt u) -> not_negative (a_on a) ->
  ~ step_tie u s a -> ~ step_buried u s a -> Forall phys (st_head s) -> substep u s a = Ok (s', a') -> level (st_head s').
Proof.
  intros u s a s' a' Eu Es HS Hdt Ndt Na HT HB H E.
  destruct (substep_inv _ _ _ _ _ E) as (vs & b & ve & mbl & precip & pet & prate & petr & K1 & K2 & K3 & K4 & _ & Eh & _ & _ & _ & -> & _).
  cbn. eapply hydro_level; try exact Eh; try assumption; unfold listCopy in *.
  - apply nn_add; [|assumption]. subst. apply nn_mul; [|assumption]. apply nn_mul; [apply nn_fmax0|apply nn_lit; lra].
  - intro T. apply HT. unfold step_tie. subst. exact T.
  - intro T. apply HB. unfold step_buried. subst. exact T.
Qed.

Lemma runs_level : forall u s a xs s' a', runs u s a xs s' a' -> u_env u = e -> finite (u_dt u) -> not_negative (u_dt u) -> not_negative (u_pmax u) ->
  smooth u xs -> env_of s = e -> Str e (st_head s) -> acc_nn a -> Forall phys (st_head s) ->
  Forall (fun x => level (st_head (x_s' x)) /\ Forall phys (st_head (x_s' x)) /\ env_of (x_s' x) = e) xs /\ (xs = [] /\ st_head s' = st_head s \/ xs <> [] /\ level (st_head s')).
Proof.
  intros u s a xs s' a' HR Eu Hdt Ndt Npm. induction HR as [s a|s a s1 a1 xs s2 a2 HS HR IH]; intros HT EV H Na P; [split; [constructor|left; auto]|].
  inversion HT as [|x y [T1 B1] T2]; subst x y. cbn [x_s x_a] in T1, B1. assert (HE' := HE). rewrite <- Eu in HE', H, EV.
  pose proof (ends_Ok _ _ _ _ _ (substep_ok u s a HE' EV H Hdt T1) HS) as (A & B & _). cbn [fst] in A, B. rewrite Eu in A, B, EV, H.
  assert (P1 : Forall phys (st_head s1)) by (eapply (substep_phys e M HV HM HF HE u s a); try eassumption; apply Na).
  assert (L1 : level (st_head s1)) by (eapply (substep_level u s a); try eassumption; apply Na).
  destruct (IH T2 A B (substep_nn _ _ _ _ _ Ndt Npm HS Na) P1) as [I1 I2]. split; [constructor; auto|]. right. split; [discriminate|]. destruct I2 as [[_ ->]|[_ I2]]; assumption.
Qed.
End Steps.

Section Histories.
Local Existing Instance exact.
Context {cfg : Cfg}.
Variable M : R.

(** The part of an Update before its sub-steps. *)
Lemma prologue_level : forall s s1 v, update_prologue s = Ok (s1, v) -> level (st_head s) -> level (st_head s1).
Proof.
  intros s s1 v EP L. destruct (p_calib (st_p s)) eqn:HC.
  - destruct (prologue_calibrates _ _ _ HC EP) as (m0 & m1 & _ & _ & _ & _ & _ & CL). destruct (calib_loop_spec _ _ _ _ _ _ _ _ CL) as (_ & (fs & F & El) & _).
    cbn [app] in El. rewrite El. eapply level_sim; [|exact L]. rewrite <- (firstn_skipn (Z.to_nat (p_nfronts (st_p s))) (st_head s)) at 1. apply Forall2_app; [|apply sim_refl].
    clear - F. induction F as [|f f' r r' (sl & A & B) F IH]; constructor; [|assumption]. subst f'. split; reflexivity.
  - unfold update_prologue in EP. cbv zeta in EP. bind_inv EP p Ep. 
    assert (Ec : p_calib p = false).
    { destruct (p_sft (st_p s)); [bind_inv Ep fr Efr|]; apply Ok_inj in Ep; subst p; exact HC. }
    rewrite Ec in EP. apply Ok_inj in EP. apply pair_equal_spec in EP as [<- _]. exact L.
Qed.

Lemma prologue_physical : forall s s1 v, sound_state s -> suits M (env_of s) -> physical_state M s -> (p_calib (st_p s) = true -> calibration_fits M s) ->
  update_prologue s = Ok (s1, v) -> suits M (env_of s1) /\ physical_state M s1.
Proof.
  intros s s1 v HS V P HC EP. assert (HE := ss_env _ HS). assert (H := sound_str _ HS).
  destruct (p_calib (st_p s)) eqn:Ec; [exact (calibrated M s s1 v HE H P (HC eq_refl) Ec EP)|]. destruct P as [P1 P2 P4].
  unfold update_prologue in EP. cbv zeta in EP. bind_inv EP p Ep. destruct (frozen_kept s p P2 Ep) as (fr & -> & Bfr).
  change (p_calib ((st_p s) <| p_frozen := fr |>)) with (p_calib (st_p s)) in EP. rewrite Ec in EP. apply Ok_inj in EP. apply pair_equal_spec in EP as [E1 _].
  assert (EN : e_nlayers (env_of s1) = e_nlayers (env_of s)) by (rewrite <- E1; reflexivity).
  assert (ESo : forall k, (1 <= k <= e_nlayers (env_of s))%Z -> soil_of (env_of s1) k = soil_of (env_of s) k) by (intros k _; rewrite <- E1; reflexivity).
  split; [eapply suits_env; eassumption|]. constructor.
  - replace (st_head s1) with (st_head s) by (rewrite <- E1; reflexivity). eapply Forall_impl; [|exact P1]. intros f. apply front_env; assumption.
  - intros k Hk. rewrite EN in Hk. destruct (Bfr k Hk) as (x & Ex & Bx). exists x. split; [rewrite <- E1; exact Ex|exact Bx].
  - rewrite <- E1. exact P4.
Qed.

Lemma all_phys : forall e l, vg_column e -> Forall (physical_front M e) l -> Forall (phys e M) l.
Proof. intros e l V P. eapply Forall_impl; [|exact P]. intros f. apply phys_iff; assumption. Qed.

Lemma executed_meet : forall s u xs s', sound_state s -> suits M (env_of s) -> physical_state M s -> (p_calib (st_p s) = true -> calibration_fits M s) -> executed s u xs s' ->
  smooth u xs -> Forall (fun x => heads_meet (env_of (x_s' x)) (st_head (x_s' x))) xs /\ (xs <> [] \/ heads_meet (env_of s) (st_head s) -> heads_meet (env_of s') (st_head s')).
Proof.
  intros s u xs s' HS V P HC X HT. assert (HT0 : Forall (fun x => ~ step_tie u (x_s x) (x_a x)) xs) by (eapply Forall_impl; [|exact HT]; cbn; tauto).
  destruct (executed_physical M s u xs s' HS V P HC X HT0) as ([PS' _ _] & [V' _] & _). destruct X as [HU HX]. destruct (p_invalid (st_p s)) eqn:Hv.
  - subst xs. unfold Update in HU. rewrite Hv in HU. apply Ok_inj in HU. subst s'. split; [constructor|]. intros [[]|H]; [reflexivity|exact H].
  - destruct HX as (s1 & vcal & volend & s2 & n & s3 & a & EP & EM & ES & EU & HR & _ & EF).
    assert (HE := ss_env _ HS). assert (H := sound_str _ HS).
    destruct (prologue_kept s s1 vcal HE H EP) as (HE1 & H1 & K1). destruct (prologue_physical s s1 vcal HS V P HC EP) as ([V1 V2] & PS).
    assert (FT : finite (p_timestep (st_p s1)) /\ finite (p_mints (st_p s1)) /\ not_negative (p_mints (st_p s1)) /\ finite (p_fres (st_p s1))).
    { destruct K1 as (K2 & K3 & K4 & K5 & K6 & K7 & K8 & K9 & K10 & _). rewrite K10, K7, K8. apply HS. }
    destruct PS as [P1 F (N1 & N2 & N3 & N4 & N5)].
    pose proof (step_finite _ _ _ _ ES FT) as Hdt. destruct (steps_inv _ _ _ _ ES) as (Edt & _ & E2).
    assert (Ndt : not_negative (u_dt u)) by (rewrite Edt; destruct (p_adaptive (st_p s1)); [apply adaptive_nn|]; assumption).
    assert (Eu : u_env u = env_of s1) by (rewrite EU, E2; reflexivity).
    assert (Npm : not_negative (u_pmax u)) by (rewrite EU, E2; exact N4).
    assert (Na : acc_nn (acc0 volend (mb_on_ts (st_mb s2)))). { repeat split; try apply nn_zero. cbn. rewrite E2. exact N5. }
    pose proof (all_phys _ _ V1 P1) as P'.
    assert (Es2 : env_of s2 = env_of s1) by (rewrite E2; reflexivity). assert (Hs2 : st_head s2 = st_head s1) by (rewrite E2; reflexivity). rewrite <- Hs2 in P', H1.
    destruct (runs_level (env_of s1) M V1 V2 F HE1 u s2 _ xs s3 a HR Eu Hdt Ndt Npm HT Es2 H1 Na P') as [R1 R2].
    split.
    + eapply Forall_impl; [|exact R1]. intros x (A & B & C). rewrite C. apply (level_meet _ M); assumption.
    + intro G. apply (level_meet _ M); [apply all_phys; assumption|]. apply finish_inv in EF as (gi & q & mbl & EG & _ & EQ).
      assert (Eh : st_head s' = st_head s3) by (rewrite EQ; reflexivity). rewrite Eh. destruct R2 as [[-> R2]|[_ R2]]; [|assumption].
      destruct G as [[]|G]; [reflexivity|]. rewrite R2, Hs2. apply (prologue_level s s1 vcal EP). apply (level_meet (env_of s) M); [|exact G]. apply all_phys; [apply V|apply P].
Qed.

Lemma smooth_calm : forall s0 s, smooth_history s0 s -> calm s0 s.
Proof.
  intros s0 s H. induction H as [|s s' H IH E|s u xs s' H IH E T]; [constructor|eapply calm_edit; eassumption|]. eapply calm_update; [exact IH|exact E|].
  eapply Forall_impl; [|exact T]. cbn. tauto.
Qed.
Lemma smooth_meet : forall s0 s, sound_state s0 -> suits M (env_of s0) -> physical_state M s0 -> p_calib (st_p s0) = false -> heads_meet (env_of s0) (st_head s0) ->
  smooth_history s0 s -> heads_meet (env_of s) (st_head s).
Proof.
  intros s0 s HS V P C G H. induction H as [|s s' H IH E|s u xs s' H IH E T]; [assumption| |].
  - destruct E as (pr & pet & Te & cal & out & nf & tw & dw & ->). exact IH.
  - destruct (calm_physical M s0 s HS V P C (smooth_calm s0 s H)) as (A1 & A2 & A3 & A4).
    assert (IC : p_calib (st_p s) = true -> calibration_fits M s) by congruence. destruct (executed_meet s u xs s' A1 A2 A3 IC E T) as [_ B]. apply B. right. exact IH.
Qed.
End Histories.

Lemma start_meet : forall (fp : Fp) (files : string -> option (list row)) (junk : dbl) (ls : list string) (s : state) (l : string) (np : numeral),
    last_line "initial_psi" l ls -> assigns "initial_psi" (text np) l -> good_numeral np -> Initialize files junk ls = Ok s -> heads_meet (env_of s) (st_head s).
Proof.
  intros fp files junk ls s l np H1 H2 H3 H4. destruct (start_structure files junk ls s l np H1 H2 H3 H4) as (_ & _ & P). intros i c n sl Ec En B Es.
  destruct (P i c Ec) as (_ & L & _ & Q1 & _ & sl' & A1 & A2). destruct (P (S i) n En) as (_ & _ & _ & Q2 & _). rewrite L in Es. rewrite A1 in Es. apply Ok_inj in Es. subst sl'.
  split; congruence.
Qed.

Lemma physical_curve : forall M e qs l, strata e qs -> Forall (physical_front M e) l -> Forall (fun f => finite (f_psi f)) l -> Forall (on_curve qs) l.
Proof.
  intros M e qs l HQ P F. rewrite Forall_forall in *. intros f Hf. destruct (P f Hf) as [L (s & r & te & a & n & m & k & t & Es & V & Et & _ & D) _]. right.
  destruct (layer_exists e qs HQ _ L) as (q & Eq). destruct (soil_at e qs HQ (f_layer f) q ltac:(lia) Eq) as (s' & ks & Es' & V'). rewrite Es in Es'. apply Ok_inj in Es'. subst s'.
  destruct D as [[D _]|(h & Eh & Hh & Dt)]; [destruct (F f Hf) as [x Ex]; congruence|]. exists q, h. split; [assumption|]. split; [assumption|]. split; [assumption|].
  rewrite Et, Dt. f_equal. unfold pt_theta. destruct V, V'. congruence.
Qed.

Section Results.
Local Existing Instance exact.
Context {cfg : Cfg}.

Theorem motion_joins : forall (M : R) (e : env) (dt volin old aet : dbl) (wfd : Z) (head prev l' : list front) (aet' fl : dbl),
    sound_env e -> vg_column e -> conducts_at_most M e -> frozen_in_range e -> profile (e_nlayers e) (e_cum e) head -> deepest_rests head ->
    numbered prev -> List.length prev = List.length head -> finite dt -> Forall (physical_front M e) head ->
    ~ move_tie e dt volin wfd old aet head prev -> ~ move_buried e dt volin wfd old aet head prev ->
    lgar_move_wetting_fronts e dt volin wfd old aet head prev = Ok (l', aet', fl) -> heads_meet e l'.
Proof.
  intros M e dt volin old aet wfd head prev l' aet' fl HE HV HM HF HP HR HN HL Hdt P HT HB E.
  assert (HS : Str e head) by (apply Str_iff; [destruct HE; lia|auto]). pose proof (all_phys M e head HV P) as P'.
  apply (level_meet e M); [eapply move_phys; eassumption|eapply move_level; eassumption].
Qed.

Theorem reached_storage : forall (M : R) (s0 s : state) (qs : list part), sound_state s0 -> vg_column (env_of s0) -> conducts_at_most M (env_of s0) -> physical_state M s0 ->
    p_calib (st_p s0) = false -> heads_meet (env_of s0) (st_head s0) -> smooth_history s0 s ->
    strata (env_of s) qs -> Forall (fun f => finite (f_depth f) /\ finite (f_psi f)) (st_head s) -> storage (st_head s) = Rsum (shares qs (st_head s)).
Proof.
  intros M s0 s qs HS V C P HC G H HQ F. destruct (calm_physical M s0 s HS (conj V C) P HC (smooth_calm s0 s H)) as (A1 & A2 & A3 & A4).
  assert (HM : heads_meet (env_of s) (st_head s)) by exact (smooth_meet M s0 s HS (conj V C) P HC G H).
  apply (attribution (env_of s) qs HQ); try assumption.
  - apply A1.
  - eapply Forall_impl; [|exact F]. cbn. tauto.
  - apply (physical_curve M (env_of s)); [assumption|apply A3|]. eapply Forall_impl; [|exact F]. cbn. tauto.
Qed.
End Results.
