(** The water that infiltrates above wetting fronts in the first layer, and the demand of the sub-step (exact arithmetic). *)

From Coq Require Import Reals Lra ZArith List Bool Lia.
From Verif Require Import Outcome Dbl Exact Types ListOps Soil Fronts Infil Move State Update Lib Spec_Common Spec_Soil Spec_List Spec_Update Spec_Profile Spec_Storage Spec_Velocity Spec_Column Spec_Advance Spec_Balance Spec_Shares
  Spec_Physical Spec_Meet Spec_Motion Spec_Upright Spec_Geff Spec_Layered Spec_Rest Spec_Storm Pf_Dbl Pf_Pow Pf_Soil Pf_List Pf_Update Pf_Profile Pf_Structure Pf_Column Pf_Storage Pf_SafeMove Pf_Single
  Pf_SafeUpdate Pf_Surface Pf_SubSingle Pf_Aet Pf_Physical Pf_Physical2 Pf_Velocity Pf_Shares Pf_Books Pf_Motion Pf_Motion2 Pf_Drier Pf_Drier2 Pf_Layered Pf_Rest Pf_Rest2 Pf_Storm Pf_Storm3 Pf_Storm4.
Import ListNotations.
Open Scope R_scope.
Local Existing Instance exact.

Lemma capacity_parts : forall qs, column_capacity (map pt_z qs) (map pt_e qs) = Rsum (map (fun q => pt_e q * pt_z q) qs).
Proof.
  intro qs. unfold column_capacity. rewrite map_length. induction qs as [|q qs IH]; [reflexivity|]. cbn [length seq map Rsum nth]. f_equal. rewrite <- seq_shift, map_map. exact IH.
Qed.

Section Supply.
Context {cfg : Cfg}.
Variables (e : env) (M : R) (qs : list part).
Hypothesis HL : layers M qs e.
Let HE := la_env _ _ _ HL.
Let HV := la_soils _ _ _ HL.
Let HC := la_conducting _ _ _ HL.
Let HQ := la_strata _ _ _ HL.

Definition capacity : R := Rsum (map (fun q => pt_e q * pt_z q) qs).
Lemma max_is : max_storage e = Ok (Fin capacity).
Proof.
  destruct HQ as (_ & _ & ss & C & F). unfold capacity. rewrite <- capacity_parts. apply (max_storage_is e (map pt_z qs) ss); [exact C|].
  clear - F. induction F as [|s q ss qs (ks & V) F IH]; constructor; [exact (vg_e _ _ _ _ _ _ _ V)|exact IH].
Qed.

(** A column holds no more than its capacity. *)
Lemma below_capacity : forall l, orderly M e l -> in_layers e l -> storage l <= capacity.
Proof.
  intros l O IL. assert (HS := orderly_str e M qs HL l O). assert (P := od_physical _ _ _ O). pose proof (od_drier _ _ _ O) as DD. apply dn_iff in DD.
  unfold in_layers in IL. rewrite Forall_forall in IL, P.
  assert (TH : forall c, In c l -> exists q t, nth_error qs (Z.to_nat (f_layer c - 1)) = Some q /\ f_theta c = Fin t /\ t <= pt_e q).
  { intros c Hc. destruct (P c Hc) as [R (s & r & te & a & n & m & k & t & Es & V & Et & Bt & _) _].
    destruct (nth_error qs (Z.to_nat (f_layer c - 1))) as [q|] eqn:Eq; [|apply nth_error_None in Eq; pose proof (strata_n e qs HQ); lia].
    destruct (soil_at e qs HQ (f_layer c) q ltac:(lia) Eq) as (s' & ks & Es' & V'). rewrite Es in Es'. apply Ok_inj in Es'. subst s'. exists q, t. split; [reflexivity|]. split; [exact Et|].
    assert (te = pt_e q) by (destruct V, V'; congruence). lra. }
  assert (CU : forall c, In c l -> aget (e_cum e) (f_layer c) = Ok (Fin (top_of qs (f_layer c + 1)))).
  { intros c Hc. pose proof (ph_layer _ _ _ (P c Hc)). rewrite <- (strata_cum e qs HQ (f_layer c + 1)) by lia. f_equal. lia. }
  assert (G : forall k p c t, (length l - p <= k)%nat -> nth_error l p = Some c ->
    slabs t (skipn p l) <= val (f_theta c) * (top_of qs (f_layer c + 1) - t) + Rsum (map (fun q => pt_e q * pt_z q) (skipn (Z.to_nat (f_layer c)) qs))).
  { induction k as [|k IH]; intros p c t Hk Ec; [assert (p < length l)%nat by (apply nth_error_Some; congruence); lia|].
    assert (SK : skipn p l = c :: skipn (S p) l). { clear - Ec. revert p Ec. induction l as [|x l IH]; intros [|p] E; try discriminate; cbn in *; [congruence|apply IH; assumption]. }
    assert (Hc := nth_error_In _ _ Ec). rewrite SK. cbn [slabs]. destruct (f_bottom c) eqn:Bc.
    - destruct (Str_bottom _ _ _ _ HS Ec Bc) as [X NX]. rewrite (CU c Hc) in X. apply Ok_inj in X. rewrite <- X. cbn [val].
      destruct (nth_error l (S p)) as [n|] eqn:En.
      + specialize (IH (S p) n (top_of qs (f_layer c + 1)) ltac:(lia) En). rewrite NX in IH. destruct (TH n (nth_error_In _ _ En)) as (q & tn & Eq & Et & Ht). rewrite NX in Eq. rewrite Et in IH. cbn [val] in IH.
        pose proof (ph_layer _ _ _ (P c Hc)) as RL. replace (Z.to_nat (f_layer c + 1 - 1)) with (Z.to_nat (f_layer c)) in Eq by lia.
        assert (TN : top_of qs (f_layer c + 1 + 1) = top_of qs (f_layer c + 1) + pt_z q). { pose proof (top_end qs (Z.to_nat (f_layer c)) q Eq) as Y. replace (Z.of_nat (S (Z.to_nat (f_layer c)))) with (f_layer c + 1)%Z in Y by lia. replace (Z.of_nat (S (S (Z.to_nat (f_layer c))))) with (f_layer c + 1 + 1)%Z in Y by lia. lra. }
        assert (SQ : skipn (Z.to_nat (f_layer c)) qs = q :: skipn (Z.to_nat (f_layer c + 1)) qs).
        { replace (Z.to_nat (f_layer c + 1)) with (S (Z.to_nat (f_layer c))) by lia. clear - Eq. revert Eq. generalize (Z.to_nat (f_layer c)) as i. induction qs as [|x w IH]; intros [|i] E; try discriminate; cbn in *; [congruence|apply IH; assumption]. }
        rewrite SQ. cbn [map Rsum]. rewrite TN in IH. pose proof (strata_pos e qs HQ _ _ Eq) as Z0.
        assert (tn * pt_z q <= pt_e q * pt_z q) by (apply Rmult_le_compat_r; lra).
        replace (top_of qs (f_layer c + 1) + pt_z q - top_of qs (f_layer c + 1)) with (pt_z q) in IH by ring. lra.
      + assert (NO : skipn (S p) l = []) by (apply skipn_all2; apply nth_error_None in En; lia). rewrite NO. cbn [slabs].
        assert (skipn (Z.to_nat (f_layer c)) qs = []) as ->. { apply skipn_all2. pose proof (strata_n e qs HQ). lia. } cbn. lra.
    - destruct (Str_next _ _ _ _ HS Ec Bc) as (n & En & Ln). specialize (IH (S p) n (val (f_depth c)) ltac:(lia) En). rewrite Ln in IH.
      destruct (IL c Hc) as (z & Ez & Hz). rewrite (CU c Hc) in Ez. apply Ok_inj in Ez. injection Ez as <-. pose proof (DD p c n Ec En (eq_sym Ln)) as DR.
      assert (val (f_theta n) * (top_of qs (f_layer c + 1) - val (f_depth c)) <= val (f_theta c) * (top_of qs (f_layer c + 1) - val (f_depth c))) by (apply Rmult_le_compat_r; lra).
      replace (val (f_theta c) * (top_of qs (f_layer c + 1) - t)) with (val (f_theta c) * (val (f_depth c) - t) + val (f_theta c) * (top_of qs (f_layer c + 1) - val (f_depth c))) by ring. lra. }
  destruct (Str_head e l HE HS) as (f & r & El & Lf). assert (Ef : nth_error l 0 = Some f) by (rewrite El; reflexivity). specialize (G (length l) 0%nat f 0 ltac:(lia) Ef). cbn [skipn] in G.
  destruct (TH f (nth_error_In _ _ Ef)) as (q & t & Eq & Et & Ht). rewrite Lf in *. rewrite Et in G. cbn [val] in G. pose proof (strata_pos e qs HQ _ _ Eq) as Z0.
  unfold storage, capacity. pose proof (top_end qs 0 q Eq) as Y. change (Z.of_nat 1) with 1%Z in Y. change (Z.of_nat 2) with (1 + 1)%Z in Y. rewrite (top_1 qs) in Y. rewrite <- Y in G.
  destruct qs as [|q' r0] eqn:QS; [discriminate|]. cbn [nth_error] in Eq. injection Eq as ->. change (Z.to_nat 1) with 1%nat in G. cbn [skipn] in G. cbn [map Rsum].
  assert (t * pt_z q <= pt_e q * pt_z q) by (apply Rmult_le_compat_r; lra). lra.
Qed.

Lemma shallow_inside : forall l, Str e l -> measured l -> shallow e l -> in_layers e l.
Proof.
  intros l H ML S. unfold shallow, in_layers in *. rewrite Forall_forall in *. intros f Hf. specialize (S f Hf). destruct (f_bottom f) eqn:B.
  - apply In_nth_error in Hf as [i Hi]. destruct (Str_bottom _ _ _ _ H Hi B) as [C _]. destruct (measured_at _ _ _ ML Hi) as (d & t & Ed & _). rewrite Ed in *. exists d. split; [exact C|cbn; lra].
  - destruct S as (L & S). rewrite L. exact S.
Qed.

Lemma more_fronts : forall l f r, Str e l -> l = f :: r -> f_bottom f = false -> Z.of_nat (length l) <> e_nlayers e.
Proof.
  intros l f r HS El Bf. assert (Ef : nth_error l 0 = Some f) by (rewrite El; reflexivity). assert (Lf := first_layer e M qs HL l f r HS El). destruct (Str_next _ _ _ _ HS Ef Bf) as (n & En & Ln).
  assert (G : forall i c, nth_error l (S i) = Some c -> (f_layer c <= Z.of_nat (S i))%Z).
  { induction i as [|i IH]; intros c Ec; [rewrite En in Ec; injection Ec as <-; lia|].
    destruct (nth_error l (S i)) as [b|] eqn:Eb; [|apply nth_error_None in Eb; assert (S (S i) < length l)%nat by (apply nth_error_Some; congruence); lia].
    specialize (IH b eq_refl). destruct (f_bottom b) eqn:Bb.
    - destruct (Str_bottom _ _ _ _ HS Eb Bb) as [_ X]. rewrite Ec in X. lia.
    - destruct (Str_next _ _ _ _ HS Eb Bb) as (c' & Ec' & X). rewrite Ec in Ec'. injection Ec' as <-. lia. }
  assert (1 < length l)%nat by (apply nth_error_Some; congruence). destruct (length l) as [|[|w]] eqn:LEN; [lia|lia|].
  destruct (nth_error l (S w)) as [b|] eqn:Eb; [|apply nth_error_None in Eb; lia]. specialize (G w b Eb). assert (NO : nth_error l (S (S w)) = None) by (apply nth_error_None; lia).
  destruct (f_bottom b) eqn:Bb; [destruct (Str_bottom _ _ _ _ HS Eb Bb) as [_ X]; rewrite NO in X; lia|destruct (Str_next _ _ _ _ HS Eb Bb) as (c' & Ec' & _); congruence].
Qed.

(** The infiltration capacity is not negative. *)
Lemma capacity_positive : forall closed nint dt aet w prate l f r x, capillary closed nint e -> 0 < dt -> orderly M e l -> shallow e l -> l = f :: r -> f_bottom f = false ->
  infiltration_capacity e closed nint (Fin dt) aet (Fin w) (Fin prate) (wetting_front_free_drainage l) l = Ok x -> exists v, x = Fin v /\ 0 <= v.
Proof.
  intros closed nint dt aet w prate l f r x HG Hdt O SH El Bf E. assert (HS := orderly_str e M qs HL l O). assert (ML := orderly_measured e M qs HL l O).
  assert (Ef : nth_error l 0 = Some f) by (rewrite El; reflexivity). assert (Lf := first_layer e M qs HL l f r HS El). destruct (Str_next _ _ _ _ HS Ef Bf) as (n & En & Ln).
  assert (Ew : wetting_front_free_drainage l = 1%Z).
  { destruct (fd_ok e l HE HS) as (i & g & Ei & Eg & _ & Lg & LA & FD). rewrite Ei. destruct i as [|i]; [reflexivity|exfalso]. specialize (LA 1%nat n ltac:(lia) En). lia. }
  assert (NF := more_fronts l f r HS El Bf). assert (CAP := below_capacity l O (shallow_inside l HS ML SH)). pose proof (se_n _ HE) as N.
  assert (1 < length l)%nat by (apply nth_error_Some; congruence).
  rewrite Ew in E. unfold infiltration_capacity in E. cbv zeta in E.
  assert (F1 : findFront 1 l = Some 0%nat) by (apply (find_num l 0 (st_num _ _ HS)); lia).
  assert (F2 : findFront (1 + 1) l = Some 1%nat) by (apply (find_num l 1 (st_num _ _ HS)); lia).
  rewrite F1, F2 in E. cbn [pget] in E. rewrite (proj2 (lget_Ok _ _ _) Ef), (proj2 (lget_Ok _ _ _) En) in E. cbn [bind] in E. rewrite Lf in E.
  destruct (env_soil e 1 HE ltac:(lia)) as (s & Es). rewrite Es in E. cbn [bind] in E. destruct (HC 1%Z ltac:(lia)) as (ff & Eff & Hff). rewrite Eff in E. cbn [bind] in E.
  unfold listLength in E. rewrite (proj2 (Z.eqb_neq _ _) NF) in E. destruct (HV 1%Z s ltac:(lia) Es) as (sr & te & a & nn & m & k & V). rewrite (vg_k _ _ _ _ _ _ _ V), (vg_e _ _ _ _ _ _ _ V) in E.
  change (Fin k * Fin ff)%d with (Fin (k * ff)) in E. assert (Hkx : 0 < k * ff) by (destruct V; apply Rmult_lt_0_compat; assumption).
  pose proof (od_physical _ _ _ O) as P. rewrite Forall_forall in P. destruct (P n (nth_error_In _ _ En)) as [_ (s' & r' & te' & a' & n' & m' & k' & tn & Es' & V' & Etn & Btn & _) _].
  rewrite Ln, Lf, Es in Es'. apply Ok_inj in Es'. subst s'. assert (r' = sr /\ te' = te) as [-> ->] by (destruct V, V'; split; congruence). rewrite Etn in E.
  bind_inv E g Eg. destruct (geff_is e M qs HL closed nint 1 s sr te tn te (k * ff) g HG ltac:(lia) Es (vg_r _ _ _ _ _ _ _ V) (vg_e _ _ _ _ _ _ _ V) Hkx (proj1 Btn) (proj2 Btn) (Rle_refl te) Eg) as (gv & -> & Hg).
  change (1 =? 1)%Z with true in E. cbv iota in E. cbn [bind] in E.
  destruct (measured_at _ _ _ ML Ef) as (d & t & Ed & Et). pose proof (orderly_down e M qs HL l O) as MD. rewrite Forall_forall in MD. destruct (MD f (nth_error_In _ _ Ef)) as (d' & v' & Ed' & _ & _ & _ & X). destruct (X Lf Bf) as [Hd _].
  rewrite Ed in Ed'. injection Ed' as <-. rewrite Ed in E. rewrite (proj2 (Z.eqb_neq (e_nlayers e) _) (not_eq_sym NF)), andb_false_r in E.
  rewrite (mass_of e HE (top_zero _ _ _ HL) l HS ML) in E. cbn [bind] in E. rewrite max_is in E. cbn [bind] in E. apply Ok_inj in E.
  change (Fin w - Fin prate * Fin dt)%d with (Fin (w - prate * dt)) in E. rewrite fmax_fin in E. cbn [dadd dsub dmul lit rnd exact] in E. rewrite !div_fin in E by lra. cbn [dadd dsub dmul lit rnd exact] in E.
  pose proof (Rmax_r (w - prate * dt) 0) as Hm.
  assert (A1 : 0 <= (capacity - storage l) / dt) by (apply Rmult_le_pos; [lra|left; apply Rinv_0_lt_compat; exact Hdt]).
  assert (A2 : 0 <= k * ff * (1 + (gv + Rmax (w - prate * dt) 0) / d)).
  { apply Rmult_le_pos; [lra|]. assert (0 <= (gv + Rmax (w - prate * dt) 0) / d) by (apply Rmult_le_pos; [lra|left; apply Rinv_0_lt_compat; exact Hd]). lra. }
  destruct (_ >? _)%d in E; subst x; eexists; (split; [reflexivity|assumption]).
Qed.

Lemma partition_in : forall dt w pm x r on v, 0 < dt -> 0 <= w -> 0 <= x -> surface_partition (Fin dt) (Fin w) (Fin 0) (Fin pm) (Fin x) = (r, on, v) -> exists i, v = Fin i /\ 0 <= i.
Proof.
  intros dt w pm x r on v Hdt Hw Hx. assert (Z0 : 0 / dt = 0) by (field; lra). assert (Hq : 0 <= x * dt) by (apply Rmult_le_pos; lra). unfold surface_partition. dsimp. rewrite ?Z0. intro H.
  dcrush; dinv; subst; (eexists; split; [reflexivity|lra]).
Qed.

(** The demand of the sub-step. *)
Lemma demand_storm : forall wilting fc l f r pet dt, orderly M e l -> l = f :: r -> rooting wilting fc -> 0 <= dt ->
  exists D, (if (Fin pet >? Fin 0)%d then calc_aet e (Fin pet) (Fin dt) wilting fc l else Ok (Fin 0)) = Ok (Fin D) /\ 0 <= D <= Rmax pet 0 * dt.
Proof.
  intros wilting fc l f r pet dt O El (wp & fh & -> & -> & Hw & Hf & Hs) Hdt. unfold dgtb. destruct (Rle_dec pet 0) as [P|P].
  - rewrite ltb_f by assumption. exists 0. split; [reflexivity|]. rewrite Rmax_right by assumption. lra.
  - rewrite ltb_t by lra. pose proof (od_physical _ _ _ O) as PH. pose proof (od_seated _ _ _ O) as SE. rewrite El in PH, SE. apply Forall_cons_iff in PH as [PH _]. apply Forall_cons_iff in SE as [[(hh & Eh) _] _].
    destruct PH as [RL (s & sr & te & a & n & m & k & t & Es & V & Et & Bt & [[X _]|(h & Eh' & H0 & _)]) _]; [congruence|]. pose proof V as V'. destruct V'.
    destruct (half_head sr te a n m fh wp ltac:(lra) ltac:(lra) ltac:(lra) ltac:(lra) Hf Hw Hs) as (h5 & H5 & E5). rewrite El.
    rewrite (aet_is e s _ _ _ _ _ k f r pet dt wp fh h h5 Es V Eh' H0 Hw Hf ltac:(lra) Hdt H5 E5).
    eexists. split; [reflexivity|]. rewrite Rmax_left by lra.
    unfold reduced_demand. assert (0 <= pet * dt) by (apply Rmult_le_pos; lra).
    assert (Q : 0 <= h / h5) by (apply Rmult_le_pos; [assumption|left; apply Rinv_0_lt_compat; assumption]).
    pose proof (pow_le (h / h5) 3 Q). set (z := 1 + (h / h5) ^ 3). assert (Hz : 1 <= z) by (unfold z; lra).
    assert (0 < / z) by (apply Rinv_0_lt_compat; lra). assert (/ z <= 1) by (rewrite <- Rinv_1; apply Rinv_le_contravar; lra). split; [apply Rmult_le_pos; [assumption|lra]|].
    rewrite <- (Rmult_1_r (pet * dt)) at 2. apply Rmult_le_compat_l; assumption.
Qed.

Theorem met_supplied : forall u s a p on dt pm, placed e M u s a p on dt pm -> shallow e (st_head s) -> rooting (u_wilting u) (u_fc u) -> met u s a -> supplied u s a.
Proof.
  intros u s a p on dt pm PL SH HR (pet & dt' & Epet & Edt' & MT). pose proof PL as (Eu & Es & Epm & Hpm & Edt & Hdt & HG & O & Ep & Eon & Hon & Eend). rewrite Edt in Edt'. injection Edt' as <-.
  assert (HS := orderly_str e M qs HL _ O). destruct (Str_head e _ HE HS) as (f & r & El & Lf).
  set (rain := Rmax p 0 / 10 * dt). assert (Er : (dfmax (st_precip s) (Fin 0) * mm_to_cm * u_dt u)%d = Fin rain). { rewrite Ep, Edt, fmax_fin. change mm_to_cm with (Fin (1 / 10)). unfold rain. cbn. f_equal. field. }
  assert (H1 : 0 <= rain). { unfold rain. pose proof (Rmax_r p 0). apply Rmult_le_pos; lra. }
  assert (Epr : (dfmax (st_precip s) (Fin 0) * mm_to_cm)%d = Fin (Rmax p 0 / 10)). { rewrite Ep, fmax_fin. change mm_to_cm with (Fin (1 / 10)). cbn. f_equal. field. }
  assert (Epe : (dfmax (st_pet s) (Fin 0) * mm_to_cm)%d = Fin (Rmax pet 0 / 10)). { rewrite Epet, fmax_fin. change mm_to_cm with (Fin (1 / 10)). cbn. f_equal. field. }
  unfold supplied, at_step. unfold at_step in MT. cbv zeta in *. rewrite Epe, Er, Epr, Eon in *. change (Fin rain + Fin on)%d with (Fin (rain + on)) in *. set (l := st_head s) in *.
  destruct (demand_storm (u_wilting u) (u_fc u) l f r (Rmax pet 0 / 10) dt O El HR ltac:(lra)) as (D & ED & HD).
  assert (RM : Rmax (Rmax pet 0 / 10) 0 = Rmax pet 0 / 10) by (apply Rmax_left; pose proof (Rmax_r pet 0); lra). rewrite RM in HD.
  intros vin aet (aet0 & create & Ea & Ec & HB). rewrite Eu, Edt, ED in Ea. apply Ok_inj in Ea. subst aet0. rewrite Eu in Ec.
  rewrite El in MT. destruct create.
  - destruct HB as [-> ->]. exists 0, D. split; [reflexivity|]. split; [reflexivity|]. split; [lra|]. rewrite El. cbn [covered]. destruct (f_bottom f); [lra|]. destruct r as [|n r]; [exact MT|lra].
  - destruct HB as (b & Eb & -> & ->).
    assert (AET : b_aet b = Fin D). { destruct (Fin (rain + on) >? Fin 0)%d; [unfold sub_insert in Eb; bind_inv Eb x Ex; destruct x as [[q1 q2] q3]; destruct (q1 <? Fin 0)%d; [discriminate|]; apply Ok_inj in Eb; subst b; reflexivity|apply Ok_inj in Eb; subst b; unfold sub_no_insert; destruct (_ <? _)%d; reflexivity]. }
    destruct (f_bottom f) eqn:Bf.
    + destruct MT as [(p' & Ep' & Hp' & E0)|MT]; [|rewrite Eu, <- El, Ec in MT; discriminate]. rewrite Ep in Ep'. injection Ep' as <-. injection E0 as ->.
      assert (rain = 0) as R0 by (unfold rain; rewrite Rmax_right by lra; field). rewrite R0 in Eb. unfold dgtb in Eb. rewrite ltb_f in Eb by lra. apply Ok_inj in Eb. subst b.
      exists 0, D. split; [unfold sub_no_insert; destruct (_ <? _)%d; reflexivity|]. split; [exact AET|]. split; [lra|]. rewrite El. cbn [covered]. rewrite Bf. lra.
    + destruct r as [|n r]; [contradiction|].
      assert (IN : exists v, b_volin b = Fin v /\ 0 <= v).
      { destruct (Fin (rain + on) >? Fin 0)%d eqn:PO.
        - unfold sub_insert in Eb. cbn [b_aet b_ponded b_volin b_head b_prev b_rech] in Eb. bind_inv Eb x Ex. destruct x as [[q1 q2] q3]. destruct (q1 <? Fin 0)%d; [discriminate|]. apply Ok_inj in Eb. subst b. cbn [b_volin].
          unfold lgar_insert_water in Ex. rewrite Eu, Edt, Epm in Ex. bind_inv Ex fp Efp. apply Ok_inj in Ex.
          destruct (capacity_positive (u_closed u) (u_nint u) dt (Fin D) (rain + on) (Rmax p 0 / 10) l f (n :: r) fp HG Hdt O SH El Bf Efp) as (xv & -> & Hx).
          exact (partition_in dt (rain + on) pm xv q1 q2 q3 Hdt ltac:(lra) Hx Ex).
        - apply Ok_inj in Eb. subst b. exists 0. split; [unfold sub_no_insert; destruct (_ <? _)%d; reflexivity|lra]. }
      destruct IN as (v & Ev & Hv). exists v, D. split; [exact Ev|]. split; [exact AET|]. split; [lra|]. rewrite El. cbn [covered]. rewrite Bf. lra.
Qed.
End Supply.
