(** Merging, repair and the bottom of the column for one layer, and the whole motion, in exact arithmetic. *)

From Coq Require Import Reals Lra ZArith List Bool Lia.
From Verif Require Import Outcome Dbl Exact Types ListOps Soil Fronts Infil Move Lib Spec_Common Spec_List Spec_Soil Spec_Update Spec_Profile Spec_Storage Spec_Single
  Pf_Dbl Pf_Pow Pf_Infil Pf_List Pf_Soil Pf_Profile Pf_Structure Pf_Storage Pf_Merge Pf_Cross Pf_Repair Pf_SafeMove Pf_Single.
Import ListNotations.
Open Scope R_scope.
Local Existing Instance exact.

(** Water contents of at most [B], depths above 0. *)
Definition damp (B : R) (l : list front) : Prop := Forall (fun f => val (f_theta f) <= B /\ 0 < val (f_depth f)) l.

(** Bounds on water content and depth, and the state of the bottom front, are kept. *)
Definition keeps (s : soil) (l l' : list front) : Prop := (forall B, damp B l -> damp B l') /\ (rooted s l -> rooted s l').
Lemma keeps_refl : forall s l, keeps s l l.
Proof. intros. split; auto. Qed.
Lemma keeps_trans : forall s l1 l2 l3, keeps s l1 l2 -> keeps s l2 l3 -> keeps s l1 l3.
Proof. intros s l1 l2 l3 [A1 A2] [B1 B2]. split; auto. Qed.

(** A water content above the residual one has a head. *)
Lemma vg_root : forall s r te a n m k t, vg_soil s r te a n m k -> r < t <= te -> exists h, 0 <= h /\ h_of_Se s (Se_of_theta s (Fin t)) = Fin h /\ Fin t = theta_of_h s (Fin h).
Proof.
  intros s r te a n m k t V Ht. pose proof (theta_inverse s r te a n m k t V ltac:(lra)) as I. destruct (head_of_water s r te a n m k t V ltac:(lra)) as [E|(h & E & Hh)].
  - exfalso. rewrite Se_of_theta_is with (1 := V) in E. pose proof V as V'. destruct V'. rewrite (h_of_Se_is s r te a n m k) in E; [discriminate|assumption|].
    split; [apply Rdiv_lt_0_compat; lra|]. apply Rmult_le_reg_r with (te - r); [lra|]. unfold Rdiv. rewrite Rmult_assoc, Rinv_l by lra. lra.
  - exists h. split; [assumption|]. split; [assumption|]. rewrite E in I. symmetry. exact I.
Qed.

Section Graded.
Context {cfg : Cfg}.
Variable T : R.

(** ** Merging *)

Lemma single_K : forall e s r te D ff, single e s r te D -> aget (e_frozen e) 1 = Ok ff -> forall t, r <= t <= te ->
  (exists k, K_of_Se s (Se_of_theta s (Fin t)) (s_Ksat s * ff)%d = Fin k /\ 0 <= k) /\ (exists k, K_of_Se s (Se_of_theta s (Fin t)) (ff * s_Ksat s)%d = Fin k /\ 0 <= k).
Proof.
  intros e s r te D ff HS Hf t Ht. destruct (sg_vg _ _ _ _ _ HS) as (a & n & m & k & V). destruct (sg_frozen _ _ _ _ _ HS) as (x & Ex & Hx).
  rewrite Ex in Hf. apply Ok_inj in Hf. subst ff. rewrite (Se_of_theta_is s r te a n m k) by assumption. destruct V.
  assert (HSe : 0 <= (t - r) / (te - r) <= 1). { split; [apply Rmult_le_pos; [lra|left; apply Rinv_0_lt_compat; lra]|]. apply Rmult_le_reg_r with (te - r); [lra|]. unfold Rdiv. rewrite Rmult_assoc, Rinv_l by lra. lra. }
  assert (P : 0 < k * x) by (apply Rmult_lt_0_compat; assumption). assert (P' : 0 < x * k) by (apply Rmult_lt_0_compat; assumption).
  rewrite vg_k. unfold K_of_Se. rewrite vg_m.
  change (Fin k * Fin x)%d with (Fin (k * x)). change (Fin x * Fin k)%d with (Fin (x * k)).
  split; (rewrite K_of_Se_is by lra; eexists; split; [reflexivity|]; apply vg_K_range; lra).
Qed.

Lemma single_psi : forall e s r te D t, single e s r te D -> r <= t <= te -> head_ok (h_of_Se s (Se_of_theta s (Fin t))).
Proof. intros e s r te D t HS Ht. destruct (sg_vg _ _ _ _ _ HS) as (a & n & m & k & V). apply (head_of_water s r te a n m k t V Ht). Qed.

Lemma graded_str : forall e s r te D l, single e s r te D -> graded e T D l -> Str e l.
Proof. intros e s r te D l HS G. apply Str_iff; [apply (sg_env _ _ _ _ _ HS)|]. split; [apply (gr_profile _ _ _ _ G)|apply (gr_rest _ _ _ _ G)]. Qed.

Lemma within_single : forall e s r te D c, single e s r te D -> f_layer c = 1%Z -> within_soils e [c] -> exists t, f_theta c = Fin t /\ r <= t <= te.
Proof.
  intros e s r te D c HS Lc W. inversion W as [|z1 z2 (s0 & r0 & e0 & t0 & W1 & W2 & W3 & W4 & W5) Z2]; subst z1 z2. rewrite Lc, (sg_soil _ _ _ _ _ HS) in W1. apply Ok_inj in W1. subst s0.
  destruct (sg_vg _ _ _ _ _ HS) as (al & nn & m & k & V). rewrite (vg_r _ _ _ _ _ _ _ V) in W2. rewrite (vg_e _ _ _ _ _ _ _ V) in W3. injection W2 as <-. injection W3 as <-. eauto.
Qed.

Lemma merge_step_single : forall e s r te D p l, single e s r te D -> graded e T D l -> (S p < length l)%nat ->
  exists l', merge_step e p l = Ok l' /\ graded e T D l' /\ (S p < length l')%nat /\ (length l' <= length l)%nat /\ storage l' = storage l /\ keeps s l l'.
Proof.
  intros e s r te D p l HS G Hp. assert (HE := sg_env _ _ _ _ _ HS). assert (H := graded_str _ _ _ _ _ _ HS G). unfold merge_step.
  destruct (nth_error l p) as [c|] eqn:Ec; [|apply nth_error_None in Ec; lia].
  destruct (nth_error l (S p)) as [n|] eqn:En; [|apply nth_error_None in En; lia].
  rewrite (proj2 (lget_Ok _ _ _) Ec), (proj2 (lget_Ok _ _ _) En). cbn [bind].
  destruct (_ && _ && negb (f_bottom n))%bool eqn:C.
  2:{ exists l. split; [reflexivity|]. split; [assumption|]. split; [lia|]. split; [lia|]. split; [reflexivity|apply keeps_refl]. }
  apply andb_prop in C as [C C3]. apply andb_prop in C as [C1 C2]. apply Z.eqb_eq in C2. apply negb_true_iff in C3.
  destruct (Str_next _ _ _ _ H En C3) as (nn & Enn & Hnn). rewrite (proj2 (lget_Ok _ _ _) Enn). cbn [bind].
  destruct (nth_three _ _ _ _ _ Ec En Enn) as (a & b & EL & Ha).
  destruct G as [G1 G2 M W DR S I F K].
  assert (Sn : 0 < val (f_depth n)). { destruct l as [|l0 lr]; [discriminate|]. cbn [tl] in S. cbn [nth_error] in En. unfold below_surface in S. rewrite Forall_forall in S. apply S. eapply nth_error_In; eassumption. }
  assert (In0 : val (f_depth n) <= D). { destruct l as [|l0 lr]; [discriminate|]. cbn [tl] in I. cbn [nth_error] in En. rewrite Forall_forall in I. apply I. eapply nth_error_In; eassumption. }
  rewrite EL in M, W, DR, S, I, F, K. apply measured_app in M as [Ma M]. apply within_app in W as [Wa W]. apply Forall_app in K as [Ka K].
  pose proof (proj1 (drier_app _ _ _) DR) as [D1 D2]. clear DR. cbn [drier_downwards] in D2. destruct D2 as (D2 & D3 & D4).
  inversion M as [|x y [[dc Edc] [tc Etc]] M']; subst x y. inversion M' as [|x y [[dn Edn] [tn Etn]] M2]; subst x y.
  inversion M2 as [|x y [[dd Edd] [tnn Etnn]] M3]; subst x y.
  assert (H1 : tn < tc) by (specialize (D2 C2); rewrite Etc, Etn in D2; exact D2).
  assert (H2 : tnn < tn) by (specialize (D3 (eq_sym Hnn)); rewrite Etn, Etnn in D3; exact D3).
  rewrite Edn in Sn, In0. cbn [val] in Sn, In0. rewrite Edc, Edn in C1. unfold dgtb, dltb in C1. apply Rltb_true in C1.
  set (d' := (dc * (tc - tn) + dn * (tn - tnn)) / (tc - tnn)).
  assert (HD : d' * (tc - tnn) = dc * (tc - tn) + dn * (tn - tnn)) by (unfold d'; field; lra).
  assert (P1 : 0 < dc * (tc - tn)) by (apply Rmult_lt_0_compat; lra). assert (P2 : 0 < dn * (tn - tnn)) by (apply Rmult_lt_0_compat; lra).
  assert (Hd' : 0 < d') by (unfold d'; apply Rdiv_lt_0_compat; lra).
  assert (Hdc : d' <= dc). { apply Rmult_le_reg_r with (tc - tnn); [lra|]. rewrite HD. assert (dn * (tn - tnn) <= dc * (tn - tnn)) by (apply Rmult_le_compat_r; lra). lra. }
  assert (E' : ((f_depth c * (f_theta c - f_theta n) + f_depth n * (f_theta n - f_theta nn)) / (f_theta c - f_theta nn))%d = Fin d').
  { rewrite Edc, Etc, Etn, Edn, Etnn. unfold d'. cbn. destruct (Req_EM_T (tc - tnn) 0); [lra|reflexivity]. }
  cbv zeta. rewrite E'. assert (Eg : (Fin d' >? Fin 0)%d = true) by (apply ltb_t; lra). rewrite Eg. cbn [cassert bind].
  assert (Lc := single_layer _ _ _ _ _ _ _ _ HS H Ec). rewrite Lc, (sg_soil _ _ _ _ _ HS). cbn [bind].
  destruct (env_frozen e 1 HE ltac:(rewrite (sg_n _ _ _ _ _ HS); lia)) as [ff Ef]. rewrite Ef. cbn [bind].
  assert (Hc : f_bottom c = false) by (eapply Str_above; eauto).
  match goal with |- context [lset l p ?x] => set (c' := x) end.
  assert (HST : Str e (lset l p c')).
  { eapply Str_lset; [exact Ec| |assumption]. split; [|split; reflexivity]. split; [reflexivity|]. split; [reflexivity|]. rewrite Hc. discriminate. }
  assert (En2 : nth_error (lset l p c') (Datatypes.S p) = Some n) by (rewrite nth_error_lset_neq; [assumption|lia]).
  destruct (delete_str _ _ _ _ HST En2 C3) as (l' & E1 & E2 & E3 & E4). rewrite E1. cbn [bind].
  assert (EQ : l' = a ++ c' :: bump (-1) (nn :: b)).
  { rewrite E4, EL, <- Ha, lset_app. replace (a ++ c' :: n :: nn :: b) with ((a ++ [c']) ++ n :: nn :: b) by (rewrite <- app_assoc; reflexivity).
    replace (Datatypes.S (length a)) with (length (a ++ [c'])) by (rewrite app_length; cbn; lia).
    rewrite firstn_app, Nat.sub_diag, firstn_all, firstn_O, app_nil_r, <- app_assoc.
    f_equal. cbn [app]. f_equal. f_equal. rewrite skipn_app, skipn_all2 by (rewrite app_length; cbn; lia).
    rewrite app_length. cbn [length]. replace (Datatypes.S (length a + 1) - (length a + 1))%nat with 1%nat by lia. reflexivity. }
  assert (Wc : r <= tc <= te). { destruct (within_single e s r te D c HS Lc) as (t & Et & Ht); [constructor; [inversion W; assumption|constructor]|]. rewrite Etc in Et. injection Et as <-. exact Ht. }
  assert (Kc' : conducts c'). { unfold conducts, c'. cbn [set_K set_psi set_depth f_K f_psi]. rewrite Etc. split; [apply (single_K e s r te D ff HS Ef tc Wc)|apply (single_psi e s r te D tc HS Wc)]. }
  assert (Cb : forall x (Q : front -> Prop), (forall f, Q f -> Q (set_num f (f_num f + -1))) -> Forall Q x -> Forall Q (bump (-1) x)).
  { clear. intros x Q HQ HF. unfold bump. rewrite Forall_map. revert HF. apply Forall_impl. exact HQ. }
  rewrite lset_length in E3. assert (Hl := length_S _ _ _ _ Enn).
  assert (PR : profile (e_nlayers e) (e_cum e) l' /\ deepest_rests l') by (apply Str_iff; [apply HE|assumption]). destruct PR as [PR1 PR2].
  exists l'. split; [reflexivity|]. split; [|split; [lia|split; [lia|split]]].
  - constructor; [assumption|assumption| | | | | | |]; rewrite EQ.
    + apply measured_app. split; [assumption|]. constructor; [split; [exists d'|exists tc]; auto|]. apply measured_bump. assumption.
    + apply within_app. split; [assumption|]. inversion W as [|x y Z1 L3]; subst x y. inversion L3 as [|x y Z2 L4]; subst x y. constructor; [exact Z1|apply within_bump; assumption].
    + apply drier_app. split; [apply drier_last with c; auto|].
      change (drier_downwards (c' :: bump (-1) (nn :: b))) with ((f_layer c' = f_layer nn -> val (f_theta nn) < val (f_theta c')) /\ drier_downwards (bump (-1) (nn :: b))).
      split; [|apply drier_bump; exact D4]. intros _. cbn [c' set_K set_psi set_depth f_theta]. rewrite Etc, Etnn. cbn. lra.
    + destruct a as [|a0 a1]; cbn [app tl] in *.
      * inversion S; subst. apply surface_bump. assumption.
      * apply surface_app in S as [Sa S]. apply surface_app. split; [assumption|]. inversion S as [|x y _ S1]; subst x y. inversion S1; subst. constructor; [exact Hd'|apply surface_bump; assumption].
    + destruct a as [|a0 a1]; cbn [app tl] in *.
      * inversion I; subst. apply Cb; auto.
      * apply Forall_app in I as [Ia I]. apply Forall_app. split; [assumption|]. inversion I as [|x y I0 I1]; subst x y. inversion I1; subst.
        constructor; [cbn; rewrite Edc in I0; cbn in I0; lra|]. apply Cb; auto.
    + destruct a as [|a0 a1]; cbn [app] in *; intros f E0; [|apply F; exact E0].
      injection E0 as <-. destruct (F c eq_refl) as [F1|F1]; [left|right; exact F1]. cbn. rewrite Edc in F1. cbn in F1. lra.
    + apply Forall_app. split; [assumption|]. inversion K as [|x y _ K1]; subst x y. inversion K1; subst. constructor; [exact Kc'|]. apply Cb; auto.
  - rewrite EQ, EL. unfold storage. rewrite !slabs_app. f_equal. change (c' :: bump (-1) (nn :: b)) with ([c'] ++ bump (-1) (nn :: b)).
    rewrite slabs_app, slabs_bump. cbn [slabs lastd app c' set_K set_psi set_depth f_theta f_depth]. rewrite Edc, Etc, Edn, Etn, Etnn, Edd. cbn [val]. lra.
  - split.
    + intros B DB. rewrite EL in DB. rewrite EQ. apply Forall_app in DB as [Ba Bb]. inversion Bb as [|x y B0 B1]; subst x y. inversion B1; subst. apply Forall_app. split; [assumption|].
      constructor; [split; [apply B0|exact Hd']|]. apply Cb; auto.
    + intro RT. rewrite EL in RT. rewrite EQ. apply Forall_app in RT as [Ra Rb]. inversion Rb as [|x y _ R1]; subst x y. inversion R1; subst. apply Forall_app. split; [assumption|].
      constructor; [unfold c'; cbn; rewrite Hc; discriminate|]. apply Cb; auto.
Qed.

Lemma merge_single : forall e s r te D l, single e s r te D -> graded e T D l ->
  exists l', lgar_merge_wetting_fronts e l = Ok l' /\ graded e T D l' /\ storage l' = storage l /\ l' <> [] /\ keeps s l l'.
Proof.
  intros e s r te D l HS G. unfold lgar_merge_wetting_fronts.
  assert (X : forall k p l, graded e T D l -> (p < length l)%nat -> (length l - p <= k)%nat -> exists l', merge_loop k e p l = Ok l' /\ graded e T D l' /\ storage l' = storage l /\ l' <> [] /\ keeps s l l').
  { clear l G. induction k as [|k IH]; intros p l G Hp Hk; [lia|]. cbn [merge_loop]. unfold listLength.
    destruct (Z.eqb_spec (Z.of_nat (S p)) (Z.of_nat (length l))) as [|Hne]; [exists l; split; [reflexivity|]; split; [assumption|]; split; [reflexivity|]; split; [destruct l; [cbn in Hp; lia|discriminate]|apply keeps_refl]|].
    destruct (merge_step_single e s r te D p l HS G ltac:(lia)) as (l1 & E1 & G1 & L1 & L2 & S1 & B1). rewrite E1. cbn [bind].
    destruct (IH (S p) l1 G1 L1 ltac:(lia)) as (l2 & E2 & G2 & S2 & N2 & B2). exists l2. split; [assumption|]. split; [assumption|]. split; [congruence|]. split; [assumption|eapply keeps_trans; eassumption]. }
  assert (l <> []). { eapply Str_nonempty; [|eapply graded_str; eassumption]. rewrite (sg_n _ _ _ _ _ HS). lia. }
  destruct l; [contradiction|]. apply X; auto; cbn [length]; lia.
Qed.

Lemma graded_upright : forall e s r te D l mc, single e s r te D -> graded e T D l -> check_and_fix e l mc = Ok (l, mc).
Proof.
  intros e s r te D l mc HS G. assert (H := graded_str _ _ _ _ _ _ HS G). unfold check_and_fix, lgar_check_dry_over_wet_wetting_fronts.
  assert (Hne : l <> []) by (eapply Str_nonempty; [|exact H]; rewrite (sg_n _ _ _ _ _ HS); lia). destruct l as [|c l]; [contradiction|]. cbn [bind].
  destruct (check_dry (c :: l)) eqn:C; [|reflexivity]. exfalso. apply check_dry_iff in C. destruct C as (i & f & g & Ef & Eg & L & Q).
  destruct G as [_ _ M _ DR _ _ _ _]. destruct (nth_two _ _ _ _ Ef Eg) as (a & b & EL & _). rewrite EL in M, DR. apply drier_app in DR as [_ [DR _]]. specialize (DR L).
  apply measured_app in M as [_ M]. inversion M as [|x y [_ [t1 E1]] M']; subst x y. inversion M' as [|x y [_ [t2 E2]] _]; subst x y. rewrite E1, E2 in *. cbn in DR.
  apply Rleb_true in Q. lra.
Qed.

Lemma delete_Forall : forall (P : front -> Prop) k l l' q, (forall f, P f -> P (set_num f (f_num f + -1))) -> Forall P l -> listDeleteFront k l = Ok (l', q) -> Forall P l'.
Proof.
  intros P k l l' q HP HF E. unfold listDeleteFront in E. destruct (pos_of k l) as [i|]; [|discriminate]. apply Ok_inj in E. apply pair_equal_spec in E as [<- _].
  apply Forall_app. destruct (Forall_firstn_skipn _ P l i HF) as [F1 _]. destruct (Forall_firstn_skipn _ P l (S i) HF) as [_ F2]. split; [assumption|].
  unfold bump. rewrite Forall_map. revert F2. apply Forall_impl. exact HP.
Qed.

Lemma domain_K : forall e s r te D, single e s r te D -> forall k p l fl l', Str e l -> within_soils e l -> Forall conducts l ->
  domain_loop k e (Fin D) p l = Ok (fl, l') -> Forall conducts l'.
Proof.
  intros e s r te D HS. induction k as [|k IH]; intros p l fl l' H W K E; cbn [domain_loop] in E; [apply Ok_inj in E; apply pair_equal_spec in E as [_ <-]; assumption|].
  destruct (_ >=? _)%Z; [apply Ok_inj in E; apply pair_equal_spec in E as [_ <-]; assumption|].
  apply bind_Ok in E as (c & Ec & E). apply lget_Ok in Ec. apply bind_Ok in E as (t & Et & E). apply bind_Ok in E as (n & En & E).
  destruct (nth_error l (S (S p))); [eapply IH; eassumption|]. destruct (_ >=? _)%d; [|eapply IH; eassumption].
  apply bind_Ok in E as (s0 & Es & E). apply bind_Ok in E as (ff & Ef & E). cbv zeta in E. apply bind_Ok in E as ([l1 q] & E1 & E).
  apply Ok_inj in E. apply pair_equal_spec in E as [_ <-].
  assert (Lc := single_layer _ _ _ _ _ _ _ _ HS H Ec). rewrite Lc in *.
  assert (s0 = s). { pose proof (sg_soil _ _ _ _ _ HS) as X. unfold soil_of in X. rewrite Et in X. cbn [bind] in X. rewrite Es in X. apply Ok_inj in X. exact X. } subst s0.
  destruct (within_single e s r te D c HS Lc) as (tc & Etc & Htc). { constructor; [|constructor]. unfold within_soils in W. rewrite Forall_forall in W. apply W. eapply nth_error_In; eassumption. }
  eapply delete_Forall; [|  |exact E1]; [auto|]. apply Forall_lset; [assumption|]. unfold conducts. cbn [f_K f_psi set_K set_psi]. rewrite Etc. split; [apply (single_K e s r te D ff HS Ef tc Htc)|apply (single_psi e s r te D tc HS Htc)].
Qed.

Lemma domain_root : forall e s r te D, single e s r te D -> forall k p l fl l', Str e l -> within_soils e l -> drier_downwards l -> rooted s l ->
  domain_loop k e (Fin D) p l = Ok (fl, l') -> rooted s l'.
Proof.
  intros e s r te D HS. induction k as [|k IH]; intros p l fl l' H W DR K E; cbn [domain_loop] in E; [apply Ok_inj in E; apply pair_equal_spec in E as [_ <-]; assumption|].
  destruct (_ >=? _)%Z; [apply Ok_inj in E; apply pair_equal_spec in E as [_ <-]; assumption|].
  apply bind_Ok in E as (c & Ec & E). apply lget_Ok in Ec. apply bind_Ok in E as (t & Et & E). apply bind_Ok in E as (n & En & E). apply lget_Ok in En.
  destruct (nth_error l (S (S p))); [eapply IH; eassumption|]. destruct (_ >=? _)%d; [|eapply IH; eassumption].
  apply bind_Ok in E as (s0 & Es & E). apply bind_Ok in E as (ff & Ef & E). cbv zeta in E. apply bind_Ok in E as ([l1 q] & E1 & E).
  apply Ok_inj in E. apply pair_equal_spec in E as [_ <-].
  assert (Lc := single_layer _ _ _ _ _ _ _ _ HS H Ec). rewrite Lc in *. assert (Ln := single_layer _ _ _ _ _ _ _ _ HS H En).
  assert (s0 = s). { pose proof (sg_soil _ _ _ _ _ HS) as X. unfold soil_of in X. rewrite Et in X. cbn [bind] in X. rewrite Es in X. apply Ok_inj in X. exact X. } subst s0.
  unfold within_soils in W. rewrite Forall_forall in W.
  destruct (within_single e s r te D c HS Lc) as (tc & Etc & Htc). { constructor; [|constructor]. apply W. eapply nth_error_In; eassumption. }
  destruct (within_single e s r te D n HS Ln) as (tn & Etn & Htn). { constructor; [|constructor]. apply W. eapply nth_error_In; eassumption. }
  destruct (nth_two _ _ _ _ Ec En) as (x1 & x2 & EL & _). rewrite EL in DR. apply drier_app in DR as [_ [DR _]]. specialize (DR ltac:(congruence)). rewrite Etc, Etn in DR. cbn [val] in DR.
  destruct (sg_vg _ _ _ _ _ HS) as (al & nn & m & kk & V). destruct (vg_root s r te al nn m kk tc V ltac:(lra)) as (h & Hh & Eh & Et').
  eapply delete_Forall; [|  |exact E1]; [auto|]. apply Forall_lset; [assumption|]. cbn [f_bottom f_psi f_theta set_K set_psi set_theta]. rewrite Etc. intros _. exists h. auto.
Qed.

Lemma domain_single : forall e s r te D l, single e s r te D -> graded e T D l ->
  exists fl l', lgar_wetting_front_cross_domain_boundary e (Fin D) l = Ok (Fin fl, l') /\ storage l = storage l' + fl /\ graded e T D l' /\ keeps s l l'.
Proof.
  intros e s r te D l HS G. assert (HE := sg_env _ _ _ _ _ HS). assert (H := graded_str _ _ _ _ _ _ HS G).
  assert (HD : aget (e_cum e) (e_nlayers e) = Ok (Fin D)) by (rewrite (sg_n _ _ _ _ _ HS); apply (sg_bottom _ _ _ _ _ HS)).
  assert (Hne : l <> []) by (eapply Str_nonempty; [|exact H]; rewrite (sg_n _ _ _ _ _ HS); lia).
  assert (U : lgar_wetting_front_cross_domain_boundary e (Fin D) l = domain_loop (length l - 1) e (Fin D) 0 l) by (destruct l; [contradiction|reflexivity]). rewrite U.
  destruct (domain_loop_exact e D HE HD (length l - 1) 0 l H (gr_measured _ _ _ _ G)) as (fl & l' & E & H' & M' & S' & C); [destruct l; [contradiction|cbn; lia]|].
  exists fl, l'. split; [exact E|]. split; [exact S'|].
  assert (K' := domain_K e s r te D HS _ _ _ _ _ H (gr_within _ _ _ _ G) (gr_K _ _ _ _ G) E).
  assert (R' : rooted s l -> rooted s l') by (intro RT; exact (domain_root e s r te D HS _ _ _ _ _ H (gr_within _ _ _ _ G) (gr_drier _ _ _ _ G) RT E)).
  destruct C as [[-> _]|(a & c & n & n' & EL & EL' & Et & Ed & _)]; [split; [exact G|apply keeps_refl]|].
  destruct G as [G1 G2 M W DR S I F K]. subst l.
  assert (PR : profile (e_nlayers e) (e_cum e) l' /\ deepest_rests l') by (apply Str_iff; [apply HE|assumption]). destruct PR as [PR1 PR2].
  assert (Ec : nth_error (a ++ [c; n]) (length a) = Some c) by (rewrite nth_error_app2, Nat.sub_diag by lia; reflexivity).
  assert (En : nth_error (a ++ [c; n]) (Datatypes.S (length a)) = Some n) by (rewrite nth_error_app2 by lia; replace (Datatypes.S (length a) - length a)%nat with 1%nat by lia; reflexivity).
  assert (En' : nth_error l' (length a) = Some n') by (rewrite EL', nth_error_app2, Nat.sub_diag by lia; reflexivity).
  assert (Lc := single_layer _ _ _ _ _ _ _ _ HS H Ec). assert (Ln := single_layer _ _ _ _ _ _ _ _ HS H En). assert (Ln' := single_layer _ _ _ _ _ _ _ _ HS H' En').
  assert (In0 : 0 < val (f_depth n) <= D). { split; [destruct a as [|a0 a1]; cbn [app tl] in S|destruct a as [|a0 a1]; cbn [app tl] in I].
    - inversion S; assumption.
    - apply surface_app in S as [_ S]. inversion S as [|x y _ S2]; subst x y. inversion S2; assumption.
    - inversion I; assumption.
    - apply Forall_app in I as [_ I]. inversion I as [|x y _ I2]; subst x y. inversion I2; assumption. }
  split; [constructor; [assumption|assumption|assumption| | | | | |assumption]; rewrite EL'|].
  - apply within_app in W as [Wa W]. apply within_app. split; [assumption|]. inversion W as [|x y Z1 L3]; subst x y. constructor; [|constructor].
    destruct Z1 as (s0 & r0 & e0 & t0 & W1 & W2 & W3 & W4 & W5). exists s0, r0, e0, t0. rewrite Ln', Et. rewrite Lc in W1. auto.
  - apply drier_app in DR as [D1 _]. apply drier_last with c; auto. congruence.
  - destruct a as [|a0 a1]; cbn [app tl] in *; [constructor|]. apply surface_app in S as [Sa S]. apply surface_app. split; [assumption|]. constructor; [rewrite Ed; apply In0|constructor].
  - destruct a as [|a0 a1]; cbn [app tl] in *; [constructor|]. apply Forall_app in I as [Ia I]. apply Forall_app. split; [assumption|]. constructor; [rewrite Ed; apply In0|constructor].
  - destruct a as [|a0 a1]; cbn [app] in *; intros f E0; [|apply F; exact E0]. injection E0 as <-. left. rewrite Ed. apply In0.
  - split; [|exact R']. intros B DB. rewrite EL'. apply Forall_app in DB as [Ba Bb]. apply Forall_app. split; [assumption|]. constructor; [|constructor]. rewrite Et, Ed. inversion Bb as [|x y B0 B1]; subst x y. inversion B1; subst. split; [apply B0|apply In0].
Qed.

(** ** Repair of the first front *)

Lemma repair_single : forall e s r te D c n b d, single e s r te D -> let l := c :: n :: b in
  Str e l -> measured l -> within_soils e l -> drier_downwards (n :: b) -> below_surface (n :: b) -> Forall (fun f => val (f_depth f) <= D) (n :: b) -> Forall conducts l ->
  f_depth c = Fin d -> (d <= D \/ T < val (f_theta c)) ->
  exists l' x, check_and_fix e l (Fin 0) = Ok (l', Fin x) /\ graded e T D l' /\
    (val (f_theta n) < val (f_theta c) /\ storage l' = storage l /\ x = 0 \/
     val (f_theta c) <= val (f_theta n) /\ storage l' = storage l + d * (val (f_theta n) - val (f_theta c)) /\ x = Rabs (storage l' - storage l)) /\
    keeps s l l'.
Proof.
  intros e s r te D c n b d HS l H M W DR S I K Ed F. assert (HE := sg_env _ _ _ _ _ HS).
  assert (PR : profile (e_nlayers e) (e_cum e) l /\ deepest_rests l) by (apply Str_iff; [apply HE|assumption]). destruct PR as [PR1 PR2].
  assert (Lc := single_layer _ _ _ _ _ _ 0%nat c HS H eq_refl). assert (Ln := single_layer _ _ _ _ _ _ 1%nat n HS H eq_refl).
  assert (Bc : f_bottom c = false) by (eapply (Str_above e l 0); [exact H|reflexivity|reflexivity|congruence]).
  inversion M as [|x y [_ Fc] M1]; subst x y. inversion M1 as [|x y [_ Fn] M2]; subst x y. apply fin_val in Fc, Fn.
  destruct (Rlt_dec (val (f_theta n)) (val (f_theta c))) as [Lt|Ge].
  - assert (G : graded e T D l). { constructor; auto; [split; auto|]. intros f E0. injection E0 as <-. rewrite Ed. exact F. }
    exists l, 0. split; [apply (graded_upright e s r te D l (Fin 0) HS G)|]. split; [exact G|]. split; [left; auto|apply keeps_refl].
  - assert (DW : dry_over_wet c n = true). { unfold dry_over_wet. rewrite Lc, Ln, Z.eqb_refl, andb_true_r. rewrite Fc, Fn. apply leb_t. lra. }
    assert (UF : check_and_fix e l (Fin 0) = ('(l', q, dm) <- fix_pair e c l ;; fix_loop (length l) e 2 (Datatypes.S q) l' (Fin 0 + dm)%d)).
    { unfold check_and_fix, lgar_check_dry_over_wet_wetting_fronts, l. cbn [bind check_dry]. rewrite DW. unfold lgar_fix_dry_over_wet_wetting_fronts.
      cbn [length]. cbn [fix_loop nth_error]. unfold listLength.
      replace (1 <=? Z.of_nat (length (c :: n :: b)))%Z with true by (symmetry; apply Z.leb_le; cbn [length]; lia). rewrite DW. reflexivity. }
    rewrite UF. clear UF.
    destruct (delete_str e l 0 c H eq_refl Bc) as (l' & E1 & H' & L' & EQ). cbn [firstn skipn app l] in EQ.
    assert (M' : measured l') by (rewrite EQ; apply measured_bump; exact M1).
    assert (Cb : forall x (Q : front -> Prop), (forall f, Q f -> Q (set_num f (f_num f + -1))) -> Forall Q x -> Forall Q (bump (-1) x)).
    { clear. intros x Q HQ HF. unfold bump. rewrite Forall_map. revert HF. apply Forall_impl. exact HQ. }
    assert (G : graded e T D l').
    { assert (PR : profile (e_nlayers e) (e_cum e) l' /\ deepest_rests l') by (apply Str_iff; [apply HE|assumption]). destruct PR as [PR1' PR2'].
      inversion W as [|x y _ W1]; subst x y. inversion K as [|x y _ K1]; subst x y.
      constructor; auto; rewrite EQ.
      - apply within_bump; assumption.
      - apply drier_bump; assumption.
      - cbn [bump map tl]. inversion S; subst. apply surface_bump; assumption.
      - cbn [bump map tl]. inversion I; subst. apply Cb; auto.
      - intros f E0. injection E0 as <-. left. inversion I; subst. assumption.
      - apply Cb; auto. }
    assert (ST : storage l' = storage l + d * (val (f_theta n) - val (f_theta c))).
    { rewrite EQ. unfold storage, l. rewrite slabs_bump, slabs_two, Ed. cbn [val]. lra. }
    assert (FP : fix_pair e c l = Ok (l', 0%nat, Fin (Rabs (storage l' - storage l)))).
    { unfold fix_pair. rewrite (single_mass e s r te D l HS H M). cbn [bind]. rewrite E1. cbn [bind]. rewrite Lc. cbn [Z.gtb Z.compare Pos.compare Pos.compare_cont bind].
      rewrite (single_mass e s r te D l' HS H' M'). cbn [bind]. reflexivity. }
    rewrite FP. cbn [bind].
    exists l', (Rabs (storage l' - storage l)). split; [|split; [exact G|split; [right; split; [lra|split; [exact ST|reflexivity]]|]]].
    2:{ split; intros; rewrite EQ; (apply Cb; [auto|]); match goal with X : damp _ _ |- _ => inversion X | X : rooted _ _ |- _ => inversion X end; assumption. }
    assert (CD : check_dry l' = false).
    { pose proof (graded_upright e s r te D l' (Fin 0) HS G) as X. unfold check_and_fix, lgar_check_dry_over_wet_wetting_fronts in X. destruct l' as [|y l'']; [reflexivity|]. cbn [bind] in X.
      destruct (check_dry (y :: l'')) eqn:CD; [|reflexivity]. exfalso. apply check_dry_iff in CD.
      destruct (repair_progress e (Fin 0) (y :: l'') HE (gr_profile _ _ _ _ G) (gr_rest _ _ _ _ G) CD) as (l2 & mc2 & X2 & X3). rewrite X in X2. apply Ok_inj in X2. apply pair_equal_spec in X2 as [<- _]. lia. }
    change (Fin 0 + Fin (Rabs (storage l' - storage l)))%d with (Fin (0 + Rabs (storage l' - storage l))). rewrite Rplus_0_l.
    match goal with |- fix_loop ?k e ?i ?p l' ?mc = _ => apply (fix_loop_idle e k i p l' mc) end; [unfold listLength; lia|lia|exact CD].
Qed.

Lemma phases_single : forall e s r te D c n b d, single e s r te D -> let l := c :: n :: b in
  Str e l -> measured l -> within_soils e l -> drier_downwards (n :: b) -> below_surface (n :: b) -> Forall (fun f => val (f_depth f) <= D) (n :: b) -> Forall conducts l ->
  f_depth c = Fin d -> (d <= D \/ T < val (f_theta c)) ->
  exists l' fl x, merge_phases e l = Ok (l', Fin fl, Fin x) /\ graded e T D l' /\
    (val (f_theta n) < val (f_theta c) /\ storage l' = storage l - fl /\ x = 0 \/
     val (f_theta c) <= val (f_theta n) /\ let y := d * (val (f_theta n) - val (f_theta c)) in storage l' = storage l + y - fl /\ x = Rabs y) /\ keeps s l l'.
Proof.
  intros e s r te D c n b d HS l H M W DR S I K Ed F.
  destruct (repair_single e s r te D c n b d HS H M W DR S I K Ed F) as (l1 & x & E1 & G1 & C1 & B1). fold l in E1, C1.
  destruct (merge_single e s r te D l1 HS G1) as (l2 & E2 & G2 & S2 & _ & B2).
  destruct (merge_single e s r te D l2 HS G2) as (l3 & E3 & G3 & S3 & _ & B3).
  destruct (domain_single e s r te D l3 HS G3) as (fl & l4 & E4 & S4 & G4 & B4).
  exists l4, fl, x. split; [|split; [exact G4|split; [|exact (keeps_trans _ _ _ _ B1 (keeps_trans _ _ _ _ B2 (keeps_trans _ _ _ _ B3 B4)))]]].
  - unfold merge_phases. rewrite E1. cbn [bind]. rewrite E2. cbn [bind]. rewrite (cross_single e s r te D l2 HS (graded_str _ _ _ _ _ _ HS G2)). cbn [bind].
    rewrite (graded_upright e s r te D l2 (Fin x) HS G2). cbn [bind]. rewrite E3. cbn [bind]. rewrite (sg_n _ _ _ _ _ HS), (sg_bottom _ _ _ _ _ HS). cbn [bind].
    rewrite E4. cbn [bind]. rewrite (graded_upright e s r te D l4 (Fin x) HS G4). reflexivity.
  - destruct C1 as [(A1 & A2 & A3)|(A1 & A2 & A3)]; [left|right]; (split; [exact A1|]).
    + split; [lra|exact A3].
    + cbv zeta. split; [lra|]. rewrite A3, A2. f_equal. lra.
Qed.

(** ** The rest *)

(** Only the head and the conductivity differ. *)
Definition refreshed (f g : front) : Prop :=
  f_depth g = f_depth f /\ f_theta g = f_theta f /\ f_layer g = f_layer f /\ f_num g = f_num f /\ f_bottom g = f_bottom f /\ f_dzdt g = f_dzdt f.
Lemma refreshed_refl : forall f, refreshed f f.
Proof. intros f. repeat split. Qed.
Lemma refreshed_alike : forall f g, refreshed f g -> alike f g.
Proof. intros f g (A1 & A2 & A3 & A4 & A5 & A6). split; [|split; congruence]. split; [congruence|]. split; [congruence|]. intro. congruence. Qed.

Lemma refreshed_Forall : forall (P : front -> Prop) l l', (forall f g, refreshed f g -> P f -> P g) -> Forall2 refreshed l l' -> Forall P l -> Forall P l'.
Proof. intros P l l' HP HF. induction HF; intro F; [constructor|]. inversion F; subst. constructor; eauto. Qed.

Lemma refreshed_slabs : forall l l', Forall2 refreshed l l' -> forall z, slabs z l' = slabs z l.
Proof.
  intros l l' HF. induction HF as [|f g l l' R HF IH]; intro z; [reflexivity|]. destruct R as (A1 & A2 & A3 & A4 & A5 & A6).
  cbn [slabs]. rewrite IH. rewrite A1. rewrite A2. reflexivity.
Qed.

Lemma graded_refreshed : forall e s r te D l l', single e s r te D -> graded e T D l -> Forall2 refreshed l l' -> Forall conducts l' -> (rooted s l -> rooted s l') -> graded e T D l' /\ storage l' = storage l /\ keeps s l l'.
Proof.
  intros e s r te D l l' HS G R K' RR. assert (H := graded_str _ _ _ _ _ _ HS G). destruct G as [G1 G2 M W DR S I F K].
  assert (H' : Str e l'). { apply (Str_alike e l); [|exact H]. clear - R. induction R; constructor; auto using refreshed_alike. }
  assert (PR : profile (e_nlayers e) (e_cum e) l' /\ deepest_rests l') by (apply Str_iff; [apply (sg_env _ _ _ _ _ HS)|assumption]). destruct PR as [PR1 PR2].
  split; [|split; [unfold storage; apply refreshed_slabs; assumption|split; [|exact RR]; intros B; apply refreshed_Forall; [intros f g (A1 & A2 & _); rewrite A1, A2; auto|assumption]]].
  assert (RT : Forall2 refreshed (tl l) (tl l')) by (destruct R; [constructor|assumption]).
  constructor; [assumption|assumption| | | | | | |assumption].
  - revert M. apply refreshed_Forall; [|assumption]. intros f g (A1 & A2 & _) [B1 B2]. rewrite A1, A2. split; assumption.
  - revert W. apply refreshed_Forall; [|assumption]. intros f g (A1 & A2 & A3 & _) (s0 & r0 & e0 & t0 & W1 & W2 & W3 & W4 & W5). exists s0, r0, e0, t0. rewrite A2, A3. auto.
  - clear - R DR. induction R as [|f g l l' R HF IH]; [exact I|]. destruct HF as [|f2 g2 l l' R2 HF]; [exact I|]. destruct DR as [D1 D2]. split; [|apply IH; assumption].
    destruct R as (A1 & A2 & A3 & _). destruct R2 as (B1 & B2 & B3 & _). rewrite A2, A3, B2, B3. assumption.
  - revert S. apply refreshed_Forall; [|assumption]. intros f g (A1 & _). rewrite A1. auto.
  - revert I. apply refreshed_Forall; [|assumption]. intros f g (A1 & _). rewrite A1. auto.
  - destruct R as [|f0 g0 l l' (A1 & A2 & _) R]; [discriminate|]. intros f E0. injection E0 as <-. rewrite A1, A2. apply F. reflexivity.
Qed.

Lemma refresh_single : forall e s r te D l, single e s r te D -> graded e T D l -> exists l', refresh_psi e l = Ok l' /\ graded e T D l' /\ storage l' = storage l /\ keeps s l l'.
Proof.
  intros e s r te D l HS G. assert (H := graded_str _ _ _ _ _ _ HS G).
  assert (Hne : l <> []) by (eapply Str_nonempty; [|exact H]; rewrite (sg_n _ _ _ _ _ HS); lia).
  assert (X : exists l', refresh_psi e l = Ok l' /\ Forall2 refreshed l l' /\ Forall conducts l' /\ (rooted s l -> rooted s l')).
  { assert (L : Forall (fun f => f_layer f = 1%Z) l). { apply Forall_forall. intros f Hf. apply In_nth_error in Hf as [i Hi]. eapply single_layer; eassumption. }
    assert (BN : forall i f, nth_error l i = Some f -> (S i < length l)%nat -> f_bottom f = false).
    { intros i f Ei Hi. destruct (nth_error l (S i)) as [g|] eqn:Eg; [|apply nth_error_None in Eg; lia]. eapply (Str_above e l i); [exact H|exact Ei|exact Eg|]. rewrite (single_layer _ _ _ _ _ _ _ _ HS H Ei), (single_layer _ _ _ _ _ _ _ _ HS H Eg). reflexivity. }
    destruct G as [_ _ _ W _ _ _ _ K]. clear - HS W K L Hne BN. induction l as [|c l IH]; [contradiction|]. inversion W as [|x y Wc Wl]; subst x y. inversion K as [|x y Kc Kl]; subst x y. inversion L as [|x y Lc Ll]; subst x y.
    destruct l as [|n l]; [exists [c]; split; [reflexivity|]; split; [constructor; [apply refreshed_refl|constructor]|split; [assumption|auto]]|].
    destruct (IH Wl Kl ltac:(discriminate) Ll ltac:(intros i f Ei Hi; apply (BN (S i) f Ei); cbn in *; lia)) as (r' & E & R & K' & RR).
    assert (Bc : f_bottom c = false) by (apply (BN 0%nat c eq_refl); cbn; lia).
    change (refresh_psi e (c :: n :: l)) with
      (c' <- (if f_psi c >? lit 1 then s <- soil_of e (f_layer c) ;; ff <- aget (e_frozen e) (f_layer c) ;;
               let Se := Se_of_theta s (f_theta c) in Ok (set_K (set_psi c (h_of_Se s Se)) (K_of_Se s Se (ff * s_Ksat s)))
             else Ok c) ;; r' <- refresh_psi e (n :: l) ;; Ok (c' :: r'))%d.
    rewrite Lc, (sg_soil _ _ _ _ _ HS). cbn [bind]. destruct (env_frozen e 1 (sg_env _ _ _ _ _ HS) ltac:(rewrite (sg_n _ _ _ _ _ HS); lia)) as [ff Ef]. rewrite Ef. cbn [bind]. rewrite E.
    destruct (within_single e s r te D c HS Lc) as (tc & Etc & Htc); [constructor; [assumption|constructor]|].
    destruct (f_psi c >? lit 1)%d; cbn [bind]; eexists; (split; [reflexivity|]); (split; [constructor; [|exact R]|split; [constructor; [|exact K']|intro RT; inversion RT; subst; constructor; [cbn; rewrite Bc; discriminate|apply RR; assumption]]]).
    - repeat split.
    - unfold conducts. cbn [f_K f_psi set_K set_psi]. rewrite Etc. split; [apply (single_K e s r te D ff HS Ef tc Htc)|apply (single_psi e s r te D tc HS Htc)].
    - apply refreshed_refl.
    - exact Kc. }
  destruct X as (l' & E & R & K' & RR). exists l'. split; [exact E|]. apply (graded_refreshed e s r te D l l' HS G R K' RR).
Qed.

Lemma alone_single : forall e s r te D l, single e s r te D -> Str e l -> fix_single e l = Ok l.
Proof.
  intros e s r te D l HS H. unfold fix_single. destruct l as [|c [|n l]]; try reflexivity. rewrite (sg_bottom _ _ _ _ _ HS). cbn [bind].
  assert (B : f_bottom c = true). { destruct (f_bottom c) eqn:B; [reflexivity|]. destruct (Str_next _ _ 0%nat c H eq_refl B) as (n & En & _). discriminate. }
  destruct (Str_bottom _ _ 0%nat c H eq_refl B) as [D1 _]. rewrite (single_layer _ _ _ _ _ _ 0%nat c HS H eq_refl), (sg_bottom _ _ _ _ _ HS) in D1. apply Ok_inj in D1.
  rewrite <- D1. assert (X : (Fin D <>? Fin D)%d = false) by (unfold dneb, deqb, Reqb; destruct (Req_EM_T D D); [reflexivity|contradiction]). rewrite X. reflexivity.
Qed.

End Graded.

(** ** The whole motion *)

Section Move.
Context {cfg : Cfg}.

Lemma damp_head_in : forall B l, Forall (fun f => f_layer f = 1%Z) l -> drier_downwards l -> below_surface l -> (match l with [] => True | c :: _ => val (f_theta c) <= B end) -> damp B l.
Proof.
  intros B l L DR BS HB. destruct l as [|c l]; [constructor|].
  revert c DR BS HB L. induction l as [|n l IH]; intros c DR BS HB L; inversion BS; subst; (constructor; [split; assumption|]); [constructor|].
  inversion L as [|x y Lc L1]; subst x y. inversion L1 as [|x y Ln L2]; subst x y. destruct DR as [D1 D2]. assert (val (f_theta n) < val (f_theta c)) by (apply D1; congruence).
  apply IH; auto. lra.
Qed.

Lemma motion_at : forall T e s r te D dt vin a head l' a' q, single e s r te D -> settled e te D head -> (2 <= length head)%nat -> 0 < dt ->
  (T < te \/ vin <= a /\ forall c, hd_error head = Some c -> val (f_theta c) <= te - 1 / 1000000000000000) ->
  lgar_move_wetting_fronts e (Fin dt) (Fin vin) 1 (Fin (storage head)) (Fin a) head head = Ok (l', a', q) ->
  exists a2 q2, a' = Fin a2 /\ q = Fin q2 /\ graded e T D l' /\ Rabs (storage l' - (storage head + vin - a2 - q2)) <= 1 / 10000000 /\
    (vin <= a -> forall c, hd_error head = Some c -> val (f_theta c) <= te - 1 / 1000000000000000 -> damp (val (f_theta c)) l') /\ (rooted s head -> rooted s l').
Proof.
  intros T e s r te D dt vin a head l' a' q HS [G HB HV] H2 Hdt HT E. assert (HE := sg_env _ _ _ _ _ HS). assert (H := graded_str _ _ _ _ _ _ _ HS G).
  destruct head as [|c [|no h]]; try (cbn in H2; lia). unfold lgar_move_wetting_fronts in E. rewrite (sg_n _ _ _ _ _ HS), (sg_bottom _ _ _ _ _ HS) in E. cbn [bind] in E. cbv zeta in E.
  apply bind_Ok in E as ([l1 a1] & E1 & E).
  assert (Lc := single_layer _ _ _ _ _ _ 0%nat c HS H eq_refl). assert (Lno := single_layer _ _ _ _ _ _ 1%nat no HS H eq_refl).
  assert (Bc : f_bottom c = false) by (eapply (Str_above e (c :: no :: h) 0); [exact H|reflexivity|reflexivity|congruence]).
  inversion HV as [|x y Vc Vt]; subst x y. destruct (Vc Bc) as (v & Ev & Hv).
  pose proof G as [_ _ M W DR S I F K].
  inversion M as [|x y [Fd Ft] Mt]; subst x y. inversion Mt as [|x y [_ Fno] _]; subst x y. apply fin_val in Fd, Ft, Fno.
  set (d := val (f_depth c)) in *. set (tc := val (f_theta c)) in *. set (tno := val (f_theta no)) in *.
  assert (Hd : 0 < d) by (inversion HB; assumption).
  inversion W as [|x y Wc Wt]; subst x y. inversion K as [|x y Kc Kt]; subst x y.
  assert (Hco : tno < tc) by (destruct DR as [DR _]; apply DR; congruence).
  assert (CB : calm_below e D (no :: h)) by (repeat split; auto; apply DR).
  assert (Htc : r <= tc <= te). { destruct (within_single e s r te D c HS Lc) as (t & Et & Ht); [constructor; [assumption|constructor]|]. rewrite Ft in Et. injection Et as Et. fold tc in Et. rewrite <- Et in Ht. exact Ht. }
  assert (EX : water_added 1 1 (Fin vin) (Fin a) = Fin (vin - a)) by (unfold water_added; cbn; f_equal; lra).
  apply (loop_single e s r te D dt (Fin vin) (Fin a) c no h l1 a1 d v tc tno (vin - a) HS H CB Vc Hdt Fd Hd Ev Ft Fno EX) in E1.
  destruct E1 as (-> & n & b & tn & psi & K1 & Hpsi & Etn & Hr & ->).
  set (d' := Rmin (d + v * dt) D) in *. set (t' := (d * (tc - tno) + (vin - a)) / d' + tn) in *.
  assert (Hd' : 0 < d'). { pose proof (single_D _ _ _ _ _ HS). assert (0 < v * dt) by (apply Rmult_lt_0_compat; assumption). unfold d'. apply Rmin_glb_lt; lra. }
  assert (HD' : d' <= D) by (unfold d'; apply Rmin_r).
  assert (Hno : tn <= tno). { pose proof (sk_theta _ _ _ _ K1 no n eq_refl eq_refl) as X. rewrite Etn in X. exact X. }
  set (c1 := set_psi (set_theta (set_depth c (Fin d')) (Fin (Rmin te t'))) psi) in *.
  pose proof (sk_like _ _ _ _ K1) as KL.
  assert (H1 : Str e (c1 :: n :: b)). { apply (Str_alike e (c :: no :: h)); [|exact H]. constructor; [|apply (like_alike _ _ KL)]. split; [|split; reflexivity]. split; [reflexivity|]. split; [reflexivity|]. rewrite Bc. discriminate. }
  assert (M1 : measured (c1 :: n :: b)) by (constructor; [split; eexists; reflexivity|apply (sk_measured _ _ _ _ K1)]).
  destruct (sg_vg _ _ _ _ _ HS) as (al & nn & m & kk & V).
  assert (W1 : within_soils e (c1 :: n :: b)).
  { constructor; [|apply (sk_within _ _ _ _ K1)]. exists s, r, te, (Rmin te t'). cbn. rewrite Lc. repeat split; [apply (sg_soil _ _ _ _ _ HS)|apply (vg_r _ _ _ _ _ _ _ V)|apply (vg_e _ _ _ _ _ _ _ V)| |apply Rmin_l].
    apply Rmin_glb; lra. }
  assert (KK : Forall conducts (n :: b)). { clear - KL Kt. revert Kt. generalize (no :: h), (n :: b), KL. clear. intros x y R. induction R as [|f g x y [_ R] RR IH]; intro F; [constructor|]. inversion F; subst. constructor; auto. }
  assert (S1 : storage (c1 :: n :: b) = storage (c :: no :: h) + vin - a - d' * (t' - Rmin te t')).
  { unfold storage. rewrite !slabs_two, (sk_slabs _ _ _ _ K1). fold d tc tno. rewrite Etn. cbn [c1 f_depth f_theta set_psi set_theta set_depth val].
    assert (X : d' * (t' - tn) = d * (tc - tno) + (vin - a)) by (unfold t'; field; lra). lra. }
  apply bind_Ok in E as ([[l2 a2] q2] & E2 & E).
  apply (closure_single e s r te D (storage (c :: no :: h)) vin a c1 n b d' (Rmin te t') tn l2 a2 q2 HS Bc H1 M1 eq_refl Hd' eq_refl Etn) in E2.
  2:{ destruct (Rle_dec te t') as [X|X].
      - rewrite Rmin_left in S1 |- * by lra. destruct (Req_dec te t') as [Y|Y]; [left; rewrite S1, Y; lra|right]. split; [reflexivity|]. split; [lra|]. rewrite S1.
        assert (0 < d' * (t' - te)) by (apply Rmult_lt_0_compat; lra). lra.
      - rewrite Rmin_right in S1 by lra. left. rewrite S1. lra. }
  destruct E2 as (d2 & a3 & q3 & -> & -> & -> & C).
  assert (H3 := moved_str e c1 n b d2 Bc H1). assert (M3 := moved_measured c1 n b d2 M1).
  assert (T2 : vin <= a -> tc <= te - 1 / 1000000000000000 -> t' <= tc).
  { intros Hva Htop. apply Rmult_le_reg_l with d'; [lra|]. assert (X : d' * (t' - tn) = d * (tc - tno) + (vin - a)) by (unfold t'; field; lra).
    destruct (F c eq_refl) as [X0|X0]; fold d in X0; [|fold tc in X0; lra].
    assert (d <= d') by (unfold d'; assert (0 < v * dt) by (apply Rmult_lt_0_compat; assumption); apply Rmin_glb; lra).
    assert (d * (tc - tno) <= d' * (tc - tno)) by (apply Rmult_le_compat_r; lra). assert (d' * tn <= d' * tno) by (apply Rmult_le_compat_l; lra). lra. }
  assert (F3 : d2 <= D \/ T < val (f_theta (at_depth c1 d2))).
  { destruct C as [(-> & _)|(X & _)]; [left; exact HD'|right]. cbn. rewrite X. destruct HT as [HT|[Hva HT]]; [lra|]. exfalso. specialize (HT c eq_refl). fold tc in HT. specialize (T2 Hva HT). pose proof (Rmin_r te t'). lra. }
  assert (W3 : within_soils e (at_depth c1 d2 :: n :: b)) by (inversion W1; subst; constructor; assumption).
  assert (K3 : Forall conducts (at_depth c1 d2 :: n :: b)) by (constructor; [split; [apply Kc|exact Hpsi]|exact KK]).
  destruct (phases_single T e s r te D (at_depth c1 d2) n b d2 HS H3 M3 W3 (sk_drier _ _ _ _ K1) (sk_below _ _ _ _ K1) (sk_inside _ _ _ _ K1) K3 eq_refl F3) as (l4 & fl & x & E4 & G4 & C4 & B4).
  rewrite E4 in E. cbn [bind] in E.
  destruct (refresh_single T e s r te D l4 HS G4) as (l5 & E5 & G5 & S5 & B5). rewrite E5 in E. cbn [bind] in E.
  assert (DB : vin <= a -> forall c0, hd_error (c :: no :: h) = Some c0 -> val (f_theta c0) <= te - 1 / 1000000000000000 -> damp (val (f_theta c0)) l5).
  { intros Hva c0 E0 Hc0. injection E0 as <-. fold tc in Hc0 |- *. apply (proj1 B5), (proj1 B4). constructor.
    - destruct C as [(-> & _)|(X & _)]; [|specialize (T2 Hva Hc0); pose proof (Rmin_r te t'); lra]. cbn. split; [|exact Hd']. specialize (T2 Hva Hc0). pose proof (Rmin_r te t'). lra.
    - pose proof H3 as [X1 X2 X3]. apply (damp_head_in tc (n :: b)); [|apply (sk_drier _ _ _ _ K1)|apply (sk_below _ _ _ _ K1)|rewrite Etn; cbn; lra].
      apply Forall_forall. intros f Hf. apply In_nth_error in Hf as [i Hi]. exact (single_layer e s r te D _ (Datatypes.S i) f HS H3 Hi). }
  assert (RB : rooted s (c :: no :: h) -> rooted s l5).
  { intro RT. apply (proj2 B5), (proj2 B4). inversion RT; subst. constructor; [cbn; rewrite Bc; discriminate|]. apply (sk_rooted _ _ _ _ K1). assumption. }
  rewrite (alone_single e s r te D l5 HS (graded_str _ _ _ _ _ _ _ HS G5)) in E. cbn [bind] in E.
  apply Ok_inj in E. apply pair_equal_spec in E as [E Eq]. apply pair_equal_spec in E as [<- Ea].
  change (dabs (Fin x)) with (Fin (Rabs x)) in Ea. change (lit (1 / 10000000)) with (Fin (1 / 10000000)) in Ea.
  destruct C4 as [(X1 & X2 & ->)|(X1 & X2 & X3)].
  - (* no inversion *)
    assert (TT : (Fin (Rabs 0) >? Fin (1 / 10000000))%d = false) by (apply Rltb_false; rewrite Rabs_R0; lra). rewrite TT in Ea.
    exists a3, (q3 + fl). split; [symmetry; exact Ea|]. split; [symmetry; exact Eq|]. split; [exact G5|]. split; [|split; [exact DB|exact RB]]. rewrite S5, X2.
    destruct C as [(-> & -> & -> & Y)|(Y1 & Y2 & Y3)].
    + change (at_depth c1 d' :: n :: b) with (c1 :: n :: b). rewrite Y. match goal with |- Rabs ?z <= _ => replace z with 0 by lra end. rewrite Rabs_R0. lra.
    + match goal with |- Rabs ?z <= _ => replace z with (storage (at_depth c1 d2 :: n :: b) - (storage (c :: no :: h) + vin - a3 - q3)) by lra end. lra.
  - cbv zeta in X2, X3. cbn [at_depth set_depth f_theta c1 set_psi set_theta val] in X1, X2, X3. rewrite Etn in X1, X2, X3. cbn [val] in X1, X2, X3.
    destruct C as [(-> & -> & -> & Y)|(Y1 & Y2 & Y3)]; [|lra].
    change (at_depth c1 d' :: n :: b) with (c1 :: n :: b) in X2. rewrite Y in X2.
    set (y := d' * (tn - Rmin te t')) in *. assert (Hy : 0 <= y) by (apply Rmult_le_pos; lra). rewrite (Rabs_right y) in X3 by lra. subst x. rewrite (Rabs_right y) in Ea by lra.
    destruct (Fin y >? Fin (1 / 10000000))%d eqn:TT.
    + exists (a - y), (0 + fl). split; [symmetry; exact Ea|]. split; [symmetry; exact Eq|]. split; [exact G5|]. split; [|split; [exact DB|exact RB]]. rewrite S5, X2. match goal with |- Rabs ?z <= _ => replace z with 0 by lra end. rewrite Rabs_R0. lra.
    + apply Rltb_false in TT. exists a, (0 + fl). split; [symmetry; exact Ea|]. split; [symmetry; exact Eq|]. split; [exact G5|]. split; [|split; [exact DB|exact RB]]. rewrite S5, X2.
      match goal with |- Rabs ?z <= _ => replace z with y by lra end. rewrite Rabs_right by lra. exact TT.
Qed.

Theorem motion_single : forall e s r te D dt vin a head l' a' q, single e s r te D -> settled e te D head -> (2 <= length head)%nat -> 0 < dt ->
  lgar_move_wetting_fronts e (Fin dt) (Fin vin) 1 (Fin (storage head)) (Fin a) head head = Ok (l', a', q) ->
  exists a2 q2, a' = Fin a2 /\ q = Fin q2 /\ graded e (te - 1 / 1000000000000000) D l' /\ Rabs (storage l' - (storage head + vin - a2 - q2)) <= 1 / 10000000.
Proof.
  intros e s r te D dt vin a head l' a' q HS G H2 Hdt E.
  destruct (motion_at (te - 1 / 1000000000000000) e s r te D dt vin a head l' a' q HS G H2 Hdt ltac:(left; lra) E) as (a2 & q2 & X1 & X2 & X3 & X4 & _). eauto 8.
Qed.
End Move.
