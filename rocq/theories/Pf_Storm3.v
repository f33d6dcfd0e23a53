(** Sub-steps of columns whose wetting fronts lie in the first layer (exact arithmetic). *)

From Coq Require Import Reals Lra ZArith List Bool Lia.
From Verif Require Import Outcome Dbl Exact Types ListOps Soil Fronts Infil Move State Update Lib Spec_Common Spec_Soil Spec_List Spec_Update Spec_Profile Spec_Storage Spec_Velocity Spec_Advance Spec_Balance Spec_Shares
  Spec_Physical Spec_Meet Spec_Motion Spec_Upright Spec_Layered Spec_Rest Spec_Storm Pf_Dbl Pf_Pow Pf_Soil Pf_List Pf_Update Pf_Profile Pf_Structure Pf_Storage Pf_Merge Pf_Cross Pf_Repair Pf_SafeMove Pf_SafeUpdate Pf_Surface Pf_Single Pf_SingleMerge
  Pf_SubSingle Pf_Advance Pf_Physical Pf_Physical2 Pf_Velocity Pf_Fuel Pf_Level Pf_Level2 Pf_Shares Pf_Books Pf_Motion Pf_Motion2 Pf_Motion3 Pf_Drier Pf_Drier2 Pf_Layered Pf_Rest Pf_Rest2 Pf_Storm Pf_Storm2.
Import ListNotations.
Open Scope R_scope.

Section Step.
Local Existing Instance exact.
Context {cfg : Cfg}.
Variables (e : env) (M : R) (qs : list part).
Hypothesis HL : layers M qs e.
Let HE := la_env _ _ _ HL.
Let HV := la_soils _ _ _ HL.
Let HM := la_most _ _ _ HL.
Let HF := la_frozen _ _ _ HL.
Let HC := la_conducting _ _ _ HL.
Let HQ := la_strata _ _ _ HL.

(** ** No wetting front *)
Lemma hydrostatic_of : forall l f r, orderly M e l -> shallow e l -> l = f :: r -> f_bottom f = true -> exists h, hydrostatic qs h l.
Proof.
  intros l f r O SH El Bf. assert (HS := orderly_str e M qs HL l O). assert (Ef : nth_error l 0 = Some f) by (rewrite El; reflexivity). assert (Lf := first_layer e M qs HL l f r HS El).
  assert (G : forall i c, nth_error l i = Some c -> f_bottom c = true /\ f_layer c = Z.of_nat (S i)).
  { induction i as [|i IH]; intros c Ec; [rewrite Ef in Ec; injection Ec as <-; split; [exact Bf|rewrite Lf; lia]|].
    destruct (nth_error l i) as [b|] eqn:Eb; [|apply nth_error_None in Eb; assert (S i < length l)%nat by (apply nth_error_Some; congruence); lia].
    destruct (IH b eq_refl) as [Bb Lb]. destruct (Str_bottom _ _ _ _ HS Eb Bb) as [_ X]. rewrite Ec in X. split; [|lia]. unfold shallow in SH. rewrite Forall_forall in SH.
    specialize (SH c (nth_error_In _ _ Ec)). destruct (f_bottom c); [reflexivity|]. destruct SH as [SH _]. lia. }
  assert (PS : exists h, f_psi f = Fin h). { pose proof (od_seated _ _ _ O) as S. rewrite Forall_forall in S. exact (proj1 (S f (nth_error_In _ _ Ef))). }
  destruct PS as [h Eh]. exists h.
  assert (PH : forall i c, nth_error l i = Some c -> f_psi c = Fin h).
  { induction i as [|i IH]; intros c Ec; [rewrite Ef in Ec; injection Ec as <-; exact Eh|].
    destruct (nth_error l i) as [b|] eqn:Eb; [|apply nth_error_None in Eb; assert (S i < length l)%nat by (apply nth_error_Some; congruence); lia].
    destruct (env_soil e _ HE (Str_range _ _ _ _ HS Eb)) as (s & Es). destruct (od_meet _ _ _ O i b c s Eb Ec (proj1 (G i b Eb)) Es) as [X _]. rewrite <- X. apply IH. reflexivity. }
  pose proof (orderly_curve e M qs HL l O) as OC. unfold shallow in SH. rewrite Forall_forall in OC, SH.
  assert (CU : forall i c, nth_error l i = Some c -> 0 <= h /\ exists q, nth_error qs i = Some q /\ f_theta c = Fin (pt_theta q h)).
  { intros i c Ec. destruct (G i c Ec) as [Bc Lc]. destruct (OC c (nth_error_In _ _ Ec)) as [(_ & X & _)|(q & h' & Eq & Ep & Hh & Et)]; [congruence|]. rewrite (PH i c Ec) in Ep. injection Ep as <-.
    split; [exact Hh|]. exists q. split; [|exact Et]. rewrite <- Eq. f_equal. lia. }
  apply hs_iff. split; [exact (proj1 (CU 0%nat f Ef))|]. split.
  - destruct (length l) as [|w] eqn:LEN; [rewrite El in LEN; discriminate|]. destruct (nth_error l w) as [b|] eqn:Eb; [|apply nth_error_None in Eb; lia].
    destruct (G w b Eb) as [Bb Lb]. destruct (Str_bottom _ _ _ _ HS Eb Bb) as [_ X]. assert (NO : nth_error l (S w) = None) by (apply nth_error_None; lia). rewrite NO in X.
    pose proof (strata_n e qs HQ). lia.
  - intros i c Ec. destruct (G i c Ec) as [Bc Lc]. destruct (CU i c Ec) as (_ & q & Eq & Et). exists q. split; [exact Eq|]. split; [exact Lc|]. split; [exact Bc|].
    specialize (SH c (nth_error_In _ _ Ec)). rewrite Bc in SH. split; [exact SH|]. split; [|split; [exact (PH i c Ec)|exact Et]].
    destruct (Str_bottom _ _ _ _ HS Ec Bc) as [X _]. pose proof (Str_range _ _ _ _ HS Ec) as RG. rewrite (top_end qs i q Eq). rewrite Lc in X, RG. replace (Z.of_nat (S i)) with (Z.of_nat (S (S i)) - 1)%Z in X by lia.
    rewrite (strata_cum e qs HQ) in X by lia. apply Ok_inj in X. congruence.
Qed.

(** ** The pass *)
Theorem pass_any : forall dt v D l f r l1 a1, orderly M e l -> shallow e l -> l = f :: r -> 0 <= dt -> covered l v D ->
  move_loop (length l) e (Fin dt) (Fin v) (wetting_front_free_drainage l) l (listLength l) l (Fin D) = Ok (l1, a1) ->
  exists av, a1 = Fin av /\ av <= D /\ ~ inverted l1 /\ (v <= D -> forall f1, nth_error l1 0 = Some f1 -> val (f_theta f1) <= val (f_theta f)) /\
    (f_bottom f = false -> av = D) /\ (f_bottom f = true -> Rabs (storage l1 - (storage l + v - av)) <= tol + 2 * (D - av)).
Proof.
  intros dt v D l f r l1 a1 O SH El Hdt CV Q. destruct (f_bottom f) eqn:Bf.
  - destruct (hydrostatic_of l f r O SH El Bf) as (h & H). assert (HS := orderly_str e M qs HL l O). rewrite (hs_wfd e qs HQ h l H) in Q.
    assert (Hv : v <= D) by (rewrite El in CV; cbn [covered] in CV; rewrite Bf in CV; exact CV).
    destruct (pass_rest e qs HQ (Fin dt) v h l D ltac:(eexists; reflexivity) H HS Hv) as [P _]. rewrite Q in P. destruct P as (h' & av & Hh & -> & S1 & H1 & DR & _ & _).
    exists av. split; [reflexivity|]. pose proof (hs_storage qs h l H) as W. pose proof (hs_storage qs h' l1 H1) as W1. rewrite <- W, <- W1 in DR.
    assert (T : 0 < tol) by (unfold tol; lra).
    split. { destruct DR as [[_ ->]|[X ->]]; lra. }
    split; [exact (hs_upright qs h' l1 H1)|]. split; [|split; [discriminate|intros _]].
    + intros _ f1 E1. assert (HH := H). assert (HH1 := H1). apply hs_iff in HH as (H0 & _ & HF0). apply hs_iff in HH1 as (_ & _ & HF1). subst l.
      destruct (HF0 0%nat f eq_refl) as (q & Eq & _ & _ & _ & _ & _ & T0). destruct (HF1 0%nat f1 E1) as (q1 & Eq1 & _ & _ & _ & _ & _ & T1). rewrite Eq in Eq1. injection Eq1 as <-.
      rewrite T0, T1. cbn [val]. exact (curve_mono e qs HQ 1 q h h' ltac:(lia) Eq H0 Hh).
    + destruct DR as [[X ->]|[X ->]]; [replace (storage l + (v - D)) with (storage l + v - D) in X by ring; lra|].
      assert (X2 := Rabs_triang (storage l1 - (storage l + (v - D))) (- (Rabs (storage l1 - (storage l + (v - D))) - tol))).
      replace (storage l1 - (storage l + (v - D)) + - (Rabs (storage l1 - (storage l + (v - D))) - tol)) with (storage l1 - (storage l + v - (D - (Rabs (storage l1 - (storage l + (v - D))) - tol)))) in X2 by ring.
      rewrite Rabs_Ropp, (Rabs_pos_eq (_ - tol)) in X2 by lra. lra.
  - destruct (pass_storm e M qs HL dt v D l f r l1 a1 O SH El Bf Hdt CV Q) as (-> & NI & TH). exists D. split; [reflexivity|]. split; [lra|]. split; [exact NI|]. split; [exact TH|]. split; [reflexivity|discriminate].
Qed.

(** ** The depth of a new front *)
Lemma geff_is : forall closed nint k s r te t1 t2 ks g, capillary closed nint e -> (1 <= k <= e_nlayers e)%Z -> soil_of e k = Ok s -> s_theta_r s = Fin r -> s_theta_e s = Fin te -> 0 < ks -> r <= t1 -> t1 <= t2 -> t2 <= te ->
  calc_Geff closed (Fin t1) (Fin t2) s (Fin ks) nint = Ok g -> exists x, g = Fin x /\ 0 <= x.
Proof.
  intros closed nint k s r te t1 t2 ks g HG Hk Es Er Ee Hks H1 H2 H3 H.
  destruct (geff_at closed nint e k s t1 t2 ks HG HV Hk Es Hks r te Er Ee H1 H2 H3) as [N HN].
  pose (big := {| fuel := (@fuel cfg + N)%nat; ngen := ngen |}). destruct (HN big) as (x & Ex & Hx); [cbn; lia|]. exists x. split; [|assumption].
  cut (@calc_Geff exact big closed (Fin t1) (Fin t2) s (Fin ks) nint = Ok g); [congruence|]. clear - H. unfold calc_Geff in *. destruct closed; cbn [negb] in *; [exact H|]. cbv zeta in *.
  apply bind_Ok in H as (G & E & H). change (@fuel big) with (@fuel cfg + N)%nat. rewrite (geff_more _ _ _ _ _ _ _ _ _ N E). exact H.
Qed.

Lemma dry_positive : forall closed nint dt c b r te s t dry d, capillary closed nint e -> 0 < dt -> f_layer c = 1%Z -> soil_of e 1 = Ok s -> s_theta_r s = Fin r -> s_theta_e s = Fin te -> f_theta c = Fin t -> r <= t -> t < te ->
  lgar_calc_dry_depth e closed nint (Fin dt) (c :: b) = Ok (dry, d) -> exists x, dry = Fin x /\ 0 < x.
Proof.
  intros closed nint dt c b r te s t dry d HG Hdt Lc Es Er Ee Et Hr He E. pose proof (se_n _ HE) as N.
  unfold lgar_calc_dry_depth in E. cbn [lget nth_error bind] in E. rewrite Lc, Es in E. cbn [bind] in E. destruct (HC 1%Z ltac:(lia)) as (x & Ex & Hx). rewrite Ex in E. cbn [bind] in E.
  destruct (HV 1%Z s ltac:(lia) Es) as (r' & te' & a & nn & m & k & V). rewrite (vg_k _ _ _ _ _ _ _ V), Ee, Et in E. change (Fin k * Fin x)%d with (Fin (k * x)) in E.
  assert (Hkx : 0 < k * x) by (destruct V; apply Rmult_lt_0_compat; assumption). cbv zeta in E. bind_inv E g Eg.
  destruct (geff_is closed nint 1 s r te t te (k * x) g HG ltac:(lia) Es Er Ee Hkx Hr (Rlt_le _ _ He) (Rle_refl te) Eg) as (gv & -> & Hg).
  destruct (env_cum e 1 HE ltac:(lia)) as (z & Ez & _). rewrite Ez in E. cbn [bind] in E. apply Ok_inj, pair_equal_spec in E as [E _].
  change (Fin te - Fin t)%d with (Fin (te - t)) in E. change (Fin dt * Fin (k * x))%d with (Fin (dt * (k * x))) in E.
  rewrite div_fin in E by lra. set (tau := dt * (k * x) / (te - t)) in *.
  assert (Ht : 0 < tau) by (apply Rdiv_lt_0_compat; [apply Rmult_lt_0_compat; assumption|lra]).
  change (lit 4) with (Fin 4) in E. change (lit (1 / 2)) with (Fin (1 / 2)) in E. cbn [dmul dadd rnd exact] in E.
  assert (Hq : 0 <= tau * tau + 4 * tau * gv). { pose proof (Rmult_le_pos tau gv ltac:(lra) Hg). pose proof (Rmult_lt_0_compat tau tau Ht Ht). lra. }
  replace (dsqrt (Fin (tau * tau + 4 * tau * gv))) with (Fin (sqrt (tau * tau + 4 * tau * gv))) in E.
  2: { unfold dsqrt. destruct (Rlt_dec (tau * tau + 4 * tau * gv) 0); [lra|reflexivity]. }
  cbn [dmul dadd rnd exact] in E. rewrite fmin_fin in E. eexists. split; [symmetry; exact E|]. pose proof (sqrt_pos (tau * tau + 4 * tau * gv)).
  assert (0 < z). { pose proof (top_zero e M qs HL) as Z0. apply (se_incr _ HE 0 0 z); [lia|exact Z0|exact Ez]. }
  apply Rmin_glb_lt; lra.
Qed.
End Step.
