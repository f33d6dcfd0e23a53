(** The head iteration. *)

From Coq Require Import Reals Lra ZArith List Bool Lia.
From Verif Require Import Outcome Dbl Exact Types ListOps Soil Fronts Infil Lib Spec_Common Spec_Soil Spec_Balance Pf_Dbl Pf_Pow Pf_Soil Pf_Column Pf_Layers.
Import ListNotations.
Open Scope R_scope.

Section Exactly.
Local Existing Instance exact.
Context {cfg : Cfg}.

Variables (e : env) (lay : Z) (s : soil) (dth dz : list (option dbl)) (ps : list part) (p : part).
Hypothesis HP : layer_parts e dth dz lay ps p.
Hypothesis HS : soil_of e lay = Ok s.

Lemma own_soil : exists ks, vg_soil s (pt_r p) (pt_e p) (pt_a p) (pt_n p) (pt_m p) ks.
Proof. destruct HP as (_ & _ & (s' & ks & E & V & _)). rewrite HS in E. apply Ok_inj in E. subst s'. eauto. Qed.

Lemma theta_own : forall psi, 0 <= psi -> theta_of_h s (Fin psi) = Fin (pt_theta p psi).
Proof. intros psi H. destruct own_soil as [ks V]. apply (theta_of_h_is s _ _ _ _ _ ks psi V H). Qed.

Lemma mass_held : forall psi, 0 <= psi -> tmb_mass e lay (theta_of_h s (Fin psi)) (Fin psi) dth dz = Ok (Fin (held (p :: ps) psi)).
Proof.
  intros psi H. rewrite theta_own by assumption. destruct HP as (L & N & (s' & ks & _ & _ & Ez & Et)). unfold tmb_mass. rewrite Ez. cbn [bind]. rewrite Et. cbn [bind].
  change (Fin 0 + Fin (pt_z p) * (Fin (pt_theta p psi) - Fin (pt_t p)))%d with (Fin (0 + pt_z p * (pt_theta p psi - pt_t p))).
  replace (Z.to_nat (lay - 1)) with (length ps) by lia.
  rewrite (zfor_sum _ _ _ (fun j => let q := nth j ps p in pt_z q * (pt_theta q psi - pt_t q))).
  - do 2 f_equal. cbn [held map Rsum]. unfold held. cbn [map Rsum]. rewrite Rplus_0_l. f_equal.
    clear - ps. induction ps as [|q r IH]; [reflexivity|]. cbn [length seq map Rsum nth]. rewrite <- seq_shift, map_map. f_equal. exact IH.
  - intros j x Hj. destruct (nth_error ps j) as [q|] eqn:Eq; [|apply nth_error_None in Eq; lia]. rewrite (nth_error_nth ps j p Eq).
    destruct (N _ _ Eq) as (sj & kj & Ej & Vj & Ezj & Etj). replace (1 + Z.of_nat j)%Z with (Z.of_nat (S j)) by lia. rewrite Ej. cbn [bind]. rewrite Ezj. cbn [bind]. rewrite Etj. cbn [bind].
    rewrite (theta_of_h_is sj _ _ _ _ _ kj psi Vj H). reflexivity.
Qed.

Variables (psi0 new prior aet : R).
Hypothesis H0 : 0 <= psi0.

Definition attempted : Prop := exists psi1, 0 <= psi1 < Rmax 10 (psi0 / 10) /\ (held (p :: ps) psi1 <= prior \/ psi1 = psi0 /\ new <= prior).
Definition full : Prop := held (p :: ps) 0 <= prior \/ psi0 = 0 /\ new <= prior.

(** Before a pass. *)
Record before (x : tmb) : Prop := {
  bf_factor : exists f, t_factor x = Fin f /\ 0 < f <= (if t_aug x then 100 else 1) * Rmax 1 (psi0 / 100);
  bf_psi : exists psi, t_psi x = Fin psi /\
    (0 <= psi /\ (exists m, t_new x = Fin m /\ (m = held (p :: ps) psi \/ psi = psi0 /\ m = new)) \/ psi < 0 /\ t_sat x = true /\ full);
  bf_sat : t_sat x = true -> attempted
}.
(** After a pass. *)
Record after (x : tmb) : Prop := {
  af_before : before x;
  af_psi : exists psi, t_psi x = Fin psi /\
    (0 <= psi /\ t_theta x = Fin (pt_theta p psi) /\ t_delta x = Fin (Rabs (held (p :: ps) psi - prior)) \/ psi < 0 /\ t_sat x = true /\ full /\ t_theta x = theta_of_h s (Fin psi))
}.

Lemma ten_pos : 0 < Rmax 10 (psi0 / 10).
Proof. pose proof (Rmax_l 10 (psi0 / 10)). lra. Qed.
Lemma ten_times : 10 * Rmax 1 (psi0 / 100) = Rmax 10 (psi0 / 10).
Proof. unfold Rmax. destruct (Rle_dec 1 (psi0 / 100)), (Rle_dec 10 (psi0 / 10)); lra. Qed.

Lemma full_attempted : full -> attempted.
Proof.
  pose proof ten_pos. intros [H'|[H1 H2]]; exists 0; [split; [lra|auto]|]. split; [lra|]. right. split; [congruence|assumption].
Qed.

Lemma step_after : forall x y b, before x -> tmb_step e lay s (Fin prior) dth dz x = Ok (y, b) -> after y.
Proof.
  intros x y b [(f & Ef & Hf) (psi & Ep & HX) HSat] H. unfold tmb_step in H. cbv zeta in H.
  set (aug := ((t_iter x + 1 >? 1000)%Z && negb (t_aug x))%bool) in H.
  set (F0 := Rmax 1 (psi0 / 100)) in *. assert (HF0 : 0 < F0) by (unfold F0; pose proof (Rmax_l 1 (psi0 / 100)); lra).
  assert (F1 : exists f1, (if aug then t_factor x * lit 100 else t_factor x)%d = Fin f1 /\ 0 < f1 <= (if (aug || t_aug x)%bool then 100 else 1) * F0).
  { rewrite Ef. unfold aug. destruct (_ >? 1000)%Z, (t_aug x); cbn [negb andb orb]; try (exists f; split; [reflexivity|lra]). exists (f * 100). split; [reflexivity|lra]. }
  assert (HB : (if (aug || t_aug x)%bool then 100 else 1) * F0 <= 10 * Rmax 10 (psi0 / 10)) by (rewrite <- ten_times; fold F0; destruct (aug || t_aug x)%bool; lra).
  destruct F1 as (f1 & EF1 & Hf1). rewrite EF1 in H.
  (* the new head *)
  match type of H with (match ?t with _ => _ end) = _ => set (T := t) in H end.
  assert (HT : exists psi' prev f' sw st, T = (Fin psi', prev, Fin f', sw, st) /\ 0 < f' <= (if (aug || t_aug x)%bool then 100 else 1) * F0 /\ (st = true -> attempted) /\ (0 <= psi' \/ psi' < 0 /\ st = true /\ full)).
  { unfold T. rewrite Ep. change (lit (1 / 10)) with (Fin (1 / 10)). destruct (t_new x >? Fin prior)%d eqn:G.
    - change (Fin psi + Fin (1 / 10) * Fin f1)%d with (Fin (psi + 1 / 10 * f1)). do 5 eexists. split; [reflexivity|]. split; [assumption|]. split; [exact HSat|].
      destruct HX as [[P _]|(P & S1 & FU)]; [left; lra|]. destruct (Rle_dec 0 (psi + 1 / 10 * f1)); [left; assumption|right; split; [lra|auto]].
    - assert (F2 : exists f2, (if t_switched x then Fin f1 else Fin f1 * Fin (1 / 10))%d = Fin f2 /\ 0 < f2 <= (if (aug || t_aug x)%bool then 100 else 1) * F0).
      { destruct (t_switched x); [eauto|]. exists (f1 * (1 / 10)). split; [reflexivity|lra]. }
      destruct F2 as (f2 & EF2 & Hf2). rewrite EF2. change (Fin psi - Fin (1 / 10) * Fin f2)%d with (Fin (psi - 1 / 10 * f2)).
      destruct HX as [[P (m & Em & Hm)]|(P & S1 & FU)].
      + assert (HA : 0 <= psi /\ (held (p :: ps) psi <= prior \/ psi = psi0 /\ new <= prior)).
        { split; [assumption|]. rewrite Em in G. unfold dgtb in G. cbn in G. apply Rltb_false in G. destruct Hm as [->|[-> ->]]; auto. }
        destruct (Rlt_dec (psi - 1 / 10 * f2) 0) as [N|N].
        * rewrite ltb_t by assumption. cbn [andb orb]. destruct (Req_EM_T psi 0) as [Z0|Z0].
          -- replace (Fin psi <>? Fin 0)%d with false by (symmetry; unfold dneb; rewrite eqb_t by assumption; reflexivity).
             do 5 eexists. split; [reflexivity|]. split; [assumption|]. split; [intros _; exists psi; split; [lra|apply HA]|]. right. split; [assumption|]. split; [reflexivity|].
             subst psi. destruct HA as [_ [HA|[HA1 HA2]]]; [left; assumption|right; auto].
          -- replace (Fin psi <>? Fin 0)%d with true by (symmetry; unfold dneb; rewrite eqb_f by assumption; reflexivity).
             change (Fin psi * Fin (1 / 10))%d with (Fin (psi * (1 / 10))). do 5 eexists. split; [reflexivity|]. split; [assumption|]. split; [intros _; exists psi; split; [lra|apply HA]|]. left. lra.
        * rewrite ltb_f by lra. cbn [andb orb]. do 5 eexists. split; [reflexivity|]. split; [assumption|]. split; [exact HSat|]. left. lra.
      + rewrite ltb_t by lra. cbn [andb orb]. replace (Fin psi <>? Fin 0)%d with true by (symmetry; unfold dneb; rewrite eqb_f by lra; reflexivity).
        change (Fin psi * Fin (1 / 10))%d with (Fin (psi * (1 / 10))). do 5 eexists. split; [reflexivity|]. split; [assumption|]. split; [intros _; apply full_attempted; assumption|]. right. split; [lra|auto]. }
  destruct HT as (psi' & prev & f' & sw & st & ET & Hf' & HA & HQ). rewrite ET in H. clearbody T. subst T. cbv beta iota zeta in H.
  bind_inv H mass EM.
  assert (RES : forall c dp, let z := mkT (Fin psi') prev (Fin f') sw (theta_of_h s (Fin psi')) mass (dabs (mass - Fin prior)) dp c st (t_iter x + 1) (aug || t_aug x) in after z).
  { intros c dp z. destruct HQ as [P|(P & S1 & FU)].
    - rewrite (mass_held psi' P) in EM. apply Ok_inj in EM. subst mass. split; [split|].
      + exists f'. auto.
      + exists psi'. split; [reflexivity|]. left. split; [assumption|]. eexists. split; [reflexivity|auto].
      + exact HA.
      + exists psi'. split; [reflexivity|]. left. split; [assumption|]. split; [apply theta_own; assumption|reflexivity].
    - split; [split|].
      + exists f'. auto.
      + exists psi'. split; [reflexivity|]. right. auto.
      + exact HA.
      + exists psi'. split; [reflexivity|]. right. auto. }
  repeat match type of H with (if ?c then _ else _) = _ => destruct c end; apply Ok_inj in H; apply pair_equal_spec in H as [<- _]; apply RES.
Qed.

Lemma loop_after : forall k x y, before x -> dgtb (t_delta x) tmb_tol = true -> tmb_loop k e lay s (Fin prior) dth dz x = Ok y -> after y.
Proof.
  assert (G : forall k x y, after x -> tmb_loop k e lay s (Fin prior) dth dz x = Ok y -> after y).
  { induction k as [|k IH]; intros x y A H; [discriminate|]. cbn [tmb_loop] in H. destruct (t_delta x >? tmb_tol)%d; [|apply Ok_inj in H; subst; assumption].
    bind_inv H yb Ey. destruct yb as [z b]. pose proof (step_after _ _ _ (af_before _ A) Ey) as A'. destruct b; [apply Ok_inj in H; subst; assumption|]. eapply IH; eassumption. }
  intros [|k] x y B D H; [discriminate|]. cbn [tmb_loop] in H. rewrite D in H. bind_inv H yb Ey. destruct yb as [z b].
  pose proof (step_after _ _ _ B Ey) as A'. destruct b; [apply Ok_inj in H; subst; assumption|]. eapply G; eassumption.
Qed.

Theorem balance_spec_sec : forall t a, lgar_theta_mass_balance e lay s (Fin psi0) (Fin new) (Fin prior) (Fin aet) dth dz = Ok (t, a) ->
  balanced ps p psi0 new prior aet t a.
Proof.
  intros t a H. unfold lgar_theta_mass_balance in H. cbv zeta in H. change (dabs (Fin new - Fin prior))%d with (Fin (Rabs (new - prior))) in H.
  change tmb_tol with (Fin tol) in H. destruct (Rle_dec (Rabs (new - prior)) tol) as [L|L].
  - rewrite leb_t in H by assumption. apply Ok_inj in H. apply pair_equal_spec in H as [<- <-]. rewrite theta_own by assumption. apply bal_at_once. assumption.
  - rewrite leb_f in H by lra. bind_inv H x EX. apply Ok_inj in H. apply pair_equal_spec in H as [<- <-].
    apply loop_after in EX.
    2:{ split.
        - change (lit 1) with (Fin 1). change (lit 100) with (Fin 100). rewrite div_fin by lra. cbn [t_factor]. cbn [dfmax dltb]. unfold Rltb. destruct (Rlt_dec _ _); eexists; (split; [reflexivity|]); cbn [t_aug]; [pose proof (Rmax_r 1 (psi0 / 100))|pose proof (Rmax_l 1 (psi0 / 100))]; lra.
        - exists psi0. split; [reflexivity|]. left. split; [assumption|]. exists new. split; [reflexivity|auto].
        - discriminate. }
    2:{ cbn [t_delta]. change tmb_tol with (Fin tol). apply ltb_t. lra. }
    destruct EX as [[_ _ HSat] (psi & Ep & [(P & Et & Ed)|(P & S1 & FU & Et)])].
    + rewrite Et, Ed, Ep. destruct own_soil as [ks V].
      assert (NS : ((Fin (pt_theta p psi) >=? s_theta_e s) && (Fin psi <>? Fin 0))%bool%d = false).
      { rewrite (vg_e _ _ _ _ _ _ _ V). destruct (Req_EM_T psi 0) as [->|N]; [unfold dneb; rewrite eqb_t by reflexivity; apply andb_false_r|].
        unfold dgeb. rewrite leb_f; [reflexivity|]. destruct V. unfold pt_theta, vg_theta. pose proof (Se_h_decreasing (pt_a p) (pt_n p) (pt_m p) 0 psi ltac:(assumption) ltac:(lra) ltac:(lra) ltac:(lra) ltac:(lra)).
        pose proof (Se_h_range (pt_a p) (pt_n p) (pt_m p) 0 ltac:(assumption) ltac:(lra) ltac:(lra) ltac:(lra)). nra. }
      rewrite NS. set (err := Rabs (held (p :: ps) psi - prior)) in *. unfold dgtb. destruct (Rle_dec err tol) as [M|M].
      * rewrite ltb_f by assumption. cbn [andb]. apply bal_matched; assumption.
      * rewrite ltb_t by lra. cbn [andb]. destruct (t_sat x) eqn:ES; cbn [negb].
        -- destruct (HSat eq_refl) as (psi1 & A1 & A2). eapply bal_attempted; try eassumption. unfold err in M. lra.
        -- replace (Fin aet - dabs (Fin err - Fin tol))%d with (Fin (aet - (err - tol))) by (cbn; do 2 f_equal; rewrite Rabs_right; lra).
           apply bal_booked; [assumption|]. unfold err in M. lra.
    + rewrite S1. cbn [negb]. rewrite andb_false_r. apply bal_saturated; [|assumption|].
      { rewrite Et. destruct own_soil as [ks V]. exact (theta_of_any _ _ _ _ _ _ _ psi V). }
       destruct (_ && _)%bool; auto.
Qed.
End Exactly.

Theorem balance_spec : forall (cfg : Cfg) e lay s dth dz ps p psi0 new prior aet t a, layer_parts e dth dz lay ps p -> soil_of e lay = Ok s -> 0 <= psi0 ->
  @lgar_theta_mass_balance exact cfg e lay s (Fin psi0) (Fin new) (Fin prior) (Fin aet) dth dz = Ok (t, a) -> balanced ps p psi0 new prior aet t a.
Proof. intros. eapply balance_spec_sec; eassumption. Qed.

(** Unless it ends in saturation the water content is one of the soil. *)
Theorem balance_range : forall ps p psi0 new prior aet t a, pt_r p < pt_e p -> 0 < pt_a p -> 1 < pt_n p -> 0 < pt_m p < 1 -> 0 <= psi0 -> balanced ps p psi0 new prior aet t a ->
  (held (p :: ps) 0 <= prior \/ psi0 = 0 /\ new <= prior) \/ exists x, t = Fin x /\ pt_r p < x <= pt_e p.
Proof.
  intros ps p psi0 new prior aet t a H1 H2 H3 H4 H5 H. assert (R : forall psi, 0 <= psi -> pt_r p < pt_theta p psi <= pt_e p) by (intros; apply theta_range; assumption).
  destruct H; [right|right|right|right|left; assumption]; eexists; (split; [reflexivity|apply R; assumption]).
Qed.
