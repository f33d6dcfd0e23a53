(** The water content of the first front in a motion (exact arithmetic). *)

From Coq Require Import Reals Lra ZArith List Bool Lia.
From Verif Require Import Outcome Dbl Exact Types ListOps Soil Fronts Infil Move State Update Lib Spec_Common Spec_Soil Spec_List Spec_Update Spec_Profile Spec_Storage Spec_Velocity Spec_Advance Spec_Balance Spec_Shares
  Spec_Physical Spec_Meet Spec_Motion Spec_Upright Spec_Layered Spec_Rest Spec_Storm Pf_Dbl Pf_Pow Pf_Soil Pf_List Pf_Update Pf_Profile Pf_Structure Pf_Storage Pf_Merge Pf_Cross Pf_Repair Pf_SafeMove Pf_SafeUpdate Pf_Surface Pf_Single Pf_SingleMerge
  Pf_SubSingle Pf_Advance Pf_Physical Pf_Physical2 Pf_Velocity Pf_Fuel Pf_Level Pf_Level2 Pf_Shares Pf_Books Pf_Motion Pf_Motion2 Pf_Motion3 Pf_Drier Pf_Drier2 Pf_Layered Pf_Rest Pf_Rest2 Pf_Storm.
Import ListNotations.
Open Scope R_scope.

Section Surface.
Local Existing Instance exact.
Context {cfg : Cfg}.
Variables (e : env) (M : R).
Hypothesis HV : vg_column e.
Hypothesis HM : conducts_at_most M e.
Hypothesis HF : frozen_in_range e.
Hypothesis HE : sound_env e.
Notation phys := (phys e M).
Notation upright_profile := (upright_profile e M).

Lemma surface_nth : forall l, surface_theta l = option_map f_theta (nth_error l 0).
Proof. intros [|c r]; reflexivity. Qed.

Lemma surface_water : forall l l', Forall2 alike_water l l' -> surface_theta l' = surface_theta l.
Proof. intros l l' F. destruct F as [|c c' r r' [_ A] F]; [reflexivity|]. cbn. f_equal. exact A. Qed.

Lemma cross_step_surface : forall p l l', cross_step e p l = Ok l' -> surface_theta l' = surface_theta l /\ length l' = length l.
Proof.
  intros p l l' E. unfold cross_step in E. bind_inv E c Ec0. bind_inv E s Es. bind_inv E ff Ef. cbv zeta in E. bind_inv E n En0. bind_inv E ck Eck.
  destruct (_ && _ && _)%bool eqn:C; [|apply Ok_inj in E; subst; auto]. bind_inv E s2 Es2. bind_inv E nn Enn0. bind_inv E ck1 Eck1. apply Ok_inj in E. apply lget_Ok in Ec0. subst l'.
  split; [|rewrite !lset_length; reflexivity]. rewrite !surface_nth. rewrite nth_error_lset_neq by lia. destruct p as [|p].
  - rewrite nth_error_lset_eq by (eapply length_S; exact Ec0). rewrite Ec0. reflexivity.
  - rewrite nth_error_lset_neq by lia. reflexivity.
Qed.
Lemma cross_surface : forall l l', lgar_wetting_fronts_cross_layer_boundary e l = Ok l' -> surface_theta l' = surface_theta l.
Proof.
  intros l l'. unfold lgar_wetting_fronts_cross_layer_boundary. generalize (S (length l)) as k, 0%nat as p. intro k. revert l.
  induction k as [|k IH]; intros l p E; cbn [cross_loop] in E; [discriminate|]. destruct (_ =? _)%Z; [apply Ok_inj in E; subst; reflexivity|]. bind_inv E l1 Q.
  rewrite (IH _ _ E). exact (proj1 (cross_step_surface _ _ _ Q)).
Qed.

Lemma merge_step_surface : forall p l l', Str e l -> merge_step e p l = Ok l' -> surface_theta l' = surface_theta l.
Proof.
  intros p l l' HS E. unfold merge_step in E. bind_inv E c Ec0. bind_inv E n En0.
  pose proof (proj1 (lget_Ok _ _ _) Ec0) as Ec. pose proof (proj1 (lget_Ok _ _ _) En0) as En.
  destruct (_ && _ && negb (f_bottom n))%bool eqn:C; [|apply Ok_inj in E; subst l'; reflexivity].
  apply andb_prop in C as [C C3]. apply andb_prop in C as [C1 C2]. apply Z.eqb_eq in C2. apply negb_true_iff in C3.
  bind_inv E nn Enn0. cbv zeta in E. bind_inv E u Eu. bind_inv E s Es. bind_inv E ff Ef. bind_inv E y Ey. destruct y as [l1 o]. apply Ok_inj in E. subst l1.
  assert (Hc : f_bottom c = false) by (eapply (Str_above e l p c n); assumption).
  match type of Ey with context [lset l p ?x] => set (c' := x) in * end.
  assert (HS1 : Str e (lset l p c')).
  { eapply Str_lset; [exact Ec| |assumption]. split; [|split; reflexivity]. split; [reflexivity|]. split; [reflexivity|]. rewrite Hc. discriminate. }
  assert (En2 : nth_error (lset l p c') (S p) = Some n) by (rewrite nth_error_lset_neq; [assumption|lia]).
  destruct (delete_str _ _ _ _ HS1 En2 C3) as (l2 & E1 & _ & _ & E4). rewrite E1 in Ey. apply Ok_inj in Ey. apply pair_equal_spec in Ey as [Ey _]. subst l2.
  rewrite !surface_nth, E4, nth_deleted by (eapply length_S; exact En2). destruct (Nat.ltb_spec 0 (S p)); [|lia]. destruct p as [|p].
  - rewrite nth_error_lset_eq by (eapply length_S; exact Ec). rewrite Ec. reflexivity.
  - rewrite nth_error_lset_neq by lia. reflexivity.
Qed.
Lemma merge_surface : forall l l', upright_profile l -> lgar_merge_wetting_fronts e l = Ok l' -> surface_theta l' = surface_theta l.
Proof.
  intros l l' U. assert (l <> []) by (destruct U as (HS & _); eapply Str_nonempty; eauto using se_n). unfold lgar_merge_wetting_fronts. assert (X : (0 < length l)%nat) by (destruct l; [contradiction|cbn; lia]). revert X. clear H.
  generalize (S (length l)) as k, 0%nat as p. intro k. revert l U.
  induction k as [|k IH]; intros l U p Hp E; cbn [merge_loop] in E; [discriminate|]. unfold listLength in E.
  destruct (Z.eqb_spec (Z.of_nat (S p)) (Z.of_nat (length l))) as [|Hne]; [apply Ok_inj in E; subst l'; reflexivity|]. bind_inv E l1 Q1.
  destruct (ends_Ok _ _ _ _ _ (merge_step_ok e p l HE (proj1 U) ltac:(lia)) Q1) as (A & B & C).
  rewrite (IH l1 (merge_step_upright e M HV HM HF HE p l l1 U ltac:(lia) Q1) (S p) B E). exact (merge_step_surface p l l1 (proj1 U) Q1).
Qed.

Lemma closure_loop_surface : forall k p target l mass err fa dnw sw aug iter l' err' g, closure_loop k e p target l mass err fa dnw sw aug iter = Ok (l', err', g) -> surface_theta l' = surface_theta l.
Proof.
  induction k as [|k IH]; intros p target l mass err fa dnw sw aug iter l' err' g E; rewrite closure_loop_eq in E; destruct (_ >? _)%d eqn:C;
    try (apply Ok_inj in E; injection E as E1 _ _; subst l'; reflexivity).
  cbv zeta in E. match type of E with context [if (mass <? target)%d then ?a else ?b] => destruct (if (mass <? target)%d then a else b) as [[x y] z] end.
  bind_inv E g0 Ef. apply lget_Ok in Ef. bind_inv E d0 Ed. bind_inv E m0 Em. rewrite (IH _ _ _ _ _ _ _ _ _ _ _ _ _ E).
  apply surface_water. eapply alike_water_lset; [exact Ef|]. split; reflexivity.
Qed.
Lemma closure_surface : forall old vin l a l' a' q, closure e old vin l a = Ok (l', a', q) -> surface_theta l' = surface_theta l.
Proof.
  intros old vin l a l' a' q E. unfold closure in E. bind_inv E l1 Q1. rewrite <- (cross_surface _ _ Q1). cbv zeta in E. bind_inv E s Es. bind_inv E u Eu.
  destruct (findFront _ l1) as [p|]; [|discriminate]. bind_inv E g0 Ef. destruct (_ <? _)%d; [|apply Ok_inj in E; injection E as E1 _ _; subst l1; reflexivity].
  bind_inv E m Em. bind_inv E x Ex. destruct x as [[l2 err] g]. rewrite <- (closure_loop_surface _ _ _ _ _ _ _ _ _ _ _ _ _ _ Ex).
  destruct g; [bind_inv E m2 Em2|]; apply Ok_inj in E; injection E as E3 _ _; congruence.
Qed.

Lemma domain_surface : forall d l q l', aget (e_cum e) (e_nlayers e) = Ok (Fin d) -> upright_profile l -> lgar_wetting_front_cross_domain_boundary e (Fin d) l = Ok (q, l') -> surface_theta l' = surface_theta l.
Proof.
  intros d l q l' Ed U E. pose proof U as (HS & P & ML & L & D). unfold lgar_wetting_front_cross_domain_boundary in E. destruct l as [|c r]; [apply Ok_inj in E; apply pair_equal_spec in E as [_ <-]; auto|].
  match type of E with domain_loop ?k _ _ ?p _ = _ => destruct (domain_loop_exact e d HE Ed k p (c :: r) HS ML ltac:(cbn; lia)) as (fl & y & F & _ & _ & _ & CASE) end.
  rewrite E in F. apply Ok_inj in F. apply pair_equal_spec in F as [_ F']. subst y. destruct CASE as [[-> _]|(a & b & n & n' & EL & EL' & ET & _)]; [reflexivity|].
  rewrite EL, EL'. destruct a as [|x a]; cbn; [f_equal; exact ET|reflexivity].
Qed.

Theorem move_surface : forall dt vin wfd old aet head prev l1 a1 l' a' q, Str e head -> Forall phys head -> Forall moving head -> numbered prev -> length prev = length head -> finite dt ->
  ~ move_tie e dt vin wfd old aet head prev -> move_loop (length head) e dt vin wfd prev (listLength head) head aet = Ok (l1, a1) -> ~ inverted l1 ->
  lgar_move_wetting_fronts e dt vin wfd old aet head prev = Ok (l', a', q) -> surface_theta l' = surface_theta l1.
Proof.
  intros dt vin wfd old aet head prev l1 a1 l' a' q HS P N HN HL Hdt HT Q1 NI E. unfold lgar_move_wetting_fronts in E. bind_inv E z Ez. cbv zeta in E. rewrite Q1 in E. cbn [bind] in E.
  bind_inv E x2 Q2. destruct x2 as [[l2 a2] fl2]. bind_inv E x3 Q3. destruct x3 as [[l3 fl3] mc]. bind_inv E l4 Q4. bind_inv E l5 Q5.
  apply Ok_inj in E. injection E as E1 E2 E3. subst l5.
  assert (Hne : head <> []) by (eapply Str_nonempty; eauto using se_n).
  assert (Q2' : closure e old vin l1 a1 = Ok (l2, a2, fl2)) by (destruct head; [contradiction|exact Q2]). clear Q2. rename Q2' into Q2.
  unfold merge_phases in Q3. bind_inv Q3 y1 G1. destruct y1 as [k1 mc1]. bind_inv Q3 k2 G2. bind_inv Q3 k3 G3.
  bind_inv Q3 y4 G4. destruct y4 as [k4 mc4]. bind_inv Q3 k5 G5. bind_inv Q3 D ED. bind_inv Q3 y6 G6. destruct y6 as [fl6 k6]. bind_inv Q3 y7 G7. destruct y7 as [k7 mc7].
  apply Ok_inj in Q3. injection Q3 as F1 F2 F3. subst l3 fl3 mc.
  pose proof (pass_profile e M HV HE _ _ _ _ _ _ _ _ HS P N HN HL Hdt Q1 NI) as U1.
  assert (T1 : ~ cross_tie e l1) by (intro T; apply HT; exists l1, a1; split; [exact Q1|left; exact T]).
  pose proof (closure_upright e M HV HM HF HE _ _ _ _ _ _ _ U1 T1 Q2) as U2. pose proof (fix_upright e M _ _ _ _ U2 G1) as ->.
  pose proof (merge_upright e M HV HM HF HE _ _ U2 G2) as U3.
  assert (T2 : ~ cross_tie e k2). { intro T. apply HT. exists l1, a1. split; [exact Q1|]. right. exists l2, a2, fl2, l2, mc1, k2. auto. }
  pose proof (cross_upright e M HV HM HF HE _ _ U3 T2 G3) as U4. pose proof (fix_upright e M _ _ _ _ U4 G4) as ->.
  pose proof (merge_upright e M HV HM HF HE _ _ U4 G5) as U5.
  destruct (env_cum e (e_nlayers e) HE) as (d & Ed & _); [destruct HE; lia|]. rewrite Ed in ED. apply Ok_inj in ED. subst D.
  pose proof (domain_upright e M HV HM HF HE _ _ _ _ Ed U5 G6) as U6. pose proof (fix_upright e M _ _ _ _ U6 G7) as ->. destruct U6 as (S6 & _).
  pose proof (refresh_refreshed e k6 l4 Q4) as RF. assert (SL4 : Str e l4). { apply (Str_alike e k6); [|exact S6]. clear - RF. induction RF; constructor; auto using refreshed_alike. }
  pose proof (fix_single_idle e HE l4 l' SL4 Q5) as ->.
  assert (S4 : surface_theta l4 = surface_theta k6). { destruct RF as [|f h l l' (A1 & A2 & A3 & _) RF]; [reflexivity|]. cbn. f_equal. congruence. }
  rewrite S4, (domain_surface _ _ _ _ Ed U5 G6), (merge_surface _ _ U4 G5), (cross_surface _ _ G3), (merge_surface _ _ U2 G2), (closure_surface _ _ _ _ _ _ _ Q2). reflexivity.
Qed.
End Surface.
