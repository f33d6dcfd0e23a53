(** A motion whose pass leaves the fronts drier downwards needs no repair and divides by nothing that vanishes (exact arithmetic). *)

From Coq Require Import Reals Lra ZArith List Bool Lia.
From Verif Require Import Outcome Dbl Exact Types ListOps Soil Fronts Infil Move State Lib Spec_Common Spec_Soil Spec_List Spec_Update Spec_Profile Spec_Storage Spec_Advance
  Spec_Physical Spec_Meet Spec_Motion Pf_Dbl Pf_Pow Pf_Soil Pf_List Pf_Profile Pf_Structure Pf_Storage Pf_Merge Pf_Cross Pf_Repair Pf_SafeMove Pf_Single Pf_SingleMerge Pf_Advance Pf_Physical
  Pf_Level Pf_Motion Pf_Motion2.
Import ListNotations.
Open Scope R_scope.

(** The working form of [drier_downwards]. *)
Definition dn (l : list front) : Prop :=
  forall i c n, nth_error l i = Some c -> nth_error l (S i) = Some n -> f_layer c = f_layer n -> val (f_theta n) < val (f_theta c).

Lemma dn_iff : forall l, dn l <-> drier_downwards l.
Proof.
  induction l as [|f [|g r] IH].
  - split; [intros; exact Logic.I|]. intros _ [|i] c n E; discriminate.
  - split; [intros; exact Logic.I|]. intros _ [|i] c n E1 E2; [discriminate|destruct i; discriminate].
  - cbn [drier_downwards]. split.
    + intro H. split; [apply (H 0%nat); reflexivity|]. apply IH. intros i c n E1 E2. apply (H (S i)); assumption.
    + intros [H1 H2] [|i] c n E1 E2 EL; [injection E1 as <-; injection E2 as <-; auto|]. apply IH in H2. apply (H2 i); assumption.
Qed.

Lemma measured_at : forall l i f, measured l -> nth_error l i = Some f -> exists d t, f_depth f = Fin d /\ f_theta f = Fin t.
Proof. intros l i f ML E. unfold measured in ML. rewrite Forall_forall in ML. destruct (ML f (nth_error_In _ _ E)) as [[d D] [t T]]. exists d, t. auto. Qed.

Lemma upright : forall l, measured l -> (~ inverted l <-> dn l).
Proof.
  intros l ML. split.
  - intros N i c n Ec En EL. destruct (measured_at _ _ _ ML Ec) as (_ & tc & _ & Tc). destruct (measured_at _ _ _ ML En) as (_ & tn & _ & Tn). rewrite Tc, Tn. cbn [val].
    destruct (Rlt_dec tn tc) as [|G]; [assumption|]. exfalso. apply N. exists i, c, n. rewrite Tc, Tn. split; [assumption|]. split; [assumption|]. split; [assumption|]. apply Rleb_true. lra.
  - intros D (i & c & n & Ec & En & EL & G). destruct (measured_at _ _ _ ML Ec) as (_ & tc & _ & Tc). destruct (measured_at _ _ _ ML En) as (_ & tn & _ & Tn).
    specialize (D i c n Ec En EL). rewrite Tc, Tn in *. cbn [val] in D. apply Rleb_true in G. lra.
Qed.

(** Fronts with the same water contents in the same layers. *)
Definition alike_water (f g : front) : Prop := f_layer g = f_layer f /\ f_theta g = f_theta f.
Lemma dn_alike : forall l l', Forall2 alike_water l l' -> dn l -> dn l'.
Proof.
  intros l l' H D i c n Ec En EL. destruct (Forall2_nth _ _ _ _ H _ _ Ec) as (c0 & Ec0 & A1 & A2). destruct (Forall2_nth _ _ _ _ H _ _ En) as (n0 & En0 & B1 & B2).
  rewrite A2, B2. apply (D i); congruence.
Qed.
Lemma alike_water_refl : forall l, Forall2 alike_water l l.
Proof. induction l; constructor; [split; reflexivity|assumption]. Qed.
Lemma alike_water_trans : forall l1 l2 l3, Forall2 alike_water l1 l2 -> Forall2 alike_water l2 l3 -> Forall2 alike_water l1 l3.
Proof.
  intros l1 l2 l3 H. revert l3. induction H as [|f g l l' [A1 A2] H IH]; intros l3 G; inversion G as [|x y z w [B1 B2] G']; subst; constructor; [split; congruence|auto].
Qed.
Lemma alike_water_lset : forall l p c c', nth_error l p = Some c -> alike_water c c' -> Forall2 alike_water l (lset l p c').
Proof.
  induction l as [|f l IH]; intros [|p] c c' H Hs; try discriminate; cbn in *.
  - injection H as ->. constructor; [assumption|apply alike_water_refl].
  - constructor; [split; reflexivity|eauto].
Qed.

(** Taking a front out of the list. *)
Lemma dn_delete : forall l p c, dn l -> nth_error l p = Some c ->
  (forall q b n, p = S q -> nth_error l q = Some b -> nth_error l (S p) = Some n -> f_layer b = f_layer n -> val (f_theta n) < val (f_theta b)) ->
  dn (firstn p l ++ bump (-1) (skipn (S p) l)).
Proof.
  intros l p c D Ec H i x y Ex Ey EL. assert (Hp := length_S _ _ _ _ Ec). rewrite nth_deleted in Ex, Ey by assumption.
  destruct (Nat.ltb_spec i p) as [P|P]; destruct (Nat.ltb_spec (S i) p) as [P'|P']; try lia.
  - apply (D i); assumption.
  - assert (p = S i) by lia. subst p. destruct (nth_error l (S (S i))) as [y0|] eqn:E2; [|discriminate]. injection Ey as <-. cbn in *. apply (H i x y0 eq_refl Ex eq_refl EL).
  - destruct (nth_error l (S i)) as [x0|] eqn:E1; [|discriminate]. destruct (nth_error l (S (S i))) as [y0|] eqn:E2; [|discriminate]. injection Ex as <-. injection Ey as <-. cbn in *. apply (D (S i)); assumption.
Qed.

Section Drier.
Local Existing Instance exact.
Context {cfg : Cfg}.
Variables (e : env) (M : R).
Hypothesis HV : vg_column e.
Hypothesis HM : conducts_at_most M e.
Hypothesis HF : frozen_in_range e.
Hypothesis HE : sound_env e.
Hypothesis H0 : aget (e_cum e) 0 = Ok (Fin 0).
Notation phys := (phys e M).

(** The wetter of two fronts in one soil is the wetter in any other soil at the same heads. *)
Lemma wetter_elsewhere : forall k k2 s s2 h h' t t', (1 <= k <= e_nlayers e)%Z -> (1 <= k2 <= e_nlayers e)%Z -> soil_of e k = Ok s -> soil_of e k2 = Ok s2 ->
  head_ok h -> head_ok h' -> theta_of_h s h = Fin t -> theta_of_h s h' = Fin t' -> t' < t -> val (theta_of_h s2 h') < val (theta_of_h s2 h).
Proof.
  intros k k2 s s2 h h' t t' R R2 Es Es2 Hh Hh' Et Et' L. destruct (HV _ _ R Es) as (r & te & a & n & m & ks & V). destruct (HV _ _ R2 Es2) as (r2 & te2 & a2 & n2 & m2 & ks2 & V2).
  destruct Hh as [->|(x & -> & Hx)].
  { exfalso. rewrite (theta_infinite s r te a n m ks V) in Et. injection Et as <-. destruct (water_of_head s r te a n m ks h' V Hh') as (z & Ez & Bz). rewrite Ez in Et'. injection Et' as <-. lra. }
  destruct (retention_bounds s2 r2 te2 a2 n2 m2 ks2 x V2 Hx) as (z2 & Ez2 & Bz2 & _). rewrite Ez2. cbn [val].
  destruct Hh' as [->|(y & -> & Hy)]; [rewrite (theta_infinite s2 r2 te2 a2 n2 m2 ks2 V2); cbn [val]; lra|].
  destruct (retention_bounds s2 r2 te2 a2 n2 m2 ks2 y V2 Hy) as (w2 & Ew2 & _). rewrite Ew2. cbn [val].
  destruct (Rlt_dec x y) as [Q|Q].
  - pose proof (retention_decreasing s2 r2 te2 a2 n2 m2 ks2 x y V2 Hx Q) as D. rewrite Ez2, Ew2 in D. apply Rltb_true in D. exact D.
  - exfalso. destruct (Req_EM_T x y) as [->|Ne]; [rewrite Et in Et'; injection Et' as <-; lra|].
    pose proof (retention_decreasing s r te a n m ks y x V Hy ltac:(lra)) as D. rewrite Et, Et' in D. apply Rltb_true in D. lra.
Qed.

Definition upright_profile (l : list front) : Prop := Str e l /\ Forall phys l /\ measured l /\ level l /\ dn l.

(** The water content a crossing front takes below the boundary is more than that of the front it meets there. *)
Lemma crossing_wetter : forall l p c n nn s s2, Str e l -> Forall phys l -> level l -> dn l ->
  nth_error l p = Some c -> nth_error l (S p) = Some n -> nth_error l (S (S p)) = Some nn -> f_bottom n = true -> f_layer c = f_layer n -> f_layer c <> e_nlayers e ->
  soil_of e (f_layer c) = Ok s -> soil_of e (f_layer c + 1)%Z = Ok s2 -> val (f_theta nn) < val (theta_of_h s2 (h_of_Se s (Se_of_theta s (f_theta c)))).
Proof.
  intros l p c n nn s s2 HS P L D Ec En Enn Bn EL NL Es Es2. rewrite Forall_forall in P.
  assert (Pc : phys c) by (apply P; eapply nth_error_In; exact Ec). assert (Pn : phys n) by (apply P; eapply nth_error_In; exact En). assert (Pnn : phys nn) by (apply P; eapply nth_error_In; exact Enn).
  rewrite (head_back e M HV c s Pc Es). pose proof (D p c n Ec En EL) as DT. pose proof (L (S p) n nn En Enn Bn) as LL.
  destruct (Str_bottom _ _ _ _ HS En Bn) as [_ W]. rewrite Enn in W.
  pose proof Pc as (Rc & Hc & (sc & Esc & Tc) & _). pose proof Pn as (Rn & Hn & (sn & Esn & Tn) & _). pose proof Pnn as (Rnn & Hnn & (snn & Esnn & Tnn) & _).
  rewrite Es in Esc. apply Ok_inj in Esc. subst sc. rewrite <- EL, Es in Esn. apply Ok_inj in Esn. subst sn. rewrite W, <- EL, Es2 in Esnn. apply Ok_inj in Esnn. subst snn.
  rewrite Tnn, <- LL. destruct (phys_within e M HV c s Pc Es) as (r & te & a & m1 & m & k & t & V & Et & _).
  assert (Esn : soil_of e (f_layer n) = Ok s) by (rewrite <- EL; exact Es). destruct (phys_within e M HV n s Pn Esn) as (_ & _ & _ & _ & _ & _ & t' & _ & Et' & _).
  rewrite Et, Et' in DT. cbn [val] in DT. rewrite Et in Tc. rewrite Et' in Tn.
  apply (wetter_elsewhere (f_layer c) (f_layer c + 1) s s2 (f_psi c) (f_psi n) t t'); auto; lia.
Qed.

Lemma not_blocked : forall l p, upright_profile l -> ~ tie_at e p l -> ~ blocked_at e p l.
Proof.
  intros l p (HS & P & ML & L & D) HT (c & n & nn & ck & s & s2 & Ec & En & Enn & Eck & C1 & C2 & NL & Es & Es2 & B).
  assert (Hc : f_bottom c = false).
  { destruct (f_bottom c) eqn:Hb; [|reflexivity]. destruct (Str_bottom _ _ _ _ HS Ec Hb) as [Q _]. rewrite Eck in Q. apply Ok_inj in Q. rewrite <- Q in C1. rewrite dgtb_irrefl in C1. discriminate. }
  destruct (Str_next _ _ _ _ HS Ec Hc) as (n0 & En0 & Hn0). assert (n0 = n) by congruence. subst n0.
  assert (Hn : f_bottom n = true). { destruct (f_bottom n) eqn:Hb; [reflexivity|]. exfalso. apply HT. exists c, n, ck. auto 10. }
  pose proof (crossing_wetter l p c n nn s s2 HS P L D Ec En Enn Hn (eq_sym Hn0) NL Es Es2) as X. rewrite B in X. lra.
Qed.

Lemma cross_step_upright : forall l p l', upright_profile l -> (S p < length l)%nat -> ~ tie_at e p l -> cross_step e p l = Ok l' -> upright_profile l' /\ length l' = length l.
Proof.
  intros l p l' U Hp HT E. pose proof U as (HS & P & ML & L & D). pose proof (not_blocked l p U HT) as NB.
  destruct (cross_step_exact e p l HE HV HS ML (phys_soils e M HV HE l P) Hp HT NB) as (l2 & E2 & S2 & M2 & _ & LN & _). rewrite E in E2. apply Ok_inj in E2. subst l2.
  split; [|exact LN]. split; [exact S2|]. split; [exact (cross_step_phys e M HV HM HF p l l' P E)|]. split; [exact M2|]. split; [exact (cross_step_level e M HV p l l' P L E)|].
  unfold cross_step in E. bind_inv E c Ec0. bind_inv E s Es. bind_inv E ff Ef. cbv zeta in E. bind_inv E n En0. bind_inv E ck Eck.
  destruct (_ && _ && _)%bool eqn:C; [|apply Ok_inj in E; subst; assumption].
  apply andb_prop in C as [C C3]. apply andb_prop in C as [C1 C2]. apply negb_true_iff in C3. apply Z.eqb_neq in C3.
  bind_inv E s2 Es2. bind_inv E nn Enn0. bind_inv E ck1 Eck1. apply Ok_inj in E.
  apply lget_Ok in Ec0, En0, Enn0. rename Ec0 into Ec, En0 into En, Enn0 into Enn. subst l'.
  assert (Hc : f_bottom c = false).
  { destruct (f_bottom c) eqn:Hb; [|reflexivity]. destruct (Str_bottom _ _ _ _ HS Ec Hb) as [Q _]. rewrite Eck in Q. apply Ok_inj in Q. rewrite <- Q in C1. rewrite dgtb_irrefl in C1. discriminate. }
  destruct (Str_next _ _ _ _ HS Ec Hc) as (n0 & En0 & Hn0). assert (n0 = n) by congruence. subst n0.
  assert (Hn : f_bottom n = true). { destruct (f_bottom n) eqn:Hb; [reflexivity|]. exfalso. apply HT. exists c, n, ck. auto 10. }
  pose proof (crossing_wetter l p c n nn s s2 HS P L D Ec En Enn Hn (eq_sym Hn0) C3 Es Es2) as X.
  assert (L1 := length_S _ _ _ _ Ec). assert (L2 := length_S _ _ _ _ En).
  intros i x y Ex Ey EL. destruct (Nat.eq_dec i (S p)) as [->|D1].
  { rewrite nth_error_lset_eq in Ex by (rewrite lset_length; assumption). rewrite nth_error_lset_neq, nth_error_lset_neq in Ey by lia. injection Ex as <-. rewrite Enn in Ey. injection Ey as <-. exact X. }
  destruct (Nat.eq_dec i p) as [->|D2].
  { rewrite nth_error_lset_eq in Ey by (rewrite lset_length; assumption). rewrite nth_error_lset_neq, nth_error_lset_eq in Ex by (assumption || lia). injection Ex as <-. injection Ey as <-. cbn in EL. lia. }
  rewrite nth_error_lset_neq, nth_error_lset_neq in Ex by lia. destruct (Nat.eq_dec (S i) p) as [D3|D3].
  - subst p. rewrite nth_error_lset_neq, nth_error_lset_eq in Ey by (assumption || lia). injection Ey as <-. cbn in EL |- *. apply (D i); assumption.
  - rewrite nth_error_lset_neq, nth_error_lset_neq in Ey by lia. apply (D i); assumption.
Qed.

Lemma prefix_upright : forall l, upright_profile l -> ~ cross_tie e l -> forall p l', (p < length l)%nat -> cross_prefix e p l = Ok l' -> upright_profile l' /\ length l' = length l.
Proof.
  intros l U HT. induction p as [|p IH]; intros l' Hp E; cbn [cross_prefix] in E; [apply Ok_inj in E; subst; auto|]. bind_inv E l1 Q.
  destruct (IH l1 ltac:(lia) Q) as [U1 LN]. destruct (cross_step_upright l1 p l' U1) as [U2 LN2]; [lia| |exact E|split; [assumption|lia]].
  intro T. apply HT. exists p, l1. auto.
Qed.
Lemma cross_free : forall l, upright_profile l -> ~ cross_tie e l -> ~ cross_blocked e l.
Proof.
  intros l U HT (p & l' & Hp & E & B). destruct (prefix_upright l U HT p l' ltac:(lia) E) as [U' _]. apply (not_blocked l' p U'); [|exact B]. intro T. apply HT. exists p, l'. auto.
Qed.
Lemma cross_loop_upright : forall l0, ~ cross_tie e l0 -> forall k p l l', cross_prefix e p l0 = Ok l -> length l = length l0 -> upright_profile l -> (p < length l)%nat ->
  cross_loop k e p l = Ok l' -> upright_profile l'.
Proof.
  intros l0 HT. induction k as [|k IH]; intros p l l' EP LN U Hp E; cbn [cross_loop] in E; [discriminate|]. unfold listLength in E.
  destruct (Z.eqb_spec (Z.of_nat (S p)) (Z.of_nat (length l))) as [|Hne]; [apply Ok_inj in E; subst; assumption|]. bind_inv E l1 Q.
  destruct (cross_step_upright l p l1 U) as [U2 LN2]; [lia| |exact Q|]. { intro T. apply HT. exists p, l. split; [lia|auto]. }
  apply (IH (S p) l1 l'); try assumption; try lia. cbn [cross_prefix]. rewrite EP. exact Q.
Qed.
Lemma cross_upright : forall l l', upright_profile l -> ~ cross_tie e l -> lgar_wetting_fronts_cross_layer_boundary e l = Ok l' -> upright_profile l'.
Proof.
  intros l l' U HT E. assert (Hne : l <> []) by (destruct U as (HS & _); eapply Str_nonempty; eauto using se_n).
  apply (cross_loop_upright l HT (S (length l)) 0%nat l l' eq_refl eq_refl U); [destruct l; [contradiction|cbn; lia]|exact E].
Qed.

(** ** Merging *)

Lemma merge_step_upright : forall p l l', upright_profile l -> (S p < length l)%nat -> merge_step e p l = Ok l' -> upright_profile l'.
Proof.
  intros p l l' U Hp E. pose proof U as (HS & P & ML & L & D).
  destruct (ends_Ok _ _ _ _ _ (merge_step_ok e p l HE HS Hp) E) as (S1 & _).
  assert (P1 : Forall phys l') by exact (merge_step_phys e M HV HM HF p l l' P E). assert (L1 : level l') by exact (merge_step_level e M HV p l l' HS P L E).
  pose proof (merge_step_ledger e p l l' HS ML E) as G.
  unfold merge_step in E. bind_inv E c Ec0. bind_inv E n En0.
  pose proof (proj1 (lget_Ok _ _ _) Ec0) as Ec. pose proof (proj1 (lget_Ok _ _ _) En0) as En.
  destruct (_ && _ && negb (f_bottom n))%bool eqn:C; [|apply Ok_inj in E; subst l'; assumption].
  apply andb_prop in C as [C C3]. apply andb_prop in C as [C1 C2]. apply Z.eqb_eq in C2. apply negb_true_iff in C3.
  bind_inv E nn Enn0. pose proof (proj1 (lget_Ok _ _ _) Enn0) as Enn. cbv zeta in E.
  bind_inv E u Eu. bind_inv E s Es. bind_inv E ff Ef. bind_inv E y Ey. destruct y as [l1 o]. apply Ok_inj in E. subst l1.
  assert (Hc : f_bottom c = false) by (eapply (Str_above e l p c n); assumption).
  destruct (Str_next _ _ _ _ HS En C3) as (n0 & En0' & Hn0). assert (n0 = nn) by congruence. subst n0. clear En0'.
  pose proof (D p c n Ec En C2) as D1. pose proof (D (S p) n nn En Enn (eq_sym Hn0)) as D2.
  match type of Ey with context [lset l p ?x] => set (c' := x) in * end.
  assert (HS1 : Str e (lset l p c')).
  { eapply Str_lset; [exact Ec| |assumption]. split; [|split; reflexivity]. split; [reflexivity|]. split; [reflexivity|]. rewrite Hc. discriminate. }
  assert (En2 : nth_error (lset l p c') (S p) = Some n) by (rewrite nth_error_lset_neq; [assumption|lia]).
  destruct (delete_str _ _ _ _ HS1 En2 C3) as (l2 & E1 & _ & _ & E4). rewrite E1 in Ey. apply Ok_inj in Ey. apply pair_equal_spec in Ey as [Ey _]. subst l2.
  assert (Ecp : nth_error (lset l p c') p = Some c') by (apply nth_error_lset_eq; eapply length_S; eassumption).
  assert (D' : dn l').
  { rewrite E4. eapply dn_delete; [eapply dn_alike; [|exact D]; eapply alike_water_lset; [exact Ec|split; reflexivity]|exact En2|].
    intros q b m Hq Eb Em _. injection Hq as <-. rewrite Ecp in Eb. injection Eb as <-. rewrite nth_error_lset_neq, Enn in Em by lia. injection Em as <-. change (f_theta c') with (f_theta c). lra. }
  split; [exact S1|]. split; [exact P1|]. split; [|split; assumption].
  destruct G as [[G _]|(x & Ex & Nf)]; [exact G|]. exfalso. apply Nf.
  assert (x = c').
  { rewrite E4, nth_deleted in Ex by (eapply length_S; exact En2). destruct (Nat.ltb_spec p (S p)); [|lia]. congruence. } subst x.
  destruct (measured_at _ _ _ ML Ec) as (dc & tc & Edc & Etc). destruct (measured_at _ _ _ ML En) as (dn0 & tn & Edn & Etn). destruct (measured_at _ _ _ ML Enn) as (dd & tnn & Edd & Etnn).
  rewrite Etc, Etn, Etnn in *. cbn [val] in *. unfold c'. cbn [f_depth set_depth set_psi set_K]. rewrite ?Edc, ?Etc, ?Edn, ?Etn, ?Etnn. cbn [dmul dsub dadd ddiv rnd exact].
  destruct (Req_EM_T (tc - tnn) 0); [lra|]. eexists. reflexivity.
Qed.
Lemma merge_loop_upright : forall k p l l', upright_profile l -> (p < length l)%nat -> merge_loop k e p l = Ok l' -> upright_profile l'.
Proof.
  induction k as [|k IH]; intros p l l' U Hp E; cbn [merge_loop] in E; [discriminate|]. unfold listLength in E.
  destruct (Z.eqb_spec (Z.of_nat (S p)) (Z.of_nat (length l))) as [|Hne]; [apply Ok_inj in E; subst l'; assumption|]. bind_inv E l1 Q1.
  destruct (ends_Ok _ _ _ _ _ (merge_step_ok e p l HE (proj1 U) ltac:(lia)) Q1) as (A & B & C).
  apply (IH (S p) l1 l'); [exact (merge_step_upright p l l1 U ltac:(lia) Q1)|exact B|exact E].
Qed.
Lemma merge_upright : forall l l', upright_profile l -> lgar_merge_wetting_fronts e l = Ok l' -> upright_profile l'.
Proof.
  intros l l' U E. assert (l <> []) by (destruct U as (HS & _); eapply Str_nonempty; eauto using se_n). eapply merge_loop_upright; try eassumption. destruct l; [contradiction|cbn; lia].
Qed.

(** ** The repairs find nothing to do *)

Lemma fix_upright : forall l mc l' mc', upright_profile l -> check_and_fix e l mc = Ok (l', mc') -> l' = l.
Proof.
  intros l mc l' mc' (HS & _ & ML & _ & D) E. apply (upright l ML) in D.
  unfold check_and_fix, lgar_check_dry_over_wet_wetting_fronts in E. destruct l as [|c r]; [discriminate|]. cbn [bind] in E.
  destruct (check_dry (c :: r)) eqn:C; [exfalso; apply D, check_dry_iff; exact C|]. apply Ok_inj in E. apply pair_equal_spec in E as [<- _]. reflexivity.
Qed.

(** ** Closing the balance *)

Lemma closure_loop_upright : forall k p target l mass err fa dnw sw aug iter l' err' g, (exists x, fa = Fin x) -> (exists x, dnw = Fin x) -> measured l ->
  closure_loop k e p target l mass err fa dnw sw aug iter = Ok (l', err', g) -> measured l' /\ Forall2 alike_water l l'.
Proof.
  induction k as [|k IH]; intros p target l mass err fa dnw sw aug iter l' err' g [xf ->] [xd ->] ML E; rewrite closure_loop_eq in E; destruct (_ >? _)%d eqn:C;
    try (apply Ok_inj in E; injection E as E1 _ _; subst l'; split; [assumption|apply alike_water_refl]).
  cbv zeta in E.
  assert (FA : exists x, (if ((iter + 1 >? 1000)%Z && negb aug)%bool then (Fin xf * lit 100)%d else Fin xf) = Fin x) by (destruct (_ && _)%bool; cbn; eauto).
  destruct FA as [xa Ea]. rewrite Ea in E.
  assert (FB : exists x y b, (if (mass <? target)%d then ((Fin xd + lit (1 / 100) * Fin xa)%d, false, Fin xa)
    else ((Fin xd - lit (1 / 100) * (if sw then Fin xa else Fin xa * lit (1 / 1000)))%d, true, (if sw then Fin xa else (Fin xa * lit (1 / 1000))%d))) = (Fin x, b, Fin y))
    by (destruct (mass <? target)%d, sw; cbn; eauto).
  destruct FB as (x & y & b & EB). rewrite EB in E.
  bind_inv E g0 Ef. apply lget_Ok in Ef. bind_inv E d0 Ed. bind_inv E m0 Em.
  assert (Fd : exists z, d0 = Fin z).
  { destruct (_ && _)%bool in Ed; [|apply Ok_inj in Ed; eauto]. destruct (env_cum e (e_nlayers e) HE) as (z & Ez & _); [destruct HE; lia|]. rewrite Ez in Ed. apply Ok_inj in Ed. eauto. }
  destruct Fd as [z ->]. destruct (measured_at _ _ _ ML Ef) as (dd & tt & _ & ET).
  assert (ML1 : measured (lset l p (set_depth g0 (Fin z)))) by (unfold measured; apply Forall_lset; [exact ML|]; split; [eexists; reflexivity|exists tt; exact ET]).
  destruct (IH _ _ _ _ _ (Fin y) (Fin z) _ _ _ _ _ _ (ex_intro _ y eq_refl) (ex_intro _ z eq_refl) ML1 E) as [M1 A1].
  split; [exact M1|]. eapply alike_water_trans; [|exact A1]. eapply alike_water_lset; [exact Ef|]. split; reflexivity.
Qed.

Lemma closure_upright : forall old vin l a l' a' q, upright_profile l -> ~ cross_tie e l -> closure e old vin l a = Ok (l', a', q) -> upright_profile l'.
Proof.
  intros old vin l a l' a' q U HT E. pose proof U as (HS & P & ML & L & D).
  pose proof (ends_Ok _ _ _ _ _ (closure_ok e old vin l a HE HS HT) E) as S2. cbn [fst] in S2.
  assert (P2 : Forall phys l') by exact (closure_phys e M HV HM HF _ _ _ _ _ _ _ P E). assert (L2 : level l') by exact (closure_level e M HV HM HF old vin l a l' a' q P L E).
  unfold closure in E. bind_inv E l1 Q1. pose proof (cross_upright l l1 U HT Q1) as (HS1 & P1 & M1 & _ & D1). cbv zeta in E. bind_inv E s Es. bind_inv E u Eu.
  destruct (fd_ok e l1 HE HS1) as (i & f & W & Ei & Hi & Hl & _ & HB). 
  destruct (findFront _ l1) as [p|] eqn:FF; [|discriminate]. bind_inv E g0 Ef. apply lget_Ok in Ef.
  assert (Hp : p = i).
  { rewrite W in FF. pose proof (find_num l1 i (st_num _ _ HS1) (length_S _ _ _ _ Ei)) as X. congruence. }
  subst p. assert (g0 = f) by congruence. subst g0.
  destruct (_ <? _)%d; [|apply Ok_inj in E; injection E as E1 _ _; subst l1; split; [assumption|split; [assumption|split; [assumption|split; assumption]]]].
  bind_inv E m Em. bind_inv E x Ex. destruct x as [[l2 err] g].
  assert (El : l' = l2). { destruct g; [bind_inv E m2 Em2|]; apply Ok_inj in E; injection E as E3 _ _; congruence. } subst l2.
  destruct (measured_at _ _ _ M1 Ei) as (df & tf & Edf & Etf).
  apply closure_loop_upright in Ex; [|  |eauto|assumption].
  - destruct Ex as [M2 A2]. split; [assumption|]. split; [assumption|]. split; [assumption|]. split; [assumption|]. exact (dn_alike l1 l' A2 D1).
  - destruct (nth_error l1 (S i)) as [n|] eqn:En; [|exists 1; reflexivity].
    destruct HB as [[Bf _]|(_ & _ & HLen)]; [|apply length_S in En; lia].
    destruct (Str_next _ _ _ _ HS1 Ei Bf) as (n0 & En0 & Hn0). assert (n0 = n) by congruence. subst n0. pose proof (D1 i f n Ei En (eq_sym Hn0)) as DT.
    destruct (measured_at _ _ _ M1 En) as (dd & tn & _ & Etn). rewrite Etf, Etn in *. cbn [val] in DT. cbn [dsub dabs rnd exact].
    destruct (_ <? _)%d; [|exists 1; reflexivity]. cbn [lit ddiv rnd exact]. pose proof (Rabs_pos_lt (tf - tn) ltac:(lra)). destruct (Req_EM_T (Rabs (tf - tn)) 0); [lra|]. eexists. reflexivity.
Qed.

(** ** The bottom of the column *)

Lemma domain_upright : forall d l q l', aget (e_cum e) (e_nlayers e) = Ok (Fin d) -> upright_profile l -> lgar_wetting_front_cross_domain_boundary e (Fin d) l = Ok (q, l') -> upright_profile l'.
Proof.
  intros d l q l' Ed U E. pose proof U as (HS & P & ML & L & D).
  destruct (domain_ok e (Fin d) l HE Ed HS) as (f6 & y6 & F6 & S6). rewrite E in F6. apply Ok_inj in F6. apply pair_equal_spec in F6 as [_ F6']. subst y6.
  split; [assumption|]. split; [exact (domain_phys e M HV HM HF HE (Fin d) l q l' Ed HS P E)|].
  assert (L6 : level l') by exact (domain_level e M HV HE (Fin d) l q l' Ed HS P L E).
  unfold lgar_wetting_front_cross_domain_boundary in E. destruct l as [|c r]; [apply Ok_inj in E; apply pair_equal_spec in E as [_ <-]; auto|].
  match type of E with domain_loop ?k _ _ ?p _ = _ => destruct (domain_loop_exact e d HE Ed k p (c :: r) HS ML ltac:(cbn; lia)) as (fl & y & F & _ & MM & _ & CASE) end.
  rewrite E in F. apply Ok_inj in F. apply pair_equal_spec in F as [_ F']. subst y.
  split; [exact MM|]. split; [exact L6|]. destruct CASE as [[-> _]|(a & b & n & n' & EL & EL' & ET & _ & _ & EK & _)]; [exact D|].
  rewrite EL in D. apply dn_iff in D. apply dn_iff. rewrite EL'. change [b; n] with (b :: [n]) in D. apply drier_app in D as [D _].
  refine (drier_last a b n' _ (eq_sym ET) D).
  assert (Bn : nth_error (a ++ [n']) (length a) = Some n') by (rewrite nth_error_app2, Nat.sub_diag by lia; reflexivity). rewrite EL' in S6.
  destruct (f_bottom n') eqn:B.
  - destruct (Str_bottom _ _ _ _ S6 Bn B) as [_ W]. destruct (nth_error (a ++ [n']) (S (length a))) eqn:X; [apply length_S in X; rewrite app_length in X; cbn in X; lia|]. congruence.
  - destruct (Str_next _ _ _ _ S6 Bn B) as (z & Ez & _). apply length_S in Ez. rewrite app_length in Ez. cbn in Ez. lia.
Qed.
End Drier.
