(** Storage in exact arithmetic. *)

From Coq Require Import Reals Lra ZArith List Bool Lia.
From Coquelicot Require Import Coquelicot.
From Verif Require Import Outcome Dbl Exact Types ListOps Soil Fronts Lib Spec_Common Spec_List Spec_Soil Spec_Column Spec_Update Spec_Profile Spec_Storage
  Pf_Dbl Pf_List Pf_Column Pf_Profile Pf_Structure.
Import ListNotations.
Open Scope R_scope.
Local Existing Instance exact.

(** ** Slabs *)

(** Depth of the last front, [t] if there is none. *)
Fixpoint lastd (t : R) (l : list front) : R := match l with [] => t | f :: r => lastd (val (f_depth f)) r end.

Lemma slabs_app : forall a b t, slabs t (a ++ b) = slabs t a + slabs (lastd t a) b.
Proof. induction a as [|f a IH]; intros b t; cbn [app slabs lastd]; [lra|]. rewrite IH. lra. Qed.

Lemma lastd_app : forall a b t, lastd t (a ++ b) = lastd (lastd t a) b.
Proof. induction a as [|f a IH]; intros b t; cbn [app lastd]; auto. Qed.

Lemma slabs_bump : forall l d t, slabs t (bump d l) = slabs t l.
Proof. induction l as [|f l IH]; intros d t; cbn; [reflexivity|]. unfold bump in IH. rewrite IH. reflexivity. Qed.

Lemma slabs_top : forall c r t t', slabs t (c :: r) = slabs t' (c :: r) + val (f_theta c) * (t' - t).
Proof. intros. cbn [slabs]. lra. Qed.

Lemma measured_app : forall a b, measured (a ++ b) <-> measured a /\ measured b.
Proof. intros. apply Forall_app. Qed.

Lemma measured_bump : forall d l, measured l -> measured (bump d l).
Proof. induction 1; constructor; auto. Qed.

Lemma mass_scan : forall cum nl l k b s, measured l -> l <> [] -> pre cum nl k l (nl + 1) -> aget cum (k - 1) = Ok (Fin b) ->
  mass_loop cum l (Fin s) = Ok (Fin (s + slabs b l)).
Proof.
  intros cum nl l. induction l as [|c r IH]; intros k b s M Hne P Hb; [contradiction|].
  inversion M as [|x y [[dc Ed] [tc Et]] Mr]; subst x y. cbn [mass_loop]. cbn [pre] in P. destruct P as (Pl & Pk & P). rewrite Pl, Hb. cbn [bind].
  destruct r as [|n r].
  - cbn [slabs]. rewrite Ed, Et. cbn. do 2 f_equal. lra.
  - inversion Mr as [|x y [_ [tn En]] _]; subst x y. destruct (f_bottom c) eqn:B.
    + destruct P as [Pc P]. assert (Ln : f_layer n = (k + 1)%Z) by apply P. rewrite Ln. destruct (Z.eqb_spec (k + 1) k); [lia|].
      rewrite Ed in Pc. rewrite Ed, Et. change (Fin s + (Fin dc - Fin b) * Fin tc)%d with (Fin (s + (dc - b) * tc)).
      rewrite (IH (k + 1)%Z dc _ Mr ltac:(discriminate) P) by (replace (k + 1 - 1)%Z with k by lia; exact Pc). do 2 f_equal.
      rewrite (slabs_top n r dc dc). change (slabs b (c :: n :: r)) with (val (f_theta c) * (val (f_depth c) - b) + slabs (val (f_depth c)) (n :: r)).
      rewrite Ed, Et. cbn [val]. lra.
    + assert (Ln : f_layer n = k) by apply P. rewrite Ln, Z.eqb_refl. rewrite Ed, Et, En.
      change (Fin s + (Fin dc - Fin b) * (Fin tc - Fin tn))%d with (Fin (s + (dc - b) * (tc - tn))).
      rewrite (IH k b _ Mr ltac:(discriminate) P Hb). do 2 f_equal. rewrite (slabs_top n r b dc).
      change (slabs b (c :: n :: r)) with (val (f_theta c) * (val (f_depth c) - b) + slabs (val (f_depth c)) (n :: r)).
      rewrite Ed, Et, En. cbn [val]. lra.
Qed.

Theorem mass_is_storage : forall nl cum l, (1 <= nl)%Z -> profile nl cum l -> measured l -> aget cum 0 = Ok (Fin 0) ->
  lgar_calc_mass_bal cum l = Ok (Fin (storage l)).
Proof.
  intros nl cum l Hn HP M H0. apply profile_scan in HP as [_ P]; [|assumption].
  unfold lgar_calc_mass_bal. rewrite (mass_scan cum nl l 1 0 0 M); [do 2 f_equal; unfold storage; lra| |assumption|exact H0].
  intros ->. cbn in P. lia.
Qed.

(** ** The integral *)

Lemma ordered_lastd : forall l t, ordered t l -> t <= lastd t l.
Proof. induction l as [|f l IH]; intros t H; cbn in *; [lra|]. destruct H as [H1 H2]. apply IH in H2. lra. Qed.

Lemma slabs_integral : forall l t, ordered t l -> is_RInt (theta_at l) t (lastd t l) (slabs t l).
Proof.
  induction l as [|f l IH]; intros t H.
  - cbn [lastd slabs]. apply (is_RInt_point (V := R_NormedModule)).
  - destruct H as [H1 H2]. cbn [lastd slabs]. pose proof (ordered_lastd _ _ H2) as H3.
    replace (val (f_theta f) * (val (f_depth f) - t) + slabs (val (f_depth f)) l)
      with (plus (val (f_theta f) * (val (f_depth f) - t)) (slabs (val (f_depth f)) l)) by reflexivity.
    apply (is_RInt_Chasles (V := R_NormedModule)) with (val (f_depth f)).
    + apply (is_RInt_ext (V := R_NormedModule)) with (fun _ => val (f_theta f)).
      * intros x [_ Hx]. rewrite Rmax_right in Hx by assumption. cbn. destruct (Rle_dec x (val (f_depth f))); [reflexivity|lra].
      * replace (val (f_theta f) * (val (f_depth f) - t)) with (scal (val (f_depth f) - t) (val (f_theta f))) by apply Rmult_comm.
        apply (is_RInt_const (V := R_NormedModule)).
    + apply (is_RInt_ext (V := R_NormedModule)) with (theta_at l); [|apply IH; assumption].
      intros x [Hx _]. rewrite Rmin_left in Hx by assumption. cbn. destruct (Rle_dec x (val (f_depth f))); [lra|reflexivity].
Qed.

(** The deepest front lies at the lower end of the column. *)
Lemma scan_end : forall cum nl l k t, l <> [] -> pre cum nl k l (nl + 1) -> exists d, aget cum nl = Ok d /\ lastd t l = val d.
Proof.
  intros cum nl l. induction l as [|c r IH]; intros k t Hne P; [contradiction|]. cbn [pre] in P. destruct P as (Pl & Pk & P). cbn [lastd].
  destruct r as [|n r].
  - destruct (f_bottom c) eqn:B.
    + destruct P as [Pc P]. cbn in P. replace nl with k by lia. exists (f_depth c). auto.
    + cbn in P. lia.
  - destruct (f_bottom c) eqn:B; [destruct P as [_ P]|]; eapply IH; try eassumption; discriminate.
Qed.

Theorem storage_is_integral : forall nl cum l D, (1 <= nl)%Z -> profile nl cum l -> measured l -> ordered 0 l ->
  aget cum 0 = Ok (Fin 0) -> aget cum nl = Ok (Fin D) ->
  exists v, lgar_calc_mass_bal cum l = Ok (Fin v) /\ is_RInt (theta_at l) 0 D v.
Proof.
  intros nl cum l D Hn HP M HO H0 HD. exists (storage l). split; [eapply mass_is_storage; eassumption|].
  apply profile_scan in HP as [_ P]; [|assumption]. destruct (scan_end cum nl l 1 0) as (d & E & EL); [intros ->; cbn in P; lia|assumption|].
  rewrite HD in E. apply Ok_inj in E. subst d. cbn [val] in EL. rewrite <- EL. apply slabs_integral. assumption.
Qed.

(** ** Linearity *)

Lemma with_from : forall l t w w1 w2 a b i, (forall j, w j = a * w1 j + b * w2 j) ->
  slabs t (map (fun p => set_theta (snd p) (Fin (w (fst p)))) (combine (seq i (length l)) l)) =
  a * slabs t (map (fun p => set_theta (snd p) (Fin (w1 (fst p)))) (combine (seq i (length l)) l)) +
  b * slabs t (map (fun p => set_theta (snd p) (Fin (w2 (fst p)))) (combine (seq i (length l)) l)).
Proof.
  induction l as [|f l IH]; intros t w w1 w2 a b i Hw; cbn [length seq combine map slabs]; [lra|].
  rewrite (IH _ w w1 w2 a b _ Hw). cbn [fst snd set_theta f_theta f_depth val]. rewrite Hw. lra.
Qed.

Lemma with_nth : forall l w i k, nth_error (map (fun p => set_theta (snd p) (Fin (w (fst p)))) (combine (seq i (length l)) l)) k =
  option_map (fun f => set_theta f (Fin (w (i + k)%nat))) (nth_error l k).
Proof.
  induction l as [|f l IH]; intros w i [|k]; cbn [length seq combine map nth_error option_map]; auto.
  - rewrite Nat.add_0_r. reflexivity.
  - rewrite IH. do 2 f_equal. replace (S i + k)%nat with (i + S k)%nat by lia. reflexivity.
Qed.

Lemma with_shape : forall l w i, Forall2 same_shape l (map (fun p => set_theta (snd p) (Fin (w (fst p)))) (combine (seq i (length l)) l)).
Proof. induction l as [|f l IH]; intros w i; cbn [length seq combine map]; constructor; [repeat split|apply IH]. Qed.

Lemma with_profile : forall nl cum l w, (1 <= nl)%Z -> profile nl cum l -> profile nl cum (with_thetas l w).
Proof.
  intros nl cum l w Hn HP. apply profile_scan in HP as [N P]; [|assumption]. apply profile_scan; [assumption|]. split.
  - intros i f E. unfold with_thetas in E. rewrite with_nth in E. destruct (nth_error l i) as [g|] eqn:Eg; [|discriminate]. cbn in E. injection E as <-. exact (N _ _ Eg).
  - eapply pre_shape; [apply with_shape|assumption].
Qed.

Lemma with_measured : forall l w, measured l -> measured (with_thetas l w).
Proof.
  intros l w. unfold with_thetas. generalize 0%nat as i. induction l as [|f l IH]; intros i M; cbn [length seq combine map]; [constructor|].
  inversion M as [|x y [M1 M2] M3]; subst. constructor; [|apply IH; assumption]. split; [assumption|]. eexists. reflexivity.
Qed.

Theorem storage_linear : forall nl cum l w1 w2 a b, (1 <= nl)%Z -> profile nl cum l -> measured l -> aget cum 0 = Ok (Fin 0) ->
  exists v1 v2, lgar_calc_mass_bal cum (with_thetas l w1) = Ok (Fin v1) /\ lgar_calc_mass_bal cum (with_thetas l w2) = Ok (Fin v2) /\
    lgar_calc_mass_bal cum (with_thetas l (fun i => a * w1 i + b * w2 i)) = Ok (Fin (a * v1 + b * v2)).
Proof.
  intros nl cum l w1 w2 a b Hn HP M H0. exists (storage (with_thetas l w1)), (storage (with_thetas l w2)).
  do 2 (split; [apply mass_is_storage with nl; auto using with_profile, with_measured|]).
  rewrite (mass_is_storage nl); auto using with_profile, with_measured. do 2 f_equal. apply with_from. reflexivity.
Qed.

(** ** Bounds *)

Lemma slabs_bounds : forall (lo hi : Z -> R) (cum : list dbl) nl (zs : Z -> R) l k t,
  (forall j, (0 <= j <= nl)%Z -> aget cum j = Ok (Fin (zs j))) ->
  (forall f, In f l -> lo (f_layer f) <= val (f_theta f) <= hi (f_layer f)) ->
  ordered t l -> pre cum nl k l (nl + 1) -> (1 <= k)%Z -> zs (k - 1)%Z <= t ->
  Rsum (map (fun j => lo (Z.of_nat j) * (zs (Z.of_nat j) - zs (Z.of_nat j - 1)%Z)) (seq (Z.to_nat k) (Z.to_nat (nl + 1 - k)))) - lo k * (t - zs (k - 1)%Z)
  <= slabs t l <=
  Rsum (map (fun j => hi (Z.of_nat j) * (zs (Z.of_nat j) - zs (Z.of_nat j - 1)%Z)) (seq (Z.to_nat k) (Z.to_nat (nl + 1 - k)))) - hi k * (t - zs (k - 1)%Z)
  \/ l = [].
Proof.
  intros lo hi cum nl zs l. induction l as [|c r IH]; intros k t HC HB HO P Hk Ht; [right; reflexivity|left].
  cbn [pre] in P. destruct P as (Pl & Pk & P). destruct HO as [O1 O2]. cbn [slabs].
  assert (Bc := HB c (or_introl eq_refl)). rewrite Pl in Bc.
  assert (HB' : forall f, In f r -> lo (f_layer f) <= val (f_theta f) <= hi (f_layer f)) by (intros f Hf; apply HB; right; assumption).
  set (d := val (f_depth c)) in *. set (th := val (f_theta c)) in *.
  destruct (f_bottom c) eqn:B.
  - destruct P as [Pc P]. rewrite HC in Pc by lia. apply Ok_inj in Pc. assert (Ed : d = zs k) by (unfold d; rewrite <- Pc; reflexivity).
    replace (Z.to_nat (nl + 1 - k)) with (S (Z.to_nat (nl + 1 - (k + 1)))) by lia. cbn [seq map Rsum]. rewrite Z2Nat.id by lia.
    replace (S (Z.to_nat k)) with (Z.to_nat (k + 1)) by lia.
    destruct r as [|n r].
    + cbn in P. replace (Z.to_nat (nl + 1 - (k + 1))) with 0%nat by lia. cbn [seq map Rsum slabs]. rewrite Ed in *. nra.
    + destruct (IH (k + 1)%Z d HC HB' O2 P ltac:(lia)) as [IB|]; [replace (k + 1 - 1)%Z with k by lia; lra| |discriminate].
      replace (k + 1 - 1)%Z with k in IB by lia. rewrite Ed in *. nra.
  - destruct r as [|n r]; [cbn in P; lia|].
    destruct (IH k d HC HB' O2 P ltac:(lia)) as [IB|]; [lra| |discriminate]. nra.
Qed.

Theorem storage_bounds : forall e ts ss trs tes l, column e ts ss -> (1 <= length ts)%nat ->
  Forall2 (fun s x => s_theta_r s = Fin x) ss trs -> Forall2 (fun s x => s_theta_e s = Fin x) ss tes ->
  profile (e_nlayers e) (e_cum e) l -> measured l -> ordered 0 l -> within_soils e l ->
  exists v, lgar_calc_mass_bal (e_cum e) l = Ok (Fin v) /\ column_capacity ts trs <= v <= column_capacity ts tes.
Proof.
  intros e ts ss trs tes l C Hn Hr He HP M HO HW. assert (Hnl := col_n _ _ _ C). exists (storage l).
  assert (HC : forall j, (0 <= j <= e_nlayers e)%Z -> aget (e_cum e) j = Ok (Fin (Rsum (firstn (Z.to_nat j) ts)))).
  { intros j Hj. replace j with (Z.of_nat (Z.to_nat j)) at 1 by lia. eapply column_cum; [exact C|lia]. }
  assert (LR : forall A (P : soil -> A -> Prop) xs, Forall2 P ss xs -> length xs = length ts).
  { intros A P xs H. rewrite <- (col_ss _ _ _ C). symmetry. eapply Forall2_length; eassumption. }
  split.
  { apply mass_is_storage with (e_nlayers e); auto; [lia|]. rewrite HC by lia. reflexivity. }
  assert (P := HP). apply profile_scan in P as [_ P]; [|lia].
  pose proof (slabs_bounds (fun k => nth (Z.to_nat (k - 1)) trs 0) (fun k => nth (Z.to_nat (k - 1)) tes 0) (e_cum e) (e_nlayers e)
    (fun j => Rsum (firstn (Z.to_nat j) ts)) l 1 0 HC) as HB.
  assert (TR : forall xs, column_capacity ts xs =
    Rsum (map (fun j => nth (Z.to_nat (Z.of_nat j - 1)) xs 0 * (Rsum (firstn (Z.to_nat (Z.of_nat j)) ts) - Rsum (firstn (Z.to_nat (Z.of_nat j - 1)) ts)))
      (seq (Z.to_nat 1) (Z.to_nat (e_nlayers e + 1 - 1))))).
  { intro xs. unfold column_capacity. rewrite Hnl. replace (Z.to_nat (Z.of_nat (length ts) + 1 - 1)) with (length ts) by lia.
    change (Z.to_nat 1) with 1%nat. rewrite <- seq_shift, map_map. f_equal. apply map_ext_in. intros i Hi. apply in_seq in Hi.
    rewrite Nat2Z.id. replace (Z.to_nat (Z.of_nat (S i) - 1)) with i by lia. rewrite firstn_sum_S by lia. ring. }
  rewrite !TR. assert (Hne : l <> []) by (intros ->; cbn in P; lia).
  destruct HB as [HB|HB]; [|exact HO|exact P|lia|cbn; lra| |contradiction].
  - intros f Hf. pose proof (proj1 (Forall_forall _ _) HW f Hf) as (s & r & es & t & E1 & E2 & E3 & E4 & E5).
    assert (Rf := pre_layers _ _ _ _ _ P f Hf).
    assert (Hs : nth_error ss (Z.to_nat (f_layer f - 1)) = Some s).
    { destruct (nth_error ss (Z.to_nat (f_layer f - 1))) as [s'|] eqn:Es; [|apply nth_error_None in Es; rewrite (col_ss _ _ _ C) in Es; lia].
      pose proof (col_soil _ _ _ C _ _ Es) as Q. replace (Z.of_nat (S (Z.to_nat (f_layer f - 1)))) with (f_layer f) in Q by lia. congruence. }
    assert (GN : forall (fld : soil -> dbl) xs x, Forall2 (fun s x => fld s = Fin x) ss xs -> fld s = Fin x -> nth (Z.to_nat (f_layer f - 1)) xs 0 = x).
    { intros fld xs x H Hx. revert Hs. generalize (Z.to_nat (f_layer f - 1)). clear - H Hx. induction H; intros [|i] E; cbn in *; try discriminate; [injection E as ->; congruence|auto]. }
    rewrite (GN s_theta_r trs r Hr E2), (GN s_theta_e tes es He E3), E4. exact E5.
  - cbn [Z.to_nat Z.sub Z.add Z.opp Pos.add firstn Rsum] in HB. unfold storage. cbn in HB |- *. lra.
Qed.
