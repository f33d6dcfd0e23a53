(** The shares of the fronts, and the head iteration of one front of a column of several layers. *)

From Coq Require Import Reals Lra ZArith List Bool Lia.
From Verif Require Import Outcome Dbl Exact Types ListOps Soil Fronts Infil Move Lib Spec_Common Spec_List Spec_Soil Spec_Update Spec_Profile Spec_Column Spec_Storage Spec_Balance Spec_Advance Spec_Shares
  Pf_Dbl Pf_Pow Pf_Soil Pf_List Pf_Profile Pf_Structure Pf_SafeMove Pf_Storage Pf_Column Pf_Layers Pf_Balance Pf_Drying Pf_HeadEnds Pf_Single Pf_SingleMerge Pf_Alone.
Import ListNotations.
Open Scope R_scope.
Local Existing Instance exact.

Section Column.
Variables (e : env) (qs : list part).
Hypothesis HQ : strata e qs.

Lemma strata_n : e_nlayers e = Z.of_nat (length qs).
Proof. destruct HQ as (_ & _ & ss & C & _). rewrite (col_n _ _ _ C), map_length. reflexivity. Qed.

Lemma strata_soil : forall j q, nth_error qs j = Some q -> exists s ks, soil_of e (Z.of_nat (S j)) = Ok s /\ vg_soil s (pt_r q) (pt_e q) (pt_a q) (pt_n q) (pt_m q) ks.
Proof.
  intros j q E. destruct HQ as (_ & _ & ss & C & F). assert (X : exists s, nth_error ss j = Some s /\ exists ks, vg_soil s (pt_r q) (pt_e q) (pt_a q) (pt_n q) (pt_m q) ks).
  { clear - E F. revert j E. induction F as [|s q' ss qs' V F IH]; intros [|j] E; try discriminate; cbn in *; [injection E as <-; eauto|apply IH; assumption]. }
  destruct X as (s & Es & ks & V). exists s, ks. split; [apply (col_soil _ _ _ C); assumption|assumption].
Qed.

Lemma strata_pos : forall j q, nth_error qs j = Some q -> 0 < pt_z q.
Proof. intros j q E. destruct HQ as (_ & F & _). rewrite Forall_forall in F. apply F. eapply nth_error_In. eassumption. Qed.

Lemma strata_cum : forall k, (1 <= k <= e_nlayers e + 1)%Z -> aget (e_cum e) (k - 1) = Ok (Fin (top_of qs k)).
Proof.
  intros k Hk. rewrite strata_n in Hk. destruct HQ as (_ & _ & ss & C & _). unfold top_of. replace (k - 1)%Z with (Z.of_nat (Z.to_nat (k - 1))) at 1 by lia.
  rewrite (column_cum _ _ _ _ C) by (rewrite map_length; lia). rewrite firstn_map. reflexivity.
Qed.

Lemma top_1 : top_of qs 1 = 0.
Proof. reflexivity. Qed.

Lemma firstn_snoc : forall A (l : list A) j x, nth_error l j = Some x -> firstn (S j) l = firstn j l ++ [x].
Proof. induction l as [|y l IH]; intros [|j] x E; try discriminate; cbn in *; [injection E as <-; reflexivity|]. rewrite (IH j x E). reflexivity. Qed.

Lemma firstn_nth : forall A (l : list A) i j, (i < j)%nat -> nth_error (firstn j l) i = nth_error l i.
Proof. induction l as [|a r IH]; intros [|i] [|j] Hi; cbn; try reflexivity; try lia. apply IH. lia. Qed.

Lemma layer_exists : forall k, (1 <= k <= e_nlayers e)%Z -> exists q, nth_error qs (Z.to_nat (k - 1)) = Some q.
Proof. intros k Hk. rewrite strata_n in Hk. destruct (nth_error qs (Z.to_nat (k - 1))) eqn:E; [eauto|]. apply nth_error_None in E. lia. Qed.

Lemma top_next : forall k q, (1 <= k)%Z -> nth_error qs (Z.to_nat (k - 1)) = Some q -> top_of qs (k + 1) = top_of qs k + pt_z q.
Proof. intros k q Hk E. unfold top_of. replace (Z.to_nat (k + 1 - 1)) with (S (Z.to_nat (k - 1))) by lia. rewrite (firstn_snoc _ _ _ _ E), map_app, Rsum_app. cbn. ring. Qed.
Lemma above_next : forall k q psi, (1 <= k)%Z -> nth_error qs (Z.to_nat (k - 1)) = Some q -> water_above qs (k + 1) psi = water_above qs k psi + pt_z q * pt_theta q psi.
Proof. intros k q psi Hk E. unfold water_above. replace (Z.to_nat (k + 1 - 1)) with (S (Z.to_nat (k - 1))) by lia. rewrite (firstn_snoc _ _ _ _ E), map_app, Rsum_app. cbn. ring. Qed.

Lemma soil_at : forall k q, (1 <= k)%Z -> nth_error qs (Z.to_nat (k - 1)) = Some q -> exists s ks, soil_of e k = Ok s /\ vg_soil s (pt_r q) (pt_e q) (pt_a q) (pt_n q) (pt_m q) ks.
Proof. intros k q Hk E. destruct (strata_soil _ _ E) as (s & ks & Es & V). exists s, ks. replace (Z.of_nat (S (Z.to_nat (k - 1)))) with k in Es by lia. auto. Qed.

Lemma strata_env : sound_env e.
Proof.
  assert (N : (1 <= e_nlayers e)%Z). { rewrite strata_n. destruct HQ as (Q & _). destruct qs; [contradiction|cbn; lia]. }
  split; [assumption| | | |].
  - intros k Hk. exists (top_of qs (k + 1)). split; [|reflexivity]. rewrite <- strata_cum by lia. f_equal. lia.
  - intros k z z' Hk E E'. destruct (layer_exists (k + 1) ltac:(lia)) as [q Eq]. pose proof (top_next (k + 1) q ltac:(lia) Eq) as T. pose proof (strata_pos _ _ Eq).
    replace k with (k + 1 - 1)%Z in E by lia. rewrite strata_cum in E by lia. replace (k + 1)%Z with (k + 1 + 1 - 1)%Z in E' by lia. rewrite strata_cum in E' by lia.
    apply Ok_inj in E, E'. injection E as <-. injection E' as <-. lra.
  - intros k Hk. destruct (layer_exists k Hk) as [q Eq]. destruct (soil_at k q ltac:(lia) Eq) as (s & _ & Es & _). eauto.
  - intros k Hk. rewrite strata_n in Hk. destruct HQ as (_ & _ & ss & C & _). pose proof (col_frozen _ _ _ C) as L. rewrite map_length in L.
    destruct (nth_error (e_frozen e) (Z.to_nat k)) as [x|] eqn:E; [|apply nth_error_None in E; lia]. exists x. apply aget_Ok. split; [lia|assumption].
Qed.

(** ** Shares *)

Lemma shares_nth : forall l i c, nth_error l i = Some c -> nth i (shares qs l) 0 = share qs c (nth_error l (S i)).
Proof. induction l as [|x l IH]; intros [|i] c E; try discriminate; cbn in *; [injection E as <-; destruct l; reflexivity|apply IH; assumption]. Qed.
Lemma shares_length : forall l, length (shares qs l) = length l.
Proof. induction l; cbn; auto. Qed.

(** The water at and below a front, and that of the layers above it at its head. *)
Definition T (l : list front) : R := match l with [] => 0 | c :: _ => water_above qs (f_layer c) (val (f_psi c)) + slabs (top_of qs (f_layer c)) l end.

Lemma shares_sum : forall l k, Forall (fun f => finite (f_depth f)) l -> Forall (on_curve qs) l -> heads_meet e l -> pre (e_cum e) (e_nlayers e) k l (e_nlayers e + 1) -> T l = Rsum (shares qs l).
Proof.
  induction l as [|c r IH]; intros k M O HM P; [reflexivity|]. inversion M as [|x y Mc Mr]; subst x y. inversion O as [|x y Oc Or]; subst x y.
  destruct P as (Pl & Pk & P). cbn [shares Rsum]. subst k.
  assert (HMr : heads_meet e r) by (intros i a b s E1 E2; exact (HM (S i) a b s E1 E2)).
  destruct r as [|n r].
  - unfold share, carries. cbn [hd_error]. rewrite orb_true_r. unfold share_at. cbn [theta_under above_under shares Rsum T slabs]. ring.
  - cbn [hd_error]. unfold share, carries. rewrite orb_false_r. destruct (f_bottom c) eqn:B; cbn [negb].
    + destruct P as [Pc P]. rewrite <- (IH _ Mr Or HMr P). destruct P as (Pn & Pk2 & _). cbn [T]. rewrite Pn.
      destruct (layer_exists _ Pk) as [q Eq]. destruct (soil_at _ _ (proj1 Pk) Eq) as (s & ks & Es & V).
      destruct (HM 0%nat c n s eq_refl eq_refl B Es) as [HP HT].
      inversion Or as [|x y On _]; subst x y. destruct On as [(On & _)|(q' & h & _ & Eh & Hh & _)]; [lia|].
      rewrite Eh in HP, HT. rewrite (theta_of_h_is _ _ _ _ _ _ _ _ V Hh) in HT. fold (pt_theta q h) in HT. rewrite HP, Eh. cbn [val].
      replace (f_layer c) with (f_layer c + 1 - 1)%Z in Pc by lia. rewrite strata_cum in Pc by lia. apply Ok_inj in Pc.
      rewrite (above_next _ q h (proj1 Pk) Eq). cbn [slabs]. rewrite HT, <- Pc. cbn [val]. rewrite (top_next _ q (proj1 Pk) Eq). ring.
    + rewrite <- (IH _ Mr Or HMr P). destruct P as (Pn & _). cbn [T]. rewrite Pn. unfold share_at. cbn [theta_under above_under slabs]. ring.
Qed.

Theorem attribution : forall l, profile (e_nlayers e) (e_cum e) l -> Forall (fun f => finite (f_depth f)) l -> Forall (on_curve qs) l -> heads_meet e l -> storage l = Rsum (shares qs l).
Proof.
  intros l HP M O HM. apply profile_scan in HP as [_ P]; [|apply strata_env]. rewrite <- (shares_sum l 1 M O HM P). unfold storage.
  destruct l as [|c r]; [reflexivity|]. destruct P as (Pl & _). cbn [T]. rewrite Pl. unfold water_above, top_of. cbn [map firstn Z.sub Z.to_nat Pos.to_nat Rsum]. cbn. ring.
Qed.

(** ** The head iteration of one front *)

Definition with_t (t : R) (q : part) : part := mkPart (pt_z q) t (pt_r q) (pt_e q) (pt_a q) (pt_n q) (pt_m q).
Definition with_zt (z t : R) (q : part) : part := mkPart z t (pt_r q) (pt_e q) (pt_a q) (pt_n q) (pt_m q).

(** Water content of layer [q] at the head of the front below. *)
Definition under (o : option R) (q : part) : R := match o with Some x => pt_theta q x | None => 0 end.
Definition as_below (o : option (R * R)) : option (dbl * dbl) := match o with Some (a, b) => Some (Fin a, Fin b) | None => None end.

Definition mass_body (po p : dbl) (below : option (dbl * dbl)) (k : Z) (st : dbl * dbl * list (option dbl) * list (option dbl)) :=
  let '(prior, newm, dth, dz) := st in
    s <- soil_of e k ;;
    c1 <- aget (e_cum e) k ;;
    c0 <- aget (e_cum e) (k - 1)%Z ;;
    let thick := (c1 - c0)%d in
    let below_old := match below with Some (po, _) => theta_of_h s po | None => Fin 0 end in
    let below_new := match below with Some (_, pn) => theta_of_h s pn | None => Fin 0 end in
    let prior := (prior + thick * (theta_of_h s po - below_old))%d in
    let newm := (newm + thick * (theta_of_h s p - below_new))%d in
    dth <- aset dth k (Some below_new) ;;
    dz <- aset dz k (Some thick) ;;
    Ok (prior, newm, dth, dz).

Definition over (po : R) (o : option R) (j : nat) : R := Rsum (map (fun q => pt_z q * (pt_theta q po - under o q)) (firstn j qs)).
Definition nonneg_o (o : option R) : Prop := match o with Some x => 0 <= x | None => True end.

Lemma masses_are : forall lay po p o prior newm, (1 <= lay <= e_nlayers e)%Z -> 0 <= po -> 0 <= p -> nonneg_o (option_map fst o) -> nonneg_o (option_map snd o) ->
  let arr := repeat None (Z.to_nat (lay + 1)) in let j := Z.to_nat (lay - 1) in
  exists dth dz, masses_above e lay (Fin po) (Fin p) (as_below o) (Fin prior, Fin newm, arr, arr) =
      Ok (Fin (prior + over po (option_map fst o) j), Fin (newm + over p (option_map snd o) j), dth, dz) /\
    length dth = Z.to_nat (lay + 1) /\ length dz = Z.to_nat (lay + 1) /\
    forall i q, (i < j)%nat -> nth_error qs i = Some q -> uget dz (Z.of_nat (S i)) = Ok (Fin (pt_z q)) /\ uget dth (Z.of_nat (S i)) = Ok (Fin (under (option_map snd o) q)).
Proof.
  intros lay po p o prior newm Hl Hpo Hp Ho1 Ho2 arr j. unfold masses_above. change (fun k '(prior0, newm0, dth, dz) => _) with (mass_body (Fin po) (Fin p) (as_below o)).
  set (I := fun (k : Z) (st : dbl * dbl * list (option dbl) * list (option dbl)) =>
    let '(a, b, dth, dz) := st in let m := Z.to_nat (k - 1) in
    a = Fin (prior + over po (option_map fst o) m) /\ b = Fin (newm + over p (option_map snd o) m) /\
    length dth = Z.to_nat (lay + 1) /\ length dz = Z.to_nat (lay + 1) /\
    forall i q, (i < m)%nat -> nth_error qs i = Some q -> uget dz (Z.of_nat (S i)) = Ok (Fin (pt_z q)) /\ uget dth (Z.of_nat (S i)) = Ok (Fin (under (option_map snd o) q))).
  destruct (zfor_inv _ I (mass_body (Fin po) (Fin p) (as_below o)) (Z.to_nat (lay - 1)) 1%Z (Fin prior, Fin newm, arr, arr)) as (st & E & HI).
  - intros k [[[a b] dth] dz] Hk (-> & -> & L1 & L2 & A). destruct (layer_exists k ltac:(lia)) as [q Eq]. destruct (soil_at k q ltac:(lia) Eq) as (s & ks & Es & V).
    unfold mass_body. rewrite Es. cbn [bind]. assert (EC : aget (e_cum e) k = Ok (Fin (top_of qs (k + 1)))) by (rewrite <- strata_cum by lia; f_equal; lia). rewrite EC. cbn [bind]. rewrite strata_cum by lia. cbn [bind]. cbv zeta.
    assert (TK : (Fin (top_of qs (k + 1)) - Fin (top_of qs k))%d = Fin (pt_z q)) by (rewrite (top_next k q ltac:(lia) Eq); cbn; f_equal; ring). rewrite TK.
    assert (TH : forall x, 0 <= x -> theta_of_h s (Fin x) = Fin (pt_theta q x)) by (intros x Hx; apply (theta_of_h_is _ _ _ _ _ _ _ _ V Hx)).
    rewrite !TH by assumption.
    assert (B1 : match as_below o with Some (x, _) => theta_of_h s x | None => Fin 0 end = Fin (under (option_map fst o) q)) by (destruct o as [[x y]|]; [cbn in *; apply TH; assumption|reflexivity]).
    assert (B2 : match as_below o with Some (_, x) => theta_of_h s x | None => Fin 0 end = Fin (under (option_map snd o) q)) by (destruct o as [[x y]|]; [cbn in *; apply TH; assumption|reflexivity]).
    rewrite B1, B2.
    match goal with |- context [aset dth k ?x] => destruct (aset_in _ dth k x ltac:(lia)) as (dth' & A1 & L1') end. rewrite A1. cbn [bind].
    match goal with |- context [aset dz k ?x] => destruct (aset_in _ dz k x ltac:(lia)) as (dz' & A2 & L2') end. rewrite A2. cbn [bind].
    eexists. split; [reflexivity|]. unfold I. replace (Z.to_nat (k + 1 - 1)) with (S (Z.to_nat (k - 1))) by lia.
    split. { unfold over. rewrite (firstn_snoc _ _ _ _ Eq), map_app, Rsum_app. cbn [dadd dmul dsub rnd exact map Rsum]. f_equal. ring. }
    split. { unfold over. rewrite (firstn_snoc _ _ _ _ Eq), map_app, Rsum_app. cbn [dadd dmul dsub rnd exact map Rsum]. f_equal. ring. }
    split; [lia|]. split; [lia|]. intros i q' Hi Ei. rewrite (uget_aset _ _ _ _ (Z.of_nat (S i)) A1) by lia. rewrite (uget_aset _ _ _ _ (Z.of_nat (S i)) A2) by lia.
    destruct (Z.eqb_spec (Z.of_nat (S i)) k) as [K|K]; [|apply A; [lia|assumption]]. replace (Z.to_nat (k - 1)) with i in Eq by lia. assert (q' = q) by congruence. subst q'. auto.
  - unfold I. cbn [Z.sub]. change (Z.to_nat (1 - 1)) with 0%nat. unfold arr. rewrite !repeat_length. unfold over. cbn [firstn map Rsum]. rewrite !Rplus_0_r.
    do 4 (split; [reflexivity|]). intros; lia.
  - destruct st as [[[a b] dth] dz]. unfold I in HI. replace (1 + Z.of_nat (Z.to_nat (lay - 1)) - 1)%Z with (lay - 1)%Z in HI by lia. fold j in HI. destruct HI as (-> & -> & L1 & L2 & A).
    exists dth, dz. split; [exact E|]. auto.
Qed.

Lemma over_held : forall psi o z t q j, held (with_zt z t q :: map (fun x => with_t (under o x) x) (firstn j qs)) psi = z * (pt_theta q psi - t) + over psi o j.
Proof.
  intros. unfold held, over. cbn [map Rsum]. rewrite map_map. reflexivity.
Qed.

Context {cfg : Cfg}.

(** The parts of the column that front number [lay] fills. *)
Definition parts (lay : Z) (o : option R) : list part := map (fun x => with_t (under o x) x) (firstn (Z.to_nat (lay - 1)) qs).

Lemma balance_theta_is : forall lay s q ks h po o prior newm t z add aet th a', (1 <= lay <= e_nlayers e)%Z -> nth_error qs (Z.to_nat (lay - 1)) = Some q ->
  soil_of e lay = Ok s -> vg_soil s (pt_r q) (pt_e q) (pt_a q) (pt_n q) (pt_m q) ks -> 0 <= h -> 0 <= po -> nonneg_o (option_map fst o) -> nonneg_o (option_map snd o) ->
  let j := Z.to_nat (lay - 1) in let ps := parts lay (option_map snd o) in let p := with_zt z t q in
  let new := newm + over h (option_map snd o) j in let want := prior + over po (option_map fst o) j + add in
  balance_theta e lay s (Fin po) (Fin h) (as_below o) (Fin prior) (Fin newm) (Fin t) (Fin z) (Fin add) (Fin aet) = Ok (th, a') ->
  exists dth dz y, layer_parts e dth dz lay ps p /\ lgar_theta_mass_balance e lay s (Fin h) (Fin new) (Fin want) (Fin aet) dth dz = Ok (y, a') /\ th = clamp_theta s y.
Proof.
  intros lay s q ks h po o prior newm t z add aet th a' Hl Eq Es V Hh Hpo Ho1 Ho2 j ps p new want E. unfold balance_theta in E. cbv zeta in E.
  destruct (masses_are lay po h o prior newm Hl Hpo Hh Ho1 Ho2) as (dth & dz & EM & L1 & L2 & A). rewrite EM in E. cbn [bind] in E.
  destruct (aset_in _ dth lay (Some (Fin t)) ltac:(lia)) as (dth' & A1 & L1'). rewrite A1 in E. cbn [bind] in E.
  destruct (aset_in _ dz lay (Some (Fin z)) ltac:(lia)) as (dz' & A2 & L2'). rewrite A2 in E. cbn [bind] in E.
  bind_inv E y EY. destruct y as [y ay]. apply Ok_inj in E. apply pair_equal_spec in E as [<- <-]. exists dth', dz', y. split; [|split; [exact EY|reflexivity]].
  assert (LJ : (j <= length qs)%nat) by (rewrite strata_n in Hl; unfold j; lia).
  split; [unfold ps, parts; rewrite map_length, firstn_length; lia|]. split.
  - intros i x Ei. unfold ps, parts in Ei. rewrite nth_error_map in Ei. fold j in Ei. destruct (nth_error (firstn j qs) i) as [q'|] eqn:E1; [|discriminate]. cbn in Ei. injection Ei as <-.
    assert (Hi : (i < j)%nat). { assert (i < length (firstn j qs))%nat by (apply nth_error_Some; congruence). rewrite firstn_length in H. lia. }
    assert (E2 : nth_error qs i = Some q'). { rewrite <- E1. symmetry. apply firstn_nth. assumption. }
    destruct (strata_soil _ _ E2) as (s' & k' & Es' & V'). exists s', k'. split; [exact Es'|]. split; [exact V'|]. destruct (A i q' Hi E2) as [Z1 Z2].
    rewrite (uget_aset _ _ _ _ (Z.of_nat (S i)) A1) by lia. rewrite (uget_aset _ _ _ _ (Z.of_nat (S i)) A2) by lia. destruct (Z.eqb_spec (Z.of_nat (S i)) lay); [lia|]. auto.
  - exists s, ks. split; [exact Es|]. split; [exact V|]. rewrite (uget_aset _ _ _ _ lay A1) by lia. rewrite (uget_aset _ _ _ _ lay A2) by lia. rewrite Z.eqb_refl. auto.
Qed.


(** *** What the front holds afterwards *)

Lemma curve_range : forall k q psi, (1 <= k)%Z -> nth_error qs (Z.to_nat (k - 1)) = Some q -> 0 <= psi -> pt_r q < pt_theta q psi <= pt_e q.
Proof. intros k q psi Hk E H. destruct (soil_at k q Hk E) as (s & ks & _ & V). destruct V. apply theta_range; assumption. Qed.

Lemma curve_mono : forall k q x y, (1 <= k)%Z -> nth_error qs (Z.to_nat (k - 1)) = Some q -> 0 <= x -> x <= y -> pt_theta q y <= pt_theta q x.
Proof.
  intros k q x y Hk E Hx Hy. destruct (soil_at k q Hk E) as (s & ks & _ & V). destruct V. destruct (Req_dec x y) as [->|NE]; [lra|]. unfold pt_theta, vg_theta.
  pose proof (Se_h_decreasing (pt_a q) (pt_n q) (pt_m q) x y ltac:(assumption) ltac:(lra) ltac:(lra) Hx ltac:(lra)) as Q.
  pose proof (Rmult_le_compat_l (pt_e q - pt_r q) _ _ ltac:(lra) (Rlt_le _ _ Q)). lra.
Qed.

Lemma curve_anti : forall k q x y, (1 <= k)%Z -> nth_error qs (Z.to_nat (k - 1)) = Some q -> 0 <= x -> 0 <= y -> pt_theta q y <= pt_theta q x -> x <= y.
Proof.
  intros k q x y Hk E Hx Hy H. destruct (Rle_dec x y) as [|N]; [assumption|]. exfalso. destruct (soil_at k q Hk E) as (s & ks & _ & V). destruct V. unfold pt_theta, vg_theta in H.
  pose proof (Se_h_decreasing (pt_a q) (pt_n q) (pt_m q) y x ltac:(assumption) ltac:(lra) ltac:(lra) Hy ltac:(lra)) as Q.
  pose proof (Rmult_lt_compat_l (pt_e q - pt_r q) _ _ ltac:(lra) Q). lra.
Qed.

Lemma curve_top : forall k q, (1 <= k)%Z -> nth_error qs (Z.to_nat (k - 1)) = Some q -> pt_theta q 0 = pt_e q.
Proof.
  intros k q Hk E. destruct (soil_at k q Hk E) as (s & ks & _ & V). destruct (retention_bounds _ _ _ _ _ _ _ 0 V ltac:(lra)) as (t & Et & _ & H & _).
  rewrite (theta_of_h_is _ _ _ _ _ _ _ _ V (Rle_refl 0)) in Et. injection Et as Et. unfold pt_theta. rewrite Et. apply H. reflexivity.
Qed.

Lemma clamp_curve : forall k q s ks psi, (1 <= k)%Z -> nth_error qs (Z.to_nat (k - 1)) = Some q -> vg_soil s (pt_r q) (pt_e q) (pt_a q) (pt_n q) (pt_m q) ks -> 0 <= psi ->
  clamp_theta s (Fin (pt_theta q psi)) = Fin (pt_theta q psi) /\ h_of_Se s (Se_of_theta s (Fin (pt_theta q psi))) = Fin psi.
Proof.
  intros k q s ks psi Hk E V H. pose proof (curve_range k q psi Hk E H) as R. split.
  - unfold clamp_theta. rewrite (vg_r _ _ _ _ _ _ _ V), (vg_e _ _ _ _ _ _ _ V), fmin_fin, fmax_fin. rewrite Rmin_left, Rmax_right by (rewrite ?Rmin_left; lra). reflexivity.
  - rewrite <- (h_inverse _ _ _ _ _ _ _ psi V H). rewrite (theta_of_h_is _ _ _ _ _ _ _ _ V H). reflexivity.
Qed.

Definition dry_result (got want a a' : R) : Prop := Rabs (got - want) <= tol /\ a' = a \/ tol < Rabs (got - want) /\ a' = a - (Rabs (got - want) - tol).

Lemma iterated : forall lay s q ks h po o prior newm t z add aet th a', (1 <= lay <= e_nlayers e)%Z -> nth_error qs (Z.to_nat (lay - 1)) = Some q ->
  soil_of e lay = Ok s -> vg_soil s (pt_r q) (pt_e q) (pt_a q) (pt_n q) (pt_m q) ks -> 0 <= h -> 0 <= po -> nonneg_o (option_map fst o) -> nonneg_o (option_map snd o) ->
  let j := Z.to_nat (lay - 1) in let full := fun psi => z * (pt_theta q psi - t) + over psi (option_map snd o) j in let want := prior + over po (option_map fst o) j + add in
  newm = z * (pt_theta q h - t) -> 0 <= z ->
  balance_theta e lay s (Fin po) (Fin h) (as_below o) (Fin prior) (Fin newm) (Fin t) (Fin z) (Fin add) (Fin aet) = Ok (th, a') ->
  exists h' av, th = Fin (pt_theta q h') /\ h_of_Se s (Se_of_theta s th) = Fin h' /\ 0 <= h' /\ a' = Fin av /\ settled full h want (full h') aet av /\
    (want <= full h -> h <= h' /\ dry_result (full h') want aet av).
Proof.
  intros lay s q ks h po o prior newm t z add aet th a' Hl Eq Es V Hh Hpo Ho1 Ho2 j full want Hnew Hz E.
  destruct (balance_theta_is lay s q ks h po o prior newm t z add aet th a' Hl Eq Es V Hh Hpo Ho1 Ho2 E) as (dth & dz & y & LP & EB & ->).
  set (ps := parts lay (option_map snd o)) in *. set (p := with_zt z t q) in *. fold j in EB.
  assert (HF : forall psi, held (p :: ps) psi = full psi) by (intro psi; apply over_held).
  assert (EN : newm + over h (option_map snd o) j = full h) by (unfold full; rewrite Hnew; reflexivity). rewrite EN in EB. fold want in EB.
  assert (HZ : Forall (fun x => 0 <= pt_z x) (p :: ps)).
  { constructor; [exact Hz|]. unfold ps, parts. apply Forall_forall. intros x Hx. apply in_map_iff in Hx as (x0 & <- & Hx). cbn.
    assert (In x0 qs) by (rewrite <- (firstn_skipn (Z.to_nat (lay - 1)) qs); apply in_or_app; left; exact Hx). apply In_nth_error in H as [i Hi]. pose proof (strata_pos _ _ Hi). lra. }
  assert (DRY : want <= full h -> exists psi, h <= psi /\ y = Fin (pt_theta q psi) /\ exists av, a' = Fin av /\ dry_result (full psi) want aet av).
  { intro W. rewrite <- (HF h) in EB, W. destruct (drying_never_wets _ _ _ _ _ _ _ _ _ _ _ _ _ LP Es HZ Hh W EB) as (psi & P1 & P2 & _ & P3). exists psi. split; [assumption|]. split; [exact P2|].
    rewrite HF in P3. destruct P3 as [[P3 ->]|[P3 ->]]; eexists; (split; [reflexivity|]); [left|right]; auto. }
  pose proof (balance_spec _ _ _ _ _ _ _ _ _ _ _ _ _ _ LP Es Hh EB) as BA.
  assert (ON : forall psi av, y = Fin (pt_theta q psi) -> 0 <= psi -> a' = Fin av -> settled full h want (full psi) aet av ->
    exists h' av, clamp_theta s y = Fin (pt_theta q h') /\ h_of_Se s (Se_of_theta s (clamp_theta s y)) = Fin h' /\ 0 <= h' /\ a' = Fin av /\ settled full h want (full h') aet av /\
    (want <= full h -> h <= h' /\ dry_result (full h') want aet av)).
  { intros psi av -> Hp -> ST. destruct (clamp_curve lay q s ks psi ltac:(lia) Eq V Hp) as [K1 K2]. exists psi, av. rewrite K1. do 4 (split; [(reflexivity || assumption)|]). split; [exact ST|].
    intro W. destruct (DRY W) as (psi2 & P1 & P2 & av2 & P3 & P4). injection P2 as P2. injection P3 as P3. subst av2.
    assert (psi2 = psi). { apply Rle_antisym; eapply (curve_anti lay q); try eassumption; try lia; lra. } subst psi2. auto. }
  remember y as y' eqn:Ey in BA. remember a' as a1 eqn:Ea in BA. destruct BA as [C|psi Hp C|psi Hp C|psi psi1 Hp C Hp1 C1|t' a2 ND C C2].
  - apply (ON h aet); auto. apply set_met. assumption.
  - rewrite HF in C. apply (ON psi aet); auto. apply set_met. assumption.
  - rewrite HF in C, Ea. eapply ON; eauto. apply set_booked. assumption.
  - rewrite HF in C1. apply (ON psi aet); auto. apply (set_overfull _ _ _ _ _ psi1); [assumption|]. destruct C1 as [C1|[-> C1]]; assumption.
  - subst y a'. destruct (clamp_above _ _ _ _ _ _ _ z _ V ND) as (x & Ex & Hx). destruct (vg_root _ _ _ _ _ _ _ x V Hx) as (h' & Hh' & Eh & Et).
    rewrite (theta_of_h_is _ _ _ _ _ _ _ _ V Hh') in Et. fold (pt_theta q h') in Et. injection Et as Et.
    assert (FU : full 0 <= want) by (rewrite HF in C; destruct C as [C|[-> C]]; assumption).
    assert (GE : full h' <= full 0) by (rewrite <- !HF; apply (held_mono e lay dth dz ps p LP HZ); lra).
    exists h', (val a2). rewrite Ex, Et. rewrite Et in Eh. split; [reflexivity|]. split; [exact Eh|]. split; [assumption|]. split; [destruct C2; subst; reflexivity|].
    split; [apply set_saturated; [assumption|lra|destruct C2; subst; auto]|].
    intro W. destruct (DRY W) as (psi2 & P1 & -> & av2 & -> & P4).
    destruct (clamp_curve lay q s ks psi2 ltac:(lia) Eq V ltac:(lra)) as [K1 K2]. rewrite K1 in Ex. injection Ex as <-.
    assert (psi2 = h'). { apply Rle_antisym; eapply (curve_anti lay q); try eassumption; try lia; lra. } subst psi2. auto.
Qed.

End Column.
