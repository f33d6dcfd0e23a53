(** A pass and a motion in a column with one resting front per layer, all at one head. *)

From Coq Require Import Reals Lra ZArith List Bool Lia.
From Verif Require Import Outcome Dbl Exact Types ListOps Soil Fronts Infil Move Lib Spec_Common Spec_List Spec_Soil Spec_Update Spec_Profile Spec_Column Spec_Storage Spec_Balance Spec_Advance Spec_Shares Spec_Motion Spec_Upright Spec_Meet Spec_Rest
  Pf_Dbl Pf_Pow Pf_Soil Pf_List Pf_Profile Pf_Structure Pf_SafeMove Pf_Storage Pf_Column Pf_Layers Pf_Balance Pf_Single Pf_SingleMerge Pf_Advance Pf_Shares Pf_Books Pf_Cross Pf_Motion Ex_Motion.
Import ListNotations.
Open Scope R_scope.
Local Existing Instance exact.

Section Column.
Context {cfg : Cfg}.
Variables (e : env) (qs : list part).
Hypothesis HQ : strata e qs.

Definition hs_front (h : R) (i : nat) (f : front) : Prop :=
  exists q, nth_error qs i = Some q /\ f_layer f = Z.of_nat (S i) /\ f_bottom f = true /\ f_dzdt f = Fin 0 /\
    f_depth f = Fin (top_of qs (Z.of_nat (S i)) + pt_z q) /\ f_psi f = Fin h /\ f_theta f = Fin (pt_theta q h).

Lemma hs_iff : forall h l, hydrostatic qs h l <-> 0 <= h /\ length l = length qs /\ forall i f, nth_error l i = Some f -> hs_front h i f.
Proof.
  intros h l. split.
  - intros [H0 H1 H2]. split; [assumption|]. split; [assumption|]. intros i f E. destruct (nth_error qs i) as [q|] eqn:Eq.
    + exists q. split; [exact Eq|]. apply H2; assumption.
    + apply nth_error_None in Eq. assert (i < length l)%nat by (apply nth_error_Some; congruence). lia.
  - intros (H0 & H1 & H2). split; [assumption|assumption|]. intros i f q E Eq. destruct (H2 i f E) as (q' & Eq' & R). rewrite Eq in Eq'. injection Eq' as <-. exact R.
Qed.

Lemma hs_differ : forall h l, hydrostatic qs h l -> forall i f g, nth_error l i = Some f -> nth_error l (S i) = Some g -> f_layer f <> f_layer g.
Proof. intros h l H i f g E E'. apply hs_iff in H as (_ & _ & H). destruct (H _ _ E) as (q & _ & L & _). destruct (H _ _ E') as (q' & _ & L' & _). rewrite L, L'. lia. Qed.

Lemma fd_end : forall l w, (forall i f g, nth_error l i = Some f -> nth_error l (S i) = Some g -> f_layer f <> f_layer g) -> l <> [] -> free_drainage_loop l w = (w + Z.of_nat (length l) - 1)%Z.
Proof.
  induction l as [|c r IH]; intros w H Hl; [contradiction|]. destruct r as [|n r]; [cbn; lia|]. change (free_drainage_loop (c :: n :: r) w) with (if (f_layer c =? f_layer n)%Z then w else free_drainage_loop (n :: r) (w + 1)%Z).
  destruct (Z.eqb_spec (f_layer c) (f_layer n)) as [E|_]; [exfalso; exact (H 0%nat c n eq_refl eq_refl E)|].
  rewrite IH; [cbn [length]; lia| |discriminate]. intros i. exact (H (S i)).
Qed.
Lemma hs_nonempty : forall h l, hydrostatic qs h l -> l <> [].
Proof. intros h l H. destruct HQ as [NE _]. pose proof (hs_one _ _ _ H). destruct l; [destruct qs; [contradiction|discriminate]|discriminate]. Qed.
Lemma hs_n : forall h l, hydrostatic qs h l -> e_nlayers e = Z.of_nat (length l).
Proof. intros h l H. rewrite (hs_one _ _ _ H). apply (strata_n e qs HQ). Qed.
Lemma hs_wfd : forall h l, hydrostatic qs h l -> wetting_front_free_drainage l = listLength l.
Proof.
  intros h l H. unfold wetting_front_free_drainage. cbv zeta. rewrite (fd_end l 1 (hs_differ h l H) (hs_nonempty h l H)). unfold listLength.
  replace (1 + Z.of_nat (length l) - 1)%Z with (Z.of_nat (length l)) by lia. destruct (Z.gtb_spec (Z.of_nat (length l)) (Z.of_nat (length l))); [lia|reflexivity].
Qed.

(** ** The water in the column *)
Lemma top_end : forall i q, nth_error qs i = Some q -> top_of qs (Z.of_nat (S i)) + pt_z q = top_of qs (Z.of_nat (S (S i))).
Proof.
  intros i q E. unfold top_of. replace (Z.to_nat (Z.of_nat (S i) - 1)) with i by lia. replace (Z.to_nat (Z.of_nat (S (S i)) - 1)) with (S i) by lia.
  rewrite (firstn_snoc _ _ _ _ E), map_app, Rsum_app. cbn [map Rsum]. ring.
Qed.

Lemma hs_slabs : forall h l k, (forall i f, nth_error l i = Some f -> hs_front h (k + i) f) -> length l = length (skipn k qs) ->
  slabs (top_of qs (Z.of_nat (S k))) l = Rsum (map (fun q => pt_z q * pt_theta q h) (skipn k qs)).
Proof.
  intros h. induction l as [|f r IH]; intros k H L.
  - destruct (skipn k qs); [reflexivity|discriminate].
  - destruct (H 0%nat f eq_refl) as (q & Eq & _ & _ & _ & D & _ & T). replace (k + 0)%nat with k in * by lia.
    assert (SK : skipn k qs = q :: skipn (S k) qs). { clear - Eq. revert k Eq. induction qs as [|x l IH]; intros [|k] E; try discriminate; cbn in *; [congruence|apply IH; assumption]. }
    rewrite SK in *. cbn [length] in L. cbn [slabs map Rsum]. rewrite D, T. cbn [val]. rewrite (top_end k q Eq). rewrite (IH (S k)); [|intros i g E; replace (S k + i)%nat with (k + S i)%nat by lia; exact (H (S i) g E)|lia].
    rewrite <- (top_end k q Eq). ring.
Qed.
Lemma hs_storage : forall h l, hydrostatic qs h l -> storage l = column_water qs h.
Proof.
  intros h l H. apply hs_iff in H as (_ & L & H). unfold storage, column_water. replace 0 with (top_of qs (Z.of_nat 1)) by reflexivity. apply (hs_slabs h l 0); assumption.
Qed.
Lemma water_mono : forall x y, 0 <= x -> x <= y -> column_water qs y <= column_water qs x.
Proof.
  intros x y Hx Hy. unfold column_water. assert (F : Forall (fun q => pt_z q * pt_theta q y <= pt_z q * pt_theta q x) qs).
  { apply Forall_forall. intros q Hq. apply In_nth_error in Hq as [i Hi]. pose proof (strata_pos e qs HQ _ _ Hi). apply Rmult_le_compat_l; [lra|].
    eapply (curve_mono e qs HQ (Z.of_nat (S i)) q); [lia| |assumption|assumption]. rewrite <- Hi. f_equal. lia. }
  revert F. generalize qs as l. induction 1; cbn [map Rsum]; lra.
Qed.
Lemma water_split : forall h n q, length qs = S n -> nth_error qs n = Some q -> column_water qs h = pt_z q * pt_theta q h + over qs h None n.
Proof.
  intros h n q L E. unfold column_water, over. assert (Q : qs = firstn n qs ++ [q]).
  { rewrite <- (firstn_skipn n qs) at 1. f_equal. clear - L E. revert n L E. induction qs as [|x l IH]; intros [|n] L E; try discriminate; cbn in *.
    - destruct l; [congruence|discriminate].
    - apply IH; [lia|assumption]. }
  rewrite Q at 1. rewrite map_app, Rsum_app. cbn [map Rsum under].
  replace (map (fun x => pt_z x * (pt_theta x h - 0)) (firstn n qs)) with (map (fun x => pt_z x * pt_theta x h) (firstn n qs)) by (apply map_ext; intro; ring). ring.
Qed.

(** ** The pass *)
Definition settle (h : R) (q : part) (f : front) : front := set_psi (set_theta f (Fin (pt_theta q h))) (Fin h).
Lemma settle_front : forall h h' i q f, hs_front h i f -> nth_error qs i = Some q -> hs_front h' i (settle h' q f).
Proof. intros h h' i q f (q' & Eq & L & B & V & D & _ & _) E. rewrite Eq in E. injection E as ->. exists q. repeat split; assumption. Qed.
Lemma settle_same : forall h i q f, hs_front h i f -> nth_error qs i = Some q -> settle h q f = f.
Proof. intros h i q f (q' & Eq & L & B & V & D & P & T) E. rewrite Eq in E. injection E as ->. destruct f. cbn in *. subst. reflexivity. Qed.
Lemma settle_str : forall h q f l i, Str e l -> nth_error l i = Some f -> Str e (lset l i (settle h q f)).
Proof. intros h q f l i H E. eapply Str_lset; [exact E| |exact H]. repeat split. Qed.

(** The deepest front. *)
Lemma last_one : forall dt vin w h l prev c q a, finite dt -> hydrostatic qs h l -> Str e l -> hydrostatic qs h prev -> Str e prev -> length l = S w -> nth_error l w = Some c -> nth_error qs w = Some q ->
  exists s ks z, soil_of e (Z.of_nat (S w)) = Ok s /\ vg_soil s (pt_r q) (pt_e q) (pt_a q) (pt_n q) (pt_m q) ks /\ z = pt_z q /\
  move_one e dt (Fin vin) (listLength l) prev (listLength l) (Z.of_nat (S w)) l (Fin a) =
    ('(th, a') <- balance_theta e (Z.of_nat (S w)) s (Fin h) (Fin h) None (Fin (z * (pt_theta q h - 0))) (Fin (z * (pt_theta q h - 0))) (Fin 0) (Fin z) (Fin (vin - a)) (Fin a) ;;
     Ok (lset l w (set_psi (set_theta c th) (h_of_Se s (Se_of_theta s th))), a')).
Proof.
  intros dt vin w h l prev c q a (t & ->) HH H HP HPS HL Ec Eq. assert (HH' := HH). assert (HP' := HP). apply hs_iff in HH' as (H0 & LQ & HF). apply hs_iff in HP' as (_ & LP & HFP).
  destruct (HF _ _ Ec) as (q0 & Eq0 & Lc & Bc & Vc & Dc & Pc & Tc). rewrite Eq in Eq0. injection Eq0 as <-.
  destruct (nth_error prev w) as [o|] eqn:Eo; [|apply nth_error_None in Eo; lia]. destruct (HFP _ _ Eo) as (q0 & Eq0 & _ & _ & _ & Do & Po & To). rewrite Eq in Eq0. injection Eq0 as <-.
  assert (Hne : l <> []) by (destruct l; discriminate).
  destruct (soil_at e qs HQ (Z.of_nat (S w)) q ltac:(lia)) as (s & ks & Es & V). { rewrite <- Eq. f_equal. lia. }
  exists s, ks, (pt_z q). split; [exact Es|]. split; [exact V|]. split; [reflexivity|].
  unfold move_one, listLength. rewrite (find_num l w (st_num _ _ H)) by lia. rewrite (find_old l prev w Hne (st_num _ _ HPS)) by lia.
  destruct (findFrontOld (Z.of_nat (S w) + 1) l prev) as [lno pno]. cbv zeta. rewrite (proj2 (lget_Ok _ _ _) Ec). cbn [bind]. rewrite Lc, Es. cbn [bind].
  assert (G : exists c0, (if (Z.of_nat (S w) =? 1)%Z then Ok c else pget l (findFront (Z.of_nat (S w) - 1) l)) = Ok c0).
  { destruct (Z.eqb_spec (Z.of_nat (S w)) 1); [eauto|]. destruct w as [|w]; [lia|].
    replace (Z.of_nat (S (S w)) - 1)%Z with (Z.of_nat (S w)) by lia. rewrite (find_num l w (st_num _ _ H)) by lia. cbn [pget].
    destruct (nth_error l w) as [d|] eqn:Ed; [|apply nth_error_None in Ed; lia]. exists d. apply lget_Ok. assumption. }
  destruct G as [c0 G]. rewrite G. cbn [bind]. rewrite HL, Z.eqb_refl. cbn [bind]. rewrite Z.ltb_irrefl. cbn [andb].
  destruct (Z.eqb_spec (Z.of_nat (S w) + 1) (Z.of_nat (S w))); [lia|]. cbn [negb andb].
  rewrite (hs_n h l HH), HL, Z.eqb_refl. cbn [pget]. rewrite (proj2 (lget_Ok _ _ _) Eo). cbn [bind].
  rewrite (strata_cum e qs HQ) by (rewrite (hs_n h l HH); lia). cbn [bind].
  cbn [f_depth f_theta f_psi set_depth]. rewrite Vc, Dc, Pc, Tc, Do, Po, To.
  assert (DN : (Fin (top_of qs (Z.of_nat (S w)) + pt_z q) + Fin 0 * Fin t)%d = Fin (top_of qs (Z.of_nat (S w)) + pt_z q)) by (cbn; f_equal; ring). rewrite DN.
  assert (DZ : (Fin (top_of qs (Z.of_nat (S w)) + pt_z q) - Fin (top_of qs (Z.of_nat (S w))))%d = Fin (pt_z q)) by (cbn; f_equal; ring). rewrite DZ.
  assert (WA : water_added (Z.of_nat (S w)) (Z.of_nat (S w)) (Fin vin) (Fin a) = Fin (vin - a)) by (unfold water_added; rewrite Z.eqb_refl; cbn; f_equal; ring). rewrite WA.
  assert (SD : set_depth c (Fin (top_of qs (Z.of_nat (S w)) + pt_z q)) = c) by (destruct c; cbn in *; subst; reflexivity). rewrite SD. reflexivity.
Qed.

Lemma balance_done : forall lay s q ks h z a x, (1 <= lay <= e_nlayers e)%Z -> nth_error qs (Z.to_nat (lay - 1)) = Some q -> soil_of e lay = Ok s -> vg_soil s (pt_r q) (pt_e q) (pt_a q) (pt_n q) (pt_m q) ks -> 0 <= h ->
  balance_theta e lay s (Fin h) (Fin h) None (Fin x) (Fin x) (Fin 0) (Fin z) (Fin 0) (Fin a) = Ok (Fin (pt_theta q h), Fin a).
Proof.
  intros lay s q ks h z a x Hl Eq Es V Hh. unfold balance_theta. cbv zeta. destruct (masses_are e qs HQ lay h h None x x Hl Hh Hh Logic.I Logic.I) as (dth & dz & EM & L1 & L2 & _). cbn [as_below] in EM. rewrite EM. cbn [bind].
  destruct (aset_in _ dth lay (Some (Fin 0)) ltac:(lia)) as (dth' & A1 & _). rewrite A1. cbn [bind]. destruct (aset_in _ dz lay (Some (Fin z)) ltac:(lia)) as (dz' & A2 & _). rewrite A2. cbn [bind].
  assert (TM : lgar_theta_mass_balance e lay s (Fin h) (Fin (x + over qs h (option_map snd (@None (R * R))) (Z.to_nat (lay - 1)))) (Fin (x + over qs h (option_map fst (@None (R * R))) (Z.to_nat (lay - 1))) + Fin 0) (Fin a) dth' dz' = Ok (theta_of_h s (Fin h), Fin a)).
  { unfold lgar_theta_mass_balance. cbv zeta. cbn [option_map]. set (y := x + over qs h None (Z.to_nat (lay - 1))).
    assert (DL : dabs (Fin y - (Fin y + Fin 0))%d = Fin 0). { cbn. f_equal. replace (y - (y + 0)) with 0 by ring. apply Rabs_R0. } rewrite DL.
    unfold tmb_tol. change (@lit exact (1 / 1000000000000)) with (Fin (1 / 1000000000000)). rewrite leb_t by lra. reflexivity. }
  rewrite TM. cbn [bind]. rewrite (theta_of_h_is _ _ _ _ _ _ _ _ V Hh). fold (pt_theta q h). rewrite (proj1 (clamp_curve e qs HQ lay q s ks h ltac:(lia) Eq V Hh)). reflexivity.
Qed.

(** The fronts above it take its head. *)
Lemma upper_loop : forall dt vin wfd h h' prev k l a, 0 <= h' -> Str e l -> length l = length qs -> (k < length l)%nat -> prev <> [] ->
  (forall i f, (i < k)%nat -> nth_error l i = Some f -> hs_front h i f) -> (forall i f, (k <= i)%nat -> nth_error l i = Some f -> hs_front h' i f) ->
  exists l', move_loop k e dt vin wfd prev (listLength l) l a = Ok (l', a) /\ length l' = length l /\ Str e l' /\ (forall i f, nth_error l' i = Some f -> hs_front h' i f) /\
    (h = h' -> l' = l) /\ map f_K l' = map f_K l.
Proof.
  intros dt vin wfd h h' prev. induction k as [|w IH]; intros l a Hh H LQ Hk NP HA HB.
  - exists l. split; [reflexivity|]. split; [reflexivity|]. split; [assumption|]. split; [intros i f; apply HB; lia|]. auto.
  - cbn [move_loop]. destruct (nth_error l w) as [c|] eqn:Ec; [|apply nth_error_None in Ec; lia]. destruct (nth_error l (S w)) as [n|] eqn:En; [|apply nth_error_None in En; lia].
    destruct (HA w c ltac:(lia) Ec) as (q & Eq & Lc & Bc & Vc & Dc & Pc & Tc). destruct (HB (S w) n ltac:(lia) En) as (qn & Eqn & Ln & Bn & Vn & Dn & Pn & Tn).
    destruct (soil_at e qs HQ (Z.of_nat (S w)) q ltac:(lia)) as (s & ks & Es & V). { rewrite <- Eq. f_equal. lia. }
    assert (Hne : l <> []) by (destruct l; [discriminate En|discriminate]).
    assert (MO : move_one e dt vin wfd prev (listLength l) (Z.of_nat (S w)) l a = Ok (lset l w (settle h' q c), a)).
    { unfold move_one, listLength. rewrite (find_num l w (st_num _ _ H)) by lia.
      destruct (findFrontOld (Z.of_nat (S w)) l prev) as [lo po]. destruct (findFrontOld (Z.of_nat (S w) + 1) l prev) as [lno pno]. cbv zeta.
      rewrite (proj2 (lget_Ok _ _ _) Ec). cbn [bind]. rewrite Lc, Es. cbn [bind].
      assert (G : exists c0, (if (Z.of_nat (S w) =? 1)%Z then Ok c else pget l (findFront (Z.of_nat (S w) - 1) l)) = Ok c0).
      { destruct (Z.eqb_spec (Z.of_nat (S w)) 1); [eauto|]. destruct w as [|w]; [lia|].
        replace (Z.of_nat (S (S w)) - 1)%Z with (Z.of_nat (S w)) by lia. rewrite (find_num l w (st_num _ _ H)) by lia. cbn [pget].
        destruct (nth_error l w) as [d|] eqn:Ed; [|apply nth_error_None in Ed; lia]. exists d. apply lget_Ok. assumption. }
      destruct G as [c0 G]. rewrite G. cbn [bind].
      destruct (Z.eqb_spec (Z.of_nat (S w)) (Z.of_nat (length l))) as [Hlast|Hnl]; [lia|].
      assert (Hlt : (Z.of_nat (S w) <? Z.of_nat (length l))%Z = true) by (apply Z.ltb_lt; lia).
      replace (Z.of_nat (S w) + 1)%Z with (Z.of_nat (S (S w))) in * by lia.
      rewrite Hlt, orb_true_r. rewrite (find_num l (S w) (st_num _ _ H)) by lia. cbn [pget]. rewrite (proj2 (lget_Ok _ _ _) En). cbn [bind andb].
      rewrite Ln. destruct (Z.eqb_spec (Z.of_nat (S (S w))) (Z.of_nat (S w))); [lia|]. cbn [negb]. rewrite Pn, (theta_of_h_is _ _ _ _ _ _ _ _ V Hh). reflexivity. }
    rewrite MO. cbn [bind].
    assert (LL : length (lset l w (settle h' q c)) = length l) by apply lset_length.
    assert (NT : forall i f, nth_error (lset l w (settle h' q c)) i = Some f -> (i = w /\ f = settle h' q c) \/ (i <> w /\ nth_error l i = Some f)).
    { intros i f E. destruct (Nat.eq_dec i w) as [->|N]; [left; rewrite nth_error_lset_eq in E by lia; split; [reflexivity|congruence]|right; split; [assumption|rewrite nth_error_lset_neq in E by auto; assumption]]. }
    replace (listLength l) with (listLength (lset l w (settle h' q c))) by (unfold listLength; congruence).
    destruct (IH (lset l w (settle h' q c)) a Hh) as (l' & E & L' & S' & F' & I' & K'); [apply settle_str; assumption|congruence|lia|assumption| | |].
    + intros i f Hi E. destruct (NT i f E) as [[-> _]|[N E']]; [lia|apply HA; [lia|assumption]].
    + intros i f Hi E. destruct (NT i f E) as [[-> ->]|[N E']]; [apply (settle_front h); [apply HA; [lia|assumption]|assumption]|apply HB; [lia|assumption]].
    + exists l'. split; [exact E|]. split; [congruence|]. split; [assumption|]. split; [assumption|]. split.
      * intros ->. rewrite I' by reflexivity. rewrite (settle_same h' w q c); [apply lset_id; assumption|apply HA; [lia|assumption]|assumption].
      * rewrite K'. clear - Ec. revert w Ec. induction l as [|x r IH]; intros [|w] Ec; try discriminate; cbn in *; [injection Ec as ->; reflexivity|f_equal; apply IH; assumption].
Qed.

Lemma pass_rest : forall dt vin h l a, finite dt -> hydrostatic qs h l -> Str e l -> vin <= a ->
  match move_loop (length l) e dt (Fin vin) (listLength l) l (listLength l) l (Fin a) with
  | Ok (l', a') => exists h' av, h <= h' /\ a' = Fin av /\ Str e l' /\ hydrostatic qs h' l' /\ dry_result (column_water qs h') (column_water qs h + (vin - a)) a av /\ (h = h' -> l' = l) /\
                     map f_K l' = map f_K l
  | Stop r => r = OutOfFuel
  end /\ (vin = a -> move_loop (length l) e dt (Fin vin) (listLength l) l (listLength l) l (Fin a) = Ok (l, Fin a)).
Proof.
  intros dt vin h l a Hdt HH H Hva. assert (HH' := HH). apply hs_iff in HH' as (H0 & LQ & HF). assert (Hne := hs_nonempty h l HH).
  destruct (length l) as [|w] eqn:HL; [destruct l; [contradiction|discriminate]|]. cbn [move_loop].
  destruct (nth_error l w) as [c|] eqn:Ec; [|apply nth_error_None in Ec; lia]. destruct (nth_error qs w) as [q|] eqn:Eq; [|apply nth_error_None in Eq; lia].
  destruct (last_one dt vin w h l l c q a Hdt HH H HH H HL Ec Eq) as (s & ks & z & Es & V & -> & EM). rewrite EM. set (x := pt_z q * (pt_theta q h - 0)) in *.
  assert (Rw : (1 <= Z.of_nat (S w) <= e_nlayers e)%Z) by (rewrite (hs_n h l HH); lia).
  assert (Eq' : nth_error qs (Z.to_nat (Z.of_nat (S w) - 1)) = Some q) by (rewrite <- Eq; f_equal; lia).
  assert (GO : forall h' av, h <= h' -> exists l', move_loop w e dt (Fin vin) (listLength l) l (listLength l) (lset l w (settle h' q c)) av = Ok (l', av) /\ Str e l' /\ hydrostatic qs h' l' /\ (h = h' -> l' = l) /\ map f_K l' = map f_K l).
  { intros h' av Hh. assert (LL : length (lset l w (settle h' q c)) = length l) by apply lset_length.
    destruct (upper_loop dt (Fin vin) (listLength l) h h' l w (lset l w (settle h' q c)) av ltac:(lra) (settle_str _ _ _ _ _ H Ec) ltac:(congruence) ltac:(lia) Hne) as (l' & E & L' & S' & F' & I' & K').
    - intros i f Hi E. rewrite nth_error_lset_neq in E by lia. apply HF. assumption.
    - intros i f Hi E. destruct (Nat.eq_dec i w) as [->|N]; [rewrite nth_error_lset_eq in E by lia; injection E as <-; apply (settle_front h); [apply HF; assumption|assumption]|].
      assert (i < length l)%nat by (rewrite <- LL; apply nth_error_Some; congruence). lia.
    - exists l'. replace (listLength (lset l w (settle h' q c))) with (listLength l) in E by (unfold listLength; congruence). split; [exact E|]. split; [assumption|]. split; [apply hs_iff; split; [lra|split; [congruence|assumption]]|]. split.
      + intros ->. rewrite I' by reflexivity. rewrite (settle_same h' w q c (HF _ _ Ec) Eq). apply lset_id. assumption.
      + rewrite K'. clear - Ec. revert w Ec. induction l as [|y r IH]; intros [|w] Ec; try discriminate; cbn in *; [injection Ec as ->; reflexivity|f_equal; apply IH; assumption]. }
  split.
  - destruct (balance_theta _ _ _ _ _ _ _ _ _ _ _ _) as [[th a1]|r] eqn:EB.
    + cbn [bind]. destruct (iterated e qs HQ (Z.of_nat (S w)) s q ks h h None x x 0 (pt_z q) (vin - a) a th a1 Rw Eq' Es V H0 H0 Logic.I Logic.I eq_refl ltac:(pose proof (strata_pos e qs HQ _ _ Eq); lra) EB)
        as (h' & av & -> & Eh' & Hh' & -> & _ & DRY).
      cbn [option_map] in DRY. destruct DRY as [D1 D2]; [unfold x; lra|]. rewrite Eh'. fold (settle h' q c). destruct (GO h' (Fin av) D1) as (l' & E & S' & H' & I' & K'). rewrite E. exists h', av.
      split; [assumption|]. split; [reflexivity|]. split; [assumption|]. split; [assumption|]. split; [|auto].
      rewrite !(water_split _ w q (eq_sym LQ) Eq). replace (Z.to_nat (Z.of_nat (S w) - 1)) with w in D2 by lia. unfold x in D2.
      replace (pt_z q * (pt_theta q h' - 0)) with (pt_z q * pt_theta q h') in D2 by ring. replace (pt_z q * (pt_theta q h - 0) + over qs h None w + (vin - a)) with (pt_z q * pt_theta q h + over qs h None w + (vin - a)) in D2 by ring. exact D2.
    + cbn [bind]. pose proof (balance_ok e (Z.of_nat (S w)) s (Fin h) (Fin h) None (Fin x) (Fin x) (Fin 0) (Fin (pt_z q)) (Fin (vin - a)) (Fin a) (strata_env e qs HQ) Rw) as K. rewrite EB in K. exact K.
  - intros ->. replace (Fin (a - a)) with (Fin 0) by (f_equal; ring). rewrite (balance_done (Z.of_nat (S w)) s q ks h (pt_z q) a x Rw Eq' Es V H0). cbn [bind].
    rewrite (proj2 (clamp_curve e qs HQ (Z.of_nat (S w)) q s ks h ltac:(lia) Eq' V H0)). fold (settle h q c). destruct (GO h (Fin a) (Rle_refl h)) as (l' & E & _ & _ & I' & _). rewrite E, I' by reflexivity. reflexivity.
Qed.

(** ** The stages after the pass *)
Lemma hs_cum : forall h i f, (i < length qs)%nat -> hs_front h i f -> aget (e_cum e) (f_layer f) = Ok (f_depth f).
Proof.
  intros h i f Hi (q & Eq & L & _ & _ & D & _). rewrite L, D, (top_end i q Eq). rewrite <- (strata_cum e qs HQ (Z.of_nat (S (S i)))); [f_equal; lia|]. rewrite (strata_n e qs HQ). lia.
Qed.
Lemma hs_measured : forall h l, hydrostatic qs h l -> measured l.
Proof. intros h l H. apply hs_iff in H as (_ & _ & H). apply Forall_forall. intros f Hf. apply In_nth_error in Hf as [i Hi]. destruct (H i f Hi) as (q & _ & _ & _ & _ & D & _ & T). split; eexists; eassumption. Qed.
Lemma hs_inside : forall h l, hydrostatic qs h l -> in_layers e l.
Proof.
  intros h l H. apply hs_iff in H as (_ & L & H). apply Forall_forall. intros f Hf. apply In_nth_error in Hf as [i Hi]. assert (i < length l)%nat by (apply nth_error_Some; congruence).
  pose proof (H i f Hi) as F. pose proof (hs_cum h i f ltac:(lia) F) as C. destruct F as (q & _ & _ & _ & _ & D & _). rewrite D in C |- *. eexists. split; [exact C|]. cbn. lra.
Qed.
Lemma hs_upright : forall h l, hydrostatic qs h l -> ~ inverted l.
Proof. intros h l H (i & f & g & E1 & E2 & EL & _). exact (hs_differ h l H i f g E1 E2 EL). Qed.

Lemma merge_rest : forall l, (forall i f g, nth_error l i = Some f -> nth_error l (S i) = Some g -> f_layer f <> f_layer g) -> l <> [] -> lgar_merge_wetting_fronts e l = Ok l.
Proof.
  intros l H NE. unfold lgar_merge_wetting_fronts. assert (G : forall k p, (length l - p <= k)%nat -> (p < length l)%nat -> merge_loop k e p l = Ok l).
  { induction k as [|k IH]; intros p K Hp; [lia|]. cbn [merge_loop]. unfold listLength. destruct (Z.eqb_spec (Z.of_nat (S p)) (Z.of_nat (length l))); [reflexivity|].
    assert (MS : merge_step e p l = Ok l).
    { unfold merge_step. destruct (nth_error l p) as [c|] eqn:Ec; [|apply nth_error_None in Ec; lia]. destruct (nth_error l (S p)) as [n0|] eqn:En; [|apply nth_error_None in En; lia].
      rewrite (proj2 (lget_Ok _ _ _) Ec), (proj2 (lget_Ok _ _ _) En). cbn [bind]. destruct (Z.eqb_spec (f_layer c) (f_layer n0)) as [Q|_]; [exfalso; exact (H p c n0 Ec En Q)|]. rewrite andb_false_r. reflexivity. }
    rewrite MS. cbn [bind]. apply IH; lia. }
  apply G; [lia|]. destruct l; [contradiction|cbn; lia].
Qed.

Lemma domain_rest : forall h l bed, hydrostatic qs h l -> aget (e_cum e) (e_nlayers e) = Ok bed -> lgar_wetting_front_cross_domain_boundary e bed l = Ok (Fin 0, l).
Proof.
  intros h l bed H EB. unfold lgar_wetting_front_cross_domain_boundary. pose proof (hs_nonempty h l H) as NE. assert (HH := H). apply hs_iff in HH as (_ & L & HF).
  assert (G : forall k p, domain_loop k e bed p l = Ok (Fin 0, l)).
  { induction k as [|k IH]; intro p; [reflexivity|]. cbn [domain_loop]. unfold listLength. destruct (Z.geb_spec (Z.of_nat (S p)) (Z.of_nat (length l))) as [_|Hp]; [reflexivity|].
    destruct (nth_error l p) as [c|] eqn:Ec; [|apply nth_error_None in Ec; lia]. destruct (nth_error l (S p)) as [n|] eqn:En; [|apply nth_error_None in En; lia].
    rewrite (proj2 (lget_Ok _ _ _) Ec), (proj2 (lget_Ok _ _ _) En). cbn [bind]. destruct (HF p c Ec) as (q & Eq & Lc & _ & _ & Dc & _). destruct (HF (S p) n En) as (qn & Eqn & Ln & _ & _ & Dn & _).
    destruct (soil_at e qs HQ (Z.of_nat (S p)) q ltac:(lia)) as (s & ks & Es & V). { rewrite <- Eq. f_equal. lia. }
    destruct (env_stype e _ s Es) as (t & Et & _). rewrite Lc, Et. cbn [bind]. destruct (nth_error l (S (S p))) as [nn|] eqn:Enn; [apply IH|].
    apply nth_error_None in Enn. assert (EL : length l = S (S p)) by lia. rewrite (hs_n h l H), EL in EB.
    pose proof (hs_cum h (S p) n ltac:(lia) (HF _ _ En)) as C. rewrite Ln, EB in C. apply Ok_inj in C. pose proof (strata_pos e qs HQ _ _ Eqn).
    assert (GE : (f_depth c >=? bed)%d = false). { rewrite C, Dc, Dn, (top_end p q Eq). unfold dgeb. apply leb_f. lra. }
    rewrite GE. apply IH. }
  destruct l; [contradiction|]. apply G.
Qed.

Lemma pinned_loop : forall p l f m t, nth_error l p = Some f -> f_bottom f = true -> f_layer f = e_nlayers e -> aget (e_cum e) (e_nlayers e) = Ok (f_depth f) -> lgar_calc_mass_bal (e_cum e) l = Ok (Fin m) ->
  forall k fac d sw au it, exists b, closure_loop k e p (Fin t) l (Fin m) (Fin (Rabs (m - t))) fac d sw au it = Ok (l, Fin (Rabs (m - t)), b) /\ (m = t -> b = false).
Proof.
  intros p l f m t Ef Bf Lf Cf MS. induction k as [|k IH]; intros fac d sw au it; cbn [closure_loop].
  - destruct (_ >? _)%d eqn:G; [|exists false; auto]. exists true. split; [reflexivity|]. intros ->. exfalso. revert G. unfold closure_tol. change (lit (1 / 10000000000)) with (Fin (1 / 10000000000)).
    replace (t - t) with 0 by ring. rewrite Rabs_R0. cbn [dsub dabs rnd exact]. unfold dgtb. replace (Rabs (0 - 1 / 10000000000)) with (1 / 10000000000) by (rewrite Rabs_left; lra). rewrite ltb_f by lra. discriminate.
  - destruct (_ >? _)%d eqn:G; [|exists false; auto]. cbv zeta.
    match goal with |- context [match ?x with (_, _) => _ end] => destruct x as [[dn sw'] fac'] end. rewrite (proj2 (lget_Ok _ _ _) Ef). cbn [bind]. rewrite Bf, Lf, Z.eqb_refl. cbn [andb]. rewrite Cf. cbn [bind].
    replace (set_depth f (f_depth f)) with f by (destruct f; reflexivity). rewrite (lset_id _ _ _ Ef), MS. cbn [bind]. apply IH.
Qed.

Lemma closure_rest : forall old vin h l a, hydrostatic qs h l -> Str e l -> top_of qs 1 = 0 ->
  (0 < old -> exists a2 q2, closure e (Fin old) (Fin vin) l (Fin a) = Ok (l, Fin a2, Fin q2) /\ (storage l = old + vin - a -> a2 = a /\ q2 = 0)) /\
  (old <= 0 -> closure e (Fin old) (Fin vin) l (Fin a) = Stop AssertFail).
Proof.
  intros old vin h l a H HS HT. unfold closure. assert (HE := strata_env e qs HQ). rewrite (cross_idle e l HE HS (hs_measured h l H) (hs_inside h l H)). cbn [bind]. rewrite (hs_wfd h l H). unfold listLength.
  assert (NE := hs_nonempty h l H). destruct (length l) as [|w] eqn:HL; [destruct l; [contradiction|discriminate]|].
  assert (HH := H). apply hs_iff in HH as (H0 & LQ & HF). destruct (nth_error l w) as [f|] eqn:Ef; [|apply nth_error_None in Ef; lia]. destruct (HF w f Ef) as (q & Eq & Lf & Bf & Vf & Df & Pf & Tf).
  destruct (soil_at e qs HQ (Z.of_nat (S w)) q ltac:(lia)) as (s & ks & Es & V). { rewrite <- Eq. f_equal. lia. }
  rewrite Es. cbn [bind]. cbv zeta. split.
  - intro HO. unfold dgtb at 1. rewrite ltb_t by assumption. cbn [cassert bind]. rewrite (find_num l w (st_num _ _ HS)) by lia. rewrite (proj2 (lget_Ok _ _ _) Ef). cbn [bind].
    destruct (_ <? _)%d; [|exists a, 0; auto].
    assert (C0 : aget (e_cum e) 0 = Ok (Fin 0)). { change 0%Z with (1 - 1)%Z. rewrite (strata_cum e qs HQ 1), HT by (pose proof (se_n _ HE); lia). reflexivity. }
    rewrite (mass_of e HE C0 l HS (hs_measured h l H)). cbn [bind].
    assert (TG : (Fin old + Fin vin - (Fin a + Fin 0))%d = Fin (old + vin - a)) by (cbn; f_equal; ring). rewrite TG.
    change (dabs (Fin (storage l) - Fin (old + vin - a))%d) with (Fin (Rabs (storage l - (old + vin - a)))).
    assert (LN : f_layer f = e_nlayers e) by (rewrite Lf, (hs_n h l H), HL; reflexivity).
    assert (CN : aget (e_cum e) (e_nlayers e) = Ok (f_depth f)) by (rewrite <- LN; apply (hs_cum h w f); [lia|apply HF; assumption]).
    match goal with |- context [closure_loop ?k e w ?t l ?m ?er ?fac ?d ?sw ?au ?it] => destruct (pinned_loop w l f (storage l) (old + vin - a) Ef Bf LN CN (mass_of e HE C0 l HS (hs_measured h l H)) k fac d sw au it) as (b & EL & EB) end.
    rewrite EL. cbn [bind]. destruct b.
    + rewrite (mass_of e HE C0 l HS (hs_measured h l H)). cbn [bind].
      set (R := Rabs (storage l - (old + vin - a))) in *. exists (a + R). eexists. split; [reflexivity|]. intro Q. specialize (EB Q). discriminate.
    + exists a, 0. auto.
  - intro HO. unfold dgtb. rewrite ltb_f by assumption. reflexivity.
Qed.

Lemma refresh_rest : forall h, 0 <= h -> forall l k, (forall i f, nth_error l i = Some f -> hs_front h (k + i) f) -> l <> [] ->
  exists l', refresh_psi e l = Ok l' /\ length l' = length l /\ forall i f, nth_error l' i = Some f -> hs_front h (k + i) f.
Proof.
  intros h Hh. induction l as [|c r IH]; intros k H NE; [contradiction|]. destruct r as [|n r]; [exists [c]; auto|].
  destruct (H 0%nat c eq_refl) as (q & Eq & Lc & Bc & Vc & Dc & Pc & Tc). replace (k + 0)%nat with k in * by lia.
  destruct (soil_at e qs HQ (Z.of_nat (S k)) q ltac:(lia)) as (s & ks & Es & V). { rewrite <- Eq. f_equal. lia. }
  assert (Hk : (k < length qs)%nat) by (apply nth_error_Some; congruence).
  destruct (env_frozen e (Z.of_nat (S k)) (strata_env e qs HQ)) as (ff & Eff). { rewrite (strata_n e qs HQ). lia. }
  destruct (IH (S k)) as (r' & Er & Lr & Fr); [intros i f E; replace (S k + i)%nat with (k + S i)%nat by lia; exact (H (S i) f E)|discriminate|].
  change (refresh_psi e (c :: n :: r)) with (c' <- (if f_psi c >? lit 1 then s <- soil_of e (f_layer c) ;; ff <- aget (e_frozen e) (f_layer c) ;; let Se := Se_of_theta s (f_theta c) in Ok (set_K (set_psi c (h_of_Se s Se)) (K_of_Se s Se (ff * s_Ksat s))) else Ok c)%d ;; r' <- refresh_psi e (n :: r) ;; Ok (c' :: r')).
  rewrite Er, Lc, Es. cbn [bind]. rewrite Eff. cbn [bind]. cbv zeta. rewrite Tc.
  destruct (clamp_curve e qs HQ (Z.of_nat (S k)) q s ks h ltac:(lia)) as [_ CH]; [rewrite <- Eq; f_equal; lia|exact V|exact Hh|]. rewrite CH.
  assert (C1 : exists c', (if (f_psi c >? lit 1)%d then Ok (set_K (set_psi c (Fin h)) (K_of_Se s (Se_of_theta s (Fin (pt_theta q h))) (ff * s_Ksat s))) else Ok c)%d = Ok c' /\ hs_front h k c').
  { destruct (_ >? _)%d; eexists; (split; [reflexivity|]); exists q; repeat split; assumption. }
  destruct C1 as (c' & EC & FC). rewrite EC. cbn [bind]. exists (c' :: r'). split; [reflexivity|]. split; [cbn [length]; f_equal; exact Lr|].
  intros [|i] f E; [injection E as <-; replace (k + 0)%nat with k by lia; exact FC|]. replace (k + S i)%nat with (S k + i)%nat by lia. exact (Fr i f E).
Qed.

(** ** The motion *)
Theorem move_rest : forall dt old h l a, finite dt -> hydrostatic qs h l -> Str e l -> top_of qs 1 = 0 -> 0 <= a ->
  let run := lgar_move_wetting_fronts e dt (Fin 0) (listLength l) (Fin old) (Fin a) l l in
  match run with
  | Ok (l', a', q) => exists h' l1 av a2 q2, move_loop (length l) e dt (Fin 0) (listLength l) l (listLength l) l (Fin a) = Ok (l1, Fin av) /\ hydrostatic qs h' l1 /\ h <= h' /\
      dry_result (column_water qs h') (column_water qs h - a) a av /\ a' = Fin a2 /\ q = Fin q2 /\ hydrostatic qs h' l' /\ Str e l' /\ (column_water qs h' = old - av -> a2 = av /\ q2 = 0)
  | Stop r => r = OutOfFuel \/ r = AssertFail /\ old <= 0
  end /\
  ~ move_tie e dt (Fin 0) (listLength l) (Fin old) (Fin a) l l /\ pass_upright e dt (Fin 0) (listLength l) (Fin a) l l /\
  (a = 0 -> old = column_water qs h -> 0 < old -> exists l', run = Ok (l', Fin 0, Fin 0) /\ hydrostatic qs h l' /\ Str e l').
Proof.
  intros dt old h l a Hdt H HS HT Ha run. assert (HE := strata_env e qs HQ). destruct (pass_rest dt 0 h l a Hdt H HS Ha) as [PR PZ].
  destruct (env_cum e (e_nlayers e) HE) as (bed & EB & _). { pose proof (se_n _ HE). lia. }
  assert (NE := hs_nonempty h l H).
  (* what follows the pass *)
  assert (GO : forall h' l1 av, hydrostatic qs h' l1 -> Str e l1 -> 0 < old -> exists l' a2 q2,
    ('(x, aet, bflux) <- closure e (Fin old) (Fin 0) l1 (Fin av) ;; '(y, flux, mc) <- merge_phases e x ;;
     let bflux := (bflux + flux)%d in let aet := if dabs mc >? lit (1 / 10000000) then (aet - mc)%d else aet in z <- refresh_psi e y ;; t <- fix_single e z ;; Ok (t, aet, bflux))%d = Ok (l', Fin a2, Fin q2) /\
    hydrostatic qs h' l' /\ Str e l' /\ (column_water qs h' = old - av -> a2 = av /\ q2 = 0)).
  { intros h' l1 av H' HS' HO. destruct (closure_rest old 0 h' l1 av H' HS' HT) as [CR _]. destruct (CR HO) as (a2 & q2 & EC & EQ). rewrite EC. cbn [bind].
    assert (NE' := hs_nonempty h' l1 H'). assert (MG := merge_rest l1 (hs_differ h' l1 H') NE'). assert (CI := cross_idle e l1 HE HS' (hs_measured h' l1 H') (hs_inside h' l1 H')). assert (CK := fun mc => idle_check e l1 mc (hs_upright h' l1 H') NE').
    unfold merge_phases. rewrite CK. cbn [bind]. rewrite MG. cbn [bind]. rewrite CI. cbn [bind]. rewrite CK. cbn [bind]. rewrite MG. cbn [bind]. rewrite EB. cbn [bind]. rewrite (domain_rest h' l1 (Fin bed) H' EB). cbn [bind]. rewrite CK. cbn [bind]. cbv zeta.
    assert (HH' := H'). apply hs_iff in HH' as (Hh & LQ & HF). destruct (refresh_rest h' Hh l1 0 HF NE') as (l2 & ER & LR & FR). rewrite ER. cbn [bind].
    pose proof (refresh_refreshed e l1 l2 ER) as RF. assert (S2 : Str e l2). { apply (Str_alike e l1); [|exact HS']. clear - RF. induction RF; constructor; auto using refreshed_alike. }
    assert (EF : fix_single e l2 = Ok l2).
    { destruct (fix_single e l2) as [l3|r] eqn:E3; [rewrite (fix_single_idle e HE l2 l3 S2 E3); reflexivity|]. exfalso. destruct l2 as [|c [|n r2]]; try discriminate E3. unfold fix_single in E3.
      destruct (env_cum e 1 HE) as (z1 & E1 & _); [pose proof (se_n _ HE); lia|]. rewrite E1 in E3. discriminate E3. }
    rewrite EF. cbn [bind]. change (lit (1 / 10000000)) with (Fin (1 / 10000000)). cbn [dabs]. rewrite Rabs_R0. unfold dgtb. rewrite ltb_f by lra.
    exists l2, a2, (q2 + 0). split; [reflexivity|]. split; [apply hs_iff; split; [exact Hh|split; [congruence|exact FR]]|]. split; [exact S2|].
    intro Q. rewrite (hs_storage h' l1 H') in EQ. destruct EQ as [-> ->]; [lra|]. split; [reflexivity|ring]. }
  assert (BAD : forall h' l1 av, hydrostatic qs h' l1 -> Str e l1 -> old <= 0 -> closure e (Fin old) (Fin 0) l1 (Fin av) = Stop AssertFail).
  { intros h' l1 av H' HS' HO. exact (proj2 (closure_rest old 0 h' l1 av H' HS' HT) HO). }
  assert (UN : run = (' (x, aet) <- move_loop (length l) e dt (Fin 0) (listLength l) l (listLength l) l (Fin a) ;; '(x, aet, bflux) <- closure e (Fin old) (Fin 0) x aet ;; '(y, flux, mc) <- merge_phases e x ;;
     let bflux := (bflux + flux)%d in let aet := if dabs mc >? lit (1 / 10000000) then (aet - mc)%d else aet in z <- refresh_psi e y ;; t <- fix_single e z ;; Ok (t, aet, bflux))%d).
  { unfold run, lgar_move_wetting_fronts. rewrite EB. cbn [bind]. cbv zeta. destruct l; [contradiction|]. reflexivity. }
  destruct (move_loop (length l) e dt (Fin 0) (listLength l) l (listLength l) l (Fin a)) as [[l1 a1]|r] eqn:EL.
  - destruct PR as (h' & av & Hh & -> & HS' & H' & DR & _). cbn [bind] in UN.
    assert (TI : ~ move_tie e dt (Fin 0) (listLength l) (Fin old) (Fin a) l l).
    { destruct (idle_tie e l1 HE HS' (hs_measured h' l1 H') (hs_inside h' l1 H')) as [T _].
      intros (l0 & a0 & E & HT0). rewrite EL in E. apply Ok_inj in E. apply pair_equal_spec in E as [<- <-]. destruct HT0 as [HT0|(l2 & a2 & fl & l3 & mc & l4 & EA & EC & ED & HT0)]; [exact (T HT0)|].
      destruct (Rlt_dec 0 old) as [HO|HO]; [|rewrite (BAD h' l1 av H' HS' ltac:(lra)) in EA; discriminate].
      destruct (closure_rest old 0 h' l1 av H' HS' HT) as [CR _]. destruct (CR HO) as (a3 & q3 & EC3 & _). rewrite EC3 in EA. apply Ok_inj in EA. apply pair_equal_spec in EA as [EA _]. apply pair_equal_spec in EA as [<- _].
      rewrite (idle_check e l1 _ (hs_upright h' l1 H') (hs_nonempty h' l1 H')) in EC. apply Ok_inj in EC. apply pair_equal_spec in EC as [<- _].
      rewrite (merge_rest l1 (hs_differ h' l1 H') (hs_nonempty h' l1 H')) in ED. apply Ok_inj in ED. subst l4. exact (T HT0). }
    split; [|split; [exact TI|split]].
    + destruct (Rlt_dec 0 old) as [HO|HO].
      * destruct (GO h' l1 av H' HS' HO) as (l' & a2 & q2 & E & E1 & E2 & E3). rewrite (eq_trans UN E). exists h', l1, av, a2, q2. replace (column_water qs h - a) with (column_water qs h + (0 - a)) by ring. auto 12.
      * rewrite (BAD h' l1 av H' HS' ltac:(lra)) in UN. cbn [bind] in UN. rewrite UN. right. split; [reflexivity|lra].
    + intros l0 a0 E. rewrite EL in E. apply Ok_inj in E. apply pair_equal_spec in E as [<- _]. exact (hs_upright h' l1 H').
    + intros -> EO HO. specialize (PZ eq_refl). apply Ok_inj in PZ. apply pair_equal_spec in PZ as [EP EQ]. rewrite EP, EQ in UN. destruct (GO h l 0 H HS HO) as (l' & a2 & q2 & E & E1 & E2 & E3).
      destruct E3 as [-> ->]; [lra|]. exists l'. split; [exact (eq_trans UN E)|]. auto.
  - subst r. cbn [bind] in UN. split; [rewrite UN; left; reflexivity|]. split; [|split].
    + intros (l0 & a0 & E & _). rewrite EL in E. discriminate.
    + intros l0 a0 E. rewrite EL in E. discriminate.
    + intros -> _ _. specialize (PZ eq_refl). discriminate.
Qed.

End Column.
