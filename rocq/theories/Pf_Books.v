(** The books of one pass over the fronts of a column of several layers. *)

From Coq Require Import Reals Lra ZArith List Bool Lia.
From Verif Require Import Outcome Dbl Exact Types ListOps Soil Fronts Infil Move Lib Spec_Common Spec_List Spec_Soil Spec_Update Spec_Profile Spec_Column Spec_Storage Spec_Balance Spec_Advance Spec_Shares
  Pf_Dbl Pf_Pow Pf_Soil Pf_List Pf_Profile Pf_Structure Pf_SafeMove Pf_Storage Pf_Column Pf_Layers Pf_Balance Pf_Single Pf_Advance Pf_Shares.
Import ListNotations.
Open Scope R_scope.
Local Existing Instance exact.

Section Column.
Context {cfg : Cfg}.
Variables (e : env) (qs : list part).
Hypothesis HQ : strata e qs.

Definition aboves (lay : Z) (o : option R) : R := match o with Some x => water_above qs lay x | None => 0 end.

Lemma over_split : forall lay psi o, over qs psi o (Z.to_nat (lay - 1)) = water_above qs lay psi - aboves lay o.
Proof.
  intros lay psi o. unfold over, aboves, water_above. generalize (firstn (Z.to_nat (lay - 1)) qs). induction l as [|q l IH]; cbn [map Rsum]; [destruct o; ring|].
  rewrite IH. destruct o; cbn [under map Rsum]; ring.
Qed.

Lemma above_1 : forall x, water_above qs 1 x = 0.
Proof. reflexivity. Qed.

Lemma above_mono : forall lay x y, 0 <= x -> x <= y -> water_above qs lay y <= water_above qs lay x.
Proof.
  intros lay x y Hx Hy. unfold water_above.
  assert (F : Forall (fun q => pt_z q * pt_theta q y <= pt_z q * pt_theta q x) (firstn (Z.to_nat (lay - 1)) qs)).
  { apply Forall_forall. intros q Hq. apply In_nth_error in Hq as [i Hi].
    assert (Hlt : (i < Z.to_nat (lay - 1))%nat). { assert (i < length (firstn (Z.to_nat (lay - 1)) qs))%nat by (apply nth_error_Some; congruence). rewrite firstn_length in H. lia. }
    rewrite firstn_nth in Hi by assumption. pose proof (strata_pos e qs HQ _ _ Hi). apply Rmult_le_compat_l; [lra|].
    eapply (curve_mono e qs HQ (Z.of_nat (S i)) q); [lia| |assumption|assumption]. rewrite <- Hi. f_equal. lia. }
  induction F; cbn [map Rsum]; lra.
Qed.

(** The front that takes infiltration and AET is no boundary front, except when every layer has one front. *)
Definition takes (wfd : Z) (head : list front) : Prop :=
  forall i f, nth_error head i = Some f -> wfd = Z.of_nat (S i) -> f_bottom f = true -> length head = S i /\ Z.of_nat (length head) = e_nlayers e.

Definition ends_drier (c c' : front) : Prop := val (f_theta c') <= val (f_theta c).

Lemma curved : forall f, on_curve qs f -> (1 < f_layer f)%Z \/ f_bottom f = true ->
  exists q h, nth_error qs (Z.to_nat (f_layer f - 1)) = Some q /\ f_psi f = Fin h /\ 0 <= h /\ f_theta f = Fin (pt_theta q h).
Proof. intros f [(L & B & _)|H] [L'|B']; try lia; try congruence; assumption. Qed.
Lemma watery : forall f, on_curve qs f -> exists t, f_theta f = Fin t.
Proof. intros f [(_ & _ & q & t & _ & H & _)|(q & h & _ & _ & _ & H)]; eauto. Qed.

Lemma same_met : forall full h x a, settled full h x x a a.
Proof. intros. apply set_met. unfold Rminus. rewrite Rplus_opp_r, Rabs_R0. unfold tol. lra. Qed.
Lemma same_dry : forall x a, dry_result x x a a.
Proof. intros. left. unfold Rminus. rewrite Rplus_opp_r, Rabs_R0. unfold tol. split; [lra|reflexivity]. Qed.

Lemma move_one_books : forall dt precip wfd head w l a l' aet' c, 0 <= dt -> Str e head -> Str e l -> length l = length head ->
  (forall i, (i <= w)%nat -> nth_error l i = nth_error head i) -> Forall (on_curve qs) head -> Forall (on_curve qs) l -> moves_down qs c ->
  (forall n n0, nth_error l (S w) = Some n -> nth_error head (S w) = Some n0 -> f_layer n = f_layer n0 /\ f_bottom n = f_bottom n0) ->
  takes wfd head -> nth_error head w = Some c ->
  move_one e (Fin dt) (Fin precip) wfd head (listLength l) (Z.of_nat (S w)) l (Fin a) = Ok (l', aet') ->
  let o := nth_error head (S w) in let o' := nth_error l (S w) in
  let want := share qs c o + (if (wfd =? Z.of_nat (S w))%Z then precip - a else 0) in
  exists c' a', l' = lset l w c' /\ aet' = Fin a' /\ on_curve qs c' /\ finite (f_depth c') /\
    accounted qs (Z.of_nat (length head)) c c' o' want (share qs c' o') a a' /\
    ((forall n n0, o' = Some n -> o = Some n0 -> val (f_theta n) <= val (f_theta n0) /\ (f_layer c = f_layer n0 -> val (f_theta n0) <= val (f_theta c)) /\ (f_bottom c = true -> meets e c n0)) ->
     val (f_depth c) <= top_of qs (e_nlayers e + 1) ->
     (wfd = Z.of_nat (S w) -> precip <= a) -> val (f_theta c') <= val (f_theta c) /\ dry_result (share qs c' o') want a a').
Proof.
  intros dt precip wfd head w l a l' aet' c Hdt HH H HL HA OH OL MD HSH HW Ech M o o' want.
  assert (HE := strata_env e qs HQ).
  assert (Ec : nth_error l w = Some c) by (rewrite HA by lia; assumption).
  assert (Hw : (w < length l)%nat) by (apply nth_error_Some; congruence).
  assert (OC : on_curve qs c) by (rewrite Forall_forall in OH; apply OH; eapply nth_error_In; eassumption).
  assert (Hne : l <> []) by (destruct l; [cbn in Hw; lia|discriminate]).
  assert (Rc := Str_range _ _ _ _ H Ec). destruct (layer_exists e qs HQ _ Rc) as [q Eq]. destruct (soil_at e qs HQ _ _ (proj1 Rc) Eq) as (s & ks & Es & V).
  destruct MD as (d & v & Ed & Ev & Htop & Hv & Hfirst).
  assert (WA : water_added wfd (Z.of_nat (S w)) (Fin precip) (Fin a) = Fin (if (wfd =? Z.of_nat (S w))%Z then precip - a else 0)).
  { unfold water_added. destruct (wfd =? Z.of_nat (S w))%Z; [|reflexivity]. cbn. f_equal. ring. }
  set (add := if (wfd =? Z.of_nat (S w))%Z then precip - a else 0) in *.
  assert (ADD : (wfd = Z.of_nat (S w) -> precip <= a) -> add <= 0).
  { intro P. unfold add. destruct (Z.eqb_spec wfd (Z.of_nat (S w))); [specialize (P ltac:(assumption)); lra|lra]. }
  unfold move_one, listLength in M.
  rewrite (find_num l w (st_num _ _ H) Hw) in M. rewrite (find_old l head w Hne (st_num _ _ HH)) in M by lia.
  destruct (findFrontOld (Z.of_nat (S w) + 1) l head) as [lno pno] eqn:Eno. cbv zeta in M.
  rewrite (proj2 (lget_Ok _ _ _) Ec) in M. cbn [bind] in M. rewrite Es in M. cbn [bind] in M.
  apply bind_inv in M as (c0 & _ & M).
  destruct (Z.eqb_spec (Z.of_nat (S w)) (Z.of_nat (length l))) as [Hlast|Hnl].
  - cbn [bind] in M. destruct (Z.ltb_spec (Z.of_nat (S w)) (Z.of_nat (length l))); [lia|]. cbn [andb] in M.
    destruct (Z.eqb_spec (f_layer c + 1) (f_layer c)); [lia|]. cbn [negb andb] in M.
    assert (Ec' : nth_error l (length l - 1) = Some c) by (rewrite <- Ec; f_equal; lia).
    destruct (deepest_is e l c H Ec') as (B1 & B2 & B3 & B4).
    assert (Eo : o = None) by (apply nth_error_None; lia). assert (Eo' : o' = None) by (apply nth_error_None; lia).
    destruct (curved c OC (or_intror B1)) as (q' & h & Eq' & Eh & Hh & Et). assert (q' = q) by congruence. subst q'.
    assert (CR : forall x, f_bottom x = f_bottom c -> carries x None = true) by (intros; unfold carries; apply orb_true_r).
    destruct (Z.eqb_spec (Z.of_nat (length l)) (e_nlayers e)) as [HN|HN].
    + cbn [pget] in M. rewrite (proj2 (lget_Ok _ _ _) Ech) in M. cbn [bind] in M.
      rewrite (strata_cum e qs HQ) in M by lia. cbn [bind] in M.
      assert (DN : (f_depth c + f_dzdt c * Fin dt)%d = Fin d) by (rewrite B4, Ed; cbn; f_equal; ring).
      cbn [f_depth f_theta f_psi set_depth] in M. rewrite DN, WA, Et, Eh, Ed in M.
      change (@dsub exact (Fin d) (Fin (top_of qs (f_layer c)))) with (Fin (d - top_of qs (f_layer c))) in M.
      set (z := d - top_of qs (f_layer c)) in *.
      assert (MM : (Fin z * (Fin (pt_theta q h) - Fin 0))%d = Fin (z * (pt_theta q h - 0))) by reflexivity. rewrite MM in M.
      apply bind_inv in M as ([th a1] & EB & M). apply Ok_inj in M. apply pair_equal_spec in M as [<- <-].
      destruct (iterated e qs HQ (f_layer c) s q ks h h None (z * (pt_theta q h - 0)) (z * (pt_theta q h - 0)) 0 z add a th a1 Rc Eq Es V Hh Hh Logic.I Logic.I eq_refl ltac:(unfold z; lra) EB)
        as (h' & av & -> & Eh' & Hh' & -> & ST & DRY).
      cbn [option_map] in ST, DRY.
      match goal with |- context [lset l w ?x] => set (c' := x) end. exists c', av.
      assert (SH : share qs c' o' = z * (pt_theta q h' - 0) + over qs h' None (Z.to_nat (f_layer c - 1))).
      { rewrite Eo'. unfold share. rewrite (CR c') by reflexivity. unfold share_at. cbn [theta_under above_under c' f_depth f_theta f_psi f_layer set_psi set_theta set_depth val]. rewrite Eh', over_split. cbn [val aboves]. unfold z. ring. }
      assert (WN : want = z * (pt_theta q h - 0) + over qs h None (Z.to_nat (f_layer c - 1)) + add).
      { unfold want. rewrite Eo. unfold share. rewrite (CR c) by reflexivity. unfold share_at. rewrite Ed, Et, Eh. cbn [theta_under above_under val]. rewrite over_split. cbn [aboves]. unfold z, add. ring. }
      rewrite SH, WN. split; [reflexivity|]. split; [reflexivity|]. split; [right; exists q, h'; repeat split; try assumption|]. split; [exists d; reflexivity|]. split.
      * apply (acc_iterated _ _ _ _ _ _ _ _ q); [rewrite Eo'; apply CR; reflexivity|auto|exact Eq|]. rewrite Eh. cbn [val].
        assert (FE : forall psi, share_at qs c' (val (f_depth c')) (pt_theta q psi) psi o' = z * (pt_theta q psi - 0) + over qs psi None (Z.to_nat (f_layer c - 1))).
        { intro psi. rewrite Eo'. unfold share_at. cbn [theta_under above_under c' f_depth f_layer set_psi set_theta set_depth val]. rewrite over_split. cbn [aboves]. unfold z. ring. }
        destruct ST as [S1|S1|h1 S1 S2|a2 S1 S2 S3]; [apply set_met|apply set_booked|apply (set_overfull _ _ _ _ _ h1)|apply set_saturated]; try assumption; rewrite FE; assumption.
      * intros _ _ P. specialize (ADD P). destruct (DRY ltac:(lra)) as [D1 D2]. split; [|exact D2]. rewrite Et. cbn [c' f_theta set_psi set_theta val]. apply (curve_mono e qs HQ (f_layer c)); [lia|assumption|lra|assumption].
    + apply Ok_inj in M. apply pair_equal_spec in M as [<- <-]. exists c, a.
      assert (A0 : add = 0). { unfold add. destruct (Z.eqb_spec wfd (Z.of_nat (S w))) as [W|W]; [|reflexivity]. destruct (HW _ _ Ech W B1) as [_ W2]. rewrite HL in HN. contradiction. }
      assert (WS : want = share qs c o') by (unfold want; rewrite A0, Eo, Eo'; ring).
      split; [symmetry; apply (lset_id _ _ _ Ec)|]. split; [reflexivity|]. split; [assumption|]. split; [exists d; assumption|]. rewrite WS. split.
      * apply acc_idle; [assumption|right; rewrite <- HL, <- (strata_n e qs HQ); assumption|reflexivity].
      * intros _ _ _. split; [lra|apply same_dry].
  - destruct (nth_error l (S w)) as [n|] eqn:En; [|apply nth_error_None in En; lia].
    destruct (nth_error head (S w)) as [n0|] eqn:En0; [|apply nth_error_None in En0; lia]. destruct (HSH n n0 eq_refl eq_refl) as [LN BN].
    assert (ON : on_curve qs n) by (rewrite Forall_forall in OL; apply OL; eapply nth_error_In; eassumption).
    assert (ON0 : on_curve qs n0) by (rewrite Forall_forall in OH; apply OH; eapply nth_error_In; eassumption).
    assert (Hlt : (Z.of_nat (S w) <? Z.of_nat (length l))%Z = true) by (apply Z.ltb_lt; lia).
    replace (Z.of_nat (S w) + 1)%Z with (Z.of_nat (S (S w))) in * by lia.
    rewrite (find_old l head (S w) Hne (st_num _ _ HH)) in Eno by lia. apply pair_equal_spec in Eno as [<- <-].
    rewrite Hlt, orb_true_r in M. rewrite (find_num l (S w) (st_num _ _ H)) in M by lia. cbn [pget] in M. rewrite (proj2 (lget_Ok _ _ _) En) in M. cbn [bind andb] in M.
    destruct (Z.eqb_spec (f_layer n) (f_layer c)) as [Hlay|Hlay]; cbn [negb] in M.
    + cbn [andb bind] in M. rewrite (proj2 (lget_Ok _ _ _) Ech) in M. rewrite (proj2 (lget_Ok _ _ _) En0) in M. cbn [bind] in M.
      assert (Hc : f_bottom c = false) by (eapply Str_above; eauto).
      assert (CR : forall x y, f_bottom x = f_bottom c -> carries x y = true) by (intros x y B; unfold carries; rewrite B, Hc; reflexivity).
      destruct (watery _ ON) as (tn & Etn). destruct (watery _ ON0) as (tn0 & Etn0).
      destruct (Z.eqb_spec (f_layer c) 1) as [H1|H1].
      * (* first layer *)
        destruct (Hfirst H1 Hc) as [Hd0 Hv0].
        assert (RG : exists tc, f_theta c = Fin tc /\ pt_r q <= tc <= pt_e q).
        { destruct OC as [(_ & _ & q' & t & Eq' & Et & R)|(q' & h & Eq' & _ & Hh & Et)].
          - rewrite H1 in Eq. change (Z.to_nat (1 - 1)) with 0%nat in Eq. assert (q' = q) by congruence. subst q'. eauto.
          - assert (q' = q) by congruence. subst q'. eexists. split; [exact Et|]. pose proof (curve_range e qs HQ (f_layer c) q h ltac:(lia) Eq Hh). lra. }
        destruct RG as (tc & Etc & RG).
        assert (CU : aget (e_cum e) (e_nlayers e) = Ok (Fin (top_of qs (e_nlayers e + 1)))) by (rewrite <- (strata_cum e qs HQ) by lia; f_equal; lia).
        rewrite CU in M. cbn [bind] in M. set (D := top_of qs (e_nlayers e + 1)) in *.
        assert (D0 : 0 < D).
        { unfold D. clear - HQ. destruct (strata_n e qs HQ). pose proof (strata_env e qs HQ) as HE. pose proof (cum_mono e HE 0 (e_nlayers e) 0 (top_of qs (e_nlayers e + 1)) ltac:(lia)) as K. apply K; [destruct HE; lia| |].
          - pose proof (strata_cum e qs HQ 1) as S1. cbn in S1. apply S1. destruct HE; lia.
          - rewrite <- (strata_cum e qs HQ) by (destruct HE; lia). f_equal. lia. }
        cbv zeta in M. cbn [f_depth f_dzdt f_theta f_bottom f_num set_depth] in M. rewrite WA, Ed, Ev, Etn, Etn0, Etc in M.
        assert (DN : dfmin (Fin d + Fin v * Fin dt)%d (Fin D) = Fin (Rmin (d + v * dt) D)) by (rewrite <- fmin_fin; reflexivity). rewrite DN in M.
        set (d' := Rmin (d + v * dt) D) in *.
        assert (Hvd : 0 <= v * dt) by (apply Rmult_le_pos; lra).
        assert (Hd' : 0 < d') by (unfold d'; apply Rmin_glb_lt; lra).
        rewrite eqb_f in M by lra. cbn [andb] in M.
        assert (TH : ((Fin d * (Fin tc - Fin tn0) + Fin add) / Fin d' + Fin tn)%d = Fin ((d * (tc - tn0) + add) / d' + tn)).
        { cbn [dsub dmul dadd rnd exact]. rewrite div_fin by lra. reflexivity. }
        rewrite TH in M. set (x := (d * (tc - tn0) + add) / d' + tn) in *.
        rewrite (vg_r _ _ _ _ _ _ _ V) in M. destruct (Rlt_dec x (pt_r q)) as [XR|XR].
        { rewrite ltb_t in M by assumption. apply bind_inv in M as (m1 & _ & M). apply bind_inv in M as ([l2 ?] & _ & M). apply bind_inv in M as (m2 & _ & M). discriminate. }
        rewrite ltb_f in M by lra. rewrite (vg_e _ _ _ _ _ _ _ V), fmin_fin, fmax_fin in M.
        assert (Hre : pt_r q < pt_e q) by (destruct V; assumption).
        assert (MX : Rmax (pt_r q) (Rmin (pt_e q) x) = Rmin (pt_e q) x) by (apply Rmax_right; apply Rmin_glb; lra). rewrite MX in M.
        apply Ok_inj in M. apply pair_equal_spec in M as [<- <-]. match goal with |- context [lset l w ?y] => set (c' := y) end. exists c', a.
        assert (SH : forall t psi, share_at qs c' d' t psi o' = d' * (t - tn)).
        { intros t psi. unfold share_at. cbn [o' theta_under above_under]. replace (f_layer c') with 1%Z by (symmetry; exact H1). rewrite Etn. cbn [val]. rewrite !above_1, top_1. ring. }
        assert (WN : want = d * (tc - tn0) + add).
        { unfold want, o, share. rewrite (CR c) by reflexivity. unfold share_at. cbn [theta_under above_under]. rewrite H1, Ed, Etc, Etn0. cbn [val]. rewrite !above_1, top_1. fold add. ring. }
        assert (XW : d' * (x - tn) = want) by (rewrite WN; unfold x; field; lra).
        assert (GOT : share qs c' o' = Rmin want (d' * (pt_e q - tn))).
        { unfold share. rewrite (CR c') by reflexivity. cbn [c' f_depth f_theta set_psi set_theta set_depth val]. fold c'. rewrite SH, <- XW.
          unfold Rmin. destruct (Rle_dec (pt_e q) x), (Rle_dec (d' * (x - tn)) (d' * (pt_e q - tn))); try reflexivity.
          - apply Rmult_le_reg_l in r0; [|assumption]. f_equal. lra.
          - exfalso. apply n2. apply Rmult_le_compat_l; lra. }
        split; [reflexivity|]. split; [reflexivity|]. split; [left; repeat split; [exact H1|exact Hc|exists q, (Rmin (pt_e q) x); rewrite H1 in Eq; split; [exact Eq|]; split; [reflexivity|]; split; [apply Rmin_glb; lra|apply Rmin_l]]|]. split; [exists d'; reflexivity|]. split.
        { apply (acc_first _ _ _ _ _ _ _ _ q); [exact Hc|exact H1|rewrite <- Eq, H1; reflexivity|]. rewrite GOT. change (val (f_depth c')) with d'. rewrite SH. reflexivity. }
        intros DR HDc P. specialize (ADD P). destruct (DR n n0 eq_refl eq_refl) as (DR1 & DR2 & _). specialize (DR2 ltac:(congruence)). rewrite Etn, Etn0 in DR1. rewrite Etn0, Etc in DR2. cbn [val] in DR1, DR2.
        rewrite Ed in HDc. cbn [val] in HDc.
        assert (Hdd : d <= d') by (unfold d'; apply Rmin_glb; lra).
        assert (XT : x <= tc).
        { apply Rmult_le_reg_l with d'; [assumption|]. assert (d' * x = want + d' * tn) by (rewrite <- XW; ring). rewrite WN in H0.
          assert (d * (tc - tn0) <= d' * (tc - tn0)) by (apply Rmult_le_compat_r; lra). assert (d' * tn <= d' * tn0) by (apply Rmult_le_compat_l; lra). lra. }
        split; [rewrite Etc; cbn [c' f_theta set_psi set_theta val]; pose proof (Rmin_r (pt_e q) x); lra|].
        rewrite GOT. destruct (Rle_dec want (d' * (pt_e q - tn))) as [G|G]; [rewrite Rmin_left by assumption; apply same_dry|].
        exfalso. apply G. rewrite <- XW. apply Rmult_le_compat_l; lra.
      * (* below the first layer *)
        destruct (curved c OC ltac:(left; lia)) as (q' & h & Eq' & Eh & Hh & Et). assert (q' = q) by congruence. subst q'.
        destruct (curved n ON ltac:(left; lia)) as (q' & hn & Eqn & Ehn & Hhn & Etn'). rewrite Hlay in Eqn. assert (q' = q) by congruence. subst q'.
        destruct (curved n0 ON0 ltac:(left; lia)) as (q' & hn0 & Eqn0 & Ehn0 & Hhn0 & Etn0'). rewrite <- LN, Hlay in Eqn0. assert (q' = q) by congruence. subst q'.
        assert (tn = pt_theta q hn) by congruence. assert (tn0 = pt_theta q hn0) by congruence.
        rewrite (strata_cum e qs HQ) in M by lia. cbn [bind] in M. cbv zeta in M. cbn [f_depth f_theta f_psi f_dzdt set_depth] in M. rewrite WA, Ed, Ev, Et, Etn, Etn0, Eh, Ehn, Ehn0 in M.
        assert (DN : (Fin d + Fin v * Fin dt)%d = Fin (d + v * dt)) by reflexivity. rewrite DN in M. set (d' := d + v * dt) in *.
        assert (Hvd : 0 <= v * dt) by (apply Rmult_le_pos; lra).
        change (@dsub exact (Fin d') (Fin (top_of qs (f_layer c)))) with (Fin (d' - top_of qs (f_layer c))) in M.
        change (@dsub exact (Fin d) (Fin (top_of qs (f_layer c)))) with (Fin (d - top_of qs (f_layer c))) in M.
        set (z := d' - top_of qs (f_layer c)) in *. set (z0 := d - top_of qs (f_layer c)) in *.
        assert (M1 : (Fin z * (Fin (pt_theta q h) - Fin tn))%d = Fin (z * (pt_theta q h - tn))) by reflexivity. rewrite M1 in M.
        assert (M2 : (Fin z0 * (Fin (pt_theta q h) - Fin tn0))%d = Fin (z0 * (pt_theta q h - tn0))) by reflexivity. rewrite M2 in M.
        apply bind_inv in M as ([th a1] & EB & M). apply Ok_inj in M. apply pair_equal_spec in M as [<- <-].
        destruct (iterated e qs HQ (f_layer c) s q ks h h (Some (hn0, hn)) (z0 * (pt_theta q h - tn0)) (z * (pt_theta q h - tn)) tn z add a th a1 Rc Eq Es V Hh Hh Hhn0 Hhn eq_refl ltac:(unfold z, d'; lra) EB)
          as (h' & av & -> & Eh' & Hh' & -> & ST & DRY).
        cbn [option_map fst snd] in ST, DRY. rewrite !over_split in *. cbn [aboves] in *.
        match goal with |- context [lset l w ?x] => set (c' := x) end. exists c', av.
        assert (FE : forall psi, share_at qs c' d' (pt_theta q psi) psi o' = z * (pt_theta q psi - tn) + (water_above qs (f_layer c) psi - water_above qs (f_layer c) hn)).
        { intro psi. unfold o', share_at. cbn [theta_under above_under]. rewrite Etn, Ehn. cbn [c' f_depth f_layer set_psi set_theta set_depth val]. unfold z. ring. }
        assert (SH : share qs c' o' = z * (pt_theta q h' - tn) + (water_above qs (f_layer c) h' - water_above qs (f_layer c) hn)).
        { unfold share. rewrite (CR c') by reflexivity. rewrite <- FE. cbn [c' f_depth f_theta f_psi set_psi set_theta set_depth val]. rewrite Eh'. reflexivity. }
        assert (WN : want = z0 * (pt_theta q h - tn0) + (water_above qs (f_layer c) h - water_above qs (f_layer c) hn0) + add).
        { unfold want, o, share. rewrite (CR c) by reflexivity. unfold share_at. cbn [theta_under above_under]. rewrite Ed, Et, Eh, Etn0, Ehn0. cbn [val]. unfold z0, add. ring. }
        rewrite SH, WN. split; [reflexivity|]. split; [reflexivity|]. split; [right; exists q, h'; repeat split; assumption|]. split; [exists d'; reflexivity|]. split.
        -- apply (acc_iterated _ _ _ _ _ _ _ _ q); [apply CR; reflexivity|auto|exact Eq|]. rewrite Eh. change (val (f_depth c')) with d'. cbn [val].
           destruct ST as [S1|S1|h1 S1 S2|a2 S1 S2 S3]; [apply set_met|apply set_booked|apply (set_overfull _ _ _ _ _ h1)|apply set_saturated]; try assumption; rewrite FE; rewrite over_split in *; assumption.
        -- intros DR _ P. specialize (ADD P). destruct (DR n n0 eq_refl eq_refl) as (DR1 & DR2 & _). specialize (DR2 ltac:(congruence)). rewrite Etn, Etn0 in DR1. rewrite Etn0, Et in DR2. cbn [val] in DR1, DR2.
           assert (HN : hn0 <= hn) by (apply (curve_anti e qs HQ (f_layer c) q); [lia|assumption|assumption|assumption|congruence]).
           pose proof (above_mono (f_layer c) hn0 hn Hhn0 HN).
           assert (z0 * (pt_theta q h - tn0) <= z * (pt_theta q h - tn)) by (apply Rmult_le_compat; unfold z, z0, d'; lra).
           destruct (DRY ltac:(lra)) as [D1 D2]. split; [|exact D2]. rewrite Et. cbn [c' f_theta set_psi set_theta val]. apply (curve_mono e qs HQ (f_layer c)); [lia|assumption|lra|assumption].
    + assert (Hc : f_bottom c = true) by (destruct (f_bottom c) eqn:B; [reflexivity|]; exfalso; apply Hlay; destruct (Str_next _ _ _ _ H Ec B) as (n' & En' & Q); congruence).
      apply Ok_inj in M. apply pair_equal_spec in M as [<- <-]. match goal with |- context [lset l w ?x] => set (c' := x) end. exists c', a.
      destruct (Str_bottom _ _ _ _ H Ec Hc) as [_ LB]. rewrite En in LB.
      destruct (curved n ON ltac:(left; lia)) as (qn & hn & Eqn & Ehn & Hhn & Etn).
      assert (A0 : add = 0). { unfold add. destruct (Z.eqb_spec wfd (Z.of_nat (S w))) as [W|W]; [|reflexivity]. destruct (HW _ _ Ech W Hc) as [W2 _]. lia. }
      assert (SH : share qs c' o' = want).
      { unfold want. rewrite A0. unfold o, o', share, carries. cbn [c' f_bottom set_psi set_theta]. rewrite Hc. cbn. ring. }
      assert (TC : f_theta c' = Fin (pt_theta q hn)) by (cbn; rewrite Ehn; apply (theta_of_h_is _ _ _ _ _ _ _ _ V Hhn)).
      rewrite SH. split; [reflexivity|]. split; [reflexivity|]. split; [right; exists q, hn; repeat split; assumption|]. split; [exists d; exact Ed|]. split.
      * apply acc_idle; [assumption|left; discriminate|reflexivity].
      * intros DR _ _. split; [|apply same_dry]. destruct (DR n n0 eq_refl eq_refl) as (DR1 & _ & DR3). destruct (DR3 Hc s Es) as [_ TC0].
        destruct (curved n0 ON0 ltac:(left; lia)) as (q0 & hn0 & Eqn0 & Ehn0 & Hhn0 & Etn0). rewrite Ehn0, (theta_of_h_is _ _ _ _ _ _ _ _ V Hhn0) in TC0. rewrite TC, TC0. cbn [val].
        apply (curve_mono e qs HQ (f_layer c)); [lia|assumption|assumption|]. rewrite Etn, Etn0 in DR1. cbn [val] in DR1.
        apply (curve_anti e qs HQ (f_layer n) qn); [lia|assumption|assumption|assumption|]. rewrite <- LN in Eqn0. assert (q0 = qn) by congruence. subst q0. assumption.
Qed.

(** ** The loop *)

Section Loop.
Variables (dt precip : R) (wfd : Z) (head : list front).
Hypothesis Hdt : 0 <= dt.
Hypothesis HH : Str e head.
Hypothesis OH : Forall (on_curve qs) head.
Hypothesis MH : Forall (moves_down qs) head.
Hypothesis HW : takes wfd head.

Definition want_of (i : nat) (c : front) (a : R) : R := share qs c (nth_error head (S i)) + (if (wfd =? Z.of_nat (S i))%Z then precip - a else 0).

(** Inside a layer a front is not drier than the one below it, at the boundaries the heads are equal, and no front is below the column. *)
Definition calm_head : Prop := forall i c, nth_error head i = Some c -> val (f_depth c) <= top_of qs (e_nlayers e + 1) /\
  forall n, nth_error head (S i) = Some n -> (f_layer c = f_layer n -> val (f_theta n) <= val (f_theta c)) /\ (f_bottom c = true -> meets e c n).

Definition entry (l' : list front) (d : nat -> R) (i : nat) : Prop :=
  forall c c', nth_error head i = Some c -> nth_error l' i = Some c' ->
    accounted qs (Z.of_nat (length head)) c c' (nth_error l' (S i)) (want_of i c (d (S i))) (share qs c' (nth_error l' (S i))) (d (S i)) (d i).
Definition dry_entry (l' : list front) (d : nat -> R) (i : nat) : Prop :=
  forall c c', nth_error head i = Some c -> nth_error l' i = Some c' ->
    val (f_theta c') <= val (f_theta c) /\ dry_result (share qs c' (nth_error l' (S i))) (want_of i c (d (S i))) (d (S i)) (d i).

Lemma loop_books : forall k l a l' aet', Str e l -> length l = length head -> (k <= length head)%nat -> (forall i, (i < k)%nat -> nth_error l i = nth_error head i) ->
  (forall i n n0, nth_error l i = Some n -> nth_error head i = Some n0 -> f_layer n = f_layer n0 /\ f_bottom n = f_bottom n0) ->
  Forall (on_curve qs) l -> Forall (fun f => finite (f_depth f)) l ->
  move_loop k e (Fin dt) (Fin precip) wfd head (listLength l) l (Fin a) = Ok (l', aet') ->
  exists d, d k = a /\ aet' = Fin (d O) /\ Str e l' /\ length l' = length head /\ Forall (on_curve qs) l' /\ Forall (fun f => finite (f_depth f)) l' /\
    (forall i, (k <= i)%nat -> nth_error l' i = nth_error l i) /\ (forall i, (i < k)%nat -> entry l' d i) /\
    (calm_head -> (forall i n n0, (k <= i)%nat -> nth_error l i = Some n -> nth_error head i = Some n0 -> val (f_theta n) <= val (f_theta n0)) ->
     forall i, (i <= k)%nat -> (forall j, (i <= j < k)%nat -> wfd = Z.of_nat (S j) -> precip <= d (S j)) -> forall j, (i <= j < k)%nat -> dry_entry l' d j).
Proof.
  induction k as [|k IH]; intros l a l' aet' H HL Hk HA HS OL FL M.
  - cbn in M. apply Ok_inj in M. apply pair_equal_spec in M as [<- <-]. exists (fun _ => a). split; [reflexivity|]. split; [reflexivity|]. split; [assumption|]. split; [assumption|].
    split; [assumption|]. split; [assumption|]. split; [reflexivity|]. split; intros; lia.
  - cbn [move_loop] in M. apply bind_inv in M as ([l1 a1] & M1 & M). assert (HE := strata_env e qs HQ).
    destruct (nth_error head k) as [c|] eqn:Ech; [|apply nth_error_None in Ech; lia]. assert (Ec : nth_error l k = Some c) by (rewrite HA by lia; assumption).
    assert (MD : moves_down qs c) by (rewrite Forall_forall in MH; apply MH; eapply nth_error_In; eassumption).
    pose proof (move_one_ok e (Fin dt) (Fin precip) wfd head k l (Fin a) HE H (st_num _ _ HH) (eq_sym HL) (ex_intro _ dt eq_refl) ltac:(lia)) as OK. rewrite M1 in OK. cbn [ends fst] in OK. destruct OK as [H1 L1].
    destruct (move_one_travels _ _ _ _ _ _ _ _ _ _ c HE H (st_num _ _ HH) (eq_sym HL) (ex_intro _ dt eq_refl) Ec M1) as (c1 & E1 & (T1 & _ & T2 & _) & _).
    destruct (move_one_books dt precip wfd head k l a l1 a1 c Hdt HH H HL (fun i Hi => HA i ltac:(lia)) OH OL MD (fun n n0 => HS (S k) n n0) HW Ech M1) as (c' & av & -> & -> & OC & FC & AC & DRY).
    assert (c1 = c'). { assert (Q : nth_error (lset l k c1) k = nth_error (lset l k c') k) by congruence. rewrite !nth_error_lset_eq in Q by lia. congruence. } subst c1.
    replace (listLength l) with (listLength (lset l k c')) in M by (unfold listLength; congruence).
    destruct (IH (lset l k c') av l' aet' H1) as (d' & D1 & D2 & D3 & D4 & D5 & D6 & D7 & D8 & D9); [lia|lia| | | | |exact M|].
    { intros i Hi. rewrite lset_other by lia. apply HA. lia. }
    { intros i n n0 En En0. destruct (Nat.eq_dec i k) as [->|N]; [|rewrite lset_other in En by assumption; apply (HS i); assumption].
      rewrite nth_error_lset_eq in En by lia. injection En as <-. rewrite Ech in En0. injection En0 as <-. auto. }
    { apply Forall_forall. intros x Hx. apply In_nth_error in Hx as [i Hi]. destruct (Nat.eq_dec i k) as [->|N].
      - rewrite nth_error_lset_eq in Hi by lia. injection Hi as <-. assumption.
      - rewrite lset_other in Hi by assumption. rewrite Forall_forall in OL. apply OL. eapply nth_error_In. eassumption. }
    { apply Forall_forall. intros x Hx. apply In_nth_error in Hx as [i Hi]. destruct (Nat.eq_dec i k) as [->|N].
      - rewrite nth_error_lset_eq in Hi by lia. injection Hi as <-. assumption.
      - rewrite lset_other in Hi by assumption. rewrite Forall_forall in FL. apply FL. eapply nth_error_In. eassumption. }
    set (d := fun i => if (i =? S k)%nat then a else d' i).
    assert (DS : d (S k) = a) by (unfold d; rewrite Nat.eqb_refl; reflexivity).
    assert (DL : forall i, (i <= k)%nat -> d i = d' i) by (intros i Hi; unfold d; destruct (Nat.eqb_spec i (S k)); [lia|reflexivity]).
    assert (NX : forall i, (k < i)%nat -> nth_error l' i = nth_error l i) by (intros i Hi; rewrite D7 by lia; apply lset_other; lia).
    assert (NK : nth_error l' k = Some c') by (rewrite D7 by lia; apply nth_error_lset_eq; lia).
    exists d. split; [exact DS|]. split; [rewrite DL by lia; exact D2|]. split; [assumption|]. split; [assumption|]. split; [assumption|]. split; [assumption|]. split; [intros i Hi; apply NX; lia|]. split.
    + intros i Hi. destruct (Nat.eq_dec i k) as [->|N].
      * intros x x' Ex Ex'. rewrite Ech in Ex. injection Ex as <-. rewrite NK in Ex'. injection Ex' as <-. rewrite NX by lia. rewrite DS, (DL k) by lia. rewrite D1. exact AC.
      * intros x x' Ex Ex'. rewrite (DL (S i)), (DL i) by lia. apply D8; [lia|assumption|assumption].
    + intros CH HB i Hi HP. destruct (Nat.eq_dec i (S k)) as [->|N0]; [intros; lia|].
      assert (KD : val (f_theta c') <= val (f_theta c) /\ dry_result (share qs c' (nth_error l (S k))) (want_of k c a) a av).
      { destruct (CH k c Ech) as [CH1 CH2]. apply DRY; [|assumption|].
        - intros n n0 En En0. destruct (CH2 n0 En0) as [CH3 CH4]. split; [|auto]. apply (HB (S k)); [lia|assumption|assumption].
        - intro W. rewrite <- DS. apply HP; [lia|assumption]. }
      intros j Hj. destruct (Nat.eq_dec j k) as [->|N].
      * intros x x' Ex Ex'. rewrite Ech in Ex. injection Ex as <-. rewrite NK in Ex'. injection Ex' as <-. rewrite NX by lia. rewrite DS, (DL k) by lia. rewrite D1. exact KD.
      * intros x x' Ex Ex'. rewrite (DL (S j)), (DL j) by lia. apply (D9 CH) with (i := i); [|lia| |lia|assumption|assumption].
        -- intros i' n n0 Hi' En En0. destruct (Nat.eq_dec i' k) as [->|Ni]; [|rewrite lset_other in En by assumption; apply (HB i'); [lia|assumption|assumption]].
           rewrite nth_error_lset_eq in En by lia. injection En as <-. rewrite Ech in En0. injection En0 as <-. apply KD.
        -- intros j' Hj' W. rewrite <- DL by lia. apply HP; [lia|assumption].
Qed.

End Loop.
End Column.

(** ** The whole pass *)

Lemma Rsum_minus : forall (f g : nat -> R) n, Rsum (map (fun i => f i - g i) (seq 0 n)) = Rsum (map f (seq 0 n)) - Rsum (map g (seq 0 n)).
Proof. induction n as [|n IH]; [cbn; ring|]. rewrite !Rsum_S, IH. ring. Qed.

Lemma Rsum_nth : forall l, Rsum l = Rsum (map (fun i => nth i l 0) (seq 0 (length l))).
Proof.
  induction l as [|x l IH]; [reflexivity|]. cbn [length seq map Rsum nth]. rewrite <- seq_shift, map_map. f_equal. rewrite IH at 1. reflexivity.
Qed.

Lemma Rsum_single : forall n w x, (w < n)%nat -> Rsum (map (fun i => if (Z.of_nat (S w) =? Z.of_nat (S i))%Z then x i else 0) (seq 0 n)) = x w.
Proof.
  induction n as [|n IH]; intros w x Hw; [lia|]. rewrite Rsum_S. destruct (Nat.eq_dec w n) as [->|N].
  - rewrite Z.eqb_refl. clear.
    assert (G : forall m, (m <= n)%nat -> Rsum (map (fun i => if (Z.of_nat (S n) =? Z.of_nat (S i))%Z then x i else 0) (seq 0 m)) = 0).
    { induction m as [|m IH]; intros Hm; [reflexivity|]. rewrite Rsum_S, IH by lia. destruct (Z.eqb_spec (Z.of_nat (S n)) (Z.of_nat (S m))); [lia|ring]. }
    rewrite (G n) by lia. ring.
  - rewrite IH by lia. destruct (Z.eqb_spec (Z.of_nat (S w)) (Z.of_nat (S n))); [lia|]. ring.
Qed.

Lemma sum_up : forall qs wfd precip head l' d w, wfd = Z.of_nat (S w) -> length l' = length head -> (w < length head)%nat ->
  Rsum (shares qs l') = Rsum (shares qs head) + (precip - d (S w)) + Rsum (map (misfit qs wfd precip head l' d) (seq 0 (length head))).
Proof.
  intros qs wfd precip head l' d w Ew D4 Hw.
  unfold misfit. rewrite Rsum_minus. unfold wanted.
  assert (S1 : Rsum (shares qs l') = Rsum (map (fun i => nth i (shares qs l') 0) (seq 0 (length head)))) by (rewrite Rsum_nth at 1; rewrite shares_length, D4; reflexivity).
  assert (S2 : Rsum (shares qs head) = Rsum (map (fun i => nth i (shares qs head) 0) (seq 0 (length head)))) by (rewrite Rsum_nth at 1; rewrite shares_length; reflexivity).
  assert (S3 : Rsum (map (fun i => nth i (shares qs head) 0 + (if (wfd =? Z.of_nat (S i))%Z then precip - d (S i) else 0)) (seq 0 (length head))) =
               Rsum (map (fun i => nth i (shares qs head) 0) (seq 0 (length head))) + (precip - d (S w))).
  { rewrite <- (Rsum_single (length head) w (fun i => precip - d (S i))) by assumption. rewrite Ew.
    generalize (seq 0 (length head)). induction l as [|x l IH]; cbn [map Rsum]; [ring|]. rewrite IH. ring. }
  rewrite S3, S1, S2. ring.
Qed.

Section Whole.
Context {cfg : Cfg}.

Theorem pass_books : forall e qs dt precip aet head l' a', strata e qs -> profile (e_nlayers e) (e_cum e) head -> deepest_rests head -> heads_meet e head ->
  Forall (on_curve qs) head -> Forall (moves_down qs) head -> 0 <= dt ->
  let wfd := wetting_front_free_drainage head in
  move_loop (length head) e (Fin dt) (Fin precip) wfd head (listLength head) head (Fin aet) = Ok (l', a') ->
  exists d aet', a' = Fin aet' /\ books qs wfd precip aet aet' head l' d /\ Forall (on_curve qs) l' /\ heads_meet e l' /\
    storage l' = storage head + (precip - d (Z.to_nat wfd)) + Rsum (map (misfit qs wfd precip head l' d) (seq 0 (length head))).
Proof.
  intros e qs dt precip aet head l' a' HQ HP HR HM OH MH Hdt wfd M. assert (HE := strata_env e qs HQ).
  assert (HH : Str e head) by (apply Str_iff; [apply HE|auto]).
  destruct (fd_ok e head HE HH) as (w & f & Ew & Ef & _ & _ & _ & FD). fold wfd in Ew.
  assert (HW : takes e wfd head).
  { intros i g Eg W B. assert (i = w) by lia. subst i. assert (g = f) by congruence. subst g. destruct FD as [[FD _]|(_ & FD1 & FD2)]; [congruence|].
    split; [assumption|]. destruct (fd_ok e head HE HH) as (w' & f' & Ew' & Ef' & _ & L' & _ & _). fold wfd in Ew'. assert (w' = w) by lia. subst w'. assert (f' = f) by congruence. subst f'. lia. }
  assert (FH : Forall (fun f => finite (f_depth f)) head). { eapply Forall_impl; [|exact MH]. intros g (d & v & E & _). exists d. assumption. }
  destruct (loop_books e qs HQ dt precip wfd head Hdt HH OH MH HW (length head) head aet l' a' HH eq_refl (le_n _) (fun _ _ => eq_refl)) as (d & D1 & D2 & D3 & D4 & D5 & D6 & _ & D8 & _); try assumption.
  { intros i n n0 E1 E2. rewrite E1 in E2. injection E2 as ->. auto. }
  assert (HM' : heads_meet e l') by (apply (loop_advances e (Fin dt) (Fin precip) wfd head head (Fin aet) l' a'); auto; [apply HH|exists dt; reflexivity]).
  exists d, (d O). split; [exact D2|]. split.
  { split; [exact D1|]. split; [reflexivity|]. intros i c c' Ec Ec'. unfold wanted. rewrite (shares_nth qs _ _ _ Ec), (shares_nth qs _ _ _ Ec'). apply (D8 i); [apply nth_error_Some; congruence|assumption|assumption]. }
  split; [assumption|]. split; [assumption|].
  rewrite (attribution e qs HQ head HP FH OH HM), (attribution e qs HQ l'); try assumption.
  2:{ apply Str_iff in D3; [apply D3|apply HE]. }
  replace (Z.to_nat wfd) with (S w) by lia. apply sum_up; [assumption|assumption|apply nth_error_Some; congruence].
Qed.

(** ** Dry weather *)

Lemma accounted_less : forall qs nf c c' o want got a a', accounted qs nf c c' o want got a a' -> a' <= Rmax a 0.
Proof.
  intros qs nf c c' o want got a a' H. pose proof (Rmax_l a 0). pose proof (Rmax_r a 0). destruct H as [| |q a' _ _ _ ST]; [assumption|assumption|]. destruct ST as [S1|S1|h1 S1 S2|a2 S1 S2 [->| ->]]; lra.
Qed.

Lemma dry_less : forall got want a a', dry_result got want a a' -> a' <= a /\ Rabs (got - want) <= tol + (a - a').
Proof. intros got want a a' [[H ->]|[H ->]]; lra. Qed.

Lemma dry_sums : forall n (x d : nat -> R), (forall i, (i < n)%nat -> Rabs (x i) <= tol + (d (S i) - d i)) -> Rabs (Rsum (map x (seq 0 n))) <= INR n * tol + (d n - d O).
Proof.
  induction n as [|n IH]; intros x d H; [cbn; rewrite Rabs_R0; lra|]. rewrite Rsum_S, S_INR. specialize (IH x d (fun i Hi => H i ltac:(lia))). specialize (H n ltac:(lia)).
  pose proof (Rabs_triang (Rsum (map x (seq 0 n))) (x n)). lra.
Qed.

Lemma down_to : forall n (d : nat -> R), (forall i, (i < n)%nat -> d i <= d (S i)) -> forall i j, (i <= j <= n)%nat -> d i <= d j.
Proof.
  intros n d H i j Hij. replace j with (i + (j - i))%nat by lia. assert (K : (i + (j - i) <= n)%nat) by lia. revert K. generalize (j - i)%nat. induction n0 as [|m IH]; intro K; [rewrite Nat.add_0_r; lra|].
  specialize (IH ltac:(lia)). specialize (H (i + m)%nat ltac:(lia)). replace (i + S m)%nat with (S (i + m)) by lia. lra.
Qed.

Theorem dry_pass : forall e qs dt precip aet head l' aet', strata e qs -> profile (e_nlayers e) (e_cum e) head -> deepest_rests head -> heads_meet e head ->
  Forall (on_curve qs) head -> Forall (moves_down qs) head -> drier_downwards head -> Forall (fun f => val (f_depth f) <= top_of qs (e_nlayers e + 1)) head -> 0 <= dt -> 0 <= precip -> precip < aet' ->
  let wfd := wetting_front_free_drainage head in
  move_loop (length head) e (Fin dt) (Fin precip) wfd head (listLength head) head (Fin aet) = Ok (l', Fin aet') ->
  Forall2 (fun c c' => val (f_theta c') <= val (f_theta c)) head l' /\ aet' <= aet /\
  Rabs (storage l' - (storage head + precip - aet)) <= INR (length head) * tol + 2 * (aet - aet').
Proof.
  intros e qs dt precip aet head l' aet' HQ HP HR HM OH MH DD IN Hdt Hp Ha wfd M. assert (HE := strata_env e qs HQ).
  assert (HH : Str e head) by (apply Str_iff; [apply HE|auto]).
  destruct (fd_ok e head HE HH) as (w & f & Ew & Ef & _ & Lf & _ & FD). fold wfd in Ew. assert (Hw : (w < length head)%nat) by (apply nth_error_Some; congruence).
  assert (HW : takes e wfd head).
  { intros i g Eg W B. assert (i = w) by lia. subst i. assert (g = f) by congruence. subst g. destruct FD as [[FD _]|(_ & FD1 & FD2)]; [congruence|]. split; [assumption|lia]. }
  assert (FH : Forall (fun f => finite (f_depth f)) head). { eapply Forall_impl; [|exact MH]. intros g (d & v & E & _). exists d. assumption. }
  destruct (loop_books e qs HQ dt precip wfd head Hdt HH OH MH HW (length head) head aet l' (Fin aet') HH eq_refl (le_n _) (fun _ _ => eq_refl)) as (d & D1 & D2 & D3 & D4 & D5 & D6 & _ & D8 & D9); try assumption.
  { intros i n n0 E1 E2. rewrite E1 in E2. injection E2 as ->. auto. }
  injection D2 as D2.
  assert (CH : calm_head e qs head).
  { intros i c Ec. split; [rewrite Forall_forall in IN; apply IN; eapply nth_error_In; eassumption|]. intros n En. split.
    - intro L. clear - DD Ec En L. revert i Ec En. induction head as [|x r IH]; intros [|i] Ec En; try discriminate.
      + cbn in Ec. injection Ec as <-. destruct r as [|y r]; [discriminate|]. cbn in En. injection En as <-. destruct DD as [DD _]. left. auto.
      + apply (IH ltac:(destruct r; [exact Logic.I|apply DD]) i); assumption.
    - intros B s Es. apply (HM i c n s); assumption. }
  specialize (D9 CH ltac:(intros i n n0 _ E1 E2; rewrite E1 in E2; injection E2 as ->; lra)).
  assert (NT : forall i, (i < length head)%nat -> exists c c', nth_error head i = Some c /\ nth_error l' i = Some c').
  { intros i Hi. destruct (nth_error head i) as [c|] eqn:Ec; [|apply nth_error_None in Ec; lia]. destruct (nth_error l' i) as [c'|] eqn:Ec'; [eauto|apply nth_error_None in Ec'; lia]. }
  (* the demand never becomes larger than at the front that takes the water *)
  assert (UP : forall k, (k <= length head)%nat -> aet' <= Rmax (d k) 0).
  { induction k as [|k IH]; intro Hk; [rewrite D2; apply Rmax_l|]. specialize (IH ltac:(lia)). destruct (NT k ltac:(lia)) as (c & c' & Ec & Ec'). pose proof (accounted_less _ _ _ _ _ _ _ _ _ (D8 k ltac:(lia) c c' Ec Ec')) as Q.
    pose proof (Rmax_r (d (S k)) 0). eapply Rle_trans; [exact IH|]. apply Rmax_lub; assumption. }
  assert (PW : precip <= d (S w)) by (specialize (UP (S w) ltac:(lia)); unfold Rmax in UP; destruct (Rle_dec (d (S w)) 0); lra).
  specialize (D9 0%nat ltac:(lia) ltac:(intros j Hj W; assert (j = w) by lia; subst j; exact PW)).
  assert (DE : forall i, (i < length head)%nat -> d i <= d (S i) /\ Rabs (misfit qs wfd precip head l' d i) <= tol + (d (S i) - d i)).
  { intros i Hi. destruct (NT i Hi) as (c & c' & Ec & Ec'). destruct (D9 i ltac:(lia) c c' Ec Ec') as [_ Q]. apply dry_less in Q. unfold misfit, wanted. rewrite (shares_nth qs _ _ _ Ec), (shares_nth qs _ _ _ Ec'). exact Q. }
  assert (MO := down_to (length head) d (fun i Hi => proj1 (DE i Hi))).
  split; [|split].
  - clear - D9 D4 NT. assert (G : forall i c c', nth_error head i = Some c -> nth_error l' i = Some c' -> val (f_theta c') <= val (f_theta c)).
    { intros i c c' E E'. apply (D9 i); [|assumption|assumption]. split; [lia|]. apply nth_error_Some. congruence. }
    clear D9 NT. revert l' D4 G. induction head as [|x r IH]; intros [|y l'] L G; try discriminate; constructor.
    + exact (G 0%nat x y eq_refl eq_refl).
    + apply IH; [cbn in L; lia|]. intros i. exact (G (S i)).
  - pose proof (MO 0%nat (length head) ltac:(lia)). lra.
  - destruct (pass_books e qs dt precip aet head l' (Fin aet') HQ HP HR HM OH MH Hdt M) as (d2 & a2 & _ & (_ & _ & _) & O' & HM' & _).
    assert (HP' : profile (e_nlayers e) (e_cum e) l') by (apply Str_iff in D3; [apply D3|apply HE]).
    assert (SUM : storage l' = storage head + (precip - d (S w)) + Rsum (map (misfit qs wfd precip head l' d) (seq 0 (length head)))).
    { rewrite (attribution e qs HQ head HP FH OH HM), (attribution e qs HQ l' HP' D6 D5 HM'). apply sum_up; assumption. }
    pose proof (dry_sums (length head) (misfit qs wfd precip head l' d) d (fun i Hi => proj2 (DE i Hi))) as DS. rewrite D1, <- D2 in DS.
    pose proof (MO (S w) (length head) ltac:(lia)) as U1. rewrite D1 in U1. pose proof (MO 0%nat (S w) ltac:(lia)) as U2. rewrite <- D2 in U2.
    replace (storage l' - (storage head + precip - aet)) with (Rsum (map (misfit qs wfd precip head l' d) (seq 0 (length head))) + (aet - d (S w))) by (rewrite SUM; ring).
    pose proof (Rabs_triang (Rsum (map (misfit qs wfd precip head l' d) (seq 0 (length head)))) (aet - d (S w))). rewrite (Rabs_right (aet - d (S w))) in H by lra. lra.
Qed.

End Whole.
