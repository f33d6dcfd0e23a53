(** Motions that start with a front inside the first layer: the closure of the balance replaces what a saturated front could not take (exact arithmetic). *)

From Coq Require Import Reals Lra ZArith List Bool Lia.
From Verif Require Import Outcome Dbl Exact Types ListOps Soil Fronts Infil Move State Update Lib Spec_Common Spec_Soil Spec_List Spec_Update Spec_Profile Spec_Storage Spec_Column Spec_Advance Spec_Balance Spec_Shares
  Spec_Physical Spec_Motion Pf_Dbl Pf_Pow Pf_Soil Pf_List Pf_Profile Pf_Structure Pf_Storage Pf_Merge Pf_Cross Pf_Repair Pf_SafeMove Pf_SafeUpdate Pf_Surface Pf_Update Pf_Single Pf_SingleMerge
  Pf_SubSingle Pf_Advance Pf_Physical Pf_Physical2 Pf_Shares Pf_Books Pf_Motion Pf_Motion2.
Import ListNotations.
Open Scope R_scope.

Section Motion.
Local Existing Instance exact.
Context {cfg : Cfg}.
Variables (e : env) (M : R).
Hypothesis HV : vg_column e.
Hypothesis HM : conducts_at_most M e.
Hypothesis HF : frozen_in_range e.
Hypothesis HE : sound_env e.
Hypothesis H0 : aget (e_cum e) 0 = Ok (Fin 0).

Let phys := phys e M.

(** ** A saturated front stays saturated when it passes into the next layer *)

Lemma wet_head : forall s r te a n m k, vg_soil s r te a n m k -> h_of_Se s (Se_of_theta s (s_theta_e s)) = Fin 0.
Proof.
  intros s r te a n m k V. destruct (retention_bounds s r te a n m k 0 V (Rle_refl 0)) as (t & Et & _ & Ht & _). rewrite (Ht eq_refl) in Et.
  rewrite (vg_e _ _ _ _ _ _ _ V), <- Et. apply (h_inverse _ _ _ _ _ _ _ _ V). lra.
Qed.
Lemma wet_theta : forall s r te a n m k, vg_soil s r te a n m k -> theta_of_h s (Fin 0) = s_theta_e s.
Proof.
  intros s r te a n m k V. destruct (retention_bounds s r te a n m k 0 V (Rle_refl 0)) as (t & Et & _ & Ht & _). rewrite (Ht eq_refl) in Et.
  rewrite (vg_e _ _ _ _ _ _ _ V). exact Et.
Qed.

Lemma cross_loop_keeps : forall k p l l' j, cross_loop k e p l = Ok l' -> (j < p)%nat -> nth_error l' j = nth_error l j.
Proof.
  induction k as [|k IH]; intros p l l' j E Hj; [discriminate|]. cbn [cross_loop] in E. destruct (_ =? _)%Z; [apply Ok_inj in E; subst; reflexivity|].
  bind_inv E l1 Q. rewrite (IH (S p) l1 l' j E) by lia. unfold cross_step in Q. bind_inv Q c Ec. bind_inv Q s Es. bind_inv Q ff Ef. bind_inv Q n En. bind_inv Q ck Ek.
  destruct (_ && _)%bool; [|apply Ok_inj in Q; subst; reflexivity]. bind_inv Q s2 Es2. bind_inv Q nn Enn. bind_inv Q ck1 Ek1. apply Ok_inj in Q. subst l1.
  rewrite !nth_error_lset_neq by lia. reflexivity.
Qed.

(** Front [p] is the first one inside its layer, and saturated. *)
Definition wet_at (l : list front) (p : nat) : Prop :=
  (forall j g, (j < p)%nat -> nth_error l j = Some g -> f_layer g = Z.of_nat (S j)) /\
  exists c s, nth_error l p = Some c /\ f_bottom c = false /\ f_layer c = Z.of_nat (S p) /\ soil_of e (f_layer c) = Ok s /\ f_theta c = s_theta_e s.

Lemma cross_wet : forall k p l l', wet_at l p -> Forall (fun f => (1 <= f_layer f <= e_nlayers e)%Z) l -> cross_loop k e p l = Ok l' -> exists p', wet_at l' p'.
Proof.
  induction k as [|k IH]; intros p l l' W RG E; [discriminate|]. cbn [cross_loop] in E. destruct (_ =? _)%Z; [apply Ok_inj in E; subst; eauto|].
  bind_inv E l1 Q. unfold cross_step in Q. bind_inv Q c Ec. bind_inv Q s Es. bind_inv Q ff Ef. bind_inv Q n En. bind_inv Q ck Ek.
  apply lget_Ok in Ec. apply lget_Ok in En. destruct W as (W1 & c0 & s0 & W2 & W3 & W4 & W5 & W6). assert (c0 = c) by congruence. subst c0. assert (s0 = s) by congruence. subst s0.
  assert (Rc : (1 <= f_layer c <= e_nlayers e)%Z) by (rewrite Forall_forall in RG; apply RG; eapply nth_error_In; eassumption).
  destruct (_ && _)%bool eqn:B.
  - apply andb_true_iff in B as [B NL]. apply negb_true_iff, Z.eqb_neq in NL. bind_inv Q s2 Es2. bind_inv Q nn Enn. bind_inv Q ck1 Ek1. apply Ok_inj in Q.
    destruct (HV _ _ Rc Es) as (r & te & a & n0 & m & k0 & V). destruct (HV (f_layer c + 1)%Z s2 ltac:(lia) Es2) as (r2 & te2 & a2 & n2 & m2 & k2 & V2).
    rewrite W6, (wet_head _ _ _ _ _ _ _ V), (wet_theta _ _ _ _ _ _ _ V2) in Q. subst l1.
    assert (LP : (S p < length l)%nat) by (apply nth_error_Some; congruence).
    apply (IH (S p) _ l') in E; [exact E| |].
    + split.
      * intros j g Hj Eg. rewrite nth_error_lset_neq in Eg by lia. destruct (Nat.eq_dec j p) as [->|N].
        -- rewrite nth_error_lset_eq in Eg by lia. injection Eg as <-. exact W4.
        -- rewrite nth_error_lset_neq in Eg by lia. apply (W1 j g); [lia|exact Eg].
      * eexists _, s2. split; [rewrite nth_error_lset_eq by (rewrite lset_length; lia); reflexivity|]. cbn. split; [reflexivity|]. split; [lia|]. auto.
    + apply Forall_forall. intros x Hx. apply In_nth_error in Hx as [i Hi]. destruct (Nat.eq_dec i (S p)) as [->|N1].
      * rewrite nth_error_lset_eq in Hi by (rewrite lset_length; lia). injection Hi as <-. cbn. lia.
      * rewrite nth_error_lset_neq in Hi by lia. destruct (Nat.eq_dec i p) as [->|N2]; [rewrite nth_error_lset_eq in Hi by lia; injection Hi as <-; exact Rc|].
        rewrite nth_error_lset_neq in Hi by lia. rewrite Forall_forall in RG. apply RG. eapply nth_error_In. eassumption.
  - apply Ok_inj in Q. subst l1. exists p. split.
    + intros j g Hj Eg. rewrite (cross_loop_keeps _ _ _ _ j E) in Eg by lia. eauto.
    + exists c, s. rewrite (cross_loop_keeps _ _ _ _ p E) by lia. auto.
Qed.

Lemma wet_supply : forall l p, Str e l -> wet_at l p -> wetting_front_free_drainage l = Z.of_nat (S p).
Proof.
  intros l p HS (W1 & c & s & W2 & W3 & W4 & W5 & W6). destruct (fd_ok e l HE HS) as (i & f & -> & Ef & _ & Lf & LA & FD). do 2 f_equal.
  destruct (Str_next _ _ _ _ HS W2 W3) as (n & En & Ln). destruct (lt_eq_lt_dec i p) as [[L|L]|L]; [exfalso|exact L|exfalso].
  - destruct FD as [(B & n' & En')|(_ & _ & LL)].
    + destruct (Str_next _ _ _ _ HS Ef B) as (n2 & En2 & Ln2). destruct (Nat.eq_dec (S i) p) as [Q|Q].
      * rewrite Q in En2. rewrite W2 in En2. injection En2 as <-. lia.
      * specialize (W1 (S i) n2 ltac:(lia) En2). lia.
    + assert (p < length l)%nat by (apply nth_error_Some; congruence). lia.
  - specialize (LA (S p) n ltac:(lia) En). lia.
Qed.

Lemma closure_saturated : forall old vin l a l' a2 q2, Str e l -> measured l -> Forall phys l -> ~ cross_tie e l -> ~ cross_blocked e l -> saturated_top e l ->
  closure e (Fin old) (Fin vin) l (Fin a) = Ok (l', Fin a2, Fin q2) -> measured l' ->
  let T := old + vin - a in (Rabs (storage l' - T) <= 2 / 10000000000 /\ a2 = a /\ q2 = 0) \/ (a2 = a + Rabs (storage l' - T) /\ q2 = T - Rabs (storage l' - T) - storage l').
Proof.
  intros old vin l a l' a2 q2 H ML P HT HK SAT E ML' T. unfold T. clear T.
  pose proof (ends_Ok _ _ _ _ _ (closure_ok e (Fin old) (Fin vin) l (Fin a) HE H HT) E) as S2. cbn [fst] in S2.
  destruct (profile_of e HE l H) as [HP HR]. unfold closure in E.
  destruct (cross_spec e l HE HV HP HR ML (phys_soils e M HV HE _ P) HT HK) as (l1 & E1 & ES & P1 & M1 & W1 & L1).
  destruct (cross_ok e l HE H HT) as (l1' & E1' & S1 & _). rewrite E1 in E1'. apply Ok_inj in E1'. subst l1'.
  rewrite E1 in E. cbn [bind] in E. cbv zeta in E. bind_inv E s Es. bind_inv E u Eu. destruct (findFront _ l1) as [p|] eqn:FF; [|discriminate]. bind_inv E g0 Ef.
  assert (SG : f_theta g0 = s_theta_e s /\ exists te, s_theta_e s = Fin te).
  { destruct SAT as (f & r & s1 & -> & B & Es1 & Et).
    assert (F0 : f_layer f = 1%Z). { destruct (fd_ok e (f :: r) HE H) as (i & g & _ & _ & _ & _ & LA & _). apply (LA 0%nat f); [lia|reflexivity]. }
    assert (W0 : wet_at (f :: r) 0). { split; [intros; lia|]. exists f, s1. repeat split; assumption. }
    assert (RG : Forall (fun f => (1 <= f_layer f <= e_nlayers e)%Z) (f :: r)) by (apply Forall_forall; intros x Hx; apply In_nth_error in Hx as [i Hi]; exact (Str_range _ _ _ _ H Hi)).
    destruct (cross_wet (S (length (f :: r))) 0 (f :: r) l1 W0 RG E1) as [p' W'].
    rewrite (wet_supply l1 p' S1 W') in Es, FF. destruct W' as (_ & c & sc & Ec & _ & Lc & Esc & Tc).
    rewrite (find_num l1 p' (st_num _ _ S1)) in FF by (apply nth_error_Some; congruence). injection FF as <-. apply lget_Ok in Ef. assert (g0 = c) by congruence. subst g0.
    rewrite Lc, Es in Esc. apply Ok_inj in Esc. subst sc. split; [exact Tc|]. destruct (HV (Z.of_nat (S p')) s) as (r0 & te & a0 & n0 & m0 & k0 & V); [rewrite <- Lc; exact (Str_range _ _ _ _ S1 Ec)|exact Es|].
    exists te. apply (vg_e _ _ _ _ _ _ _ V). }
  destruct SG as (SG & te & Ete). rewrite SG, Ete in E.
  assert (C : (dabs (Fin te - Fin te) <? lit (1 / 1000000000000000))%d = true).
  { change (lit (1 / 1000000000000000)) with (Fin (1 / 1000000000000000)). cbn [dsub dabs rnd exact]. apply ltb_t. unfold Rminus. rewrite Rplus_opp_r, Rabs_R0. lra. }
  rewrite C in E. rewrite (mass_of e HE H0 l1 S1 M1) in E. cbn [bind] in E. bind_inv E x Ex. destruct x as [[l2 err] g].
  replace (Fin old + Fin vin - (Fin a + Fin 0))%d with (Fin (old + vin - a)) in Ex by (cbn; f_equal; lra).
  destruct (closure_loop_ledger e _ _ _ _ _ _ _ _ _ _ _ _ _ _ Ex (mass_of e HE H0 l1 S1 M1) eq_refl) as (G & mass' & Em & Ee).
  assert (l' = l2). { destruct g; [bind_inv E m2 Em2|]; apply Ok_inj in E; injection E as E3 _ _; congruence. } subst l2.
  rewrite (mass_of e HE H0 l' S2 ML') in Em. apply Ok_inj in Em. subst mass'. cbn [dsub rnd exact dabs] in Ee.
  destruct g.
  - bind_inv E m2 Em2. rewrite (mass_of e HE H0 l' S2 ML') in Em2. apply Ok_inj in Em2. subst m2 err. apply Ok_inj in E. cbn in E. injection E as E3 E4. right. split; [lra|].
    rewrite <- E4. ring_simplify. lra.
  - apply Ok_inj in E. injection E as E3 E4. subst err. left. split; [apply tight_test; exact G|auto].
Qed.

(** ** The pass *)

Theorem wet_pass : forall qs dt precip aet head l' aet' f r, strata e qs -> Str e head -> heads_meet e head -> head = f :: r -> f_bottom f = false ->
  Forall (on_curve qs) head -> Forall (moves_down qs) head -> drier_downwards head -> Forall (fun f => val (f_depth f) <= top_of qs (e_nlayers e + 1)) head -> 0 <= dt ->
  let wfd := wetting_front_free_drainage head in
  move_loop (length head) e (Fin dt) (Fin precip) wfd head (listLength head) head (Fin aet) = Ok (l', Fin aet') ->
  aet' <= aet /\ (saturated_top e l' \/ Rabs (storage l' - (storage head + precip - aet')) <= INR (length head) * tol + (aet - aet')).
Proof.
  intros qs dt precip aet head l' aet' f r HQ HH HM' Ehd Bf OH MH DD IN Hdt wfd M0.
  destruct (profile_of e HE head HH) as [HP HR]. assert (Ef : nth_error head 0 = Some f) by (rewrite Ehd; reflexivity).
  assert (Lf : f_layer f = 1%Z). { destruct (fd_ok e head HE HH) as (i & g & _ & _ & _ & _ & LA & _). apply (LA 0%nat f); [lia|exact Ef]. }
  assert (Ew : wfd = 1%Z).
  { destruct (fd_ok e head HE HH) as (i & g & Ei & Eg & _ & Lg & LA & FD). unfold wfd. rewrite Ei. destruct i as [|i]; [reflexivity|exfalso].
    destruct (Str_next _ _ _ _ HH Ef Bf) as (n & En & Ln). specialize (LA 1%nat n ltac:(lia) En). lia. }
  assert (Hpos : (0 < length head)%nat) by (rewrite Ehd; cbn; lia).
  assert (HW : takes e wfd head). { intros i g Eg W B. assert (i = 0)%nat by lia. subst i. congruence. }
  assert (FH : Forall (fun f => finite (f_depth f)) head). { eapply Forall_impl; [|exact MH]. intros g (d & v & E & _). exists d. assumption. }
  destruct (loop_books e qs HQ dt precip wfd head Hdt HH OH MH HW (length head) head aet l' (Fin aet') HH eq_refl (le_n _) (fun _ _ => eq_refl)) as (d & D1 & D2 & D3 & D4 & D5 & D6 & _ & D8 & D9); try assumption.
  { intros i n n0 E1 E2. rewrite E1 in E2. injection E2 as ->. auto. }
  injection D2 as D2.
  assert (CH : calm_head e qs head).
  { intros i c Ec. split; [rewrite Forall_forall in IN; apply IN; eapply nth_error_In; eassumption|]. intros n En. split.
    - intro L. clear - DD Ec En L. revert i Ec En. induction head as [|x r IH]; intros [|i] Ec En; try discriminate.
      + cbn in Ec. injection Ec as <-. destruct r as [|y r]; [discriminate|]. cbn in En. injection En as <-. destruct DD as [DD _]. left. auto.
      + apply (IH ltac:(destruct r; [exact Logic.I|apply DD]) i); assumption.
    - intros B s Es. apply (HM' i c n s); assumption. }
  specialize (D9 CH ltac:(intros i n n0 _ E1 E2; rewrite E1 in E2; injection E2 as ->; lra)).
  specialize (D9 1%nat ltac:(lia) ltac:(intros; lia)).
  assert (NT : forall i, (i < length head)%nat -> exists c c', nth_error head i = Some c /\ nth_error l' i = Some c').
  { intros i Hi. destruct (nth_error head i) as [c|] eqn:Ec; [|apply nth_error_None in Ec; lia]. destruct (nth_error l' i) as [c'|] eqn:Ec'; [eauto|apply nth_error_None in Ec'; lia]. }
  destruct (NT 0%nat Hpos) as (c & f' & Ec & Ef'). assert (c = f) by congruence. subst c.
  pose proof (D8 0%nat Hpos f f' Ef Ef') as AC. remember (d O) as d0 eqn:Ed0.
  destruct AC as [B|q _ L1 Eq GOT|q a' _ [L1|B]]; [congruence| |contradiction|congruence].
  assert (DE : forall i, (1 <= i < length head)%nat -> d i <= d (S i) /\ Rabs (misfit qs wfd precip head l' d i) <= tol + (d (S i) - d i)).
  { intros i Hi. destruct (NT i ltac:(lia)) as (x & x' & Ex & Ex'). destruct (D9 i ltac:(lia) x x' Ex Ex') as [_ Q]. apply dry_less in Q. unfold misfit, wanted. rewrite (shares_nth qs _ _ _ Ex), (shares_nth qs _ _ _ Ex'). exact Q. }
  assert (Ed1 : d 1%nat = aet') by congruence.
  assert (Hle : aet' <= aet).
  { rewrite <- D1, <- Ed1. assert (G : forall k, (1 <= k <= length head)%nat -> d 1%nat <= d k).
    { induction k as [|k IH]; intro Hk; [lia|]. destruct (Nat.eq_dec k 0) as [->|N]; [lra|]. specialize (IH ltac:(lia)). destruct (DE k ltac:(lia)). lra. }
    apply G. lia. }
  split; [exact Hle|].
  destruct (loop_advances e (Fin dt) (Fin precip) wfd head head (Fin aet) l' (Fin aet') HE HP HR (st_num _ _ HH) eq_refl (ex_intro _ dt eq_refl) M0) as [TR HMm].
  set (o' := nth_error l' 1) in *. set (want := want_of qs precip wfd head 0 f (d 1%nat)) in *.
  destruct (Rle_dec want (share_at qs f' (val (f_depth f')) (pt_e q) 0 o')) as [FIT|FULL].
  - right.
    assert (HP' : profile (e_nlayers e) (e_cum e) l') by (apply Str_iff in D3; [apply D3|apply HE]).
    assert (SUM : storage l' = storage head + (precip - d 1%nat) + Rsum (map (misfit qs wfd precip head l' d) (seq 0 (length head)))).
    { rewrite (attribution e qs HQ head HP FH OH HM'), (attribution e qs HQ l' HP' D6 D5 HMm). apply sum_up; [rewrite Ew; reflexivity|assumption|assumption]. }
    assert (M1 : misfit qs wfd precip head l' d 0 = 0).
    { unfold misfit, wanted. rewrite (shares_nth qs _ _ _ Ef), (shares_nth qs _ _ _ Ef'). fold o'. rewrite GOT, Rmin_left by exact FIT. unfold want, want_of. ring. }
    set (d' := fun i => match i with O => d 1%nat | S j => d (S j) end).
    pose proof (dry_sums (length head) (misfit qs wfd precip head l' d) d') as DS.
    assert (DS' : Rabs (Rsum (map (misfit qs wfd precip head l' d) (seq 0 (length head)))) <= INR (length head) * tol + (d' (length head) - d' 0%nat)).
    { apply DS. intros [|i] Hi; cbn [d']; [rewrite M1, Rabs_R0; unfold tol; lra|]. apply DE. lia. }
    replace (d' (length head)) with aet in DS' by (destruct (length head); [lia|cbn [d']; congruence]). cbn [d'] in DS'. rewrite Ed1 in DS', SUM.
    replace (storage l' - (storage head + precip - aet')) with (Rsum (map (misfit qs wfd precip head l' d) (seq 0 (length head)))) by (rewrite SUM; ring). exact DS'.
  - left. destruct l' as [|x' r']; [discriminate|]. cbn in Ef'. injection Ef' as ->.
    inversion TR as [|y1 y2 y3 y4 T1 T2 T3 T4]; subst y2. rewrite Ehd in T3. injection T3 as T3 T5. subst y1 y3. subst y4. destruct T1 as (TL & _ & TB & _ & _ & TD). rewrite Bf, Lf in TD. cbn in TD. destruct TD as (D & ED & TD).
    pose proof MH as MH'. rewrite Ehd in MH'. inversion MH' as [|? ? (df & vf & Edf & Evf & _ & Hvf & Hfirst) _]; subst. destruct (Hfirst Lf Bf) as [Hd0 Hv0].
    assert (CU : aget (e_cum e) (e_nlayers e) = Ok (Fin (top_of qs (e_nlayers e + 1)))) by (rewrite <- (strata_cum e qs HQ) by (destruct HE; lia); f_equal; lia).
    rewrite ED in CU. apply Ok_inj in CU. subst D. inversion IN as [|? ? IN1 _]; subst. rewrite Edf in IN1. cbn [val] in IN1.
    assert (Dp : f_depth f' = Fin (Rmin (df + vf * dt) (top_of qs (e_nlayers e + 1)))) by (rewrite TD, Edf, Evf; change (Fin df + Fin vf * Fin dt)%d with (Fin (df + vf * dt)); apply fmin_fin).
    assert (Hvd : 0 <= vf * dt) by (apply Rmult_le_pos; lra).
    assert (Hd' : 0 < val (f_depth f')) by (rewrite Dp; cbn [val]; apply Rmin_glb_lt; lra).
    assert (Rl : (1 <= 1 <= e_nlayers e)%Z) by (destruct HE; lia). destruct (soil_at e qs HQ 1 q ltac:(lia) Eq) as (s & ks & Es & V).
    exists f', r', s. split; [reflexivity|]. split; [congruence|]. split; [rewrite TL, Lf; exact Es|]. rewrite (vg_e _ _ _ _ _ _ _ V).
    assert (OC : on_curve qs f') by (inversion D5; assumption). destruct (watery qs f' OC) as (t & Et). rewrite Et. f_equal.
    rewrite Rmin_right in GOT by lra. unfold share, carries in GOT. rewrite TB, Bf in GOT. cbn [negb orb] in GOT. unfold share_at in GOT. rewrite TL, Lf, Et in GOT. cbn [val] in GOT.
    rewrite !above_1, top_1 in GOT. apply Rmult_eq_reg_l with (val (f_depth f')); [|lra].
    apply Rplus_eq_reg_l with (- val (f_depth f') * theta_under o'). lra.
Qed.

Theorem wet_motion : forall qs dt precip aet head l' a' q aet1 l1 f r, strata e qs -> Str e head -> heads_meet e head -> head = f :: r -> f_bottom f = false ->
  Forall phys head -> Forall (on_curve qs) head -> Forall (moves_down qs) head -> drier_downwards head -> Forall (fun f => val (f_depth f) <= top_of qs (e_nlayers e + 1)) head -> 0 <= dt ->
  let wfd := wetting_front_free_drainage head in
  ~ move_tie e (Fin dt) (Fin precip) wfd (Fin (storage head)) (Fin aet) head head -> ~ move_degenerate e (Fin dt) (Fin precip) wfd (Fin (storage head)) (Fin aet) head head ->
  move_loop (length head) e (Fin dt) (Fin precip) wfd head (listLength head) head (Fin aet) = Ok (l1, Fin aet1) ->
  lgar_move_wetting_fronts e (Fin dt) (Fin precip) wfd (Fin (storage head)) (Fin aet) head head = Ok (l', a', q) ->
  aet1 <= aet /\ exists a2 q2 x, 0 <= x /\ a' = Fin a2 /\ q = Fin q2 /\
    Rabs (storage l' - (storage head + precip - a2 - q2)) <= Rmax (INR (length head) * tol + (aet - aet1)) (2 / 10000000000) + 2 * x /\
    (~ move_inverted e (Fin dt) (Fin precip) wfd (Fin (storage head)) (Fin aet) head head -> x = 0).
Proof.
  intros qs dt precip aet head l' a' q aet1 l1 f r HQ HS HMe Ehd Bf P OC MD DD IN Hdt wfd HT HD Q1 E.
  destruct (wet_pass qs dt precip aet head l1 aet1 f r HQ HS HMe Ehd Bf OC MD DD IN Hdt Q1) as [Hle B]. split; [exact Hle|].
  assert (N : Forall moving head) by (eapply Forall_impl; [|exact MD]; intros g (d & v & E1 & E2 & _); split; [exists d|exists v]; assumption).
  assert (Fdt : finite (Fin dt)) by (exists dt; reflexivity).
  destruct B as [SAT|B].
  - assert (M1 : measured l1) by exact (pass_measured e M HV HE _ _ _ _ _ _ _ _ HS P N (st_num _ _ HS) eq_refl Fdt Q1).
    destruct (motion_ledger e M HV HM HF HE H0 _ _ _ _ _ _ _ _ _ _ _ _ HS P (st_num _ _ HS) eq_refl Fdt HT HD Q1 M1 E) as (s2 & a2 & q2 & q3 & x & _ & Hx & -> & -> & B & _ & _ & _ & X & l2 & CQ & M2 & -> & S1 & P1 & T1 & B1).
    pose proof (closure_saturated _ _ _ _ _ _ _ S1 M1 P1 T1 B1 SAT CQ M2) as CL. cbv zeta in CL.
    exists (if Rlt_dec (1 / 10000000) x then a2 - x else a2), (q2 + q3), x. split; [assumption|]. split; [reflexivity|]. split; [reflexivity|]. split; [|exact X].
    pose proof (Rmax_r (INR (length head) * tol + (aet - aet1)) (2 / 10000000000)) as X2.
    set (y := if Rlt_dec (1 / 10000000) x then a2 - x else a2). assert (Y : Rabs (y - a2) <= x).
    { unfold y. destruct (Rlt_dec _ _); [replace (a2 - x - a2) with (- x) by ring; rewrite Rabs_Ropp, Rabs_right; lra|]. replace (a2 - a2) with 0 by ring. rewrite Rabs_R0. lra. }
    destruct CL as [(C & -> & ->)|(-> & ->)].
    + replace (storage l' - (storage head + precip - y - (0 + q3))) with ((storage l' - (storage l2 - q3)) + ((storage l2 - (storage head + precip - aet1)) + (y - aet1))) by ring.
      eapply Rle_trans; [apply Rabs_triang|]. pose proof (Rabs_triang (storage l2 - (storage head + precip - aet1)) (y - aet1)). lra.
    + set (err := Rabs (storage l2 - (storage head + precip - aet1))) in *.
      replace (storage l' - (storage head + precip - y - (storage head + precip - aet1 - err - storage l2 + q3))) with ((storage l' - (storage l2 - q3)) + (y - (aet1 + err))) by ring.
      eapply Rle_trans; [apply Rabs_triang|]. lra.
  - destruct (motion_balance e M HV HM HF HE H0 (Fin dt) precip wfd (storage head) (Fin aet) head head l1 aet1 l' a' q HS P N (st_num _ _ HS) eq_refl Fdt HT HD Q1 E) as (a2 & q2 & x & Hx & E1 & E2 & B2 & _ & _ & _ & X).
    exists a2, q2, x. do 3 (split; [assumption|]). split; [|exact X]. eapply Rle_trans; [exact B2|]. apply Rplus_le_compat_r. apply Rle_max_compat_r. exact B.
Qed.
End Motion.
