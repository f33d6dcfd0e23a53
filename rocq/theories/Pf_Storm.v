(** Passes over columns whose wetting fronts lie in the first layer (exact arithmetic). *)

From Coq Require Import Reals Lra ZArith List Bool Lia.
From Verif Require Import Outcome Dbl Exact Types ListOps Soil Fronts Infil Move State Update Lib Spec_Common Spec_Soil Spec_List Spec_Update Spec_Profile Spec_Storage Spec_Velocity Spec_Advance Spec_Balance Spec_Shares
  Spec_Physical Spec_Meet Spec_Motion Spec_Upright Spec_Layered Spec_Rest Spec_Storm Pf_Dbl Pf_Pow Pf_Soil Pf_List Pf_Update Pf_Profile Pf_Structure Pf_Storage Pf_Merge Pf_Cross Pf_Repair Pf_SafeMove Pf_SafeUpdate Pf_Surface Pf_Single Pf_SingleMerge
  Pf_SubSingle Pf_Advance Pf_Physical Pf_Physical2 Pf_Velocity Pf_Fuel Pf_Level Pf_Level2 Pf_Shares Pf_Books Pf_Motion Pf_Motion2 Pf_Motion3 Pf_Drier Pf_Drier2 Pf_Layered Pf_Rest Pf_Rest2.
Import ListNotations.
Open Scope R_scope.

Section Pass.
Local Existing Instance exact.
Context {cfg : Cfg}.
Variables (e : env) (M : R) (qs : list part).
Hypothesis HL : layers M qs e.
Let HE := la_env _ _ _ HL.
Let HV := la_soils _ _ _ HL.
Let HQ := la_strata _ _ _ HL.

(** The deepest front of a column with more fronts than layers is left alone. *)
Lemma deepest_idle : forall dt vin wfd prev l a r, Z.of_nat (length l) <> e_nlayers e -> move_one e dt vin wfd prev (listLength l) (Z.of_nat (length l)) l a = Ok r -> r = (l, a).
Proof.
  intros dt vin wfd prev l a r N E. unfold move_one in E. cbv zeta in E. unfold listLength in E.
  destruct (findFrontOld _ l prev) as [lo po]. destruct (findFrontOld _ l prev) as [lno pno]. destruct (findFront _ l) as [p|]; [|discriminate].
  bind_inv E c Ec. bind_inv E s Es. bind_inv E x Ex. bind_inv E below Eb. rewrite Z.ltb_irrefl in E. cbn [andb] in E. rewrite (proj2 (Z.eqb_neq _ _) N), andb_false_r in E. apply Ok_inj in E. congruence.
Qed.

Lemma first_layer : forall l f r, Str e l -> l = f :: r -> f_layer f = 1%Z.
Proof. intros l f r H ->. destruct (fd_ok e _ HE H) as (i & g & _ & _ & _ & _ & LA & _). apply (LA 0%nat f); [lia|reflexivity]. Qed.

Lemma same_layer_inside : forall l i c n, Str e l -> nth_error l i = Some c -> nth_error l (S i) = Some n -> f_layer c = f_layer n -> f_bottom c = false.
Proof.
  intros l i c n H Ec En L. destruct (f_bottom c) eqn:B; [|reflexivity]. destruct (Str_bottom _ _ _ _ H Ec B) as [_ Q]. rewrite En in Q. lia.
Qed.

Lemma shallow_column : forall l, Str e l -> measured l -> shallow e l -> in_column e l.
Proof.
  intros l H ML S. pose proof (se_n _ HE) as N. destruct (env_cum e (e_nlayers e) HE ltac:(lia)) as (D & ED & _). exists D. split; [exact ED|].
  assert (MO : forall k z, (1 <= k <= e_nlayers e)%Z -> aget (e_cum e) k = Ok (Fin z) -> z <= D).
  { intros k z Hk Ek. destruct (Z.eq_dec k (e_nlayers e)) as [->|NE]; [rewrite ED in Ek; apply Ok_inj in Ek; injection Ek as <-; lra|].
    left. apply (cum_mono e HE k (e_nlayers e) z D); [lia|lia|exact Ek|exact ED]. }
  unfold shallow in S. rewrite Forall_forall in *. intros f Hf. specialize (S f Hf). apply In_nth_error in Hf as [i Hi]. destruct (measured_at _ _ _ ML Hi) as (d & t & Ed & _). destruct (f_bottom f) eqn:B.
  - destruct (Str_bottom _ _ _ _ H Hi B) as [C _]. rewrite Ed in C |- *. cbn [val]. apply (MO (f_layer f)); [exact (Str_range _ _ _ _ H Hi)|exact C].
  - destruct S as (_ & z & Ez & Hz). pose proof (MO 1%Z z ltac:(lia) Ez). lra.
Qed.

(** A pass over fronts of which the first lies inside the first layer. *)
Theorem pass_storm : forall dt v D l f r l1 a1, orderly M e l -> shallow e l -> l = f :: r -> f_bottom f = false -> 0 <= dt -> covered l v D ->
  move_loop (length l) e (Fin dt) (Fin v) (wetting_front_free_drainage l) l (listLength l) l (Fin D) = Ok (l1, a1) ->
  a1 = Fin D /\ ~ inverted l1 /\ (v <= D -> forall f1, nth_error l1 0 = Some f1 -> val (f_theta f1) <= val (f_theta f)).
Proof.
  intros dt v D l f r l1 a1 O SH El Bf Hdt CV Q. assert (HS := orderly_str e M qs HL l O). assert (ML := orderly_measured e M qs HL l O).
  assert (OC := orderly_curve e M qs HL l O). assert (MD := orderly_down e M qs HL l O). pose proof (od_drier _ _ _ O) as DD. apply dn_iff in DD.
  assert (IN := column_depth e M qs HL l (shallow_column l HS ML SH)).
  assert (Ef : nth_error l 0 = Some f) by (rewrite El; reflexivity). assert (Lf := first_layer l f r HS El).
  destruct (Str_next _ _ _ _ HS Ef Bf) as (n & En & Ln).
  assert (Ew : wetting_front_free_drainage l = 1%Z).
  { destruct (fd_ok e l HE HS) as (i & g & Ei & Eg & _ & Lg & LA & FD). rewrite Ei. destruct i as [|i]; [reflexivity|exfalso]. specialize (LA 1%nat n ltac:(lia) En). lia. }
  rewrite Ew in Q. pose proof Q as Q0.
  assert (NF : Z.of_nat (length l) <> e_nlayers e).
  { assert (G : forall i c, nth_error l (S i) = Some c -> (f_layer c <= Z.of_nat (S i))%Z).
    { induction i as [|i IH]; intros c Ec; [rewrite En in Ec; injection Ec as <-; lia|].
      destruct (nth_error l (S i)) as [b|] eqn:Eb; [|apply nth_error_None in Eb; assert (S (S i) < length l)%nat by (apply nth_error_Some; congruence); lia].
      specialize (IH b eq_refl). destruct (f_bottom b) eqn:Bb.
      - destruct (Str_bottom _ _ _ _ HS Eb Bb) as [_ X]. rewrite Ec in X. lia.
      - destruct (Str_next _ _ _ _ HS Eb Bb) as (c' & Ec' & X). rewrite Ec in Ec'. injection Ec' as <-. lia. }
    destruct (length l) as [|[|w]] eqn:LEN; [destruct l; discriminate|apply nth_error_Some in En as X || idtac; assert (1 < length l)%nat by (apply nth_error_Some; congruence); lia|].
    destruct (nth_error l (S w)) as [b|] eqn:Eb; [|apply nth_error_None in Eb; lia]. specialize (G w b Eb). assert (NO : nth_error l (S (S w)) = None) by (apply nth_error_None; lia).
    destruct (f_bottom b) eqn:Bb; [destruct (Str_bottom _ _ _ _ HS Eb Bb) as [_ X]; rewrite NO in X; lia|destruct (Str_next _ _ _ _ HS Eb Bb) as (c' & Ec' & _); congruence]. }
  assert (Hlen : (1 < length l)%nat) by (apply nth_error_Some; congruence).
  destruct (length l) as [|w] eqn:LEN; [lia|]. cbn [move_loop] in Q. apply bind_inv in Q as ([lx ax] & Q1 & Q). rewrite <- LEN in Q1. apply deepest_idle in Q1; [|rewrite LEN; exact NF].
  apply pair_equal_spec in Q1 as [-> ->].
  assert (HW : takes e 1 l). { intros i g Eg W B. assert (i = 0)%nat by lia. subst i. congruence. }
  assert (FH : Forall (fun f => finite (f_depth f)) l). { eapply Forall_impl; [|exact MD]. intros g (d & z & E & _). exists d. assumption. }
  destruct (loop_books e qs HQ dt v 1 l Hdt HS OC MD HW w l D l1 a1 HS eq_refl ltac:(lia) (fun _ _ => eq_refl)) as (d & D1 & D2 & D3 & D4 & D5 & D6 & D7 & D8 & D9); try assumption.
  { intros i x x0 E1 E2. rewrite E1 in E2. injection E2 as ->. auto. }
  assert (CH : calm_head e qs l).
  { intros i c Ec. split; [rewrite Forall_forall in IN; apply IN; eapply nth_error_In; eassumption|]. intros m Em. split.
    - intro L. left. exact (DD i c m Ec Em L).
    - intros B s Es. apply (od_meet _ _ _ O i c m s); assumption. }
  specialize (D9 CH ltac:(intros i x x0 _ E1 E2; rewrite E1 in E2; injection E2 as ->; lra)).
  (* What is known of each front inside the first layer. *)
  assert (IS : forall i c, nth_error l i = Some c -> f_bottom c = false -> f_layer c = 1%Z /\ exists dc vc tc, f_depth c = Fin dc /\ f_dzdt c = Fin vc /\ f_theta c = Fin tc /\ 0 < dc /\ 0 <= vc /\ dc <= top_of qs (e_nlayers e + 1)).
  { intros i c Ec Bc. assert (Hc := nth_error_In _ _ Ec). unfold shallow in SH. rewrite Forall_forall in SH, MD, IN. pose proof (SH c Hc) as S1. rewrite Bc in S1. destruct S1 as [Lc _]. split; [exact Lc|].
    destruct (MD c Hc) as (dc & vc & Edc & Evc & _ & Hvc & HF). destruct (HF Lc Bc) as [Hd _]. specialize (IN c Hc). rewrite Edc in IN. destruct (measured_at _ _ _ ML Ec) as (_ & tc & _ & Tc). exists dc, vc, tc. auto 10. }
  destruct (profile_of e HE l HS) as [PF PR].
  destruct (loop_advances e (Fin dt) (Fin v) 1 l l (Fin D) l1 a1 HE PF PR (st_num _ _ HS) eq_refl (ex_intro _ dt eq_refl) ltac:(rewrite LEN; exact Q0)) as [TR HM1].
  assert (NT : forall i, (i <= w)%nat -> exists c c', nth_error l i = Some c /\ nth_error l1 i = Some c' /\ travelled e (Fin dt) c c').
  { intros i Hi. destruct (nth_error l i) as [c|] eqn:Ec; [|apply nth_error_None in Ec; lia]. destruct (nth_error l1 i) as [c'|] eqn:Ec'; [|apply nth_error_None in Ec'; lia].
    destruct (Forall2_nth _ _ _ _ TR _ _ Ec') as (c0 & Ec0 & T). rewrite Ec in Ec0. injection Ec0 as <-. eauto. }
  assert (AC : forall i c c', (i < w)%nat -> nth_error l i = Some c -> nth_error l1 i = Some c' -> d i = d (S i) /\
    (f_bottom c = false -> exists q, nth_error qs 0 = Some q /\
      share qs c' (nth_error l1 (S i)) = Rmin (want_of qs v 1 l i c (d (S i))) (share_at qs c' (val (f_depth c')) (pt_e q) 0 (nth_error l1 (S i))))).
  { intros i c c' Hi Ec Ec'. pose proof (D8 i Hi c c' Ec Ec') as AC. destruct (NT (S i) ltac:(lia)) as (m & m' & _ & Em' & _). rewrite Em' in AC |- *. remember (d i) as di eqn:Ed.
    destruct AC as [B _ _|q B L1 Eq GOT|q a' CA [L1|B] _ _].
    - split; [reflexivity|]. intro B'. congruence.
    - split; [reflexivity|]. intros _. exists q. auto.
    - exfalso. unfold carries in CA. destruct (f_bottom c) eqn:B; [discriminate|]. destruct (IS i c Ec B) as [L _]. contradiction.
    - exfalso. unfold carries in CA. rewrite B in CA. discriminate. }
  assert (DA : forall k, (k <= w)%nat -> d (w - k)%nat = D).
  { induction k as [|k IH]; intro Hk; [rewrite Nat.sub_0_r; exact D1|]. specialize (IH ltac:(lia)). destruct (NT (w - S k)%nat ltac:(lia)) as (c & c' & Ec & Ec' & _).
    destruct (AC (w - S k)%nat c c' ltac:(lia) Ec Ec') as [X _]. rewrite X. replace (S (w - S k)) with (w - k)%nat by lia. exact IH. }
  assert (DA' : forall k, (k <= w)%nat -> d k = D). { intros k Hk. replace k with (w - (w - k))%nat by lia. apply DA. lia. }
  split; [rewrite D2; f_equal; apply DA'; lia|].
  assert (LOW : forall i m m', (1 <= i <= w)%nat -> nth_error l i = Some m -> nth_error l1 i = Some m' -> val (f_theta m') <= val (f_theta m)).
  { intros i m m' Hi Em Em'. destruct (Nat.eq_dec i w) as [->|NE]; [rewrite D7 in Em' by lia; rewrite Em in Em'; injection Em' as <-; lra|].
    exact (proj1 (D9 1%nat ltac:(lia) ltac:(intros; lia) i ltac:(lia) m m' Em Em')). }
  split.
  - intros (i & c' & m' & Ec' & Em' & LE & LT). assert (Hi : (S i <= w)%nat). { assert (S i < length l1)%nat by (apply nth_error_Some; congruence). lia. }
    destruct (NT i ltac:(lia)) as (c & x & Ec & Ex & TC). rewrite Ec' in Ex. injection Ex as <-. destruct (NT (S i) Hi) as (m & x & Em & Ex & TM). rewrite Em' in Ex. injection Ex as <-.
    destruct TC as (TL & _ & TB & _ & _ & TD). destruct TM as (TL2 & _). assert (LM : f_layer c = f_layer m) by congruence.
    assert (Bc := same_layer_inside l i c m HS Ec Em LM). destruct (IS i c Ec Bc) as (Lc & dc & vc & tc & Edc & Evc & Etc & Hdc & Hvc & Hcol).
    destruct (AC i c c' ltac:(lia) Ec Ec') as [_ GOT]. destruct (GOT Bc) as (q & Eq & GOT'). clear GOT. rewrite Em' in GOT'. rewrite (DA' (S i) Hi) in GOT'.
    rewrite Bc, Lc in TD. cbn in TD. destruct TD as (bed & EB & TD).
    assert (CU : aget (e_cum e) (e_nlayers e) = Ok (Fin (top_of qs (e_nlayers e + 1)))) by (rewrite <- (strata_cum e qs HQ) by (destruct HE; lia); f_equal; lia).
    rewrite EB in CU. apply Ok_inj in CU. subst bed.
    assert (Dp : f_depth c' = Fin (Rmin (dc + vc * dt) (top_of qs (e_nlayers e + 1)))) by (rewrite TD, Edc, Evc; change (Fin dc + Fin vc * Fin dt)%d with (Fin (dc + vc * dt)); apply fmin_fin).
    assert (Hvd : 0 <= vc * dt) by (apply Rmult_le_pos; lra).
    assert (Hd' : 0 < val (f_depth c')) by (rewrite Dp; cbn [val]; apply Rmin_glb_lt; lra).
    rewrite Forall_forall in D5. destruct (watery qs c' (D5 c' (nth_error_In _ _ Ec'))) as (tc' & Etc'). destruct (watery qs m' (D5 m' (nth_error_In _ _ Em'))) as (tm' & Etm').
    destruct (measured_at _ _ _ ML Em) as (_ & tm & _ & Etm).
    assert (H1 := LOW (S i) m m' ltac:(lia) Em Em'). assert (H2 := DD i c m Ec Em LM). rewrite Etm, Etm', Etc in *. cbn [val] in *.
    (* the water content lies below saturation *)
    assert (H3 : tc <= pt_e q).
    { rewrite Forall_forall in OC. destruct (OC c (nth_error_In _ _ Ec)) as [(_ & _ & q0 & t0 & Eq0 & E0 & B0)|(q0 & h0 & Eq0 & _ & Hh0 & E0)].
      - rewrite Eq in Eq0. injection Eq0 as <-. rewrite Etc in E0. injection E0 as <-. lra.
      - rewrite Lc in Eq0. change (Z.to_nat (1 - 1)) with 0%nat in Eq0. rewrite Eq in Eq0. injection Eq0 as <-. rewrite Etc in E0. injection E0 as ->.
        destruct (soil_at e qs HQ 1 q ltac:(lia) Eq) as (s & ks & _ & V). destruct V. pose proof (theta_range (pt_r q) (pt_e q) (pt_a q) (pt_n q) (pt_m q) h0 ltac:(lra) ltac:(lra) ltac:(lra) ltac:(lra) Hh0) as X. unfold pt_theta. lra. }
    assert (WP : 0 < want_of qs v 1 l i c D).
    { assert (SV : share qs c (nth_error l (S i)) = dc * (tc - tm)).
      { unfold share, carries. rewrite Bc. cbn [negb orb]. unfold share_at. rewrite Em, Edc, Etc. cbn [val theta_under above_under]. rewrite Lc, top_1, !above_1, Etm. cbn [val]. ring. }
      unfold want_of. rewrite SV. destruct i as [|i].
      - cbn. rewrite El in CV. rewrite El in Em, Ec. cbn in Ec. injection Ec as <-. destruct r as [|x r]; [discriminate|]. cbn in Em. injection Em as ->. cbn [covered] in CV. rewrite Bf, Edc, Etc, Etm in CV. cbn [val] in CV. lra.
      - destruct (Z.eqb_spec 1 (Z.of_nat (S (S i)))); [lia|]. assert (0 < dc * (tc - tm)) by (apply Rmult_lt_0_compat; lra). lra. }
    assert (FP : 0 < share_at qs c' (val (f_depth c')) (pt_e q) 0 (Some m')).
    { unfold share_at. cbn [theta_under above_under]. rewrite TL, Lc, top_1, !above_1, Etm'. cbn [val]. assert (0 < val (f_depth c') * (pt_e q - tm')) by (apply Rmult_lt_0_compat; lra). lra. }
    assert (GP : 0 < share qs c' (Some m')) by (rewrite GOT'; apply Rmin_glb_lt; assumption).
    unfold share, carries in GP. rewrite TB, Bc in GP. cbn [negb orb] in GP. unfold share_at in GP. cbn [theta_under above_under] in GP. rewrite TL, Lc, top_1, !above_1, Etc', Etm' in GP. cbn [val] in GP.
    rewrite Etc' in LT. apply Rleb_true in LT. assert (val (f_depth c') * (tc' - tm') <= val (f_depth c') * 0) by (apply Rmult_le_compat_l; lra). lra.
  - intros VD f1 Ef1. apply (D9 0%nat ltac:(lia)) with (j := 0%nat); [|lia|exact Ef|exact Ef1]. intros j Hj _. rewrite DA' by lia. exact VD.
Qed.
End Pass.
