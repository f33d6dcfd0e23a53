(** The repair of dry-over-wet fronts, in exact arithmetic. *)

From Coq Require Import Reals Lra ZArith List Bool Lia.
From Verif Require Import Outcome Dbl Exact Types ListOps Soil Fronts Move Lib Spec_Common Spec_List Spec_Soil Spec_Update Spec_Profile Spec_Storage
  Pf_Dbl Pf_Pow Pf_List Pf_Soil Pf_Profile Pf_Structure Pf_Storage Pf_Merge Pf_Cross.
Import ListNotations.
Open Scope R_scope.
Local Existing Instance exact.

Definition depth_ok (f : front) : Prop := finite (f_depth f).

Lemma measured_within : forall e l, Forall depth_ok l -> within_soils e l -> measured l.
Proof. intros e l H. induction H as [|f l H1 H2 IH]; intro W; inversion W; subst; constructor; [split; [assumption|eapply within_theta; eassumption]|apply IH; assumption]. Qed.

Lemma fix_above_within : forall e k psi l, sound_env e -> vg_column e -> head_ok psi -> (forall f, In f l -> (1 <= f_layer f <= e_nlayers e)%Z) ->
  within_soils e l -> Forall depth_ok l -> forall l', fix_above e k psi l = Ok l' -> within_soils e l' /\ Forall depth_ok l'.
Proof.
  intros e k psi l HE HV Hh. induction l as [|c r IH]; intros HL W D l' E; cbn [fix_above] in E; [discriminate|].
  destruct (f_layer c <? k)%Z; [|apply Ok_inj in E; subst; auto].
  bind_inv E s Es. bind_inv E r' Er. apply Ok_inj in E. subst l'. inversion W; subst. inversion D; subst.
  destruct (IH (fun f Hf => HL f (or_intror Hf)) ltac:(assumption) ltac:(assumption) r' Er) as [W' D'].
  split; constructor; auto. apply (head_within e _ s psi); auto. apply (HL c). left. reflexivity.
Qed.

Lemma Forall_firstn_skipn : forall A (P : A -> Prop) (l : list A) i, Forall P l -> Forall P (firstn i l) /\ Forall P (skipn i l).
Proof. intros A P l i H. rewrite <- (firstn_skipn i l) in H. apply Forall_app in H. exact H. Qed.

Lemma Forall_lset : forall A (P : A -> Prop) l i x, Forall P l -> P x -> Forall P (lset l i x).
Proof. intros A P l i x H. revert i. induction H; intros [|i] Hx; cbn; auto. Qed.

Lemma fix_pair_exact : forall e p c n l, sound_env e -> vg_column e -> aget (e_cum e) 0 = Ok (Fin 0) -> Str e l -> measured l -> within_soils e l ->
  nth_error l p = Some c -> nth_error l (S p) = Some n -> f_layer c = f_layer n ->
  exists l', fix_pair e c l = Ok (l', p, Fin (Rabs (storage l' - storage l))) /\ Str e l' /\ S (length l') = length l /\ measured l' /\ within_soils e l'.
Proof.
  intros e p c n l HE HV H0 H M W Ec En HL.
  destruct (fix_pair_ok e p c n l HE H Ec En HL) as (l' & dm & E & H' & L'). exists l'.
  assert (MB : forall l, Str e l -> measured l -> lgar_calc_mass_bal (e_cum e) l = Ok (Fin (storage l))).
  { intros l0 S0 M0. apply mass_is_storage with (e_nlayers e); auto; [apply HE|]. apply Str_iff; [apply HE|assumption]. }
  assert (Q : measured l' /\ within_soils e l' /\ dm = dabs (Fin (storage l') - Fin (storage l))%d).
  { unfold fix_pair in E. rewrite (MB l H M) in E. cbn [bind] in E.
    assert (Hc : f_bottom c = false) by exact (Str_above _ _ _ _ _ H Ec En HL).
    destruct (delete_str _ _ _ _ H Ec Hc) as (l1 & D1 & D2 & D3 & D4). rewrite D1 in E. cbn [bind] in E.
    bind_inv E l2 E2. bind_inv E m2 Em2. apply Ok_inj in E. apply pair_equal_spec in E as [E E4]. apply pair_equal_spec in E as [E _]. subst l2.
    assert (W1 : within_soils e l1).
    { rewrite D4. destruct (Forall_firstn_skipn _ _ l p W) as [A1 _]. destruct (Forall_firstn_skipn _ _ l (S p) W) as [_ A2].
      apply within_app. split; [exact A1|apply within_bump; exact A2]. }
    assert (DP : Forall depth_ok l1).
    { assert (X : Forall depth_ok l) by (eapply Forall_impl; [|exact M]; intros f [F _]; exact F).
      rewrite D4. destruct (Forall_firstn_skipn _ _ l p X) as [A1 _]. destruct (Forall_firstn_skipn _ _ l (S p) X) as [_ A2].
      apply Forall_app. split; [exact A1|]. clear - A2. induction A2; constructor; auto. }
    assert (WD : within_soils e l' /\ Forall depth_ok l').
    { destruct (f_layer c >? 1)%Z; [|apply Ok_inj in E2; subst; auto].
      bind_inv E2 cur Ecur. bind_inv E2 s Es. apply lget_Ok in Ecur.
      assert (Wc : within_soil e cur) by (eapply (proj1 (Forall_forall _ _) W1); eapply nth_error_In; eassumption).
      assert (Rc := Str_range _ _ _ _ D2 Ecur).
      eapply fix_above_within; [exact HE|exact HV| | | | |exact E2].
      - apply (within_head e cur s); auto.
      - intros f Hf. apply In_nth_error in Hf as [i Ei].
        match type of Ei with nth_error (lset l1 p ?x) _ = _ => assert (HS : Str e (lset l1 p x)) by (eapply Str_lset; [exact Ecur| |assumption]; repeat split) end.
        eapply Str_range; [exact HS|exact Ei].
      - apply Forall_lset; [assumption|]. exact Wc.
      - apply Forall_lset; [assumption|]. exact (proj1 (Forall_forall _ _) DP cur (nth_error_In _ _ Ecur)). }
    destruct WD as [W' DP']. assert (M' := measured_within _ _ DP' W'). split; [assumption|]. split; [assumption|].
    rewrite (MB l' H' M') in Em2. apply Ok_inj in Em2. subst m2. symmetry. exact E4. }
  destruct Q as (Q1 & Q2 & ->). split; [exact E|]. auto.
Qed.

Lemma repaired_trans : forall e l l1 x l2 y, repaired e l l1 x -> repaired e l1 l2 y -> repaired e l l2 (x + y).
Proof.
  intros e l l1 x l2 y H1 H2. induction H2 as [|l2 l3 y H2 IH HL HP]; [replace (x + 0) with x by ring; assumption|].
  replace (x + (y + Rabs (storage l3 - storage l2))) with ((x + y) + Rabs (storage l3 - storage l2)) by ring. constructor; assumption.
Qed.

Lemma fix_loop_exact : forall e, sound_env e -> vg_column e -> aget (e_cum e) 0 = Ok (Fin 0) -> forall k i p l mc, Str e l -> measured l -> within_soils e l ->
  (0 < i)%Z -> (listLength l + 2 - i <= Z.of_nat k)%Z -> (0 < k)%nat ->
  exists l' x, fix_loop k e i p l (Fin mc) = Ok (l', Fin (mc + x)) /\ Str e l' /\ measured l' /\ within_soils e l' /\ repaired e l l' x.
Proof.
  intros e HE HV HZ. unfold listLength. induction k as [|k IH]; intros i p l mc H M W Hi Hk H0; [lia|]. cbn [fix_loop]. unfold listLength.
  assert (Stay : exists l' x, Ok (l, Fin mc) = Ok (l', Fin (mc + x)) /\ Str e l' /\ measured l' /\ within_soils e l' /\ repaired e l l' x).
  { exists l, 0. split; [do 3 f_equal; ring|]. repeat (split; [assumption|]). constructor. }
  destruct (Z.leb_spec i (Z.of_nat (length l))) as [Hle|]; [|exact Stay].
  destruct (nth_error l p) as [c|] eqn:Ec; [|exact Stay]. destruct (nth_error l (S p)) as [n|] eqn:En; [|exact Stay].
  destruct (dry_over_wet c n) eqn:C.
  - apply andb_prop in C as [_ C]. apply Z.eqb_eq in C.
    destruct (fix_pair_exact e p c n l HE HV HZ H M W Ec En C) as (l1 & E & H1 & HL & M1 & W1). rewrite E. cbn [bind].
    change (Fin mc + Fin (Rabs (storage l1 - storage l)))%d with (Fin (mc + Rabs (storage l1 - storage l))).
    destruct (IH (i + 1)%Z (S p) l1 (mc + Rabs (storage l1 - storage l))) as (l2 & x & E2 & H2 & M2 & W2 & R2); auto; try lia.
    exists l2, (0 + Rabs (storage l1 - storage l) + x). split; [rewrite E2; do 3 f_equal; ring|]. repeat (split; [assumption|]).
    eapply repaired_trans; [|exact R2]. constructor; [constructor|lia|]. apply Str_iff; [apply HE|assumption].
  - apply IH; auto; lia.
Qed.

(** While there is no inversion before position [p] the loop walks on; an inversion costs a front. *)
Lemma fix_loop_finds : forall e, sound_env e -> forall k l p mc, Str e l -> (listLength l + 1 - Z.of_nat p <= Z.of_nat k)%Z -> (0 < k)%nat ->
  (p < length l)%nat -> check_dry (skipn p l) = true ->
  exists l' mc', fix_loop k e (Z.of_nat p + 1) p l mc = Ok (l', mc') /\ (length l' < length l)%nat.
Proof.
  intros e HE. unfold listLength. induction k as [|k IH]; intros l p mc H Hk H0 Hp C; [lia|]. cbn [fix_loop]. unfold listLength.
  destruct (Z.leb_spec (Z.of_nat p + 1) (Z.of_nat (length l))) as [Hle|]; [|lia].
  destruct (nth_error l p) as [c|] eqn:Ec; [|apply nth_error_None in Ec; lia].
  rewrite (skipn_nth _ _ _ _ Ec) in C.
  destruct (nth_error l (S p)) as [n|] eqn:En; [|rewrite skipn_all2 in C by (apply nth_error_None; assumption); discriminate].
  assert (Hn := length_S _ _ _ _ En). rewrite (skipn_nth _ _ _ _ En) in C. cbn [check_dry] in C.
  destruct (dry_over_wet c n) eqn:CD.
  - apply andb_prop in CD as [_ CD]. apply Z.eqb_eq in CD.
    destruct (fix_pair_ok e p c n l HE H Ec En CD) as (l1 & dm & E & H1 & HL). rewrite E. cbn [bind].
    destruct (fix_loop_ok e HE k (Z.of_nat p + 1 + 1) (S p) l1 (mc + dm)%d H1 ltac:(lia)) as (l2 & mc2 & E2 & _ & L2); unfold listLength; try lia.
    exists l2, mc2. split; [assumption|lia].
  - destruct (IH l (S p) mc H ltac:(lia) ltac:(lia) Hn) as (l' & mc' & E & L').
    + rewrite (skipn_nth _ _ _ _ En). exact C.
    + exists l', mc'. split; [|assumption]. replace (Z.of_nat p + 1 + 1)%Z with (Z.of_nat (S p) + 1)%Z by lia. exact E.
Qed.

Theorem repair_spec : forall e mc l, sound_env e -> vg_column e -> aget (e_cum e) 0 = Ok (Fin 0) -> profile (e_nlayers e) (e_cum e) l -> deepest_rests l ->
  measured l -> within_soils e l ->
  exists l' x, lgar_fix_dry_over_wet_wetting_fronts e (Fin mc) l = Ok (l', Fin (mc + x)) /\ repaired e l l' x /\
    profile (e_nlayers e) (e_cum e) l' /\ measured l' /\ within_soils e l'.
Proof.
  intros e mc l HE HV H0 HP HR M W. assert (H : Str e l) by (apply Str_iff; [apply HE|auto]).
  assert (l <> []) by (eapply Str_nonempty; eauto using se_n). destruct l as [|c r]; [contradiction|].
  unfold lgar_fix_dry_over_wet_wetting_fronts.
  destruct (fix_loop_exact e HE HV H0 (S (length (c :: r))) 1 0 (c :: r) mc H M W) as (l' & x & E & G1 & M1 & W1 & R1); unfold listLength; try lia.
  exists l', x. split; [exact E|]. split; [assumption|]. split; [apply Str_iff; [apply HE|assumption]|]. auto.
Qed.

Lemma check_dry_iff : forall l, check_dry l = true <-> inverted l.
Proof.
  induction l as [|c [|n r] IH].
  - split; [discriminate|]. intros (i & f & g & E & _). destruct i; discriminate.
  - split; [discriminate|]. intros (i & f & g & _ & E & _). destruct i as [|[|i]]; discriminate.
  - cbn [check_dry]. destruct (dry_over_wet c n) eqn:D.
    + split; [|reflexivity]. intros _. apply andb_prop in D as [D1 D2]. apply Z.eqb_eq in D2. exists 0%nat, c, n. auto.
    + rewrite IH. split.
      * intros (i & f & g & E1 & E2 & E3). exists (S i), f, g. auto.
      * intros (i & f & g & E1 & E2 & E3 & E4). destruct i as [|i].
        -- cbn in E1, E2. injection E1 as <-. injection E2 as <-. unfold dry_over_wet in D. rewrite E4, E3, Z.eqb_refl in D. discriminate.
        -- exists i, f, g. auto.
Qed.

Theorem repair_progress : forall e mc l, sound_env e -> profile (e_nlayers e) (e_cum e) l -> deepest_rests l -> inverted l ->
  exists l' mc', lgar_fix_dry_over_wet_wetting_fronts e mc l = Ok (l', mc') /\ (length l' < length l)%nat.
Proof.
  intros e mc l HE HP HR HI. assert (H : Str e l) by (apply Str_iff; [apply HE|auto]). apply check_dry_iff in HI.
  assert (l <> []) by (eapply Str_nonempty; eauto using se_n). destruct l as [|c r]; [contradiction|].
  apply (fix_loop_finds e HE (S (length (c :: r))) (c :: r) 0 mc H); unfold listLength; cbn [length skipn]; try lia. exact HI.
Qed.

Lemma fix_loop_idle : forall e k i p l mc, (listLength l + 2 - i <= Z.of_nat k)%Z -> (0 < k)%nat -> check_dry l = false -> fix_loop k e i p l mc = Ok (l, mc).
Proof.
  intros e k. unfold listLength. induction k as [|k IH]; intros i p l mc Hk H0 C; [lia|]. cbn [fix_loop]. unfold listLength.
  destruct (Z.leb_spec i (Z.of_nat (length l))) as [Hle|]; [|reflexivity].
  destruct (nth_error l p) as [c|] eqn:Ec; [|reflexivity]. destruct (nth_error l (S p)) as [n|] eqn:En; [|reflexivity].
  destruct (dry_over_wet c n) eqn:D; [|apply IH; auto; lia]. exfalso.
  apply andb_prop in D as [D1 D2]. apply Z.eqb_eq in D2. assert (check_dry l = true) by (apply check_dry_iff; exists p, c, n; auto). congruence.
Qed.

Theorem repair_idle : forall e mc l, l <> [] -> ~ inverted l -> lgar_fix_dry_over_wet_wetting_fronts e mc l = Ok (l, mc).
Proof.
  intros e mc l Hne HI. destruct l as [|c r]; [contradiction|]. unfold lgar_fix_dry_over_wet_wetting_fronts. apply fix_loop_idle; unfold listLength; try lia.
  destruct (check_dry (c :: r)) eqn:C; [|reflexivity]. exfalso. apply HI. apply check_dry_iff. exact C.
Qed.
