(** The head iteration when a front has to lose water. *)

From Coq Require Import Reals Lra ZArith List Bool Lia.
From Verif Require Import Outcome Dbl Exact Types ListOps Soil Fronts Infil Lib Spec_Common Spec_Soil Spec_Balance Pf_Dbl Pf_Pow Pf_Soil Pf_Column Pf_Layers Pf_Balance.
Import ListNotations.
Open Scope R_scope.

Section Exactly.
Local Existing Instance exact.
Context {cfg : Cfg}.

Variables (e : env) (lay : Z) (s : soil) (dth dz : list (option dbl)) (ps : list part) (p : part).
Hypothesis HP : layer_parts e dth dz lay ps p.
Hypothesis HS : soil_of e lay = Ok s.
Variable prior : R.
Notation M := (held (p :: ps)).

(** ** One pass *)

(** The head after a pass that starts at head [psi] with factor [f] and mass [mv]: new head, previous head, factor, direction, saturation flag. *)
Inductive shift (psi f mv : R) (sw st : bool) (prev : R) : R -> R -> R -> bool -> bool -> Prop :=
| sh_up : prior < mv -> shift psi f mv sw st prev (psi + 1 / 10 * f) prev f false st
| sh_down : forall f2, mv <= prior -> f2 = (if sw then f else f * (1 / 10)) -> 0 <= psi - 1 / 10 * f2 -> shift psi f mv sw st prev (psi - 1 / 10 * f2) psi f2 true st
| sh_over : forall f2, mv <= prior -> f2 = (if sw then f else f * (1 / 10)) -> psi - 1 / 10 * f2 < 0 -> psi <> 0 -> shift psi f mv sw st prev (psi * (1 / 10)) psi f2 true true
| sh_below : forall f2, mv <= prior -> f2 = (if sw then f else f * (1 / 10)) -> psi - 1 / 10 * f2 < 0 -> psi = 0 -> shift psi f mv sw st prev (psi - 1 / 10 * f2) psi f2 true true.

Definition aug_now (x : tmb) : bool := ((t_iter x + 1 >? 1000)%Z && negb (t_aug x))%bool.
Definition grown (x : tmb) (f : R) : R := if aug_now x then f * 100 else f.

Lemma shift_exists : forall psi f mv sw st prev, exists psi' prev' f' sw' st', shift psi f mv sw st prev psi' prev' f' sw' st'.
Proof.
  intros psi f mv sw st prev. destruct (Rlt_dec prior mv) as [U|U]; [do 5 eexists; apply sh_up; assumption|]. set (f2 := if sw then f else f * (1 / 10)).
  destruct (Rlt_dec (psi - 1 / 10 * f2) 0) as [N|N]; [|do 5 eexists; apply (sh_down _ _ _ _ _ _ f2); [lra|reflexivity|lra]].
  destruct (Req_EM_T psi 0); do 5 eexists; [apply (sh_below _ _ _ _ _ _ f2)|apply (sh_over _ _ _ _ _ _ f2)]; (assumption || reflexivity || lra).
Qed.

Definition kept_count (x : tmb) (dp delta : R) : Z := if Rlt_dec (Rabs (delta - dp)) (1 / 1000000000000000) then (t_count x + 1)%Z else 0%Z.

Lemma pass : forall x psi f mv prev dp psi' prev' f' sw' st', t_psi x = Fin psi -> t_factor x = Fin f -> t_new x = Fin mv -> t_prev x = Fin prev -> t_dprev x = Fin dp ->
  shift psi (grown x f) mv (t_switched x) (t_sat x) prev psi' prev' f' sw' st' -> 0 <= psi' ->
  let delta := Rabs (M psi' - prior) in
  exists dp' c b, tmb_step e lay s (Fin prior) dth dz x =
      Ok (mkT (Fin psi') (Fin prev') (Fin f') sw' (Fin (pt_theta p psi')) (Fin (M psi')) (Fin delta) dp' c st' (t_iter x + 1) (aug_now x || t_aug x), b) /\
    (b = false -> dp' = Fin delta /\ c = kept_count x dp delta /\ c <> 5%Z /\ psi' <= 10000000 /\ ~ (Rabs (psi' - prev') < 1 / 1000000000000000 /\ f' < 1 / 10000000000000)).
Proof.
  intros x psi f mv prev dp psi' prev' f' sw' st' E1 E2 E3 E4 E5 SH H0 delta. unfold tmb_step. cbv zeta. fold (aug_now x).
  assert (F1 : (if aug_now x then t_factor x * lit 100 else t_factor x)%d = Fin (grown x f)) by (rewrite E2; unfold grown; destruct (aug_now x); reflexivity).
  rewrite F1. rewrite E1, E3, E4, E5. change (lit (1 / 10)) with (Fin (1 / 10)).
  match goal with |- exists _ _ _, (match ?t with _ => _ end) = _ /\ _ => set (T := t) end.
  assert (HT : T = (Fin psi', Fin prev', Fin f', sw', st')).
  { unfold T. destruct SH as [U|f2 D E N|f2 D E N Z|f2 D E N Z]; unfold dgtb at 1.
    - rewrite ltb_t by assumption. reflexivity.
    - rewrite ltb_f by assumption. replace (if t_switched x then Fin (grown x f) else Fin (grown x f) * Fin (1 / 10))%d with (Fin f2) by (rewrite E; destruct (t_switched x); reflexivity).
      change (Fin psi - Fin (1 / 10) * Fin f2)%d with (Fin (psi - 1 / 10 * f2)). rewrite ltb_f by lra. reflexivity.
    - rewrite ltb_f by assumption. replace (if t_switched x then Fin (grown x f) else Fin (grown x f) * Fin (1 / 10))%d with (Fin f2) by (rewrite E; destruct (t_switched x); reflexivity).
      change (Fin psi - Fin (1 / 10) * Fin f2)%d with (Fin (psi - 1 / 10 * f2)). rewrite ltb_t by lra.
      replace (Fin psi <>? Fin 0)%d with true by (symmetry; unfold dneb; rewrite eqb_f by assumption; reflexivity). reflexivity.
    - exfalso. lra. }
  rewrite HT. clearbody T. clear T HT. rewrite (mass_held e lay s dth dz ps p HP HS psi' H0). cbn [bind]. rewrite (theta_own e lay s dth dz ps p HP HS psi' H0).
  change (dabs (Fin (M psi') - Fin prior))%d with (Fin delta). change (dabs (Fin psi' - Fin prev'))%d with (Fin (Rabs (psi' - prev'))). change (dabs (Fin delta - Fin dp))%d with (Fin (Rabs (delta - dp))).
  change (lit (1 / 1000000000000000)) with (Fin (1 / 1000000000000000)). change (lit (1 / 10000000000000)) with (Fin (1 / 10000000000000)). change (lit 10000000) with (Fin 10000000).
  assert (KC : (if (Fin (Rabs (delta - dp)) <? Fin (1 / 1000000000000000))%d then (t_count x + 1)%Z else 0%Z) = kept_count x dp delta).
  { unfold kept_count. destruct (Rlt_dec _ _); [rewrite ltb_t by assumption|rewrite ltb_f by lra]; reflexivity. }
  rewrite KC. destruct ((Fin (Rabs (psi' - prev')) <? Fin (1 / 1000000000000000)) && (Fin f' <? Fin (1 / 10000000000000)))%bool%d eqn:B1; [do 3 eexists; split; [reflexivity|discriminate]|].
  destruct (Z.eqb_spec (kept_count x dp delta) 5) as [B2|B2]; [do 3 eexists; split; [reflexivity|discriminate]|].
  destruct (Fin psi' >? Fin 10000000)%d eqn:B3; [do 3 eexists; split; [reflexivity|discriminate]|].
  destruct ((Fin psi' <=? Fin 0) && (Fin prev' <? Fin 0))%bool%d; (do 3 eexists; split; [reflexivity|]); [discriminate|]. intros _. split; [reflexivity|]. split; [reflexivity|]. split; [assumption|]. split.
  - destruct (Rlt_dec 10000000 psi'); [unfold dgtb in B3; rewrite ltb_t in B3 by assumption; discriminate|lra].
  - intros [C1 C2]. rewrite !ltb_t in B1 by assumption. discriminate.
Qed.

(** ** Losing water *)

Hypothesis HZ : Forall (fun q => 0 <= pt_z q) (p :: ps).

Lemma held_mono : forall x y, 0 <= x -> x <= y -> M y <= M x.
Proof.
  intros x y Hx Hy.
  assert (V : Forall (fun q => pt_r q < pt_e q /\ 0 < pt_a q /\ 1 < pt_n q /\ 0 < pt_m q < 1) (p :: ps)).
  { destruct HP as (_ & N & (sl & ks & _ & V & _)). constructor; [destruct V; auto|]. apply Forall_forall. intros q Hq. apply In_nth_error in Hq as [j Hj].
    destruct (N _ _ Hj) as (sj & kj & _ & Vj & _). destruct Vj; auto. }
  revert HZ V. unfold held. generalize (p :: ps). induction l as [|q l IH]; intros Z V; [cbn; lra|]. inversion Z; inversion V; subst. cbn [map Rsum].
  specialize (IH ltac:(assumption) ltac:(assumption)). assert (pt_theta q y <= pt_theta q x).
  { destruct (Req_dec x y) as [->|NE]; [lra|]. unfold pt_theta, vg_theta. pose proof (Se_h_decreasing (pt_a q) (pt_n q) (pt_m q) x y ltac:(tauto) ltac:(lra) ltac:(lra) Hx ltac:(lra)).
    assert (0 < pt_e q - pt_r q) by lra. pose proof (Rmult_le_compat_l (pt_e q - pt_r q) _ _ ltac:(lra) (Rlt_le _ _ H)). lra. }
  pose proof (Rmult_le_compat_l (pt_z q) (pt_theta q y - pt_t q) (pt_theta q x - pt_t q) ltac:(assumption) ltac:(lra)). lra.
Qed.

Variable psi0 : R.
Hypothesis H0 : 0 <= psi0.
Hypothesis HW : prior < M psi0.
Definition f0 : R := Rmax 1 (psi0 / 100).
Notation h0 := (f0 / 10).

Lemma f0_pos : 1 <= f0.
Proof. apply Rmax_l. Qed.

(** Where the iteration is.  Rising: no point with too little water was met yet, [k] steps were made.  Falling and risen: the factor was divided [j] times by ten, [k] steps of the present
    size lead from [psi0] to the present head, [k0] is the number of steps at the beginning.  Late: the factor was multiplied by 100. *)
Inductive stage (psi f : R) (sw : bool) (iter : Z) (aug : bool) : Prop :=
| sg_rising : forall k : Z, sw = false -> aug = false -> f = f0 -> psi = psi0 + IZR k * h0 -> iter = k -> (0 <= k <= 1000)%Z -> ((0 < k)%Z -> psi0 <= 10000000) ->
    ((0 < k)%Z -> prior < M (psi0 + IZR (k - 1) * h0)) -> stage psi f sw iter aug
| sg_falling : forall (k0 : Z) (j : nat) (k kq d : Z), sw = true -> aug = false -> (1 <= k0)%Z -> prior < M (psi0 + IZR (k0 - 1) * h0) -> psi0 <= 10000000 ->
    (1 <= j <= 19)%nat -> f = f0 * (1 / 10) ^ j -> psi = psi0 + IZR k * (f / 10) -> (0 <= kq <= k)%Z -> prior < M (psi0 + IZR kq * (f / 10)) -> M (psi + f / 10) <= prior ->
    (1 <= d)%Z -> (k - kq <= 10 - d)%Z -> (0 <= iter <= k0 + 11 * (Z.of_nat j - 1) + d)%Z -> stage psi f sw iter aug
| sg_risen : forall (k0 : Z) (j : nat) (k : Z), sw = false -> aug = false -> (1 <= k0)%Z -> prior < M (psi0 + IZR (k0 - 1) * h0) -> psi0 <= 10000000 ->
    (1 <= j <= 19)%nat -> f = f0 * (1 / 10) ^ j -> psi = psi0 + IZR k * (f / 10) -> (1 <= k)%Z -> prior < M (psi0 + IZR (k - 1) * (f / 10)) -> M psi <= prior ->
    (0 <= iter <= k0 + 11 * Z.of_nat j)%Z -> stage psi f sw iter aug
| sg_late : forall g q : R, aug = true -> 0 < f <= 100 * g -> psi0 + 10 * g <= q -> prior < M q -> psi0 <= psi -> stage psi f sw iter aug.

Lemma tenth_pos : forall j, 0 < (1 / 10) ^ j.
Proof. intro j. apply pow_lt. lra. Qed.
Lemma tenth_one : forall j, (1 / 10) ^ j <= 1.
Proof. intro j. pose proof (pow_incr (1 / 10) 1 j ltac:(lra)) as H. rewrite pow1 in H. exact H. Qed.
Lemma tenth_le : forall j, (1 <= j)%nat -> (1 / 10) ^ j <= 1 / 10.
Proof. intros j Hj. destruct j; [lia|]. cbn [pow]. pose proof (tenth_one j). lra. Qed.

(** A factor that is not too small was not divided too often. *)
Lemma few_divisions : forall j, psi0 <= 10000000 -> 1 / 100000000000000 <= f0 * (1 / 10) ^ j -> (j <= 19)%nat.
Proof.
  intros j Hp H. destruct (Nat.le_gt_cases j 19) as [|G]; [assumption|]. exfalso. replace j with (20 + (j - 20))%nat in H by lia. rewrite pow_add in H.
  assert (0 < (1 / 10) ^ (j - 20) <= 1). { split; [apply tenth_pos|apply tenth_one]. }
  assert (F : f0 <= 100000) by (apply Rmax_lub; lra). pose proof f0_pos. assert (E : (1 / 10) ^ 20 = 1 / 100000000000000000000) by (field_simplify; lra).
  rewrite E in H. assert (f0 * (1 / 100000000000000000000 * (1 / 10) ^ (j - 20)) <= 100000 * (1 / 100000000000000000000 * 1)); [|lra].
  apply Rmult_le_compat; lra.
Qed.

Lemma stage_low : forall psi f sw iter aug, stage psi f sw iter aug -> psi0 <= psi /\ 0 < f.
Proof.
  intros psi f sw iter aug H. pose proof f0_pos as F. destruct H.
  - subst. assert (0 <= IZR k) by (apply IZR_le; lia). split; [|lra]. pose proof (Rmult_le_pos (IZR k) h0 ltac:(assumption) ltac:(lra)). lra.
  - pose proof (tenth_pos j). assert (0 < f) by (subst f; apply Rmult_lt_0_compat; lra). assert (0 <= IZR k) by (apply IZR_le; lia). split; [|lra]. pose proof (Rmult_le_pos (IZR k) (f / 10) ltac:(assumption) ltac:(lra)). lra.
  - pose proof (tenth_pos j). assert (0 < f) by (subst f; apply Rmult_lt_0_compat; lra). assert (0 <= IZR k) by (apply IZR_le; lia). split; [|lra]. pose proof (Rmult_le_pos (IZR k) (f / 10) ltac:(assumption) ltac:(lra)). lra.
  - split; [assumption|lra].
Qed.

(** The next pass. *)
Lemma stage_next : forall x psi f prev psi' prev' f' sw' st', t_iter x = t_iter x -> stage psi f (t_switched x) (t_iter x) (t_aug x) ->
  shift psi (grown x f) (M psi) (t_switched x) (t_sat x) prev psi' prev' f' sw' st' ->
  psi0 <= psi' /\ st' = t_sat x /\
  (psi' <= 10000000 -> ~ (Rabs (psi' - prev') < 1 / 1000000000000000 /\ f' < 1 / 10000000000000) -> stage psi' f' sw' (t_iter x + 1) (aug_now x || t_aug x)).
Proof.
  intros x psi f prev psi' prev' f' sw' st' _ SG SH. pose proof f0_pos as F0. destruct SG as [k A1 A2 A3 A4 A5 A6 A7 A8|k0 j k kq d A1 A2 A3 A4 A5 A6 A7 A8 A9 A10 A11 A12 A13 A14|k0 j k A1 A2 A3 A4 A5 A6 A7 A8 A9 A10 A11 A12|g q A1 A2 A3 A4 A5].
  - (* rising *)
    rewrite A1 in SH. unfold grown, aug_now in *. rewrite A2 in *. cbn [negb] in *. rewrite andb_true_r in *. rewrite A5 in *. subst f.
    assert (Hk : 0 <= IZR k) by (apply IZR_le; lia). pose proof (Rmult_le_pos (IZR k) h0 Hk ltac:(lra)) as Hkh.
    destruct (Z.gtb_spec (k + 1) 1000) as [G|G].
    + assert (K1 : k = 1000%Z) by lia. specialize (A8 ltac:(lia)). rewrite K1 in A4, A8. change (1000 - 1)%Z with 999%Z in A8.
      destruct SH as [U|f2 L E N|f2 L E N Z|f2 L E N Z].
      * split; [lra|]. split; [reflexivity|]. intros _ _. apply (sg_late _ _ _ _ _ f0 (psi0 + 999 * h0)); [reflexivity|lra|lra|exact A8|lra].
      * split; [lra|]. split; [reflexivity|]. intros _ _. apply (sg_late _ _ _ _ _ f0 (psi0 + 999 * h0)); [reflexivity|lra|lra|exact A8|lra].
      * exfalso. lra.
      * exfalso. lra.
    + destruct SH as [U|f2 L E N|f2 L E N Z|f2 L E N Z].
      * split; [lra|]. split; [reflexivity|]. intros HX _. apply (sg_rising _ _ _ _ _ (k + 1)); try reflexivity; [rewrite A4, plus_IZR; lra|lia| |].
        { intros _. lra. } { intros _. replace (k + 1 - 1)%Z with k by lia. rewrite <- A4. exact U. }
      * assert (Hk1 : (1 <= k)%Z). { destruct (Z.eq_dec k 0) as [->|]; [|lia]. exfalso. rewrite A4 in L. replace (psi0 + IZR 0 * h0) with psi0 in L by (cbn; lra). lra. }
        assert (1 <= IZR k) by (apply IZR_le; lia). pose proof (Rmult_le_compat_r h0 1 (IZR k) ltac:(lra) ltac:(assumption)).
        split; [lra|]. split; [reflexivity|]. intros HX HB. assert (f2 = f0 * (1 / 10) ^ 1) as F2 by lra.
        apply (sg_falling _ _ _ _ _ k 1 (10 * k - 1) (10 * (k - 1)) 1); try reflexivity; try lia; try (apply A8; lia); try (apply A7; lia); try assumption.
        -- rewrite A4, minus_IZR, mult_IZR, F2. lra.
        -- replace (psi0 + IZR (10 * (k - 1)) * (f2 / 10)) with (psi0 + IZR (k - 1) * h0) by (rewrite mult_IZR, F2; lra). apply A8. lia.
        -- replace (psi - 1 / 10 * f2 + f2 / 10) with psi by lra. exact L.
      * exfalso. assert (Hk1 : (1 <= k)%Z). { destruct (Z.eq_dec k 0) as [->|]; [|lia]. exfalso. rewrite A4 in L. replace (psi0 + IZR 0 * h0) with psi0 in L by (cbn; lra). lra. }
        assert (1 <= IZR k) by (apply IZR_le; lia). pose proof (Rmult_le_compat_r h0 1 (IZR k) ltac:(lra) ltac:(assumption)). lra.
      * exfalso. assert (Hk1 : (1 <= k)%Z). { destruct (Z.eq_dec k 0) as [->|]; [|lia]. exfalso. rewrite A4 in L. replace (psi0 + IZR 0 * h0) with psi0 in L by (cbn; lra). lra. }
        assert (1 <= IZR k) by (apply IZR_le; lia). pose proof (Rmult_le_compat_r h0 1 (IZR k) ltac:(lra) ltac:(assumption)). lra.
  - (* falling *)
    rewrite A1 in SH. unfold grown, aug_now in *. rewrite A2 in *. cbn [negb] in *. rewrite andb_true_r in *.
    pose proof (tenth_pos j) as TP. pose proof (tenth_le j ltac:(lia)) as TL. assert (Hf : 0 < f) by (subst f; apply Rmult_lt_0_compat; lra).
    assert (Hf2 : f <= h0). { rewrite A7. pose proof (Rmult_le_compat_l f0 _ _ ltac:(lra) TL). lra. }
    assert (Hk : 0 <= IZR k) by (apply IZR_le; lia). pose proof (Rmult_le_pos (IZR k) (f / 10) Hk ltac:(lra)) as Hkh.
    destruct (Z.gtb_spec (t_iter x + 1) 1000) as [G|G].
    + assert (Hk0 : (100 <= k0)%Z) by lia. set (q := psi0 + IZR (k0 - 1) * h0) in *. assert (99 <= IZR (k0 - 1)) by (apply IZR_le; lia).
      assert (HQ : psi0 + 10 * f <= q). { unfold q. pose proof (Rmult_le_compat_r h0 99 (IZR (k0 - 1)) ltac:(lra) ltac:(assumption)). lra. }
      assert (QP : M psi <= prior -> q < psi). { intro L. destruct (Rlt_dec q psi); [assumption|]. pose proof (held_mono psi q ltac:(lra) ltac:(lra)). lra. }
      destruct SH as [U|f2 L E N|f2 L E N Z|f2 L E N Z].
      * split; [lra|]. split; [reflexivity|]. intros _ _. apply (sg_late _ _ _ _ _ f q); [reflexivity|lra|lra|exact A4|lra].
      * specialize (QP L). split; [lra|]. split; [reflexivity|]. intros _ _. apply (sg_late _ _ _ _ _ f q); [reflexivity|lra|lra|exact A4|lra].
      * exfalso. specialize (QP L). lra.
      * exfalso. specialize (QP L). lra.
    + destruct SH as [U|f2 L E N|f2 L E N Z|f2 L E N Z].
      * split; [lra|]. split; [reflexivity|]. intros HX HB. apply (sg_risen _ _ _ _ _ k0 j (k + 1)); try reflexivity; try assumption; try lia.
        -- rewrite A8, plus_IZR. lra.
        -- replace (k + 1 - 1)%Z with k by lia. rewrite <- A8. exact U.
        -- replace (psi + 1 / 10 * f) with (psi + f / 10) by lra. exact A11.
      * assert (Hkq : (kq < k)%Z). { destruct (Z.eq_dec kq k) as [->|]; [|lia]. exfalso. rewrite <- A8 in A10. lra. }
        assert (1 <= IZR k) by (apply IZR_le; lia). pose proof (Rmult_le_compat_r (f / 10) 1 (IZR k) ltac:(lra) ltac:(assumption)).
        subst f2. split; [lra|]. split; [reflexivity|]. intros HX HB.
        apply (sg_falling _ _ _ _ _ k0 j (k - 1) kq (d + 1)); try reflexivity; try assumption; try lia.
        -- rewrite A8, minus_IZR. lra.
        -- replace (psi - 1 / 10 * f + f / 10) with psi by lra. exact L.
      * exfalso. assert (Hkq : (kq < k)%Z). { destruct (Z.eq_dec kq k) as [->|]; [|lia]. exfalso. rewrite <- A8 in A10. lra. }
        assert (1 <= IZR k) by (apply IZR_le; lia). pose proof (Rmult_le_compat_r (f / 10) 1 (IZR k) ltac:(lra) ltac:(assumption)). subst f2. lra.
      * exfalso. assert (Hkq : (kq < k)%Z). { destruct (Z.eq_dec kq k) as [->|]; [|lia]. exfalso. rewrite <- A8 in A10. lra. }
        assert (1 <= IZR k) by (apply IZR_le; lia). pose proof (Rmult_le_compat_r (f / 10) 1 (IZR k) ltac:(lra) ltac:(assumption)). subst f2. lra.
  - (* risen *)
    rewrite A1 in SH. unfold grown, aug_now in *. rewrite A2 in *. cbn [negb] in *. rewrite andb_true_r in *.
    pose proof (tenth_pos j) as TP. pose proof (tenth_le j ltac:(lia)) as TL. assert (Hf : 0 < f) by (subst f; apply Rmult_lt_0_compat; lra).
    assert (Hf2 : f <= h0). { rewrite A7. pose proof (Rmult_le_compat_l f0 _ _ ltac:(lra) TL). lra. }
    assert (Hk : 1 <= IZR k) by (apply IZR_le; lia). pose proof (Rmult_le_compat_r (f / 10) 1 (IZR k) ltac:(lra) Hk) as Hkh.
    destruct (Z.gtb_spec (t_iter x + 1) 1000) as [G|G].
    + assert (Hk0 : (100 <= k0)%Z) by lia. set (q := psi0 + IZR (k0 - 1) * h0) in *. assert (99 <= IZR (k0 - 1)) by (apply IZR_le; lia).
      assert (HQ : psi0 + 10 * f <= q). { unfold q. pose proof (Rmult_le_compat_r h0 99 (IZR (k0 - 1)) ltac:(lra) ltac:(assumption)). lra. }
      assert (QP : q < psi). { destruct (Rlt_dec q psi); [assumption|]. pose proof (held_mono psi q ltac:(lra) ltac:(lra)). lra. }
      destruct SH as [U|f2 L E N|f2 L E N Z|f2 L E N Z].
      * exfalso. lra.
      * split; [lra|]. split; [reflexivity|]. intros _ _. apply (sg_late _ _ _ _ _ f q); [reflexivity|lra|lra|exact A4|lra].
      * exfalso. lra.
      * exfalso. lra.
    + destruct SH as [U|f2 L E N|f2 L E N Z|f2 L E N Z]; try (exfalso; lra).
      split; [lra|]. split; [reflexivity|]. intros HX HB. assert (F2 : f2 = f0 * (1 / 10) ^ (S j)) by (cbn [pow]; rewrite E, A7; ring).
      assert (HF : 1 / 100000000000000 <= f2).
      { destruct (Rle_dec (1 / 100000000000000) f2); [assumption|]. exfalso. apply HB. replace (psi - 1 / 10 * f2 - psi) with (- (1 / 10 * f2)) by ring. rewrite Rabs_Ropp, Rabs_right by lra. lra. }
      pose proof (few_divisions (S j) A5 ltac:(rewrite <- F2; exact HF)) as FD.
      apply (sg_falling _ _ _ _ _ k0 (S j) (10 * k - 1) (10 * (k - 1)) 1); try reflexivity; try assumption; try lia.
      -- rewrite A8, minus_IZR, mult_IZR, E. lra.
      -- replace (psi0 + IZR (10 * (k - 1)) * (f2 / 10)) with (psi0 + IZR (k - 1) * (f / 10)) by (rewrite mult_IZR, E; lra). exact A10.
      -- replace (psi - 1 / 10 * f2 + f2 / 10) with psi by lra. exact L.
  - (* late *)
    assert (AN : aug_now x = false) by (unfold aug_now; rewrite A1; apply andb_false_r). unfold grown in SH. rewrite AN in *. rewrite A1. cbn [orb].
    assert (QP : M psi <= prior -> q < psi). { intro L. destruct (Rlt_dec q psi); [assumption|]. pose proof (held_mono psi q ltac:(lra) ltac:(lra)). lra. }
    destruct SH as [U|f2 L E N|f2 L E N Z|f2 L E N Z].
    + split; [lra|]. split; [reflexivity|]. intros _ _. apply (sg_late _ _ _ _ _ g q); [reflexivity|lra|lra|assumption|lra].
    + specialize (QP L). assert (0 < f2 <= f) by (rewrite E; destruct (t_switched x); lra). split; [lra|]. split; [reflexivity|]. intros _ _. apply (sg_late _ _ _ _ _ g q); [reflexivity|lra|lra|assumption|lra].
    + exfalso. specialize (QP L). assert (0 < f2 <= f) by (rewrite E; destruct (t_switched x); lra). lra.
    + exfalso. specialize (QP L). assert (0 < f2 <= f) by (rewrite E; destruct (t_switched x); lra). lra.
Qed.

(** The loop. *)
Record drying (x : tmb) : Prop := {
  dy_at : exists psi f prev dp, t_psi x = Fin psi /\ t_factor x = Fin f /\ t_new x = Fin (M psi) /\ t_prev x = Fin prev /\ t_dprev x = Fin dp /\
    stage psi f (t_switched x) (t_iter x) (t_aug x);
  dy_sat : t_sat x = false
}.
Record dried_out (x : tmb) : Prop := {
  do_at : exists psi, psi0 <= psi /\ t_psi x = Fin psi /\ t_theta x = Fin (pt_theta p psi) /\ t_delta x = Fin (Rabs (M psi - prior));
  do_sat : t_sat x = false
}.

Lemma drying_step : forall x y b, drying x -> tmb_step e lay s (Fin prior) dth dz x = Ok (y, b) -> dried_out y /\ (b = false -> drying y).
Proof.
  intros x y b [(psi & f & prev & dp & E1 & E2 & E3 & E4 & E5 & SG) ES] H. destruct (shift_exists psi (grown x f) (M psi) (t_switched x) (t_sat x) prev) as (psi' & prev' & f' & sw' & st' & SH).
  destruct (stage_next x psi f prev psi' prev' f' sw' st' eq_refl SG SH) as (L & ST & NX).
  destruct (pass x psi f (M psi) prev dp psi' prev' f' sw' st' E1 E2 E3 E4 E5 SH ltac:(lra)) as (dp' & c & b' & EQ & HB). rewrite EQ in H. apply Ok_inj in H. apply pair_equal_spec in H as [<- <-].
  subst st'. split.
  - split; [exists psi'; cbn; auto|exact ES].
  - intros ->. destruct (HB eq_refl) as (-> & -> & B1 & B2 & B3). split; [|exact ES]. exists psi', f', prev', (Rabs (M psi' - prior)). cbn. repeat (split; [reflexivity|]). apply NX; assumption.
Qed.

Lemma drying_loop : forall k x y, drying x -> dgtb (t_delta x) tmb_tol = true -> tmb_loop k e lay s (Fin prior) dth dz x = Ok y -> dried_out y.
Proof.
  assert (G : forall k x y, drying x -> dried_out x -> tmb_loop k e lay s (Fin prior) dth dz x = Ok y -> dried_out y).
  { induction k as [|k IH]; intros x y D O H; [discriminate|]. cbn [tmb_loop] in H. destruct (t_delta x >? tmb_tol)%d; [|apply Ok_inj in H; subst; assumption].
    bind_inv H yb Ey. destruct yb as [z b]. destruct (drying_step _ _ _ D Ey) as [O1 D1]. destruct b; [apply Ok_inj in H; subst; assumption|]. eapply IH; [apply D1; reflexivity|exact O1|exact H]. }
  intros [|k] x y D T H; [discriminate|]. cbn [tmb_loop] in H. rewrite T in H. bind_inv H yb Ey. destruct yb as [z b]. destruct (drying_step _ _ _ D Ey) as [O1 D1].
  destruct b; [apply Ok_inj in H; subst; assumption|]. eapply G; [apply D1; reflexivity|exact O1|exact H].
Qed.

Theorem drying_sec : forall aet t a, lgar_theta_mass_balance e lay s (Fin psi0) (Fin (M psi0)) (Fin prior) (Fin aet) dth dz = Ok (t, a) ->
  exists psi, psi0 <= psi /\ t = Fin (pt_theta p psi) /\
    (Rabs (M psi - prior) <= tol /\ a = Fin aet \/ tol < Rabs (M psi - prior) /\ a = Fin (aet - (Rabs (M psi - prior) - tol))).
Proof.
  intros aet t a H. unfold lgar_theta_mass_balance in H. cbv zeta in H. change (dabs (Fin (M psi0) - Fin prior))%d with (Fin (Rabs (M psi0 - prior))) in H.
  change tmb_tol with (Fin tol) in H. destruct (Rle_dec (Rabs (M psi0 - prior)) tol) as [L|L].
  - rewrite leb_t in H by assumption. apply Ok_inj in H. apply pair_equal_spec in H as [<- <-]. exists psi0. split; [lra|]. split; [apply (theta_own e lay s dth dz ps p HP HS psi0 H0)|]. left. auto.
  - rewrite leb_f in H by lra. bind_inv H x EX. apply Ok_inj in H. apply pair_equal_spec in H as [<- <-].
    apply drying_loop in EX.
    2:{ split; [|reflexivity]. exists psi0, f0, psi0, (Rabs (M psi0 - prior)). cbn [t_psi t_factor t_new t_prev t_dprev t_switched t_iter t_aug]. split; [reflexivity|]. split.
        { change (lit 1) with (Fin 1). change (lit 100) with (Fin 100). rewrite div_fin by lra. unfold dfmax, dltb, Rltb, f0, Rmax. destruct (Rlt_dec 1 (psi0 / 100)), (Rle_dec 1 (psi0 / 100)); try reflexivity; f_equal; lra. }
        split; [reflexivity|]. split; [reflexivity|]. split; [reflexivity|]. apply (sg_rising _ _ _ _ _ 0%Z); try reflexivity; try lia. lra. }
    2:{ cbn [t_delta]. change tmb_tol with (Fin tol). apply ltb_t. lra. }
    destruct EX as [(psi & Hpsi & Ep & Et & Ed) ES]. exists psi. split; [assumption|]. rewrite Et, Ed, Ep, ES. destruct (own_soil e lay s dth dz ps p HP HS) as [ks V].
    assert (NS : ((Fin (pt_theta p psi) >=? s_theta_e s) && (Fin psi <>? Fin 0))%bool%d = false).
    { rewrite (vg_e _ _ _ _ _ _ _ V). destruct (Req_EM_T psi 0) as [->|N]; [unfold dneb; rewrite eqb_t by reflexivity; apply andb_false_r|].
      unfold dgeb. rewrite leb_f; [reflexivity|]. destruct V. unfold pt_theta, vg_theta. pose proof (Se_h_decreasing (pt_a p) (pt_n p) (pt_m p) 0 psi ltac:(assumption) ltac:(lra) ltac:(lra) ltac:(lra) ltac:(lra)).
      pose proof (Se_h_range (pt_a p) (pt_n p) (pt_m p) 0 ltac:(assumption) ltac:(lra) ltac:(lra) ltac:(lra)). nra. }
    rewrite NS. split; [reflexivity|]. set (err := Rabs (M psi - prior)) in *. unfold dgtb. destruct (Rle_dec err tol) as [B|B].
    + rewrite ltb_f by assumption. cbn [andb]. left. auto.
    + rewrite ltb_t by lra. cbn [andb negb]. right. split; [lra|]. cbn. do 2 f_equal. rewrite Rabs_right; lra.
Qed.
End Exactly.

Theorem drying_only : forall (cfg : Cfg) e lay s dth dz ps p psi0 prior aet t a, layer_parts e dth dz lay ps p -> soil_of e lay = Ok s -> Forall (fun q => 0 <= pt_z q) (p :: ps) -> 0 <= psi0 ->
  prior < held (p :: ps) psi0 ->
  @lgar_theta_mass_balance exact cfg e lay s (Fin psi0) (Fin (held (p :: ps) psi0)) (Fin prior) (Fin aet) dth dz = Ok (t, a) ->
  exists psi, psi0 <= psi /\ t = Fin (pt_theta p psi) /\
    (Rabs (held (p :: ps) psi - prior) <= tol /\ a = Fin aet \/ tol < Rabs (held (p :: ps) psi - prior) /\ a = Fin (aet - (Rabs (held (p :: ps) psi - prior) - tol))).
Proof. intros. eapply drying_sec; eassumption. Qed.
