(** The water ledger in rounded arithmetic. *)

From Coq Require Import Reals Lra ZArith List Bool Lia.
From Flocq Require Import Core.
From RecordUpdate Require Import RecordSet.
From Verif Require Import Outcome Dbl Binary64 Types ListOps Soil Giuh Fronts Infil Move State Update Lib Spec_Common Pf_Dbl Spec_Update Spec_LedgerFp
  Pf_Update Pf_Binary64 Pf_SurfaceAny Pf_Ledger Pf_Signs.
Import ListNotations.
Import RecordSetNotations.
Open Scope R_scope.

(** ** Accuracy of binary64 *)
Lemma abs_le : forall x b, Rabs x <= b -> - b <= x <= b.
Proof. intros x b H. unfold Rabs in H. destruct (Rcase_abs x) in H; lra. Qed.
Lemma le_abs : forall x b, - b <= x <= b -> Rabs x <= b.
Proof. intros x b H. unfold Rabs. destruct (Rcase_abs x); lra. Qed.

Lemma half_ulp : forall k x, (-1021 <= k)%Z -> Rabs x <= bpow radix2 k -> / 2 * ulp radix2 b64_exp x <= bpow radix2 (k - 53).
Proof.
  intros k x K H. assert (V : Valid_exp b64_exp) by (apply FLT_exp_valid; unfold Prec_gt_0; lia).
  assert (Mo : Monotone_exp b64_exp) by (apply FLT_exp_monotone).
  assert (U : ulp radix2 b64_exp x <= ulp radix2 b64_exp (bpow radix2 k)). { apply ulp_le; auto. rewrite (Rabs_pos_eq (bpow radix2 k)); [exact H|apply bpow_ge_0]. }
  rewrite ulp_bpow in U. replace (b64_exp (k + 1)) with (k - 52)%Z in U by (unfold b64_exp, FLT_exp; lia).
  replace (k - 53)%Z with (-1 + (k - 52))%Z by lia. rewrite bpow_plus. change (bpow radix2 (-1)) with (/ 2). lra.
Qed.

Lemma accurate64 : forall k, (-1021 <= k <= 1023)%Z -> accurate binary64 (bpow radix2 k) (bpow radix2 (k - 53)).
Proof.
  intros k K. assert (V : Valid_exp b64_exp) by (apply FLT_exp_valid; unfold Prec_gt_0; lia).
  assert (Mo : Monotone_exp b64_exp) by (apply FLT_exp_monotone). split.
  - intros x H. exists (b64_near x). split.
    + change (@rnd binary64 x) with (b64_rnd x). unfold b64_rnd. pose proof (bpow_lt radix2 k 1024 ltac:(lia)) as B.
      assert (N : b64_near (bpow radix2 k) = bpow radix2 k). { apply round_generic; [apply valid_rnd_N|]. apply generic_format_bpow. unfold b64_exp, FLT_exp. lia. }
      apply abs_le in H. assert (U : b64_near x <= bpow radix2 k) by (rewrite <- N; apply near_mono; lra).
      assert (L : - bpow radix2 k <= b64_near x) by (rewrite <- N, <- near_opp; apply near_mono; lra).
      destruct (Rlt_dec (b64_near x) _); [|lra]. destruct (Rlt_dec _ (b64_near x)); [reflexivity|lra].
    + apply Rle_trans with (/ 2 * ulp radix2 b64_exp x); [apply error_le_half_ulp; auto|]. apply half_ulp; [lia|exact H].
  - intros x r H R. change (@rnd binary64 x) with (b64_rnd x) in H. unfold b64_rnd in H.
    destruct (Rlt_dec (b64_near x) _); [|discriminate]. destruct (Rlt_dec _ (b64_near x)); [|discriminate]. injection H as <-.
    apply Rle_trans with (/ 2 * ulp radix2 b64_exp (b64_near x)); [apply error_le_half_ulp_round; auto|]. apply half_ulp; [lia|exact R].
Qed.

Section Any.
Context {fp : Fp} {cfg : Cfg} (L eta M : R).
Hypothesis acc : accurate fp L eta.
Hypothesis big : 32 * M <= L.
Hypothesis one : 1 <= M.
Hypothesis fine : eta <= M.

(** ** Single operations *)
Lemma eta_nn : 0 <= eta.
Proof. destruct acc as [A _]. destruct (A 0) as (r & _ & H); [rewrite Rabs_R0; lra|]. pose proof (Rabs_pos (r - 0)). lra. Qed.

Lemma rnd_ok : forall x, - L <= x <= L -> exists r, rnd x = Fin r /\ x - eta <= r <= x + eta.
Proof. intros x H. destruct acc as [A _]. destruct (A x (le_abs _ _ H)) as (r & E & B). exists r. split; [exact E|]. apply abs_le in B. lra. Qed.
Lemma add_ok : forall x y, - L <= x + y <= L -> exists r, (Fin x + Fin y)%d = Fin r /\ x + y - eta <= r <= x + y + eta.
Proof. intros x y H. exact (rnd_ok _ H). Qed.
Lemma sub_ok : forall x y, - L <= x - y <= L -> exists r, (Fin x - Fin y)%d = Fin r /\ x - y - eta <= r <= x - y + eta.
Proof. intros x y H. exact (rnd_ok _ H). Qed.

Lemma add_back : forall x d r, (Fin x + d)%d = Fin r -> - L <= r <= L -> exists y, d = Fin y /\ x + y - eta <= r <= x + y + eta.
Proof.
  intros x d r H B. destruct d as [y| | |]; try discriminate. exists y. split; [reflexivity|]. destruct acc as [_ A].
  pose proof (A _ _ H (le_abs _ _ B)) as Q. apply abs_le in Q. lra.
Qed.

Lemma within_fin : forall x, within M (Fin x) -> - M <= x <= M.
Proof. intros x (y & E & B). injection E as <-. apply abs_le. exact B. Qed.
Lemma within_is : forall d, within M d -> exists x, d = Fin x /\ - M <= x <= M.
Proof. intros d (x & E & B). exists x. split; [exact E|]. apply abs_le. exact B. Qed.

Lemma clean_close : forall w, 0 <= w <= M -> exists c, clean_volon (Fin w) = Fin c /\ 0 <= c /\ w - (1 / 1000000000000 + eta) <= c <= w.
Proof.
  intros w W. pose proof eta_nn as N. unfold clean_volon. cbv zeta.
  assert (D : dfmax (Fin w) (Fin 0) = Fin w). { cbn. unfold Rltb. destruct (Rlt_dec w 0); [lra|reflexivity]. }
  rewrite D. destruct (rnd_ok (1 / 1000000000000) ltac:(lra)) as (t & E & B). unfold lit. rewrite E.
  unfold dgtb. cbn. unfold Rltb. destruct (Rlt_dec t w); [exists w|exists 0]; (split; [reflexivity|lra]).
Qed.

(** Seven operations of the balance of a sub-step. *)
Lemma balance_close : forall v p c r a o h e,
  - M <= v <= M -> - (3 * M) <= p <= 3 * M -> - M <= c <= M -> - (3 * M) <= r <= 3 * M -> - (3 * M) <= a <= 3 * M -> - M <= o <= M ->
  - (3 * M) <= h <= 3 * M -> - M <= e <= M ->
  exists z, local_balance (Fin v) (Fin p) (Fin c) (Fin r) (Fin a) (Fin o) (Fin h) (Fin e) = Fin z /\
    v + p + c - r - a - o - h - e - 7 * eta <= z <= v + p + c - r - a - o - h - e + 7 * eta.
Proof.
  intros v p c r a o h e Hv Hp Hc Hr Ha Ho Hh He. pose proof eta_nn as N. unfold local_balance.
  destruct (add_ok v p ltac:(lra)) as (x1 & -> & B1). destruct (add_ok x1 c ltac:(lra)) as (x2 & -> & B2).
  destruct (sub_ok x2 r ltac:(lra)) as (x3 & -> & B3). destruct (sub_ok x3 a ltac:(lra)) as (x4 & -> & B4).
  destruct (sub_ok x4 o ltac:(lra)) as (x5 & -> & B5). destruct (sub_ok x5 h ltac:(lra)) as (x6 & -> & B6).
  destruct (sub_ok x6 e ltac:(lra)) as (x7 & -> & B7). exists x7. split; [reflexivity|lra].
Qed.

(** Seven operations of the printed balance. *)
Lemma global_close : forall v p r a o h e c,
  - M <= v <= M -> - M <= p <= M -> - M <= r <= M -> - M <= a <= M -> - M <= o <= M -> - M <= h <= M -> - M <= e <= M -> - M <= c <= M ->
  exists z, (Fin v + Fin p - Fin r - Fin a - Fin o - Fin h - Fin e + Fin c)%d = Fin z /\
    v + p - r - a - o - h - e + c - 7 * eta <= z <= v + p - r - a - o - h - e + c + 7 * eta.
Proof.
  intros v p r a o h e c Hv Hp Hr Ha Ho Hh He Hc. pose proof eta_nn as N.
  destruct (add_ok v p ltac:(lra)) as (x1 & -> & B1). destruct (sub_ok x1 r ltac:(lra)) as (x2 & -> & B2).
  destruct (sub_ok x2 a ltac:(lra)) as (x3 & -> & B3). destruct (sub_ok x3 o ltac:(lra)) as (x4 & -> & B4).
  destruct (sub_ok x4 h ltac:(lra)) as (x5 & -> & B5). destruct (sub_ok x5 e ltac:(lra)) as (x6 & -> & B6).
  destruct (add_ok x6 c ltac:(lra)) as (x7 & -> & B7). exists x7. split; [reflexivity|lra].
Qed.

(** ** Sub-steps *)
Definition slack : R := 1 / 10000 + 1 / 1000000000000 + 13 * eta.

Lemma substep_close : forall u s a s1 a1 v w P Ro A Rc, low_step M (mkStep s a s1 a1) -> not_negative (a_on a) ->
  substep u s a = Ok (s1, a1) ->
  lgar_calc_mass_bal (p_cum (st_p s)) (st_head s) = Ok (Fin v) ->
  a_on a = Fin w -> a_precip a = Fin P -> a_runoff a = Fin Ro -> a_aet a = Fin A -> a_rech a = Fin Rc ->
  exists v1 w1 P1 R1 A1 Rc1,
    lgar_calc_mass_bal (p_cum (st_p s1)) (st_head s1) = Ok (Fin v1) /\ a_end a1 = Fin v1 /\
    a_on a1 = Fin w1 /\ a_precip a1 = Fin P1 /\ a_runoff a1 = Fin R1 /\ a_aet a1 = Fin A1 /\ a_rech a1 = Fin Rc1 /\
    - slack <= v + w + (P1 - P) - (R1 - Ro) - (A1 - A) - (Rc1 - Rc) - w1 - v1 <= slack.
Proof.
  intros u s a s1 a1 v w P Ro A Rc (L1 & L2 & L3 & L4) Nw Hs Hv Hw HP HR HA HRc. cbn [x_s x_a x_s' x_a'] in *.
  destruct (substep_inv _ _ _ _ _ Hs) as (volstart & b & volend & mbl & precip & pet & prate & petr & _ & _ & _ & _ & E1 & _ & E2 & E3 & E4 & Es & Ea).
  rewrite Hv in E1. apply Ok_inj in E1. subst volstart.
  destruct L1 as (v' & Ev & Lv). rewrite Hv in Ev. apply Ok_inj in Ev. subst v'. apply within_fin in Lv.
  destruct L3 as (T1 & T2 & T3 & T4 & T5). rewrite HP in T1. rewrite HR in T2. rewrite HA in T3. rewrite HRc in T4. rewrite Hw in T5.
  apply within_fin in T1, T2, T3, T4, T5.
  assert (Hvol : lgar_calc_mass_bal (p_cum (st_p s1)) (st_head s1) = Ok volend) by (subst s1; exact E2).
  destruct L2 as (v' & Ev & Lv1). rewrite Hvol in Ev. apply Ok_inj in Ev. subst v'. apply within_is in Lv1 as (v1 & -> & Lv1).
  subst a1. destruct L4 as (U1 & U2 & U3 & U4 & U5). cbn [a_precip a_runoff a_aet a_rech a_on a_end] in *.
  apply within_is in U1 as (P1 & QP & U1). apply within_is in U2 as (R1 & QR & U2). apply within_is in U3 as (A1 & QA & U3).
  apply within_is in U4 as (Rc1 & QRc & U4). apply within_is in U5 as (w1 & Qw & U5).
  rewrite HP in QP. rewrite HR in QR. rewrite HA in QA. rewrite HRc in QRc.
  destruct (add_back _ _ _ QP ltac:(lra)) as (dP & FP & BP). destruct (add_back _ _ _ QR ltac:(lra)) as (dR & FR & BR).
  destruct (add_back _ _ _ QA ltac:(lra)) as (dA & FA & BA). destruct (add_back _ _ _ QRc ltac:(lra)) as (dRc & FRc & BRc).
  assert (W0 : 0 <= w). { rewrite Hw in Nw. unfold not_negative in Nw. cbn in Nw. unfold Rltb in Nw. destruct (Rlt_dec w 0); [discriminate|lra]. }
  destruct (clean_close w ltac:(lra)) as (c & Ec & C0 & Bc). rewrite Hw, Ec, FP, FR, FA, FRc, Qw in E3. pose proof eta_nn as N.
  destruct (balance_close v dP c dR dA w1 dRc v1) as (z & Ez & Bz); try lra.
  rewrite Ez in E3. subst mbl. unfold lit in E4. destruct (rnd_ok (1 / 10000) ltac:(lra)) as (t & Et & Bt). rewrite Et in E4.
  assert (Z : - t <= z <= t). { apply abs_le. unfold dgtb in E4. cbn in E4. unfold Rltb in E4. destruct (Rlt_dec t (Rabs z)); [discriminate|lra]. }
  exists v1, w1, P1, R1, A1, Rc1. rewrite HP, HR, HA, HRc. repeat (split; [assumption || reflexivity|]). unfold slack. lra.
Qed.

Lemma runs_close : forall u s a xs s' a', runs u s a xs s' a' -> not_negative (u_dt u) -> not_negative (u_pmax u) ->
  Forall (low_step M) xs -> acc_nn a ->
  forall v w P Ro A Rc,
  lgar_calc_mass_bal (p_cum (st_p s)) (st_head s) = Ok (Fin v) -> a_end a = Fin v ->
  a_on a = Fin w -> a_precip a = Fin P -> a_runoff a = Fin Ro -> a_aet a = Fin A -> a_rech a = Fin Rc ->
  - M <= v <= M -> - M <= w <= M -> - M <= P <= M -> - M <= Ro <= M -> - M <= A <= M -> - M <= Rc <= M ->
  exists v1 w1 P1 R1 A1 Rc1,
    lgar_calc_mass_bal (p_cum (st_p s')) (st_head s') = Ok (Fin v1) /\ a_end a' = Fin v1 /\
    a_on a' = Fin w1 /\ a_precip a' = Fin P1 /\ a_runoff a' = Fin R1 /\ a_aet a' = Fin A1 /\ a_rech a' = Fin Rc1 /\
    - M <= v1 <= M /\ - M <= w1 <= M /\ - M <= P1 <= M /\ - M <= R1 <= M /\ - M <= A1 <= M /\ - M <= Rc1 <= M /\
    - (INR (length xs) * slack) <= v + w + (P1 - P) - (R1 - Ro) - (A1 - A) - (Rc1 - Rc) - w1 - v1 <= INR (length xs) * slack.
Proof.
  intros u s a xs s' a' H Hdt Hp. induction H as [s a|s a s1 a1 xs s2 a2 Hs Hr IH]; intros Hl Hn v w P Ro A Rc Hv He Hw HP HR HA HRc Bv Bw BP BR BA BRc.
  - exists v, w, P, Ro, A, Rc. cbn [length INR]. repeat (split; [assumption|]). lra.
  - inversion Hl as [|? ? Hl1 Hl2]; subst. pose proof Hn as (Nw & _).
    destruct (substep_close _ _ _ _ _ _ _ _ _ _ _ Hl1 Nw Hs Hv Hw HP HR HA HRc) as (v1 & w1 & P1 & R1 & A1 & Rc1 & G1 & G2 & G3 & G4 & G5 & G6 & G7 & G8).
    destruct Hl1 as (_ & (v' & Ev & Lv) & _ & (T1 & T2 & T3 & T4 & T5)). cbn [x_s' x_a'] in *.
    rewrite G1 in Ev. apply Ok_inj in Ev. subst v'. rewrite G3 in T5. rewrite G4 in T1. rewrite G5 in T2. rewrite G6 in T3. rewrite G7 in T4.
    apply within_fin in Lv, T1, T2, T3, T4, T5.
    destruct (IH Hl2 (substep_nn _ _ _ _ _ Hdt Hp Hs Hn) _ _ _ _ _ _ G1 G2 G3 G4 G5 G6 G7 Lv T5 T1 T2 T3 T4)
      as (v2 & w2 & P2 & R2 & A2 & Rc2 & K1 & K2 & K3 & K4 & K5 & K6 & K7 & K8 & K9 & K10 & K11 & K12 & K13 & K14).
    exists v2, w2, P2, R2, A2, Rc2. repeat (split; [assumption|]). cbn [length]. rewrite S_INR. lra.
Qed.

(** ** Updates *)
Definition near_books (s : state) (g : R) : Prop :=
  exists v v0 P Ro A Rc C w,
    lgar_calc_mass_bal (p_cum (st_p s)) (st_head s) = Ok (Fin v) /\ mb_start (st_mb s) = Fin v0 /\
    mb_precip (st_mb s) = Fin P /\ mb_runoff (st_mb s) = Fin Ro /\ mb_aet (st_mb s) = Fin A /\ mb_rech (st_mb s) = Fin Rc /\
    mb_calib (st_mb s) = Fin C /\ mb_on (st_mb s) = Fin w /\ mb_on_ts (st_mb s) = Fin w /\
    - M <= v <= M /\ - M <= v0 <= M /\ - M <= P <= M /\ - M <= Ro <= M /\ - M <= A <= M /\ - M <= Rc <= M /\ - M <= C <= M /\ - M <= w <= M /\
    - g <= v0 + P - Ro - A - w - Rc - v + C <= g.

Lemma near_fresh : forall s, fresh s -> low_books M s -> near_books s 0.
Proof.
  intros s ((v & E1 & E2) & H1 & H2 & H3 & H4 & H5 & H6 & H7 & _) ((v' & E & B) & _).
  rewrite E1 in E. apply Ok_inj in E. subst v'. apply within_fin in B.
  exists v, v, 0, 0, 0, 0, 0, 0. repeat (split; [assumption|]). repeat split; lra.
Qed.

Lemma near_edit : forall s s' g, user_edit s s' -> near_books s g -> near_books s' g.
Proof. intros s s' g (pr & pet & T & cal & out & nf & tw & dw & ->) H. exact H. Qed.

(** The balance is then printed with seven more roundings. *)
Definition ended (s : state) : Prop := lgar_calc_mass_bal (p_cum (st_p s)) (st_head s) = Ok (mb_end (st_mb s)).

Lemma near_print : forall s g, near_books s g -> ended s -> exists z, global_error (st_mb s) = Fin z /\ Rabs z <= g + 7 * eta.
Proof.
  intros s g (v & v0 & P & Ro & A & Rc & C & w & B1 & B2 & B3 & B4 & B5 & B6 & B7 & B8 & B9 & D1 & D2 & D3 & D4 & D5 & D6 & D7 & D8 & D9) He.
  unfold ended in He. rewrite B1 in He. apply Ok_inj in He. unfold global_error. rewrite B2, B3, B4, B5, B6, B7, B8, <- He.
  destruct (global_close v0 P Ro A w Rc v C) as (z & Ez & Bz); auto. exists z. split; [exact Ez|]. apply le_abs. lra.
Qed.

Lemma update_close : forall s u xs s' g,
  p_invalid (st_p s) = false -> signs s -> executed s u xs s' -> near_books s g -> Forall (low_step M) xs -> low_books M s' ->
  near_books s' (g + INR (length xs) * slack + 6 * eta) /\ ended s'.
Proof.
  intros s u xs s' g Hv (Hs & Hw0 & _ & _) (_ & He)
    (v & v0 & P & Ro & A & Rc & C & w & B1 & B2 & B3 & B4 & B5 & B6 & B7 & B8 & B9 & D1 & D2 & D3 & D4 & D5 & D6 & D7 & D8 & D9) Hl Hb.
  rewrite Hv in He. destruct He as (s1 & vcal & volend & s2 & n & s3 & a & E1 & E2 & E3 & E4 & E5 & E6 & E7).
  destruct (prologue_inv _ _ _ E1) as (Emb & _ & _ & Ecal & _ & _ & _ & _ & _ & Ecum & Ets & Emt & Efr & _ & _ & _ & _ & _ & _ & Epm & Hcal).
  destruct (steps_inv _ _ _ _ E3) as (Edt & _ & Es2).
  destruct (finish_inv _ _ _ _ E7) as (giuh & q & mbl & _ & _ & Es').
  destruct (runs_frame _ _ _ _ _ _ _ E5) as (F1 & _ & F2 & F3 & F4 & F5 & F6 & F7 & _).
  destruct Hs as (S1 & S2 & S3 & S4 & S5). pose proof eta_nn as N.
  assert (Ndt : not_negative (u_dt u)).
  { rewrite Edt. destruct (p_adaptive (st_p s1)); [|rewrite Ets; assumption]. apply adaptive_nn; [rewrite Emt|rewrite Efr]; assumption. }
  assert (Nup : not_negative (u_pmax u)). { rewrite E4. cbn. subst s2. cbn. destruct Epm as [-> | ->]; assumption. }
  assert (Emb2 : st_mb s2 = st_mb s) by (subst s2; cbn; assumption).
  assert (Ecum2 : p_cum (st_p s2) = p_cum (st_p s)) by (subst s2; cbn; assumption).
  assert (Ehd2 : st_head s2 = st_head s1) by (subst s2; reflexivity).
  assert (N0 : acc_nn (acc0 volend (mb_on_ts (st_mb s2)))). { repeat split; cbn; auto using nn_zero. rewrite Emb2. assumption. }
  (* the storage after the calibration *)
  assert (Hse : exists ve, volend = Fin ve /\ - M <= ve <= M).
  { destruct xs as [|x xs].
    - assert (K3 : s3 = s2) by (inversion E5; reflexivity). destruct Hb as ((x & Ex & Lx) & _). apply within_is in Lx as (ve & -> & Lx). exists ve. split; [|exact Lx].
      assert (X : lgar_calc_mass_bal (p_cum (st_p s1)) (st_head s1) = Ok (Fin ve)).
      { rewrite Ecum, <- Ecum2, <- Ehd2. rewrite Es' in Ex. cbn in Ex. rewrite K3 in Ex. exact Ex. }
      rewrite E2 in X. apply Ok_inj in X. exact X.
    - assert (K3 : x_s x = s2) by (inversion E5; reflexivity). pose proof (Forall_inv Hl) as (Lx & _). rewrite K3 in Lx.
      destruct Lx as (y & Ex & Lx). apply within_is in Lx as (ve & -> & Lx). exists ve. split; [|exact Lx].
      rewrite Ecum2, Ehd2, <- Ecum, E2 in Ex. apply Ok_inj in Ex. exact Ex. }
  destruct Hse as (ve & -> & Lve).
  assert (Hvc : exists vc, vcal = Fin vc /\ ve - v - eta <= vc <= ve - v + eta).
  { destruct (p_calib (st_p s)).
    - destruct Hcal as (bf & af & G1 & G2 & G3). rewrite B1 in G1. apply Ok_inj in G1. subst bf. rewrite Ecum, G2 in E2. apply Ok_inj in E2. subst af.
      destruct (sub_ok ve v ltac:(lra)) as (r & Er & Br). exists r. rewrite G3. split; [exact Er|exact Br].
    - destruct Hcal as (G1 & G2). exists 0. split; [exact G2|]. rewrite Ecum, G1, B1 in E2. apply Ok_inj in E2. injection E2 as E2. lra. }
  destruct Hvc as (vc & -> & Bvc).
  assert (K1 : lgar_calc_mass_bal (p_cum (st_p s2)) (st_head s2) = Ok (Fin ve)) by (rewrite Ecum2, Ehd2, <- Ecum; assumption).
  assert (K2 : a_on (acc0 (Fin ve) (mb_on_ts (st_mb s2))) = Fin w) by (cbn; rewrite Emb2; assumption).
  assert (Z : - M <= 0 <= M) by lra.
  destruct (runs_close _ _ _ _ _ _ E5 Ndt Nup Hl N0 _ _ _ _ _ _ K1 eq_refl K2 eq_refl eq_refl eq_refl eq_refl Lve D8 Z Z Z Z)
    as (v1 & w1 & P1 & R1 & A1 & Rc1 & L1 & L2 & L3 & L4 & L5 & L6 & L7 & Q1 & Q2 & Q3 & Q4 & Q5 & Q6 & L8).
  rewrite Emb2 in *.
  assert (J : mb_precip (st_mb s') = (Fin P + Fin P1)%d /\ mb_runoff (st_mb s') = (Fin Ro + Fin R1)%d /\ mb_aet (st_mb s') = (Fin A + Fin A1)%d /\
    mb_rech (st_mb s') = (Fin Rc + Fin Rc1)%d /\ mb_calib (st_mb s') = (Fin C + Fin vc)%d /\ mb_start (st_mb s') = Fin v0 /\
    mb_on (st_mb s') = Fin w1 /\ mb_on_ts (st_mb s') = Fin w1 /\ mb_end (st_mb s') = Fin v1 /\
    lgar_calc_mass_bal (p_cum (st_p s')) (st_head s') = Ok (Fin v1)).
  { subst s'. cbn. rewrite F2, F3, F4, F5, F6, F7, L2, L3, L4, L5, L6, L7, B2, B3, B4, B5, B6, B7. repeat split. exact L1. }
  destruct J as (J1 & J2 & J3 & J4 & J5 & J6 & J7 & J8 & J9 & J10). clear Es'.
  destruct Hb as (_ & _ & H1 & H2 & H3 & H4 & H5 & _). rewrite J1 in H1. rewrite J2 in H2. rewrite J3 in H3. rewrite J4 in H4. rewrite J5 in H5.
  apply within_is in H1 as (P2 & X1 & Y1). apply within_is in H2 as (R2 & X2 & Y2). apply within_is in H3 as (A2 & X3 & Y3).
  apply within_is in H4 as (Rc2 & X4 & Y4). apply within_is in H5 as (C2 & X5 & Y5).
  destruct (add_back _ _ _ X1 ltac:(lra)) as (y1 & W1 & V1). injection W1 as <-. destruct (add_back _ _ _ X2 ltac:(lra)) as (y2 & W2 & V2). injection W2 as <-.
  destruct (add_back _ _ _ X3 ltac:(lra)) as (y3 & W3 & V3). injection W3 as <-. destruct (add_back _ _ _ X4 ltac:(lra)) as (y4 & W4 & V4). injection W4 as <-.
  destruct (add_back _ _ _ X5 ltac:(lra)) as (y5 & W5 & V5). injection W5 as <-.
  split.
  - exists v1, v0, P2, R2, A2, Rc2, C2, w1. rewrite J1, J2, J3, J4, J5. repeat (split; [assumption|]). lra.
  - unfold ended. rewrite J10, J9. reflexivity.
Qed.

(** ** Simulations *)
Lemma tracked_close : forall s0 m n s, fresh s0 -> signs s0 -> p_invalid (st_p s0) = false -> tracked M s0 m n s ->
  near_books s (INR n * slack + 6 * INR m * eta) /\ signs s /\ p_invalid (st_p s) = false /\ ((0 < m)%nat -> ended s).
Proof.
  intros s0 m n s Hf Hs Hv H. induction H as [Hb|m n s s' H IH He Hq|m n s u ys s' H IH He Hl Hb].
  - split; [|split; [exact Hs|split; [exact Hv|lia]]]. cbn [INR]. replace (0 * slack + 6 * 0 * eta) with 0 by ring. apply near_fresh; assumption.
  - destruct IH as (I1 & I2 & I3 & I4). split; [eapply near_edit; eassumption|].
    destruct He as (pr & pet & T & cal & out & nf & tw & dw & ->). destruct I2 as ((S1 & S2 & S3 & S4 & S5) & W & O & G).
    split; [|split; [exact I3|exact I4]]. repeat split; assumption.
  - destruct IH as (I1 & I2 & I3 & _). destruct (update_close _ _ _ _ _ I3 I2 He I1 Hl Hb) as [K1 K2].
    destruct (update_signs _ _ _ _ I2 He) as (K3 & _).
    split; [|split; [exact K3|split; [|intros _; exact K2]]].
    + rewrite plus_INR, S_INR. replace ((INR n + INR (length ys)) * slack + 6 * (INR m + 1) * eta) with (INR n * slack + 6 * INR m * eta + INR (length ys) * slack + 6 * eta) by ring. exact K1.
    + destruct He as (_ & He). rewrite I3 in He. destruct He as (s1 & vcal & volend & s2 & k & s3 & a & E1 & E2 & E3 & E4 & E5 & E6 & E7).
      destruct (prologue_inv _ _ _ E1) as (_ & _ & _ & _ & _ & _ & _ & _ & _ & _ & _ & _ & _ & _ & _ & _ & _ & Hinv & _).
      destruct (steps_inv _ _ _ _ E3) as (_ & _ & Es2). destruct (finish_inv _ _ _ _ E7) as (giuh & q & mbl & _ & _ & Es').
      destruct (runs_frame _ _ _ _ _ _ _ E5) as (_ & F1 & _). subst s'. cbn. rewrite F1, Es2. cbn. rewrite Hinv. exact I3.
Qed.

Lemma tracked_global : forall s0 m n s, fresh s0 -> signs s0 -> p_invalid (st_p s0) = false -> tracked M s0 m n s -> (0 < m)%nat ->
  exists g, global_error (st_mb s) = Fin g /\
    Rabs g <= INR n * (1 / 10000 + 1 / 1000000000000 + 13 * eta) + (6 * INR m + 7) * eta.
Proof.
  intros s0 m n s Hf Hs Hv H Hm. destruct (tracked_close _ _ _ _ Hf Hs Hv H) as (I1 & _ & _ & I2).
  destruct (near_print _ _ I1 (I2 Hm)) as (z & Ez & Bz). exists z. split; [exact Ez|]. unfold slack in Bz. lra.
Qed.
End Any.

(** In binary64, with at most 2^15 cm of water in any storage or total: an accuracy of 2^-33 cm. *)
Lemma tracked_global64 : forall (cfg : Cfg) s0 m n s, @fresh binary64 s0 -> signs s0 -> p_invalid (st_p s0) = false ->
  @tracked binary64 cfg 32768 s0 m n s -> (0 < m)%nat ->
  exists g, @global_error binary64 (st_mb s) = Fin g /\
    Rabs g <= INR n * (1 / 10000 + 2 / 1000000000) + INR (m + 2) * (1 / 1000000000).
Proof.
  intros cfg s0 m n s Hf Hs Hv H Hm.
  assert (E1 : bpow radix2 20 = 1048576) by reflexivity. assert (E2 : bpow radix2 (20 - 53) = / 8589934592) by reflexivity.
  pose proof (accurate64 20 ltac:(lia)) as Ac. rewrite E1, E2 in Ac.
  destruct (@tracked_global binary64 cfg _ _ 32768 Ac ltac:(lra) ltac:(lra) ltac:(lra) s0 m n s Hf Hs Hv H Hm) as (g & Eg & Bg).
  exists g. split; [exact Eg|]. rewrite plus_INR. cbn [INR]. pose proof (pos_INR n). pose proof (pos_INR m).
  assert (Q : INR n * (1 / 10000 + 1 / 1000000000000 + 13 * / 8589934592) <= INR n * (1 / 10000 + 2 / 1000000000)) by (apply Rmult_le_compat_l; lra).
  lra.
Qed.
