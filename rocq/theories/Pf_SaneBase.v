(** Every routine keeps the fronts free of NaN (binary64). *)

From Coq Require Import Reals Lra ZArith List Bool Lia.
From Flocq Require Import Core Sterbenz Mult_error.
From Verif Require Import Outcome Dbl Binary64 Types ListOps Soil Fronts Infil Move State Lib Spec_Common Spec_Soil Spec_Update Spec_Profile Spec_Storage
  Spec_Physical Spec_RoundMono Spec_SatRound Spec_StartRound Spec_SaneRun Pf_Dbl Pf_Structure Pf_Repair Pf_SingleMerge Pf_Binary64 Pf_Counts Pf_RoundMono Pf_SatRound Pf_StartRound.
Import ListNotations.
Open Scope R_scope.

Section Sane.
Local Existing Instance binary64.
Local Existing Instance b64_valid.
Context {cfg : Cfg}.
Notation nn a := (below (Fin 0) a).

(** The head of any saturation between 0 and 1. *)
Lemma head_unit : forall s r te ia S, rounded_soil s r te -> (lit 1 / s_alpha s)%d = Fin ia -> 0 < ia -> unit_range S -> nn (h_of_Se s S).
Proof.
  intros s r te ia S RS Ei Hi (x & -> & Hx). destruct (Req_dec x 0) as [->|N]; [|apply (h_mono s r te x x ia); try assumption; lra].
  pose proof RS as (_ & _ & _ & _ & _ & _ & (n & En & Hn) & (m & Em & Hm)). unfold h_of_Se, calc_h_from_Se. rewrite Ei, En, Em.
  assert (P : dpow (Fin 0) (lit (-1) / Fin m) = PInf).
  { replace (lit (-1)) with (Fin (-1)); [|unfold lit; replace (-1) with (- (1)) by lra; rewrite rnd_opp, rnd_one; reflexivity]. cbn [ddiv]. destruct (Req_EM_T m 0); [lra|].
    assert (L : -1 / m <= -1) by (apply Rmult_le_reg_r with m; [lra|]; unfold Rdiv; rewrite Rmult_assoc, Rinv_l by lra; lra).
    pose proof (below_rnd _ _ L) as B. assert (Z : rnd (-1) = Fin (-1)) by (replace (-1) with (- (1)) by lra; rewrite rnd_opp, rnd_one; reflexivity). rewrite Z in B.
    unfold dpow. destruct (rnd (-1 / m)) as [y| | |]; try discriminate.
    - apply below_fin in B. cbn [deqb]. unfold Reqb. destruct (Req_EM_T y 0); [lra|]. destruct (Req_EM_T 0 1); [lra|]. destruct (Rlt_dec 0 0) as [Q|]; [lra|]. destruct (Req_EM_T 0 0); [|lra]. destruct (Rlt_dec 0 y); [lra|reflexivity].
    - cbn [deqb]. unfold Reqb. destruct (Req_EM_T 0 1); [lra|]. rewrite Rabs_R0. destruct (Rlt_dec 0 1); [reflexivity|lra]. }
  rewrite P. unfold lit. rewrite rnd_one. cbn [dsub ddiv]. destruct (Req_EM_T n 0); [lra|].
  assert (U : nn (rnd (1 / n))) by (apply nn_rnd; left; apply Rdiv_lt_0_compat; lra). destruct (pow_mono PInf PInf (rnd (1 / n)) ltac:(reflexivity) ltac:(reflexivity) U) as (_ & Q).
  change (PInf - Fin 1)%d with PInf. refine (proj2 (scale_mono ia _ _ Hi Q _)). apply below_refl. intro C. rewrite C in Q. discriminate.
Qed.

(** Sums are doubles. *)
Lemma add_double : forall a b t, (a + b)%d = Fin t -> rnd t = Fin t.
Proof. intros [a| | |] [b| | |] t H; try discriminate. cbn in H. eapply rnd_idem. exact H. Qed.

Lemma content_wet : forall s r te h, rounded_soil s r te -> nn h -> wet s (theta_of_h s h).
Proof.
  intros s r te h RS N. destruct (content_fin s r te h RS N) as (t & T & L). pose proof RS as (Er & Ee & _). exists r, te, t. rewrite T. repeat split; try assumption.
  - right. exists h. split; [exact N|]. rewrite T. apply below_fin. lra.
  - intros _. unfold theta_of_h, calc_theta_from_h in T. eapply add_double. exact T.
Qed.

Lemma wet_unit : forall s r te th, rounded_soil s r te -> rnd te = Fin te -> wet s th -> unit_range (Se_of_theta s th).
Proof.
  intros s r te th RS He (r' & te' & t & Er & Ee & -> & (L & H) & _). pose proof RS as (Er' & Ee' & _). rewrite Er' in Er. rewrite Ee' in Ee. injection Er as <-. injection Ee as <-.
  exact (saturation_unit s r te t RS He L H).
Qed.

Lemma K_unit : forall s k x M, unit_range (Fin x) -> (exists m, s_m s = Fin m /\ 0 < m < 1) -> 0 <= k <= M -> rnd k = Fin k -> forall S, unit_range S ->
  exists K, (K_of_Se s S (Fin k * Fin x)%d = Fin K /\ 0 <= K <= M /\ K_of_Se s S (Fin x * Fin k)%d = Fin K) /\ exists K', (Fin K * Fin x)%d = Fin K' /\ 0 <= K' <= M.
Proof.
  intros s k x M (x' & EX & Hx) (m & Em & Hm) Hk Rk S U. injection EX as <-.
  assert (P : exists p, rnd (k * x) = Fin p /\ 0 <= p <= k).
  { assert (A : nn (rnd (k * x))) by (apply nn_rnd; nra). assert (B : below (rnd (k * x)) (Fin k)) by (rewrite <- Rk; apply below_rnd; nra).
    destruct (rnd (k * x)) as [p| | |]; try discriminate. apply below_fin in A. apply below_fin in B. eauto. }
  destruct P as (p & P & Hp). cbn [dmul]. rewrite (Rmult_comm x k), P. unfold K_of_Se. rewrite Em.
  destruct (K_range S p m U (rnd_idem _ _ P) ltac:(lra) ltac:(lra)) as (K & EK & HK). exists K. split; [repeat split; try assumption; lra|].
  assert (A : nn (rnd (K * x))) by (apply nn_rnd; nra). assert (B : below (rnd (K * x)) (Fin k)) by (rewrite <- Rk; apply below_rnd; nra).
  destruct (rnd (K * x)) as [p'| | |]; try discriminate. apply below_fin in A. apply below_fin in B. exists p'. split; [reflexivity|lra].
Qed.

(** The water content of a new front that takes up all the water. *)
Lemma fits_wet : forall s r te dry ponded t1, rounded_soil s r te -> rnd te = Fin te -> wet s (Fin t1) -> not_negative ponded -> (forall w, ponded = Fin w -> rnd w = Fin w) ->
  dgtb (dry * (Fin te - Fin t1)) ponded = true -> exists t, dfmin (Fin t1 + ponded / dry)%d (Fin te) = Fin t /\ r <= t <= te.
Proof.
  intros s r te dry ponded t1 RS He W N D G.
  destruct W as (r' & te' & t & Er & Ee & Et & (L & H) & Dt). injection Et as <-. pose proof RS as (Er' & Ee' & R & E & Hr & _). rewrite Er' in Er. rewrite Ee' in Ee. injection Er as <-. injection Ee as <-.
  destruct (content_bound s r te t1 RS He L H) as (_ & T2).
  assert (LOW : forall q, r - t1 <= q -> exists t, dfmin (Fin t1 + Fin q)%d (Fin te) = Fin t /\ r <= t <= te).
  { intros q Hq. cbn [dadd]. assert (B : below (Fin r) (rnd (t1 + q))) by (rewrite <- Hr; apply below_rnd; lra).
    unfold dfmin. destruct (rnd (t1 + q)) as [y| | |]; try discriminate; cbn.
    - apply below_fin in B. unfold Rltb. destruct (Rlt_dec _ _); eexists; (split; [reflexivity|lra]).
    - eexists; (split; [reflexivity|lra]). }
  assert (TOP : exists t, dfmin PInf (Fin te) = Fin t /\ r <= t <= te) by (exists te; split; [reflexivity|lra]).
  unfold not_negative in N. cbn [dsub] in G.
  assert (X : rnd (te - t1) = Fin (b64_near (te - t1))) by (apply rnd_small; apply Rabs_le; lra). rewrite X in G. set (x := b64_near (te - t1)) in *.
  destruct ponded as [w| | |]; [|exfalso; destruct (dry * Fin x)%d; discriminate G|exfalso; discriminate N|exfalso; destruct (dry * Fin x)%d; discriminate G].
  cbn in N. assert (Hw : 0 <= w) by (unfold dltb, Rltb in N; destruct (Rlt_dec w 0); [discriminate|lra]). clear N. specialize (D w eq_refl).
  destruct dry as [d| | |]; try discriminate.
  - cbn [dmul] in G.
    assert (DX : w < d * x).
    { destruct (Rlt_dec w (d * x)); [assumption|]. exfalso. assert (B : below (rnd (d * x)) (Fin w)) by (rewrite <- D; apply below_rnd; lra).
      unfold dgtb, dltb, Rltb in G. destruct (rnd (d * x)); try discriminate. apply below_fin in B. destruct (Rlt_dec w r0); [lra|discriminate]. }
    cbn [ddiv]. destruct (Req_EM_T d 0) as [->|Nd]; [lra|].
    destruct (Rlt_dec 0 d) as [P|P].
    + assert (Q : nn (rnd (w / d))) by (apply nn_rnd; apply Rmult_le_pos; [lra|left; apply Rinv_0_lt_compat; lra]). destruct (rnd (w / d)) as [q| | |]; try discriminate; [|exact TOP].
      apply below_fin in Q. apply LOW. lra.
    + assert (Pd : d < 0) by lra. assert (Px : x < 0) by nra.
      assert (T : te < t1). { destruct (Rlt_dec te t1); [assumption|]. exfalso. assert (0 <= x); [|lra]. unfold x. rewrite <- near_zero. apply near_mono. lra. }
      specialize (Dt T).
      assert (XE : x = te - t1).
      { unfold x. apply round_generic; [apply valid_rnd_N|].
        assert (F1 : generic_format radix2 b64_exp te) by (rewrite <- (near_fix te ltac:(lra) He); apply generic_format_round; [apply b64_valid|apply valid_rnd_N]).
        assert (N1 : b64_near t1 = t1) by (rewrite rnd_small in Dt by (apply fits; lra); injection Dt as Q; exact Q).
        assert (F2 : generic_format radix2 b64_exp t1) by (rewrite <- N1; apply generic_format_round; [apply b64_valid|apply valid_rnd_N]).
        apply sterbenz; [apply FLT_exp_valid; reflexivity|apply FLT_exp_monotone|exact F1|exact F2|]. split; [|lra].
        destruct H as [H|(h & Nh & H)]; [lra|]. destruct (theta_mono s r te h h RS Nh ltac:(apply below_refl; intro; subst h; discriminate)) as (_ & _ & TT).
        pose proof (below_trans _ _ _ H TT) as QQ. destruct (porosity te r R E Hr He) as (EX & HX). rewrite EX in QQ. cbn [dadd] in QQ. rewrite rnd_small in QQ by (apply fits; lra). apply below_fin in QQ.
        assert (A1 : b64_near (te - r) <= te) by (rewrite <- (near_fix te ltac:(lra) He) at 2; apply near_mono; lra).
        assert (A2 : b64_near (te * bpow radix2 1) = te * bpow radix2 1).
        { apply round_generic; [apply valid_rnd_N|]. apply mult_bpow_pos_exact_FLT; [exact F1|lia]. }
        assert (A3 : b64_near (b64_near (te - r) + r) <= b64_near (te * bpow radix2 1)) by (apply near_mono; change (bpow radix2 1) with 2; lra).
        rewrite A2 in A3. change (bpow radix2 1) with 2 in A3. lra. }
      assert (WD : te - t1 <= w / d). { apply Rmult_le_reg_r with (- d); [lra|]. unfold Rdiv. replace (w * / d * - d) with (- w) by (field; lra). rewrite <- XE. nra. }
      assert (XD : rnd x = Fin x) by (rewrite XE in *; eapply rnd_idem; exact X).
      pose proof (below_rnd _ _ WD) as B. rewrite <- XE, XD in B. destruct (rnd (w / d)) as [q| | |]; try discriminate; [|exact TOP]. apply below_fin in B. apply LOW. lra.
  - cbn [ddiv]. apply LOW. lra.
  - cbn [ddiv]. apply LOW. lra.
Qed.
End Sane.
