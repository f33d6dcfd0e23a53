(** Signs of the fluxes and bounds of the ledger. *)

From Coq Require Import Reals Lra ZArith List Bool Lia.
From RecordUpdate Require Import RecordSet.
From Verif Require Import Outcome Dbl Types ListOps Soil Giuh Fronts Infil Move State Update Exact Lib Spec_Common Pf_Dbl Spec_Update
  Pf_Update Pf_SurfaceAny Pf_Ledger.
Import ListNotations.
Import RecordSetNotations.
Open Scope R_scope.

Section Any.
Context {fp : Fp} {cfg : Cfg}.

Definition acc_nn (a : acc) : Prop :=
  not_negative (a_on a) /\ not_negative (a_precip a) /\ not_negative (a_pet a) /\ not_negative (a_runoff a).

Lemma substep_nn : forall u s a s' a', not_negative (u_dt u) -> not_negative (u_pmax u) ->
  substep u s a = Ok (s', a') -> acc_nn a -> acc_nn a'.
Proof.
  intros u s a s' a' Hdt Hp Hs (H1 & H2 & H3 & H4).
  destruct (substep_inv _ _ _ _ _ Hs) as (volstart & b & volend & mbl & precip & pet & prate & petr & E1 & E2 & E3 & E4 & _ & Eh & _ & _ & _ & _ & ->).
  assert (Npr : not_negative precip).
  { subst. apply nn_mul; auto. apply nn_mul; [apply nn_fmax0|apply nn_lit; lra]. }
  assert (Npe : not_negative pet).
  { subst. apply nn_mul; auto. apply nn_mul; [apply nn_fmax0|apply nn_lit; lra]. }
  assert (Nw : not_negative (precip + a_on a)) by (apply nn_add; auto).
  destruct (hydro_nn _ _ _ _ _ _ _ _ _ _ _ Hp Nw Eh) as [K1 K2].
  repeat split; cbn; auto using nn_add. apply nn_add; auto. apply nn_fmax0.
Qed.

Lemma runs_nn : forall u s a xs s' a', not_negative (u_dt u) -> not_negative (u_pmax u) ->
  runs u s a xs s' a' -> acc_nn a -> acc_nn a' /\ Forall (fun x => not_negative (ponded_before x)) xs.
Proof.
  intros u s a xs s' a' Hdt Hp H. induction H as [s a|s a s1 a1 xs s2 a2 Hs Hr IH]; intro N; [auto|].
  destruct (IH (substep_nn _ _ _ _ _ Hdt Hp Hs N)) as [I1 I2]. split; [assumption|]. constructor; [|assumption].
  destruct N as [N _]. exact N.
Qed.

(** The unit hydrograph keeps signs. *)
Lemma zfor_inv : forall S (I : S -> Prop) (body : Z -> S -> outcome S), (forall i s s', I s -> body i s = Ok s' -> I s') ->
  forall k i s s', I s -> zfor i k body s = Ok s' -> I s'.
Proof.
  intros S I body HI k. induction k as [|k IH]; intros i s s' Hs H; cbn in H.
  - injection H as <-. assumption.
  - bind_inv H t Et. eapply IH; [|eassumption]. eapply HI; eassumption.
Qed.

Lemma lset_Forall : forall A (P : A -> Prop) l i x, Forall P l -> P x -> Forall P (lset l i x).
Proof. intros A P l. induction l; intros [|i] x H Hx; cbn; auto; inversion H; subst; auto. Qed.
Lemma aset_Forall : forall A (P : A -> Prop) l i x l', Forall P l -> P x -> aset l i x = Ok l' -> Forall P l'.
Proof. intros A P l i x l' H Hx E. apply aset_Ok in E as [_ ->]. apply lset_Forall; assumption. Qed.
Lemma aget_Forall : forall A (P : A -> Prop) l i x, Forall P l -> aget l i = Ok x -> P x.
Proof.
  intros A P l i x H E. apply aget_Ok in E as [_ E]. apply nth_error_In in E. rewrite Forall_forall in H. auto.
Qed.

Lemma giuh_nn : forall r N ord q o q', not_negative r -> Forall not_negative ord -> Forall not_negative q ->
  giuh_convolution_integral r N ord q = Ok (o, q') -> not_negative o /\ Forall not_negative q'.
Proof.
  intros r N ord q o q' Hr Ho Hq H. unfold giuh_convolution_integral in H.
  bind_inv H q1 Eq1. bind_inv H q2 Eq2. bind_inv H now Enow. bind_inv H q3 Eq3. bind_inv H q4 Eq4. injection H as <- <-.
  apply aset_Forall with (P := not_negative) in Eq1; auto using nn_zero.
  apply zfor_inv with (I := Forall not_negative) in Eq2; auto.
  2:{ intros i s s' Hs E. bind_inv E x Ex. bind_inv E y Ey. eapply aset_Forall; [eassumption| |eassumption].
      apply nn_add; [eapply aget_Forall; [|eassumption]; assumption|]. apply nn_mul; [eapply aget_Forall; [|eassumption]; assumption|assumption]. }
  apply zfor_inv with (I := Forall not_negative) in Eq3; auto.
  2:{ intros i s s' Hs E. bind_inv E x Ex. eapply aset_Forall; [eassumption| |eassumption]. eapply aget_Forall; [|eassumption]; assumption. }
  split; [eapply aget_Forall; [|eassumption]; assumption|]. eapply aset_Forall; [eassumption| |eassumption]. apply nn_zero.
Qed.

Lemma adaptive_nn : forall p pr w, not_negative (p_mints p) -> not_negative (p_fres p) -> not_negative (adaptive_step p pr w).
Proof.
  intros p pr w H1 H2. unfold adaptive_step. apply nn_fmin; [|assumption].
  destruct (_ || _)%bool; auto. destruct (_ >? _)%d; auto. apply nn_mul; auto. apply nn_lit. lra.
Qed.

Lemma update_signs : forall s u xs s', signs s -> executed s u xs s' ->
  signs s' /\ (p_invalid (st_p s) = false \/ not_negative (st_precip s) -> outputs_nn s') /\ not_negative (mb_on_ts (st_mb s')) /\ Forall (fun x => not_negative (ponded_before x)) xs.
Proof.
  intros s u xs s' (Hs & Hw & Ho & Hq) (HU & He). destruct (p_invalid (st_p s)) eqn:Hv.
  - subst xs. unfold Update in HU. rewrite Hv in HU. injection HU as <-.
    unfold signs, sane, outputs_nn. cbn. repeat split; auto; try apply Hs.
    intros [Hpr|Hpr]; [congruence|]. eexists. split; [reflexivity|]. cbn. repeat split; auto using nn_zero; apply nn_mul; auto; apply nn_lit; lra.
  - destruct He as (s1 & vcal & volend & s2 & n & s3 & a & E1 & E2 & E3 & E4 & E5 & E6 & E7).
    destruct (prologue_inv _ _ _ E1) as (Emb & _ & _ & Ecal & _ & EN & Eord & Equ & _ & _ & Ets & Emt & Efr & _ & _ & _ & _ & _ & _ & Epm & _).
    destruct (steps_inv _ _ _ _ E3) as (Edt & _ & Es2).
    destruct (finish_inv _ _ _ _ E7) as (giuh & q & mbl & Eg & _ & Es').
    destruct (runs_frame _ _ _ _ _ _ _ E5) as (_ & _ & _ & _ & _ & _ & _ & _ & _ & F1 & F2 & F3 & F4 & _ & F5 & F6 & F7 & F8 & _).
    destruct Hs as (S1 & S2 & S3 & S4 & S5).
    assert (Ndt : not_negative (u_dt u)).
    { rewrite Edt. destruct (p_adaptive (st_p s1)); [|rewrite Ets; assumption].
      apply adaptive_nn; [rewrite Emt|rewrite Efr]; assumption. }
    assert (Npm : not_negative (p_pmax (st_p s1))) by (destruct Epm as [-> | ->]; assumption).
    assert (Nup : not_negative (u_pmax u)).
    { rewrite E4. cbn. subst s2. exact Npm. }
    assert (N0 : acc_nn (acc0 volend (mb_on_ts (st_mb s2)))).
    { repeat split; cbn; auto using nn_zero. subst s2. cbn. rewrite Emb. assumption. }
    destruct (runs_nn _ _ _ _ _ _ Ndt Nup E5 N0) as [(A1 & A2 & A3 & A4) HF].
    rewrite F1, F2, F3, Es2 in Eg. cbn in Eg. rewrite Eord, Equ in Eg.
    destruct (giuh_nn _ _ _ _ _ _ A4 Ho Hq Eg) as [G1 G2].
    assert (Nc : not_negative cm_to_m) by (apply nn_lit; lra).
    split; [|split; [|split]].
    + subst s'. unfold signs, sane. cbn. rewrite F4, F5, F6, F7, F8, F2, Es2. cbn. rewrite Ecal, Emt, Efr, Eord. repeat split; auto.
    + intros _. subst s'. eexists. split; [reflexivity|]. cbn. repeat split; apply nn_mul; auto.
    + subst s'. exact A1.
    + exact HF.
Qed.

(** Tolerance of the residuals. *)
Lemma runs_tolerance : forall u s a xs s' a', runs u s a xs s' a' ->
  Forall (fun x => dgtb (dabs (residual x)) (lit (1 / 10000)) = false) xs.
Proof.
  intros u s a xs s' a' H. induction H as [s a|s a s1 a1 xs s2 a2 Hs Hr IH]; constructor; [|assumption].
  destruct (substep_inv _ _ _ _ _ Hs) as (volstart & b & volend & mbl & precip & pet & prate & petr & _ & _ & _ & _ & _ & _ & _ & _ & T & -> & _).
  exact T.
Qed.

Lemma executed_tolerance : forall s u xs s', executed s u xs s' ->
  Forall (fun x => dgtb (dabs (residual x)) (lit (1 / 10000)) = false) xs.
Proof.
  intros s u xs s' (_ & He). destruct (p_invalid (st_p s)); [subst; constructor|].
  destruct He as (s1 & vcal & volend & s2 & n & s3 & a & E1 & E2 & E3 & E4 & E5 & E6 & E7). eapply runs_tolerance. eassumption.
Qed.

Lemma history_tolerance : forall Q s0 xs s, history Q s0 xs s ->
  Forall (fun x => dgtb (dabs (residual x)) (lit (1 / 10000)) = false) xs.
Proof.
  intros Q s0 xs s H. induction H; auto. apply Forall_app. split; [assumption|]. eapply executed_tolerance. eassumption.
Qed.

Lemma history_signs : forall s0 xs s, signs s0 -> history (fun s => not_negative (c_pmax (st_cal s))) s0 xs s ->
  signs s /\ Forall (fun x => not_negative (ponded_before x)) xs.
Proof.
  intros s0 xs s H0 H. induction H as [|xs s s' H IH He HQ|xs s u ys s' H IH He].
  - auto.
  - destruct IH as [IH1 IH2]. split; [|assumption]. destruct He as (pr & pet & T & cal & out & nf & tw & dw & ->).
    destruct IH1 as ((S1 & S2 & S3 & S4 & S5) & W & O & G). repeat split; assumption.
  - destruct IH as [IH1 IH2]. destruct (update_signs _ _ _ _ IH1 He) as (K1 & _ & _ & K2). split; [assumption|].
    apply Forall_app. auto.
Qed.

(** The reported residual. *)
Definition local_ok (s : state) : Prop :=
  match mb_local (st_mb s) with Some m => dgtb (dabs m) (lit (1 / 10000)) = false | None => True end.

Lemma update_local : forall s u xs s', local_ok s -> executed s u xs s' -> local_ok s' /\
  (p_invalid (st_p s) = false -> exists o m, st_out s' = Some o /\ o_mb o = (m * cm_to_m)%d /\ mb_local (st_mb s') = Some m /\
     dgtb (dabs m) (lit (1 / 10000)) = false).
Proof.
  intros s u xs s' HL (HU & He). destruct (p_invalid (st_p s)) eqn:Hv.
  - split; [|discriminate]. unfold Update in HU. rewrite Hv in HU. injection HU as <-. exact HL.
  - destruct He as (s1 & vcal & volend & s2 & n & s3 & a & E1 & E2 & E3 & E4 & E5 & E6 & E7).
    destruct (prologue_inv _ _ _ E1) as (Emb & _). destruct (steps_inv _ _ _ _ E3) as (Edt & _ & Es2).
    destruct (finish_inv _ _ _ _ E7) as (giuh & q & mbl & Eg & Em & Es').
    assert (K : local_ok s3).
    { refine (runs_ind_inv (fun s _ => local_ok s) u _ _ _ _ _ _ E5 _).
      - intros t b0 t' b' _ Hs.
        destruct (substep_inv _ _ _ _ _ Hs) as (volstart & b & ve & mb & precip & pet & prate & petr & _ & _ & _ & _ & _ & _ & _ & _ & T & -> & _).
        exact T.
      - subst s2. unfold local_ok in *. cbn. rewrite Emb. exact HL. }
    unfold local_ok in K. rewrite Em in K. subst s'. split.
    + unfold local_ok. cbn. rewrite Em. exact K.
    + intros _. eexists. exists mbl. cbn. repeat split; auto.
Qed.

Lemma history_local : forall Q s0 xs s, mb_local (st_mb s0) = None -> history Q s0 xs s -> local_ok s.
Proof.
  intros Q s0 xs s H0 H. induction H as [|xs s s' H IH He HQ|xs s u ys s' H IH He].
  - unfold local_ok. rewrite H0. exact I.
  - destruct He as (pr & pet & T & cal & out & nf & tw & dw & ->). exact IH.
  - eapply update_local; eassumption.
Qed.
End Any.

Section Exactly.
Local Existing Instance exact.
Context {cfg : Cfg}.

Lemma tol_exact : forall d, dgtb (dabs d) (lit (1 / 10000)) = false -> d = NaN \/ exists r, d = Fin r /\ Rabs r <= 1 / 10000.
Proof.
  intros [r| | |] H; cbn in H; auto; try discriminate. right. exists r. split; [reflexivity|]. unfold dgtb, dltb in H. apply Rltb_false in H. assumption.
Qed.

(** Bound of the printed balance. *)
Lemma history_bound : forall s0 xs s u ys s', fresh s0 -> signs s0 -> p_invalid (st_p s0) = false ->
  history (fun s => not_negative (c_pmax (st_cal s))) s0 xs s -> executed s u ys s' ->
  Forall (fun x => finite (residual x)) (xs ++ ys) -> finite (mb_calib (st_mb s')) ->
  exists g, global_error (st_mb s') = Fin g /\ Rabs g <= INR (length (xs ++ ys)) * (1 / 10000 + 1 / 1000000000000).
Proof.
  intros s0 xs s u ys s' Hfr Hsg Hv H He F Hc.
  eexists. split; [eapply history_global; eassumption|].
  destruct (history_signs _ _ _ Hsg H) as [K1 K2]. destruct (update_signs _ _ _ _ K1 He) as (_ & _ & _ & K3).
  assert (N : Forall (fun x => not_negative (ponded_before x)) (xs ++ ys)) by (apply Forall_app; auto).
  assert (T : Forall (fun x => dgtb (dabs (residual x)) (lit (1 / 10000)) = false) (xs ++ ys)).
  { apply Forall_app. split; [eapply history_tolerance; eassumption|eapply executed_tolerance; eassumption]. }
  clear - F N T. induction (xs ++ ys) as [|x l IH]; [cbn; rewrite Rplus_0_r, Rabs_R0; lra|].
  inversion F; inversion N; inversion T; subst. specialize (IH H2 H6 H10).
  destruct (tol_exact _ H9) as [E|(r & E & Hr)]; [destruct H1 as (? & H1); congruence|].
  assert (D : 0 <= dropped (val (ponded_before x)) <= 1 / 1000000000000).
  { assert (V : 0 <= val (ponded_before x)).
    { destruct (ponded_before x); cbn; try lra. apply nn_Fin_inv. assumption. }
    unfold dropped. rcases; lra. }
  cbn [map Rsum length]. rewrite E. cbn [val]. rewrite S_INR.
  replace (r + Rsum (map (fun x => val (residual x)) l) + (dropped (val (ponded_before x)) + Rsum (map (fun x => dropped (val (ponded_before x))) l)))
    with ((r + dropped (val (ponded_before x))) + (Rsum (map (fun x => val (residual x)) l) + Rsum (map (fun x => dropped (val (ponded_before x))) l))) by ring.
  eapply Rle_trans; [apply Rabs_triang|].
  assert (Rabs (r + dropped (val (ponded_before x))) <= 1 / 10000 + 1 / 1000000000000).
  { eapply Rle_trans; [apply Rabs_triang|]. rewrite (Rabs_right (dropped _)) by lra. lra. }
  lra.
Qed.

Lemma update_reports : forall Q s0 xs s u ys s', mb_local (st_mb s0) = None -> history Q s0 xs s -> executed s u ys s' ->
  exists o, st_out s' = Some o /\ (o_mb o = NaN \/ exists r, o_mb o = Fin r /\ Rabs r <= 1 / 1000000).
Proof.
  intros Q s0 xs s u ys s' H0 H He. pose proof (history_local _ _ _ _ H0 H) as K.
  destruct (p_invalid (st_p s)) eqn:Hv.
  - destruct He as [HU _]. unfold Update in HU. rewrite Hv in HU. injection HU as <-. eexists. split; [reflexivity|].
    right. exists 0. split; [reflexivity|]. rewrite Rabs_R0. lra.
  - destruct (update_local _ _ _ _ K He) as (_ & L). destruct (L Hv) as (o & m & E1 & E2 & _ & E3).
    exists o. split; [assumption|]. destruct (tol_exact _ E3) as [-> |(r & -> & Hr)]; rewrite E2; cbn; [auto|].
    right. eexists. split; [reflexivity|]. rewrite Rabs_mult. rewrite (Rabs_right (1 / 100)) by lra. lra.
Qed.
End Exactly.
