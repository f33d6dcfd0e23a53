(** Memory safety of programs that drive the model through the Basic Model Interface. *)

From Coq Require Import String Reals Lra ZArith List Bool Lia.
From RecordUpdate Require Import RecordSet.
From Verif Require Import Outcome Dbl Types ListOps Soil Giuh Fronts Infil Move State Update Bmi Config Lib Spec_Common Spec_List Spec_Column Spec_Update Spec_Bmi
  Spec_Profile Spec_Run Pf_Update Pf_Structure Pf_SafeUpdate Pf_SafeHistory Pf_Bmi Pf_BmiMem Pf_BmiRun.
Import ListNotations.
Import RecordSetNotations.
Open Scope string_scope.
Open Scope Z_scope.
Open Scope list_scope.

Section Any.
Context {fp : Fp} {cfg : Cfg}.

(** ** Ties *)

Lemma runs_split : forall u xs1 x xs2 s a s' a', runs u s a (xs1 ++ x :: xs2) s' a' -> runs u s a xs1 (x_s x) (x_a x).
Proof.
  intros u xs1. induction xs1 as [|y xs1 IH]; intros x xs2 s a s' a' H; cbn [app] in H; inversion H; subst.
  - constructor.
  - econstructor; [eassumption|]. eapply IH. eassumption.
Qed.
Lemma untied_steps : forall s u xs s', executed s u xs s' -> ~ update_tie s -> Forall (fun x => ~ step_tie u (x_s x) (x_a x)) xs.
Proof.
  intros s u xs s' [HU HX] T. destruct (p_invalid (st_p s)); [subst; constructor|].
  destruct HX as (s1 & vcal & volend & s2 & n & s3 & a & E1' & E2' & E3' & E4' & Hr & Hl & _).
  apply Forall_forall. intros x Hx Tx. apply in_split in Hx as (l1 & l2 & ->). apply T.
  exists s1, vcal, volend, s2, (u_dt u), n, l1, (x_s x), (x_a x). split; [assumption|]. split; [assumption|]. split; [assumption|].
  cbv zeta. rewrite <- E4'. split; [eapply runs_split; exact Hr|]. split; [|assumption].
  rewrite app_length in Hl. cbn [length] in Hl. lia.
Qed.
Lemma update_sound : forall s s', sound_state s -> ~ update_tie s -> Update s = Ok s' -> sound_state s'.
Proof.
  intros s s' S T H. destruct (executed_exists _ _ H) as (u & xs & X). eapply executed_sound; [exact S|exact X|]. eapply untied_steps; eassumption.
Qed.

(** ** More of what an Update leaves alone *)

Definition settings (s s' : state) : Prop :=
  p_sft (st_p s') = p_sft (st_p s) /\ p_mints (st_p s') = p_mints (st_p s) /\ p_fres (st_p s') = p_fres (st_p s) /\ p_adaptive (st_p s') = p_adaptive (st_p s) /\
  p_endtime (st_p s') = p_endtime (st_p s).
Lemma settings_trans : forall a b c, settings a b -> settings b c -> settings a c.
Proof. unfold settings. intros a b c H1 H2. intuition congruence. Qed.
Lemma prologue_settings : forall s s1 v, update_prologue s = Ok (s1, v) -> settings s s1.
Proof.
  intros s s1 v H. unfold update_prologue in H. cbv zeta in H. bind_inv H p Ep.
  assert (P : settings s (s <| st_p := p |>) /\ p_calib p = p_calib (st_p s)).
  { destruct (p_sft (st_p s)); [bind_inv Ep fr Ef; apply Ok_inj in Ep; subst p|apply Ok_inj in Ep; subst p]; repeat split. }
  destruct P as [P C]. destruct (p_calib p) eqn:Ec.
  - bind_inv H q Eq1. destruct q as [s2 v2]. apply Ok_inj, pair_equal_spec in H as [<- _].
    unfold update_calibratable_parameters in Eq1. cbv zeta in Eq1. bind_inv Eq1 b0 Eb. bind_inv Eq1 q2 Eq2. destruct q2 as [l soils].
    bind_inv Eq1 aft Ea. apply Ok_inj, pair_equal_spec in Eq1 as [<- _]. eapply settings_trans; [exact P|]. repeat split.
  - apply Ok_inj, pair_equal_spec in H as [<- _]. assumption.
Qed.
Lemma runs_settings : forall u s a xs s' a', runs u s a xs s' a' -> settings s s' /\ p_timestep (st_p s') = p_timestep (st_p s).
Proof.
  intros u s a xs s' a' H. induction H as [|s a s1 a1 xs s2 a2 Hs Hr [IH1 IH2]]; [repeat split|].
  destruct (substep_inv _ _ _ _ _ Hs) as (volstart & b & volend & mbl & precip & pet & prate & petr & _ & _ & _ & _ & _ & _ & _ & _ & _ & Es & _).
  split; [eapply settings_trans; [|exact IH1]|rewrite IH2]; subst s1; repeat split.
Qed.
Lemma Update_settings : forall s s', Update s = Ok s' -> settings s s' /\ (p_adaptive (st_p s) = false -> p_timestep (st_p s') = p_timestep (st_p s)) /\
  (p_invalid (st_p s) = false -> st_out s' <> None /\ p_calib (st_p s') = false).
Proof.
  intros s s' H. destruct (p_invalid (st_p s)) eqn:Hv.
  - unfold Update in H. rewrite Hv in H. apply Ok_inj in H. subst s'. split; [repeat split|]. split; [reflexivity|discriminate].
  - pose proof (Update_static _ _ H) as [_ St]. rewrite Hv in St.
    destruct (Update_inv _ _ Hv H) as (s1 & vcal & volend & s2 & dt & n & s3 & a & E1' & E2' & E3' & E4' & E5' & E6' & E7').
    pose proof (prologue_settings _ _ _ E1') as S1. destruct (prologue_inv _ _ _ E1') as (_ & _ & _ & _ & _ & _ & _ & _ & _ & _ & T1 & _).
    apply steps_inv in E5' as (D1 & _ & E5'). destruct (loop_runs _ _ _ _ _ _ E6') as (xs & Hr & _).
    destruct (runs_settings _ _ _ _ _ _ Hr) as [S3 T3]. apply finish_inv in E7' as (g & q & mbl & EG & _ & EQ).
    split; [|split].
    + eapply settings_trans; [exact S1|]. eapply settings_trans; [|eapply settings_trans; [exact S3|]]; [subst s2|subst s']; repeat split.
    + intros A. destruct S1 as (_ & _ & _ & A1 & _). rewrite A1, A in D1. transitivity (p_timestep (st_p s3)); [subst s'; reflexivity|]. rewrite T3. subst s2.
      change (dt = p_timestep (st_p s)). congruence.
    + intros _. split; [subst s'; discriminate|]. apply St.
Qed.

(** ** Soil temperature cells *)

Lemma zfor_ends : forall (A : Type) (R : reason -> Prop) (J : Z -> A -> Prop) body n i x, J i x ->
  (forall j y, i <= j < i + Z.of_nat n -> J j y -> ends R (J (j + 1)) (body j y)) -> ends R (J (i + Z.of_nat n)) (zfor i n body x).
Proof.
  intros A R J body n. induction n as [|n IH]; intros i x H B; cbn [zfor].
  - replace (i + Z.of_nat 0) with i by lia. exact H.
  - eapply ends_bind; [apply B; [lia|exact H]|]. intros y _ Hy. replace (i + Z.of_nat (S n)) with (i + 1 + Z.of_nat n) by lia. apply IH; [exact Hy|].
    intros j w Hj. apply B. lia.
Qed.

(** The cells reach below every layer but the deepest. *)
Definition covered (nl : Z) (cum z T : list dbl) (nc : Z) : Prop :=
  1 <= nc /\ Z.of_nat (length z) = nc /\ Z.of_nat (length T) = nc /\
  forall k, 1 <= k < nl -> exists c zl, aget cum k = Ok c /\ aget z (nc - 1) = Ok zl /\ dleb zl c = false.

Definition no_ub (r : reason) : Prop := forall u, r <> UB u.
Lemma scan_inside : forall z T nc limit, Z.of_nat (length z) = nc -> Z.of_nat (length T) = nc ->
  forall k c count sum, 0 <= c < nc -> ends no_ub (fun '(c', _, _) => 0 <= c' <= nc /\ (forall zl, aget z (nc - 1) = Ok zl -> dleb zl limit = false -> c' < nc)) (frozen_scan k z T nc limit c count sum).
Proof.
  intros z T nc limit Lz LT. induction k as [|k IH]; intros c count sum Hc; cbn [frozen_scan]; [intros u; discriminate|].
  destruct (aget_in_range _ z c) as [zc Ez]; [lia|]. rewrite Ez. cbn [bind]. destruct (dleb zc limit) eqn:D1.
  - destruct (aget_in_range _ T c) as [tc Et]; [lia|]. rewrite Et. cbn [bind]. cbv zeta. destruct (Z.eqb_spec (c + 1) nc).
    + cbn [ends]. split; [lia|]. intros zl E. replace (nc - 1) with c in E by lia. rewrite Ez in E. apply Ok_inj in E. subst zl. congruence.
    + apply IH. lia.
  - cbn [ends]. split; [lia|]. intros. lia.
Qed.
Lemma frozen_inside : forall nl cum z T nc fr, covered nl cum z T nc -> (forall k, 1 <= k <= nl -> exists c, aget cum k = Ok c) ->
  (forall k, 1 <= k <= nl -> exists x, aget fr k = Ok x) -> forall u, frozen_factor nl cum z T nc fr <> Stop (UB u).
Proof.
  intros nl cum z T nc fr (C1 & C2 & C3 & C4) HC HF u H.
  assert (E : ends no_ub (fun _ => True) (frozen_factor nl cum z T nc fr)).
  { unfold frozen_factor. eapply ends_bind.
    - apply zfor_ends with (J := fun j (x : Z * list dbl) => 0 <= fst x /\ (j <= nl -> fst x < nc) /\ length (snd x) = length fr); [cbn; lia|].
      intros j [c f1] Hj (J1 & J2 & J3). cbn [fst snd] in *. destruct (HC j) as [lim El]; [lia|]. rewrite El. cbn [bind].
      eapply ends_bind; [apply scan_inside; [exact C2|exact C3|lia]|]. intros [[c' cnt] sum] _ (S1 & S2).
      destruct (cnt >? 0); [|intros v; discriminate]. cbn [cassert bind].
      destruct (HF j) as [x Ex]; [lia|]. apply aget_Ok in Ex as [_ Ex]. assert (Hl : (Z.to_nat j < length f1)%nat) by (rewrite J3; apply nth_error_Some; congruence).
      rewrite aset_ok by lia. cbn [bind ends fst snd].
      split; [lia|]. split; [|rewrite lset_length; exact J3].
      intros Hk. destruct (C4 j) as (c0 & zl & A1 & A2 & A3); [lia|]. rewrite El in A1. apply Ok_inj in A1. subst c0. eapply S2; eassumption.
    - intros [c f1] _ _. exact Logic.I. }
  rewrite H in E. exact (E u eq_refl).
Qed.
End Any.
