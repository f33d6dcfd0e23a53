(** The standalone program prints no NaN for a front. *)

From Coq Require Import String Reals Lra ZArith List Bool Lia.
From RecordUpdate Require Import RecordSet.
From Verif Require Import Outcome Dbl Binary64 Types ListOps Soil State Update Bmi Config Driver Lib Spec_Common Spec_Soil Spec_Profile Spec_Update Spec_Physical Spec_Config Spec_RoundMono Spec_StartRound Spec_SaneRun
  Spec_Driver Pf_DriverRun Pf_SafeHistory Pf_SafeUpdate Pf_Update Pf_Run Pf_Init Pf_InitState Pf_SaneHist Pf_SaneStart.
Import ListNotations.
Import RecordSetNotations.
Open Scope R_scope.
Open Scope list_scope.

Section B64.
Local Existing Instance binary64.
Context {cfg : Cfg}.

Lemma driven_whole : forall M s ps rs s', driven s ps rs s' -> tie_free s ps -> sound_state s -> whole_state M s -> p_calib (st_p s) = false ->
  whole_state M s' /\ Forall (fun r => Forall (printable M) (w_fronts r)) rs.
Proof.
  intros M s ps rs s' H. induction H as [s|s t p e s1 b ps rs s2 U So H IH]; intros TF S W C; [split; [exact W|constructor]|].
  cbn [tie_free] in TF. cbv zeta in TF. set (s0 := s <| st_precip := p |> <| st_pet := e |>) in *. destruct TF as (T & TF).
  assert (Ed : user_edit s s0).
  { exists p, e, (p_soilT (st_p s)), (st_cal s), (st_out s), (p_nfronts (st_p s)), (p_theta_wf (st_p s)), (p_depth_wf (st_p s)). unfold s0. destruct s as [? ? ? [] ? ? ? ? ? ? ? ?]. reflexivity. }
  destruct (executed_exists _ _ U) as (u & xs & X). pose proof (untied_steps _ _ _ _ X T) as TX.
  assert (K : calm s s1) by (eapply calm_update; [eapply calm_edit; [apply calm_start|exact Ed]|exact X|exact TX]).
  destruct (calm_whole M s s1 S W C K) as (S1 & W1 & C1).
  destruct (IH (TF _ U) S1 W1 C1) as (W2 & F). split; [exact W2|]. constructor; [|exact F]. cbn [w_fronts]. eapply Forall_impl; [|exact (ws_fronts _ _ W1)].
  intros f Hf. destruct (whole_values M _ f (ws_column _ _ W1) Hf) as (sl & S2 & _ & (x & TT) & P). destruct (wh_water _ _ _ Hf) as (sl' & S' & r & te & t' & A1 & _ & A3 & A4 & _).
  destruct (ws_column _ _ W1 _ sl' (wh_layer _ _ _ Hf) S') as ((r' & e' & k & R & _) & _). destruct R as (R1 & _ & R3 & _). rewrite A1 in R1. injection R1 as ->.
  split; [exists t'; split; [exact A3|]; destruct A4 as [A4 _]; lra|]. split; [exact P|]. exact (wh_K _ _ _ Hf).
Qed.
Lemma one_layer_free : forall s ps rs s', driven s ps rs s' -> sound_state s -> p_nlayers (st_p s) = 1%Z -> tie_free s ps.
Proof.
  intros s ps rs s' H. induction H as [s|s t p e s1 b ps rs s2 U So H IH]; intros S N; [exact Logic.I|]. cbn [tie_free]. cbv zeta. set (s0 := s <| st_precip := p |> <| st_pet := e |>) in *.
  assert (Ed : user_edit s s0).
  { exists p, e, (p_soilT (st_p s)), (st_cal s), (st_out s), (p_nfronts (st_p s)), (p_theta_wf (st_p s)), (p_depth_wf (st_p s)). unfold s0. destruct s as [? ? ? [] ? ? ? ? ? ? ? ?]. reflexivity. }
  pose proof (hist_edit (fun _ => True) _ _ _ _ (hist_start (fun _ => True) s) Ed Logic.I) as H1. destruct (one_layer_history _ _ _ _ S N H1) as (S0 & N0). split; [exact (one_layer_untied _ S0 N0)|].
  intros s1' U'. rewrite U in U'. apply Ok_inj in U'. subst s1'. destruct (executed_exists _ _ U) as (u & xs & X). pose proof (hist_update _ _ _ _ _ _ _ H1 X) as H2.
  destruct (one_layer_history _ _ _ _ S N H2) as (S1 & N1). exact (IH S1 N1).
Qed.

(** The state after Initialize is sound when the boundaries of the layers are finite and increase, the time steps are finite and the hydrograph is not empty. *)
Lemma running_double : forall l a z, In (Fin z) (running a l) -> rnd z = Fin z.
Proof.
  induction l as [|t l IH]; intros a z H; cbn [running] in H; [contradiction|]. destruct H as [H|H]; [|exact (IH _ _ H)].
  destruct a as [a| | |], t as [t| | |]; try discriminate. cbn [dadd] in H. exact (rnd_idem _ _ H).
Qed.
Lemma start_sound : forall files junk ls s, Initialize files junk ls = Ok s -> increasing_depths s -> finite (p_timestep (st_p s)) -> finite (p_fres (st_p s)) -> (1 <= g_N s)%Z -> sound_state s.
Proof.
  intros files junk ls s H C D F G. destruct (init_inv _ _ _ _ H) as (c & st & rows & tab & thick & psi & ord & J). destruct (in_p _ _ _ _ _ _ _ _ _ _ _ J) as (P1 & _ & P3 & _).
  assert (N : (1 <= p_nlayers (st_p s))%Z) by (rewrite P1; exact (layers_pos _ _ _ _ _ _ _ _ _ _ _ J)).
  apply (init_sound _ _ _ _ _ _ _ _ _ _ _ J D F G).
  - intros k K. destruct (Z.eq_dec k 0) as [->|K0]; [exists 0; split; [rewrite P3; reflexivity|apply rnd_zero]|].
    destruct (C (k - 1)%Z ltac:(lia)) as (z & z' & _ & A & _). replace (k - 1 + 1)%Z with k in A by lia. exists z'. split; [exact A|]. rewrite P3 in A.
    apply aget_Ok in A as (_ & A). replace (Z.to_nat k) with (S (Z.to_nat (k - 1))) in A by lia. cbn [nth_error] in A. eapply running_double. eapply nth_error_In. exact A.
  - intros k x y K A B. destruct (C k K) as (z & z' & A' & B' & L). rewrite A in A'. rewrite B in B'. apply Ok_inj in A', B'. injection A' as ->. injection B' as ->. exact L.
Qed.

Lemma program_whole : forall files texts junk ls l np M s f res, last_line "initial_psi" l ls -> assigns "initial_psi" (text np) l -> good_numeral np -> 0 <= value np ->
  Initialize files junk ls = Ok s -> increasing_depths s -> finite (p_timestep (st_p s)) -> finite (p_fres (st_p s)) -> (1 <= g_N s)%Z -> double_column M (env_of s) -> p_calib (st_p s) = false ->
  ReadForcingData texts ls = Ok f -> simulate files texts junk ls = Ok res -> p_nlayers (st_p s) = 1%Z \/ tie_free s (first_steps (length (rs_rows res)) f) ->
  Forall (fun r => Forall (printable M) (w_fronts r)) (rs_rows res).
Proof.
  intros files texts junk ls l np M s f res L A G V H Z FD FF GN D C RF R TF. destruct (simulate_inv _ _ _ _ _ R) as (s' & f' & n & I & RF' & _ & _ & Dr & LR & _). rewrite H in I. apply Ok_inj in I. subst s'.
  rewrite RF in RF'. apply Ok_inj in RF'. subst f'. rewrite LR in TF. pose proof (start_sound _ _ _ _ H Z FD FF GN) as S.
  assert (TF' : tie_free s (first_steps (Z.to_nat n) f)) by (destruct TF as [N|TF]; [exact (one_layer_free _ _ _ _ Dr S N)|exact TF]).
  exact (proj2 (driven_whole M _ _ _ _ Dr TF' S (start_whole M files junk ls s l np L A G V H D) C)).
Qed.
End B64.
