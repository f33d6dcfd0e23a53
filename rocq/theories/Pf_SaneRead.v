(** What a client reads from fronts without NaN. *)

From Coq Require Import String Reals Lra ZArith List Bool Lia.
From Verif Require Import Outcome Dbl Binary64 Types ListOps Soil State Update Bmi Lib Spec_Common Spec_Profile Spec_Update Spec_Physical Spec_RoundMono Spec_StartRound Spec_Soil Spec_SaneRun Pf_BmiMem Pf_SaneHist.
Import ListNotations.
Open Scope R_scope.
Open Scope list_scope.

Section B64.
Local Existing Instance binary64.
Context {cfg : Cfg}.

Lemma fetch_in : forall m ix vs, fetch m ix = Ok vs -> Forall (fun v => In (Some v) m) vs.
Proof.
  intros m. induction ix as [|i ix IH]; intros vs H; cbn in H.
  - apply Ok_inj in H. subst vs. constructor.
  - bind_inv H x EX. bind_inv H xs EXS. apply Ok_inj in H. subst vs. constructor; [|apply IH; exact EXS]. unfold uget in EX. bind_inv EX y EY.
    destruct y as [y|]; [|discriminate]. apply Ok_inj in EX. subst y. unfold aget in EY. destruct (_ <? 0)%Z; [discriminate|]. destruct (nth_error m _) as [z|] eqn:E; [|discriminate].
    apply Ok_inj in EY. subst z. eapply nth_error_In. exact E.
Qed.

Lemma read_contents : forall M s u xs s' pre vs, sound_state s -> whole_state M s -> (p_calib (st_p s) = true -> calibration_whole M s) -> p_invalid (st_p s) = false ->
  executed s u xs s' -> Forall (fun x => ~ step_tie u (x_s x) (x_a x)) xs -> GetValue "soil_moisture_wetting_fronts" (mkObj s' pre) = Ok vs ->
  Forall (fun v => exists k sl r e t, (1 <= k <= p_nlayers (st_p s'))%Z /\ soil_of (env_of s') k = Ok sl /\ s_theta_r sl = Fin r /\ s_theta_e sl = Fin e /\ v = D (Fin t) /\ 0 <= r <= t /\ unit_range (Se_of_theta sl (Fin t))) vs.
Proof.
  intros M s u xs s' pre vs HS W C I X T G. destruct (executed_whole M s u xs s' HS W C X T) as (W' & _ & P). specialize (P I).
  rewrite (GetValue_eq "soil_moisture_wetting_fronts" LTheta _ eq_refl) in G. destruct (_ <? 0)%Z; [discriminate|]. apply fetch_in in G. unfold load in G. cbn [ob_s] in G. rewrite P in G.
  apply Forall_forall. intros v V. apply (proj1 (Forall_forall _ _) G) in V. unfold doubles in V. apply in_map_iff in V as (d & E & V). injection E as <-. apply in_map_iff in V as (f & E & V).
  pose proof (proj1 (Forall_forall _ _) (ws_fronts _ _ W') f V) as F. pose proof (ws_column _ _ W') as DC. destruct (whole_values M _ f DC F) as (sl & S1 & S2 & _ & _).
  destruct (wh_water _ _ _ F) as (sl' & S' & r & e & t & A1 & A2 & A3 & A4 & _). rewrite S1 in S'. apply Ok_inj in S'. subst sl'. destruct (DC _ sl (wh_layer _ _ _ F) S1) as ((r' & e' & k & R & _) & _).
  exists (f_layer f), sl, r, e, t. split; [exact (wh_layer _ _ _ F)|]. split; [exact S1|]. split; [exact A1|]. split; [exact A2|]. split; [rewrite <- E, A3; reflexivity|].
  destruct R as (R1 & _ & R3 & _). rewrite A1 in R1. injection R1 as ->. split; [split; [lra|apply A4]|]. rewrite <- A3. exact S2.
Qed.
End B64.
