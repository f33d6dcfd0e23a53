(** Velocities of whole fronts, columns of one layer, and the state that Initialize leaves (binary64). *)

From Coq Require Import String Reals Lra ZArith List Bool Lia.
From RecordUpdate Require Import RecordSet.
From Verif Require Import Outcome Dbl Binary64 Types ListOps Soil Giuh Fronts Infil Move State Update Config Bmi Lib Spec_Common Spec_Soil Spec_List Spec_Column Spec_Update Spec_Profile Spec_Storage
  Spec_Calib Spec_Config Spec_Physical Spec_RoundMono Spec_SatRound Spec_DryStart Spec_StartRound Spec_SaneRun Pf_Dbl Pf_Structure Pf_Repair Pf_SafeMove Pf_SafeUpdate Pf_SafeHistory Pf_Update Pf_Run
  Pf_Init Pf_InitState Pf_ConfigMore Pf_RoundMono Pf_SatRound Pf_DryStart Pf_StartRound Pf_SaneBase Pf_SaneMove Pf_SaneHist.
Import ListNotations.
Import RecordSetNotations.
Open Scope R_scope.

Section Start.
Local Existing Instance binary64.
Context {cfg : Cfg}.

(** ** Velocities *)
Definition no_abort (r : reason) : Prop := r <> Abort.
Lemma na_aget : forall A (a : list A) i, ends no_abort (fun _ => True) (aget a i).
Proof. intros A a i. unfold aget. destruct (i <? 0)%Z; [discriminate|]. destruct (nth_error a (Z.to_nat i)); [exact Logic.I|discriminate]. Qed.
Lemma na_uget : forall A (a : list (option A)) i, ends no_abort (fun _ => True) (uget a i).
Proof. intros A a i. unfold uget. eapply ends_bind; [apply na_aget|]. intros [x|] _ _; [exact Logic.I|discriminate]. Qed.
Lemma na_soil : forall e k, ends no_abort (fun _ => True) (soil_of e k).
Proof. intros e k. unfold soil_of. eapply ends_bind; [apply na_uget|]. intros t _ _. apply na_uget. Qed.
Lemma na_geff : forall k s Ksat hi h2 dh K1 G, ends no_abort (fun _ => True) (geff_loop k s Ksat hi h2 dh K1 G).
Proof. induction k as [|k IH]; intros; cbn [geff_loop]; [discriminate|]. destruct (h2 <? hi)%d; [apply IH|exact Logic.I]. Qed.
Lemma na_Geff : forall closed a b s Ksat nint, ends no_abort (fun _ => True) (calc_Geff closed a b s Ksat nint).
Proof. intros. unfold calc_Geff. destruct (negb closed); [|exact Logic.I]. cbv zeta. eapply ends_bind; [apply na_geff|]. intros; exact Logic.I. Qed.
Lemma na_den : forall e lay psi b, ends no_abort (fun _ => True) (dzdt_denominator e lay psi b).
Proof.
  intros. unfold dzdt_denominator. apply (zfor_ends _ no_abort (fun _ _ => True)); [exact Logic.I|]. intros j y _ _. cbv zeta.
  eapply ends_bind; [apply na_soil|]. intros s _ _. eapply ends_bind; [apply na_aget|]. intros ff _ _. eapply ends_bind; [apply na_aget|]. intros c1 _ _.
  eapply ends_bind; [apply na_aget|]. intros; exact Logic.I.
Qed.
Lemma na_front : forall e closed nint hp c n, ends no_abort (fun _ => True) (dzdt_front e closed nint hp c n).
Proof.
  intros. unfold dzdt_front. cbv zeta. eapply ends_bind; [apply na_soil|]. intros s _ _. eapply ends_bind; [apply na_aget|]. intros ff _ _.
  eapply ends_bind with (P := fun _ => True).
  { destruct (f_layer c >? 1)%Z; [|exact Logic.I]. eapply ends_bind; [apply na_aget|]. intros; exact Logic.I. }
  intros b _ _. destruct (f_theta n >? f_theta c)%d; [discriminate|]. eapply ends_bind; [apply na_Geff|]. intros G _ _.
  eapply ends_bind with (P := fun _ => True); [|intros; exact Logic.I]. destruct (f_layer c =? 1)%Z; [exact Logic.I|].
  eapply ends_bind; [apply na_den|]. intros; exact Logic.I.
Qed.
Theorem velocities_no_abort : forall M e closed nint hp l, Forall (whole_front M e) l -> lgar_dzdt_calc e closed nint hp l <> Stop Abort.
Proof.
  intros M e closed nint hp l H. assert (G : ends no_abort (fun _ => True) (lgar_dzdt_calc e closed nint hp l)); [|intro E; rewrite E in G; apply G; reflexivity].
  unfold lgar_dzdt_calc. destruct l as [|f0 l0]; [discriminate|]. revert H. generalize (f0 :: l0). clear f0 l0.
  induction l as [|c l IH]; intro H; cbn [dzdt_loop]; [exact Logic.I|]. inversion_clear H as [|? ? H1 H2]. destruct (wh_K _ _ _ H1) as (K & EK & B). rewrite EK.
  replace (Fin K <? Fin 0)%d with false by (symmetry; cbn; unfold Rltb; destruct (Rlt_dec K 0); [lra|reflexivity]).
  eapply ends_bind; [apply na_soil|]. intros s _ _. eapply ends_bind; [apply na_aget|]. intros ff _ _. destruct l as [|n l]; [exact Logic.I|].
  eapply ends_bind with (P := fun _ => True); [destruct (f_bottom c); [exact Logic.I|apply na_front]|]. intros v _ _.
  eapply ends_bind; [apply IH; assumption|]. intros; exact Logic.I.
Qed.

(** ** One layer *)
Lemma one_layer_untied_steps : forall s u xs s', sound_state s -> p_nlayers (st_p s) = 1%Z -> executed s u xs s' -> Forall (fun x => ~ step_tie u (x_s x) (x_a x)) xs.
Proof.
  intros s u xs s' HS HN [HU HY]. destruct (p_invalid (st_p s)); [subst xs; constructor|].
  destruct HY as (s1 & vcal & volend & s2 & n & s3 & a & EP & EM & ES & EU & HR & _ & EF).
  destruct (prologue_kept _ _ _ (ss_env _ HS) (sound_str _ HS) EP) as (HE1 & H1 & K1). destruct K1 as (K2 & K3 & K4 & K5 & K6 & K7 & K8 & K9 & K10 & _).
  destruct (steps_keep _ _ _ _ ES) as [EV EH]. assert (EVu : env_of s2 = u_env u) by (rewrite EU; reflexivity).
  assert (Hdt : finite (u_dt u)). { eapply step_finite; [exact ES|]. rewrite K10, K7, K8. apply HS. }
  assert (HNu : e_nlayers (u_env u) = 1%Z) by (rewrite <- EVu, EV; cbn; lia).
  destruct (one_layer_runs _ _ _ _ _ _ HR) as (T & _ & _); auto.
  - rewrite <- EVu, EV. exact HE1.
  - rewrite <- EVu, EV, EH. exact H1.
Qed.

Theorem one_layer_calm : forall Q s0 xs s, sound_state s0 -> p_nlayers (st_p s0) = 1%Z -> history Q s0 xs s -> calm s0 s.
Proof.
  intros Q s0 xs s HS HN H. induction H as [|xs s s' H IH HE _|xs s u ys s' H IH HX]; [constructor|eapply calm_edit; eassumption|].
  eapply calm_update; [exact IH|exact HX|]. destruct (one_layer_history Q s0 xs s HS HN H). eapply one_layer_untied_steps; eassumption.
Qed.
(** ** Initialize *)
Lemma start_whole : forall M files junk ls s l np, last_line "initial_psi" l ls -> assigns "initial_psi" (text np) l -> good_numeral np -> 0 <= value np -> Initialize files junk ls = Ok s ->
  double_column M (env_of s) -> whole_state M s.
Proof.
  intros M files junk ls s l np L A G V H DC. destruct (start_structure _ _ _ _ _ _ L A G H) as (_ & N & FS). destruct (init_inv _ _ _ _ H) as (c & st & rows & tab & thick & psi & ord & J).
  constructor.
  - apply Forall_forall. intros f F. apply In_nth_error in F as (i & F). destruct (FS i f F) as (_ & F2 & _ & F4 & _ & sl & F6 & F7). destruct (start_K _ _ _ _ _ H i f F) as (sl' & S' & K). rewrite F6 in S'. apply Ok_inj in S'. subst sl'.
    assert (B : (i < length (st_head s))%nat) by (apply nth_error_Some; congruence). assert (R : (1 <= Z.of_nat (S i) <= e_nlayers (env_of s))%Z) by (cbn [env_of e_nlayers]; unfold listLength in N; lia).
    assert (NP : below (Fin 0) (rnd (value np))) by (apply nn_rnd; assumption). pose proof (water_from (env_of s) M DC _ _ _ R F6 NP) as W.
    constructor; rewrite ?F2, ?F4; [exact R| |exact NP|].
    + exists sl. rewrite F7. split; [exact F6|exact W].
    + rewrite K, F7. destruct (conduct_from (env_of s) M DC _ _ _ 1 R F6 W ltac:(lra)) as (_ & KK & _). exact KK.
  - intros k Hk. cbn [env_of e_nlayers e_frozen] in *. exists 1. split; [|lra]. destruct (in_p _ _ _ _ _ _ _ _ _ _ _ J) as (P1 & _ & _ & _ & P5 & _). rewrite P5. rewrite P1 in Hk. unfold aget.
    destruct (k <? 0)%Z eqn:C; [lia|]. rewrite nth_error_repeat by lia. unfold lit. rewrite rnd_one. reflexivity.
  - exact DC.
  - destruct (in_p _ _ _ _ _ _ _ _ _ _ _ J) as (_ & _ & _ & _ & _ & _ & _ & Mn & _ & _ & Pm & _). destruct (in_s _ _ _ _ _ _ _ _ _ _ _ J) as (_ & _ & _ & _ & _ & _ & Mb).
    pose proof (positive_nn _ (dt_pos _ _ _ _ _ _ _ _ _ _ _ J)) as D1. pose proof (positive_nn _ (fres_pos _ _ _ _ _ _ _ _ _ _ _ J)) as D2.
    rewrite Mn. repeat split; try assumption.
    + rewrite Pm. destruct (cf_pmax c) as [v|] eqn:E; [|apply nn_zero]. eapply bd_pmax; [exact (conf_bounded _ _ (in_conf _ _ _ _ _ _ _ _ _ _ _ J))|exact E].
    + rewrite Mb. cbn. apply nn_zero.
Qed.
End Start.
