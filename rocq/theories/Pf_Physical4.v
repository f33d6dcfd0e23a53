(** The velocity routine on physical fronts, columns of one layer, and the state that Initialize leaves. *)

From Coq Require Import String Reals Lra ZArith List Bool Lia.
From RecordUpdate Require Import RecordSet.
From Verif Require Import Outcome Dbl Exact Types ListOps Soil Giuh Fronts Infil Move State Update Config Bmi Lib Spec_Common Spec_Soil Spec_List Spec_Column Spec_Update Spec_Profile Spec_Storage
  Spec_Calib Spec_Config Spec_Physical Pf_Dbl Pf_Pow Pf_Soil Pf_Structure Pf_Cross Pf_Repair Pf_SafeMove Pf_SafeUpdate Pf_SafeHistory Pf_Update Pf_Run Pf_Calib Pf_Physical Pf_Physical2 Pf_Physical3
  Pf_Text Pf_Config Pf_Lines Pf_Init Pf_InitState Pf_Table Pf_InitExact Pf_ConfigThm Pf_InitTotal.
Import ListNotations.
Import RecordSetNotations.
Open Scope R_scope.

Section More.
Local Existing Instance exact.
Context {cfg : Cfg}.

(** ** Velocities *)
Definition no_abort (r : reason) : Prop := r <> Abort.
Lemma na_aget : forall A (a : list A) i, ends no_abort (fun _ => True) (aget a i).
Proof. intros A a i. unfold aget. destruct (i <? 0)%Z; [discriminate|]. destruct (nth_error a (Z.to_nat i)); [exact Logic.I|discriminate]. Qed.
Lemma na_uget : forall A (a : list (option A)) i, ends no_abort (fun _ => True) (uget a i).
Proof. intros A a i. unfold uget. eapply ends_bind; [apply na_aget|]. intros [x|] _ _; [exact Logic.I|discriminate]. Qed.
Lemma na_soil : forall e k, ends no_abort (fun _ => True) (soil_of e k).
Proof. intros e k. unfold soil_of. eapply ends_bind; [apply na_uget|]. intros t _ _. apply na_uget. Qed.
Lemma na_geff : forall k s Ksat hi h2 dh K1 G, ends no_abort (fun _ => True) (geff_loop k s Ksat hi h2 dh K1 G).
Proof. induction k as [|k IH]; intros; cbn [geff_loop]; [discriminate|]. destruct (h2 <? hi)%d; [apply IH|exact Logic.I]. Qed.
Lemma na_Geff : forall closed a b s Ksat nint, ends no_abort (fun _ => True) (calc_Geff closed a b s Ksat nint).
Proof. intros. unfold calc_Geff. destruct (negb closed); [|exact Logic.I]. cbv zeta. eapply ends_bind; [apply na_geff|]. intros; exact Logic.I. Qed.
Lemma na_den : forall e lay psi b, ends no_abort (fun _ => True) (dzdt_denominator e lay psi b).
Proof.
  intros. unfold dzdt_denominator. apply (zfor_ends _ no_abort (fun _ _ => True)); [exact Logic.I|]. intros j y _ _. cbv zeta.
  eapply ends_bind; [apply na_soil|]. intros s _ _. eapply ends_bind; [apply na_aget|]. intros ff _ _. eapply ends_bind; [apply na_aget|]. intros c1 _ _.
  eapply ends_bind; [apply na_aget|]. intros; exact Logic.I.
Qed.
Lemma na_front : forall e closed nint hp c n, ends no_abort (fun _ => True) (dzdt_front e closed nint hp c n).
Proof.
  intros. unfold dzdt_front. cbv zeta. eapply ends_bind; [apply na_soil|]. intros s _ _. eapply ends_bind; [apply na_aget|]. intros ff _ _.
  eapply ends_bind with (P := fun _ => True).
  { destruct (f_layer c >? 1)%Z; [|exact Logic.I]. eapply ends_bind; [apply na_aget|]. intros; exact Logic.I. }
  intros b _ _. destruct (f_theta n >? f_theta c)%d; [discriminate|]. eapply ends_bind; [apply na_Geff|]. intros G _ _.
  eapply ends_bind with (P := fun _ => True); [|intros; exact Logic.I]. destruct (f_layer c =? 1)%Z; [exact Logic.I|].
  eapply ends_bind; [apply na_den|]. intros; exact Logic.I.
Qed.
Theorem velocities_no_abort : forall M e closed nint hp l, Forall (physical_front M e) l -> lgar_dzdt_calc e closed nint hp l <> Stop Abort.
Proof.
  intros M e closed nint hp l H. assert (G : ends no_abort (fun _ => True) (lgar_dzdt_calc e closed nint hp l)); [|intro E; rewrite E in G; apply G; reflexivity].
  unfold lgar_dzdt_calc. destruct l as [|f0 l0]; [discriminate|]. revert H. generalize (f0 :: l0). clear f0 l0.
  induction l as [|c l IH]; intro H; cbn [dzdt_loop]; [exact Logic.I|]. inversion_clear H as [|? ? H1 H2]. destruct (ph_K _ _ _ H1) as (K & EK & B). rewrite EK, ltb_f by lra.
  eapply ends_bind; [apply na_soil|]. intros s _ _. eapply ends_bind; [apply na_aget|]. intros ff _ _. destruct l as [|n l]; [exact Logic.I|].
  eapply ends_bind with (P := fun _ => True); [destruct (f_bottom c); [exact Logic.I|apply na_front]|]. intros v _ _.
  eapply ends_bind; [apply IH; assumption|]. intros; exact Logic.I.
Qed.

(** ** One layer *)
Lemma one_layer_untied_steps : forall s u xs s', sound_state s -> p_nlayers (st_p s) = 1%Z -> executed s u xs s' -> Forall (fun x => ~ step_tie u (x_s x) (x_a x)) xs.
Proof.
  intros s u xs s' HS HN [HU HY]. destruct (p_invalid (st_p s)); [subst xs; constructor|].
  destruct HY as (s1 & vcal & volend & s2 & n & s3 & a & EP & EM & ES & EU & HR & _ & EF).
  destruct (prologue_kept _ _ _ (ss_env _ HS) (sound_str _ HS) EP) as (HE1 & H1 & K1). destruct K1 as (K2 & K3 & K4 & K5 & K6 & K7 & K8 & K9 & K10 & _).
  destruct (steps_keep _ _ _ _ ES) as [EV EH]. assert (EVu : env_of s2 = u_env u) by (rewrite EU; reflexivity).
  assert (Hdt : finite (u_dt u)). { eapply step_finite; [exact ES|]. rewrite K10, K7, K8. apply HS. }
  assert (HNu : e_nlayers (u_env u) = 1%Z) by (rewrite <- EVu, EV; cbn; lia).
  destruct (one_layer_runs _ _ _ _ _ _ HR) as (T & _ & _); auto.
  - rewrite <- EVu, EV. exact HE1.
  - rewrite <- EVu, EV, EH. exact H1.
Qed.

Theorem one_layer_calm : forall Q s0 xs s, sound_state s0 -> p_nlayers (st_p s0) = 1%Z -> history Q s0 xs s -> calm s0 s.
Proof.
  intros Q s0 xs s HS HN H. induction H as [|xs s s' H IH HE _|xs s u ys s' H IH HX]; [constructor|eapply calm_edit; eassumption|].
  eapply calm_update; [exact IH|exact HX|]. destruct (one_layer_history Q s0 xs s HS HN H). eapply one_layer_untied_steps; eassumption.
Qed.
End More.

(** ** Initialize *)
Section Start.
Local Existing Instance exact.

Lemma bounded_layers : forall (g : Z -> R) n, exists M, forall k, (1 <= k <= Z.of_nat n)%Z -> g k <= M.
Proof.
  intros g. induction n as [|n [M HM]]; [exists 0; intros; lia|]. exists (Rmax M (g (Z.of_nat (S n)))). intros k Hk.
  destruct (Z.eq_dec k (Z.of_nat (S n))) as [->|D]; [apply Rmax_r|]. eapply Rle_trans; [apply HM; lia|apply Rmax_l].
Qed.
Lemma bounded_column : forall e, exists M, conducts_at_most M e.
Proof.
  intro e. destruct (bounded_layers (fun k => match soil_of e k with Ok s => val (s_Ksat s) | _ => 0 end) (Z.to_nat (e_nlayers e))) as [M HM].
  exists M. intros k s ks Hk Es Ek. specialize (HM k ltac:(lia)). rewrite Es, Ek in HM. exact HM.
Qed.

Lemma layer_values_nth : forall k layer stype tb l vs i v, layer_values k layer stype tb l = Ok vs -> nth_error vs i = Some v ->
  exists t en, uget stype (layer + Z.of_nat i)%Z = Ok t /\ uget tb t = Ok en /\ snd v = en_soil en.
Proof.
  induction k as [|k IH]; intros layer stype tb l vs i v H N; cbn in H; [apply Ok_inj in H; subst; destruct i; discriminate|]. destruct l as [|f r]; [discriminate|].
  bind_inv H t Et. bind_inv H en Een. bind_inv H ws Ews. apply Ok_inj in H. subst vs. destruct i as [|i]; cbn in N.
  - injection N as <-. exists t, en. rewrite Z.add_0_r. auto.
  - replace (layer + Z.of_nat (S i))%Z with (layer + 1 + Z.of_nat i)%Z by lia. eapply IH; eassumption.
Qed.

Theorem start_physical : forall files junk ls ts types gs psi dt fres max rows, good_config files ls ts types gs psi dt fres max rows -> exists s, Initialize files junk ls = Ok s /\
  sound_state s /\ vg_column (env_of s) /\ (exists M, conducts_at_most M (env_of s)) /\
  forall M, conducts_at_most M (env_of s) -> physical_state M s /\ (distinct_types (p_stype (st_p s)) (p_nlayers (st_p s)) -> calibration_fits M s).
Proof.
  intros files junk ls ts types gs psi dt fres max rows G0.
  destruct (configured files junk _ _ _ _ _ _ _ _ _ G0) as (s & H & S1 & _ & SG & _ & _ & _ & NL & _). exists s. split; [assumption|]. split; [assumption|].
  destruct G0 as [[[GL GR (lt & Lt & At & Nt & Gt & Pt) _ (lg & Lg & Ag & Ng & Gg & Pg) (lp & Lp & Ap & Gp & Pp) (lf & f & Lf & Af & Ff & Fs & Ph) _ _ _ _ _ _] _] _].
  destruct ts as [|n ns]; [contradiction|].
  destruct (init_inv _ _ _ _ H) as (c & st & rows' & tab & thick & psi' & ord & I). pose proof (in_conf _ _ _ _ _ _ _ _ _ _ _ I) as C.
  destruct (conf_thick _ _ _ _ _ Lt At Gt C) as [T F]. rewrite (in_thick _ _ _ _ _ _ _ _ _ _ _ I) in T. apply some_inj in T; subst thick.
  pose proof (conf_psi _ _ _ _ Lp Ap Gp C) as P. rewrite (in_psi _ _ _ _ _ _ _ _ _ _ _ I) in P. apply some_inj in P; subst psi'.
  destruct (in_rows _ _ _ _ _ _ _ _ _ _ _ I) as (file & F1 & F2). rewrite (conf_file _ _ _ _ Lf Af Ff C) in F1. injection F1 as <-. rewrite Fs in F2. injection F2 as <-.
  change (rnd (value psi)) with (Fin (value psi)) in I. rewrite value_exact in I. set (tsv := map value (n :: ns)) in *.
  assert (NL' : p_nlayers (st_p s) = Z.of_nat (List.length tsv)) by (rewrite NL; unfold tsv; rewrite map_length; reflexivity).
  assert (SO : forall k sl, (1 <= k <= p_nlayers (st_p s))%Z -> soil_of (env_of s) k = Ok sl -> exists t en, uget (p_stype (st_p s)) k = Ok t /\ uget tab t = Ok en /\ sl = en_soil en).
  { intros k sl Hk Es. destruct (init_soil _ _ _ _ _ _ _ _ _ _ _ I k) as (t & en & A & B & D); [exact Hk|]. exists t, en. split; [assumption|]. split; [assumption|]. congruence. }
  split; [|split].
  - intros k sl Hk Es. destruct (SO k sl Hk Es) as (t & en & _ & B & ->). eapply entry_soil; eassumption.
  - apply bounded_column.
  - intros M HM. destruct SG as ((N1 & N2 & N3 & N4 & N6) & N5 & _).
    destruct (in_p _ _ _ _ _ _ _ _ _ _ _ I) as (_ & _ & _ & PT & Fr & Nf & _). split.
    + constructor; [| |auto].
      * apply Forall_forall. intros g Hg. apply In_nth_error in Hg as [i Ni].
        assert (LH : List.length (st_head s) = List.length tsv). { destruct (init_fronts _ _ _ _ _ _ _ _ _ _ _ I) as (_ & L & _). rewrite map_length in L. exact L. }
        assert (Li : (i < List.length tsv)%nat) by (rewrite <- LH; apply nth_error_Some; congruence).
        destruct (front_is _ _ _ _ _ _ _ _ _ _ _ I Ph Pp i g Ni) as (t & en & r & te & a & n0 & m & k & _ & _ & E1 & V & _ & E2 & _ & _ & _ & E3 & E4 & E5 & E6 & E7).
        constructor.
        -- rewrite E2. cbn [env_of e_nlayers]. lia.
        -- exists (en_soil en), r, te, a, n0, m, k, (vg_theta r te a n0 m (value psi)). rewrite E2. split; [assumption|]. split; [assumption|]. split; [assumption|]. split; [assumption|].
           right. exists (value psi). auto.
        -- eexists. split; [exact E6|]. assert (k <= M) by (eapply (HM (Z.of_nat (S i))); [cbn [env_of e_nlayers]; lia|exact E1|apply V]). lra.
      * intros k Hk. exists 1. split; [|lra]. cbn [env_of e_frozen e_nlayers] in *. rewrite Fr. apply aget_Ok. split; [lia|].
        rewrite map_length. apply nth_error_repeat. lia.
    + intro D. constructor; [|exact D| |exact N6].
      * rewrite Nf. exact (in_len _ _ _ _ _ _ _ _ _ _ _ I).
      * intros k Hk. destruct (in_vals _ _ _ _ _ _ _ _ _ _ _ I) as (vs & V1 & _ & _ & V4). assert (LV := layer_values_length _ _ _ _ _ _ V1). rewrite map_length in LV.
        destruct (nth_error vs (Z.to_nat (k - 1))) as [v|] eqn:Nv; [|apply nth_error_None in Nv; lia].
        destruct (layer_values_nth _ _ _ _ _ _ _ _ V1 Nv) as (t & en & A & B & E).
        destruct (init_soil _ _ _ _ _ _ _ _ _ _ _ I k) as (t' & en' & A' & B' & D'); [exact Hk|].
        replace (1 + Z.of_nat (Z.to_nat (k - 1)))%Z with k in A by lia. rewrite A in A'. apply Ok_inj in A'. subst t'. rewrite B in B'. apply Ok_inj in B'. subst en'.
        destruct (entry_soil _ _ _ _ _ _ _ _ _ _ _ I Ph t en B) as (r & te & a & n0 & m & ks & V).
        assert (ks <= M) by (eapply (HM k); [exact Hk|exact D'|apply V]). destruct V.
        exists r, te, a, n0, ks. rewrite V4. cbn [c_theta_e c_theta_r c_n c_alpha c_Ksat].
        assert (Q : forall g : front * soil -> dbl, aget (map g vs) (k - 1) = Ok (g v)). { intro g. apply aget_Ok. split; [lia|]. rewrite nth_error_map, Nv. reflexivity. }
        rewrite !Q, E. repeat split; try congruence; lra.
Qed.
End Start.
