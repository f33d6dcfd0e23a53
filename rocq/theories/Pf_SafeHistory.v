(** Structure and memory safety along whole histories. *)

From Coq Require Import Reals Lra ZArith Bool List Lia.
From RecordUpdate Require Import RecordSet.
From Verif Require Import Outcome Dbl Types ListOps Soil Giuh Fronts Infil Move State Update Lib Spec_Common Spec_List Spec_Update Spec_Profile
  Pf_List Pf_Update Pf_Frozen Pf_Profile Pf_Structure Pf_SafeMove Pf_SafeUpdate.
Import ListNotations.
Import RecordSetNotations.
Open Scope R_scope.

(** ** The free-drainage front of a profile *)

Lemma profile_layers : forall nl cum l, (1 <= nl)%Z -> profile nl cum l -> forall i,
  (forall j f g, (j < i)%nat -> nth_error l j = Some f -> nth_error l (S j) = Some g -> f_layer f <> f_layer g) ->
  forall j f, (j <= i)%nat -> nth_error l j = Some f -> f_layer f = Z.of_nat (S j).
Proof.
  intros nl cum l Hn [H1 H2 H3 H4] i HD. induction j as [|j IH]; intros f Hj Ef.
  - destruct (H4 1%Z ltac:(lia)) as (m & b & Eb & Lb & _). pose proof (H3 0%nat m f b ltac:(lia) Ef Eb). pose proof (H2 _ _ Ef). lia.
  - destruct (nth_error l j) as [g|] eqn:Eg; [|apply nth_error_None in Eg; apply length_S in Ef; lia].
    assert (Hg : f_layer g = Z.of_nat (S j)) by (apply IH; auto; lia).
    pose proof (H3 j (S j) g f ltac:(lia) Eg Ef) as Hle. pose proof (HD j g f ltac:(lia) Eg Ef) as Hne. pose proof (H2 _ _ Ef) as Hf.
    destruct (Z.eq_dec (f_layer f) (Z.of_nat (S (S j)))) as [|Hgt]; [assumption|]. exfalso.
    destruct (H4 (Z.of_nat (S (S j))) ltac:(lia)) as (m & b & Eb & Lb & _).
    destruct (le_lt_dec m j) as [Hm|Hm].
    + pose proof (H3 m j b g Hm Eb Eg). lia.
    + pose proof (H3 (S j) m f b ltac:(lia) Ef Eb). lia.
Qed.

Theorem profile_free_drainage : forall nl cum l, (1 <= nl)%Z -> profile nl cum l -> exists i,
  wetting_front_free_drainage l = Z.of_nat (S i) /\ (i < length l)%nat /\ (Z.of_nat (S i) <= nl)%Z /\
  forall j f, (j <= i)%nat -> nth_error l j = Some f -> f_layer f = Z.of_nat (S j).
Proof.
  intros nl cum l Hn HP. assert (Hne : l <> []).
  { intros ->. destruct (prof_bottom _ _ _ HP 1%Z ltac:(lia)) as (i & f & E & _). destruct i; discriminate. }
  destruct (free_drainage_index l Hne) as [(i & [(f & g & EA & EB & EC) HD] & E)|[HN E]].
  - pose proof (profile_layers _ _ _ Hn HP i HD) as HF. exists i. split; [assumption|]. split; [eapply length_S; eassumption|].
    split; [|assumption]. rewrite <- (HF i f ltac:(lia) EA). apply (prof_range _ _ _ HP i f EA).
  - assert (HD : forall j f g, nth_error l j = Some f -> nth_error l (S j) = Some g -> f_layer f <> f_layer g).
    { intro j. induction j as [j IH] using (well_founded_induction lt_wf). intros f g Ef Eg Heq. apply (HN j). split; [eauto|]. intros j' f' g' Hj' Ef' Eg'. eapply IH; eauto. }
    set (i := (length l - 1)%nat). assert (HL : length l = S i) by (destruct l; [contradiction|cbn in *; lia]).
    destruct (nth_error l i) as [f|] eqn:Ef; [|apply nth_error_None in Ef; lia].
    pose proof (profile_layers _ _ _ Hn HP i (fun j f g _ => HD j f g)) as HF. exists i. split; [rewrite E, HL; reflexivity|]. split; [lia|].
    split; [|assumption]. rewrite <- (HF i f ltac:(lia) Ef). apply (prof_range _ _ _ HP i f Ef).
Qed.

Section Any.
Context {fp : Fp} {cfg : Cfg}.

Theorem calm_sound : forall s0 s, sound_state s0 -> calm s0 s -> sound_state s.
Proof.
  intros s0 s H0 H. induction H as [|s s' H IH HE|s u xs s' H IH HX HT]; [exact H0| |].
  - eapply edit_sound; eassumption.
  - eapply executed_sound; eassumption.
Qed.

Lemma executed_column : forall s u xs s', sound_state s -> executed s u xs s' -> Forall (fun x => ~ step_tie u (x_s x) (x_a x)) xs ->
  p_nlayers (st_p s') = p_nlayers (st_p s) /\ p_cum (st_p s') = p_cum (st_p s).
Proof.
  intros s u xs s' HS [HU HY] HT. destruct (p_invalid (st_p s)) eqn:Hv.
  - unfold Update in HU. rewrite Hv in HU. apply Ok_inj in HU. subst s'. split; reflexivity.
  - destruct HY as (s1 & vcal & volend & s2 & n & s3 & a & EP & EM & ES & EU & HR & _ & EF).
    destruct (prologue_kept _ _ _ (ss_env _ HS) (sound_str _ HS) EP) as (HE1 & H1 & K1).
    assert (KK := K1). destruct KK as (K2 & K3 & K4 & K5 & K6 & K7 & K8 & K9 & K10 & _).
    pose proof (steps_inv _ _ _ _ ES) as (_ & _ & E2).
    assert (EV : env_of s2 = env_of s1) by (rewrite E2; reflexivity). assert (EH : st_head s2 = st_head s1) by (rewrite E2; reflexivity).
    assert (EVu : env_of s2 = u_env u) by (rewrite EU; reflexivity).
    assert (Hdt : finite (u_dt u)). { eapply step_finite; [exact ES|]. rewrite K10, K7, K8. apply HS. }
    destruct (runs_str _ _ _ _ _ _ HR) as (EV3 & _); auto.
    + rewrite <- EVu, EV. exact HE1.
    + rewrite <- EVu, EV, EH. exact H1.
    + apply finish_inv in EF as (g & q & mbl & EG & _ & EQ). rewrite EQ.
      change (e_nlayers (env_of s3) = p_nlayers (st_p s) /\ e_cum (env_of s3) = p_cum (st_p s)). rewrite EV3, <- EVu, EV. split; [exact K2|exact K3].
Qed.

Theorem calm_profile : forall s0 s, sound_state s0 -> calm s0 s -> profile (p_nlayers (st_p s0)) (p_cum (st_p s0)) (st_head s).
Proof.
  intros s0 s H0 H. assert (HS := calm_sound _ _ H0 H).
  enough (p_nlayers (st_p s) = p_nlayers (st_p s0) /\ p_cum (st_p s) = p_cum (st_p s0)) as [<- <-] by apply HS.
  clear HS. induction H as [|s s' H IH HE|s u xs s' H IH HX HT]; [auto| |].
  - destruct HE as (pr & pet & T & cal & out & nf & tw & dw & ->). exact IH.
  - destruct (executed_column _ _ _ _ (calm_sound _ _ H0 H) HX HT) as [-> ->]. exact IH.
Qed.

(** The motion of the fronts on its own. *)
Theorem move_profile : forall e dt volin wfd old aet head, sound_env e -> profile (e_nlayers e) (e_cum e) head -> deepest_rests head -> finite dt ->
  ~ move_tie e dt volin wfd old aet head head ->
  ends move_stops (fun x => profile (e_nlayers e) (e_cum e) (fst (fst x)) /\ deepest_rests (fst (fst x)))
    (lgar_move_wetting_fronts e dt volin wfd old aet head head).
Proof.
  intros e dt volin wfd old aet head HE HP HR Hdt HT.
  assert (H : Str e head) by (apply Str_iff; [apply HE|split; assumption]).
  eapply ends_mono; [intros r Hr; exact Hr| |apply move_ok; eauto; apply H]. intros x Hx. apply Str_iff; [apply HE|exact Hx].
Qed.

(** ** Columns in which a tie cannot happen *)

Lemma one_layer_prefix : forall e, sound_env e -> e_nlayers e = 1%Z -> forall l, Str e l -> forall p l', (p < length l)%nat ->
  cross_prefix e p l = Ok l' -> Str e l' /\ length l' = length l.
Proof.
  intros e HE HN l H. induction p as [|p IH]; intros l' Hp E; cbn [cross_prefix] in E.
  - apply Ok_inj in E. subst. auto.
  - bind_inv E l1 EL. destruct (IH l1 ltac:(lia) EL) as [H1 L1].
    destruct (cross_step_ok e p l1 HE H1 ltac:(lia)) as (l2 & E2 & H2 & L2).
    + intros (c & n & ck & Ec & _ & _ & _ & HL & _). apply HL. pose proof (Str_range _ _ _ _ H1 Ec). lia.
    + rewrite E2 in E. apply Ok_inj in E. subst. split; [assumption|lia].
Qed.

Lemma one_layer_no_cross : forall e l, sound_env e -> e_nlayers e = 1%Z -> Str e l -> ~ cross_tie e l.
Proof.
  intros e l HE HN H (p & l' & Hp & EP & c & n & ck & Ec & _ & _ & _ & HL & _). apply HL.
  destruct (one_layer_prefix e HE HN l H p l' ltac:(lia) EP) as [H' _]. pose proof (Str_range _ _ _ _ H' Ec). lia.
Qed.

Lemma one_layer_no_move : forall e dt volin wfd old aet head prev, sound_env e -> e_nlayers e = 1%Z -> Str e head -> numbered prev ->
  length prev = length head -> finite dt -> ~ move_tie e dt volin wfd old aet head prev.
Proof.
  intros e dt volin wfd old aet head prev HE HN H HP HL Hdt (l & a & E & HT).
  pose proof (ends_Ok _ _ _ _ _ (move_loop_ok e dt volin wfd prev HE HP Hdt (length head) head aet H HL ltac:(lia)) E) as [H1 _]. cbn [fst] in H1.
  assert (N1 := one_layer_no_cross e l HE HN H1).
  destruct HT as [HT|(l1 & a1 & fl & l2 & mc & l3 & E1 & E2 & E3 & HT)]; [contradiction|].
  pose proof (ends_Ok _ _ _ _ _ (closure_ok e old volin l a HE H1 N1) E1) as H2. cbn [fst] in H2.
  destruct (check_and_fix_ok e l1 (Fin 0) HE H2) as (l2' & mc' & E2' & H3). rewrite E2 in E2'. apply Ok_inj in E2'. apply pair_equal_spec in E2' as [<- _].
  pose proof (ends_Ok _ _ _ _ _ (merge_ok e l2 HE H3) E3) as H4. exact (one_layer_no_cross e l3 HE HN H4 HT).
Qed.

Lemma one_layer_no_hydro : forall u pp pr petr pc vo po vend l, sound_env (u_env u) -> e_nlayers (u_env u) = 1%Z -> Str (u_env u) l -> finite (u_dt u) ->
  ~ hydro_tie u pp pr petr pc vo po vend l l.
Proof.
  intros u pp pr petr pc vo po vend l HE HN H Hdt (aet & create & _ & _ & HT). destruct create.
  - assert (NM : forall a, ~ move_tie (u_env u) (u_dt u) (Fin 0) (wetting_front_free_drainage l) vend a l l)
      by (intro a; apply one_layer_no_move; auto; apply H).
    destruct HT as [HT|(l1 & aet1 & pd & dry & d & h & E1 & _ & _ & s & ff & n & r & l2 & Es & Ef & EQ & _ & E2 & HT)]; [exact (NM aet HT)|].
    pose proof (ends_Ok _ _ _ _ _ (move_ok _ _ _ _ _ _ _ _ HE H (st_num _ _ H) eq_refl Hdt (NM aet)) E1) as H1. cbn [fst] in H1.
    assert (H2 : Str (u_env u) (surficial s ff po dry (f_theta h) :: bump 1 l1)) by (apply insert_str; auto).
    pose proof (ends_Ok _ _ _ _ _ (merge_ok _ _ HE H2) E2) as H3. exact (one_layer_no_cross _ _ HE HN H3 HT).
  - destruct HT as (b & _ & HT). revert HT. apply one_layer_no_move; auto; apply H.
Qed.

Lemma one_layer_step : forall u s a, sound_env (u_env u) -> e_nlayers (u_env u) = 1%Z -> Str (u_env u) (st_head s) -> finite (u_dt u) -> ~ step_tie u s a.
Proof. intros u s a HE HN H Hdt. unfold step_tie. apply one_layer_no_hydro; assumption. Qed.

Lemma one_layer_runs : forall u s a xs s' a', runs u s a xs s' a' -> sound_env (u_env u) -> e_nlayers (u_env u) = 1%Z -> finite (u_dt u) ->
  env_of s = u_env u -> Str (u_env u) (st_head s) ->
  Forall (fun x => ~ step_tie u (x_s x) (x_a x)) xs /\ env_of s' = u_env u /\ Str (u_env u) (st_head s').
Proof.
  intros u s a xs s' a' HR HE HN Hdt. induction HR as [s a|s a s1 a1 xs s2 a2 HS HR IH]; intros EV H; [auto|].
  assert (T : ~ step_tie u s a) by (apply one_layer_step; assumption).
  pose proof (ends_Ok _ _ _ _ _ (substep_ok u s a HE EV H Hdt T) HS) as (A & B & _). cbn [fst] in *.
  destruct (IH A B) as (C1 & C2 & C3). auto.
Qed.

Lemma steps_keep : forall s s2 dt n, update_steps s = Ok (s2, dt, n) -> env_of s2 = env_of s /\ st_head s2 = st_head s.
Proof. intros s s2 dt n H. apply steps_inv in H as (_ & _ & ->). split; reflexivity. Qed.

Lemma one_layer_executed : forall s u xs s', sound_state s -> p_nlayers (st_p s) = 1%Z -> executed s u xs s' -> sound_state s' /\ p_nlayers (st_p s') = 1%Z.
Proof.
  intros s u xs s' HS HN HX. assert (HX2 := HX). destruct HX2 as [HU HY].
  destruct (p_invalid (st_p s)) eqn:Hv.
  - unfold Update in HU. rewrite Hv in HU. apply Ok_inj in HU. subst s'. split; [|exact HN]. destruct HS as [A B C D F]. constructor; assumption.
  - destruct HY as (s1 & vcal & volend & s2 & n & s3 & a & EP & EM & ES & EU & HR & _ & EF).
    destruct (prologue_kept _ _ _ (ss_env _ HS) (sound_str _ HS) EP) as (HE1 & H1 & K1).
    assert (KK := K1). destruct KK as (K2 & K3 & K4 & K5 & K6 & K7 & K8 & K9 & K10 & _).
    destruct (steps_keep _ _ _ _ ES) as [EV EH].
    assert (EVu : env_of s2 = u_env u) by (rewrite EU; reflexivity).
    assert (Hdt : finite (u_dt u)). { eapply step_finite; [exact ES|]. rewrite K10, K7, K8. apply HS. }
    assert (HNu : e_nlayers (u_env u) = 1%Z) by (rewrite <- EVu, EV; cbn; lia).
    destruct (one_layer_runs _ _ _ _ _ _ HR) as (T & EV3 & _); auto.
    + rewrite <- EVu, EV. exact HE1.
    + rewrite <- EVu, EV, EH. exact H1.
    + split; [eapply executed_sound; eassumption|].
      apply finish_inv in EF as (g & q & mbl & EG & _ & EQ). rewrite EQ.
      change (e_nlayers (env_of s3) = 1%Z). rewrite EV3. exact HNu.
Qed.

Theorem one_layer_history : forall Q s0 xs s, sound_state s0 -> p_nlayers (st_p s0) = 1%Z -> history Q s0 xs s -> sound_state s /\ p_nlayers (st_p s) = 1%Z.
Proof.
  intros Q s0 xs s H0 N0 H. induction H as [|xs s s' H [IH1 IH2] HE _|xs s u ys s' H [IH1 IH2] HX]; [auto| |].
  - split; [eapply edit_sound; eassumption|]. destruct HE as (pr & pet & T & cal & out & nf & tw & dw & ->). exact IH2.
  - eapply one_layer_executed; eassumption.
Qed.

Lemma one_layer_untied : forall s, sound_state s -> p_nlayers (st_p s) = 1%Z -> ~ update_tie s.
Proof.
  intros s HS HN (s1 & vcal & volend & s2 & dt & n & xs & s3 & a & EP & EM & ES & HRu & _ & HT).
  destruct (prologue_kept _ _ _ (ss_env _ HS) (sound_str _ HS) EP) as (HE1 & H1 & K1).
  destruct K1 as (K2 & K3 & K4 & K5 & K6 & K7 & K8 & K9 & K10 & _).
  destruct (steps_keep _ _ _ _ ES) as [EV EH].
  match type of HT with step_tie ?w _ _ => set (u := w) in * end.
  assert (EVu : u_env u = env_of s2) by reflexivity.
  assert (Hdt : finite dt). { eapply step_finite; [exact ES|]. rewrite K10, K7, K8. apply HS. }
  assert (HNu : e_nlayers (u_env u) = 1%Z) by (rewrite EVu, EV; cbn; lia).
  assert (HEu : sound_env (u_env u)) by (rewrite EVu, EV; exact HE1).
  destruct (one_layer_runs _ _ _ _ _ _ HRu) as (_ & _ & H3); auto.
  - rewrite EVu, EV, EH. exact H1.
  - exact (one_layer_step u s3 a HEu HNu H3 Hdt HT).
Qed.
Theorem one_layer_safe : forall s, sound_state s -> p_nlayers (st_p s) = 1%Z -> ready s -> ends memory_safe (fun _ => True) (Update s).
Proof. intros s HS HN HR. apply update_safe; auto using one_layer_untied. Qed.

Theorem one_layer_profile : forall Q s0 xs s, sound_state s0 -> p_nlayers (st_p s0) = 1%Z -> history Q s0 xs s ->
  profile 1 (p_cum (st_p s)) (st_head s).
Proof. intros Q s0 xs s H0 N0 H. destruct (one_layer_history Q s0 xs s H0 N0 H) as [HS HN]. rewrite <- HN. apply HS. Qed.
End Any.
