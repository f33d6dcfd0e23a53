(** Lemmas for C87: what does not influence the results. *)

From Coq Require Import String Reals ZArith List Bool Lia.
From RecordUpdate Require Import RecordSet.
From Verif Require Import Outcome Dbl Types ListOps Fronts Infil State Giuh Update Bmi Config Driver Lib Spec_Common Spec_Update Spec_Driver Spec_Influence Pf_Update Pf_DriverRun Pf_SafeUpdate Pf_Init Pf_InitState.
Import ListNotations.
Import RecordSetNotations.

(** ** Indeterminate memory *)
Section Junk.
Context {fp : Fp}.

Definition soils_of (t : list (option entry)) : list (option soil) := map (option_map en_soil) t.
Definition res_map {A B} (f : A -> B) (m : outcome A) : outcome B := match m with Ok a => Ok (f a) | Stop w => Stop w end.

Lemma derive_junk : forall wp junk wp' junk' tr te al n k nm, res_map en_soil (derive wp junk tr te al n k nm) = res_map en_soil (derive wp' junk' tr te al n k nm).
Proof.
  intros. unfold derive. destruct (lit 1 <? n)%d; [|reflexivity]. cbv zeta. match goal with |- context [cassert ?b] => destruct (cassert b) as [[]|w] end; reflexivity.
Qed.

Lemma aget_map : forall A B (f : A -> B) l i, aget (map f l) i = res_map f (aget l i).
Proof.
  intros A B f l i. unfold aget. destruct (i <? 0)%Z; [reflexivity|]. destruct (nth_error l (Z.to_nat i)) as [x|] eqn:E.
  - rewrite (map_nth_error f _ _ E). reflexivity.
  - assert (nth_error (map f l) (Z.to_nat i) = None) as -> by (apply nth_error_None; rewrite map_length; apply nth_error_None; exact E). reflexivity.
Qed.
Lemma aset_map : forall A B (f : A -> B) l i x, aset (map f l) i (f x) = res_map (map f) (aset l i x).
Proof.
  intros A B f l i x. unfold aset. destruct (i <? 0)%Z; [reflexivity|]. rewrite map_length. destruct (_ <? _)%nat; [|reflexivity]. cbn [res_map]. f_equal.
  generalize (Z.to_nat i) as n. induction l as [|y l IH]; intros [|n]; cbn; try reflexivity. f_equal. apply IH.
Qed.
Lemma uget_soils : forall tab i, uget (soils_of tab) i = res_map en_soil (uget tab i).
Proof. intros tab i. unfold uget, soils_of. rewrite aget_map. destruct (aget tab i) as [[x|]|w]; reflexivity. Qed.

Lemma read_row_junk : forall wp junk wp' junk' r l i tab tab', soils_of tab = soils_of tab' ->
  res_map (fun x => (fst x, soils_of (snd x))) (read_row wp junk r l i tab) = res_map (fun x => (fst x, soils_of (snd x))) (read_row wp' junk' r l i tab').
Proof.
  intros wp junk wp' junk' r l i tab tab' H. unfold read_row. cbv zeta. destruct (known (l_name (scan r l))) as [name|w]; [|reflexivity]. cbn [bind].
  destruct (30 <=? _)%Z; [reflexivity|]. destruct (25 <? _)%Z; [reflexivity|].
  pose proof (aget_map _ _ (option_map en_soil) tab i) as G. pose proof (aget_map _ _ (option_map en_soil) tab' i) as G'. unfold soils_of in H. rewrite H, G' in G.
  destruct (aget tab i) as [x|w], (aget tab' i) as [x'|w']; cbn [res_map bind] in *; try discriminate; [|congruence].
  destruct (_ =? 25)%Z; [reflexivity|]. destruct (l_vals (scan r l)) as [|r0 [|r1 [|r2 [|r3 [|r4 [|]]]]]]; try reflexivity.
  destruct (known r0) as [tr|]; [|reflexivity]. destruct (known r1) as [te|]; [|reflexivity]. destruct (known r2) as [al|]; [|reflexivity]. destruct (known r3) as [n|]; [|reflexivity].
  destruct (known r4) as [ks|]; [|reflexivity]. cbn [bind]. pose proof (derive_junk wp junk wp' junk' tr te al n ks name) as D.
  destruct (derive wp junk tr te al n ks name) as [en|], (derive wp' junk' tr te al n ks name) as [en'|]; cbn [res_map bind] in *; try discriminate; [|congruence].
  pose proof (aset_map _ _ (option_map en_soil) tab i (Some en)) as S. pose proof (aset_map _ _ (option_map en_soil) tab' i (Some en')) as S'. cbn [option_map] in S, S'.
  rewrite H in S. assert (E : en_soil en = en_soil en') by congruence. rewrite E, S' in S.
  destruct (aset tab i (Some en)) as [t|], (aset tab' i (Some en')) as [t'|]; cbn [res_map bind fst snd] in *; try discriminate; [|congruence]. unfold soils_of. congruence.
Qed.
Lemma read_rows_junk : forall wp junk wp' junk' nst rs l i tab tab', soils_of tab = soils_of tab' -> res_map soils_of (read_rows wp junk nst rs l i tab) = res_map soils_of (read_rows wp' junk' nst rs l i tab').
Proof.
  intros wp junk wp' junk' nst rs. induction rs as [|r rs IH]; intros l i tab tab' H; cbn [read_rows]; [cbn; congruence|].
  pose proof (read_row_junk wp junk wp' junk' r l i tab tab' H) as R.
  destruct (read_row wp junk r l i tab) as [[l1 t1]|], (read_row wp' junk' r l i tab') as [[l2 t2]|]; cbn [res_map bind fst snd] in *; try discriminate; [|congruence].
  injection R as <- R. destruct (nst =? i)%Z; [cbn; congruence|]. apply IH. exact R.
Qed.
Lemma table_junk : forall rows nst wp junk wp' junk' tab, res_map soils_of (lgar_read_vG_param_file rows nst wp junk tab) = res_map soils_of (lgar_read_vG_param_file rows nst wp' junk' tab).
Proof. intros [rs|] nst wp junk wp' junk' tab; [|reflexivity]. apply read_rows_junk. reflexivity. Qed.

Lemma zfor_same : forall S (k : nat) (f g : Z -> S -> outcome S) i s, (forall i s, f i s = g i s) -> zfor i k f s = zfor i k g s.
Proof. intros S k f g. induction k as [|k IH]; intros i s H; cbn [zfor]; [reflexivity|]. rewrite H. destruct (g i s); cbn [bind]; [apply IH; exact H|reflexivity]. Qed.
Lemma fronts_junk : forall nl psi st cum fr tab tab', soils_of tab = soils_of tab' -> InitializeWettingFronts nl psi st cum fr tab = InitializeWettingFronts nl psi st cum fr tab'.
Proof.
  intros nl psi st cum fr tab tab' H. unfold InitializeWettingFronts. apply zfor_same. intros i s. destruct (uget st i) as [t|]; [|reflexivity]. cbn [bind].
  pose proof (uget_soils tab t) as A. pose proof (uget_soils tab' t) as B. rewrite H, B in A. destruct (uget tab t) as [e|], (uget tab' t) as [e'|]; cbn [res_map bind] in *; try discriminate; [|congruence].
  assert (en_soil e = en_soil e') as -> by congruence. reflexivity.
Qed.
Lemma layer_junk : forall k layer st tab tab' head, soils_of tab = soils_of tab' -> layer_values k layer st tab head = layer_values k layer st tab' head.
Proof.
  induction k as [|k IH]; intros layer st tab tab' head H; [reflexivity|]. cbn [layer_values]. destruct head as [|f r]; [reflexivity|]. destruct (uget st layer) as [t|]; [|reflexivity]. cbn [bind].
  pose proof (uget_soils tab t) as A. pose proof (uget_soils tab' t) as B. rewrite H, B in A. destruct (uget tab t) as [e|], (uget tab' t) as [e'|]; cbn [res_map bind] in *; try discriminate; [|congruence].
  assert (en_soil e = en_soil e') as -> by congruence. rewrite (IH _ _ _ _ _ H). reflexivity.
Qed.

Definition start_view (z : start) := (sr_conf z, sr_p z, sr_head z, soils_of (sr_tab z), sr_vol z, sr_N z, sr_ord z).
Lemma init_junk : forall files junk junk' c, res_map start_view (init_rest files junk c) = res_map start_view (init_rest files junk' c).
Proof.
  intros files junk junk' c. unfold init_rest. cbv zeta. destruct (need (cf_stype c)) as [st|]; [|reflexivity]. cbn [bind]. destruct (need (cf_file c)) as [file|]; [|reflexivity]. cbn [bind].
  set (nst := match cf_maxtypes c with Some z => z | None => 15%Z end). destruct (nst + 1 <? 0)%Z; [reflexivity|]. cbn [bind].
  match goal with |- res_map _ (bind ?m _) = res_map _ (bind ?m' _) => assert (T : res_map soils_of m = res_map soils_of m') by apply table_junk; destruct m as [tab|], m' as [tab'|] end;
    cbn [res_map bind] in *; try discriminate; [|congruence].
  assert (H : soils_of tab = soils_of tab') by congruence.
  destruct (known (cf_thick c)) as [thick|]; [|reflexivity]. cbn [bind]. destruct (any_invalid _ _ _ _) as [inv|]; [|reflexivity]. cbn [bind].
  destruct (need (cf_psi c)) as [psi|]; [|reflexivity]. cbn [bind]. destruct (need (cf_timestep c)) as [dt|]; [|reflexivity]. cbn [bind]. destruct (need (cf_endtime c)) as [et|]; [|reflexivity]. cbn [bind].
  destruct (need (cf_wp c)) as [wp|]; [|reflexivity]. cbn [bind]. destruct (need (cf_fc c)) as [fc|]; [|reflexivity]. cbn [bind]. destruct (need (cf_fres c)) as [fres|]; [|reflexivity]. cbn [bind].
  destruct (need (cf_giuh c)) as [ord|]; [|reflexivity]. cbn [bind]. destruct (resample fres ord) as [[n ords]|]; [|reflexivity]. cbn [bind].
  match goal with |- context [bind (if cf_sft c then ?x else ?y) _] => destruct (if cf_sft c then x else y) as [[ncells tz]|] end; [|reflexivity]. cbn [bind].
  destruct (d2i _) as [fint|]; [|reflexivity]. cbn [bind]. rewrite (fronts_junk _ _ _ _ _ _ _ H). destruct (InitializeWettingFronts _ _ _ _ _ _) as [head|]; [|reflexivity]. cbn [bind].
  destruct (lgar_calc_mass_bal _ _) as [vol|]; [|reflexivity]. cbn [bind]. destruct (cassert _) as [[]|]; [|reflexivity]. cbn [bind res_map]. unfold start_view. cbn [sr_conf sr_p sr_head sr_tab sr_vol sr_N sr_ord].
  rewrite H. reflexivity.
Qed.

Theorem initialize_junk : forall files junk junk' ls, Initialize files junk ls = Initialize files junk' ls.
Proof.
  intros files junk junk' ls. unfold Initialize, InitFromConfigFile. destruct (config_lines conf0 ls) as [c|]; [|reflexivity]. cbn [bind]. pose proof (init_junk files junk junk' c) as H.
  destruct (init_rest files junk c) as [z|], (init_rest files junk' c) as [z'|]; cbn [res_map bind] in *; try discriminate; [|congruence].
  unfold start_view in H. assert (E : sr_p z = sr_p z' /\ sr_head z = sr_head z' /\ soils_of (sr_tab z) = soils_of (sr_tab z') /\ sr_vol z = sr_vol z' /\ sr_N z = sr_N z' /\ sr_ord z = sr_ord z')
    by (repeat split; congruence). destruct E as (-> & -> & E & -> & -> & ->). rewrite (layer_junk _ _ _ _ _ _ E). unfold soils_of in E. rewrite E. reflexivity.
Qed.
End Junk.

Theorem simulate_junk : forall (fp : Fp) (cfg : Cfg) files texts junk junk' ls, simulate files texts junk ls = simulate files texts junk' ls.
Proof. intros. unfold simulate. rewrite (initialize_junk files junk junk' ls). reflexivity. Qed.

(** ** What a client writes *)
Section Edits.
Context {fp : Fp} {cfg : Cfg}.

(** Calibration values and soil temperatures, and the outputs. *)
Definition inputs (T : list dbl) (cal : calib) (s : state) : state := s <| st_cal := cal |> <| st_p := (st_p s) <| p_soilT := T |> |>.
Definition outputs (out : option bout) (nf : Z) (tw dw : list dbl) (s : state) : state :=
  s <| st_out := out |> <| st_p := (st_p s) <| p_nfronts := nf |> <| p_theta_wf := tw |> <| p_depth_wf := dw |> |>.
Definition scribble T cal out nf tw dw s := inputs T cal (outputs out nf tw dw s).

Lemma substep_scribble : forall T cal out nf tw dw u s a, substep u (scribble T cal out nf tw dw s) a = res_map (fun x => (scribble T cal out nf tw dw (fst x), snd x)) (substep u s a).
Proof.
  intros. destruct s as [hd pv so p mb pr pe ca ou gn go gq]. destruct p. unfold substep, scribble, inputs, outputs. cbn.
  repeat match goal with |- context [bind ?m _] => destruct m as [?|?]; cbn; [|reflexivity] end.
  match goal with |- context [if ?b then _ else _] => destruct b end; [reflexivity|].
  repeat match goal with |- context [bind ?m _] => destruct m as [?|?]; cbn; [|reflexivity] end. reflexivity.
Qed.
Lemma loop_scribble : forall T cal out nf tw dw u k s a, subcycle_loop k u (scribble T cal out nf tw dw s) a = res_map (fun x => (scribble T cal out nf tw dw (fst x), snd x)) (subcycle_loop k u s a).
Proof.
  intros T cal out nf tw dw u k. induction k as [|k IH]; intros s a; cbn [subcycle_loop]; [reflexivity|]. rewrite substep_scribble. destruct (substep u s a) as [[s1 a1]|w]; cbn [res_map bind fst snd]; [|reflexivity].
  replace (p_time (st_p (scribble T cal out nf tw dw s1))) with (p_time (st_p s1)) by (destruct s1 as [? ? ? [] ? ? ? ? ? ? ? ?]; reflexivity).
  replace (p_endtime (st_p (scribble T cal out nf tw dw s1))) with (p_endtime (st_p s1)) by (destruct s1 as [? ? ? [] ? ? ? ? ? ? ? ?]; reflexivity).
  destruct (_ && _)%bool; [reflexivity|]. apply IH.
Qed.
Lemma finish_scribble : forall T cal out nf tw dw s a v, finish_update (scribble T cal out nf tw dw s) a v = res_map (inputs T cal) (finish_update s a v).
Proof.
  intros. destruct s as [hd pv so p mb pr pe ca ou gn go gq]. destruct p. unfold finish_update, scribble, inputs, outputs. cbn.
  destruct (giuh_convolution_integral _ _ _ _) as [[g q]|w]; cbn; [|reflexivity]. destruct (mb_local mb); reflexivity.
Qed.
Theorem update_scribble : forall T cal out nf tw dw s, p_invalid (st_p s) = false -> p_calib (st_p s) = false -> (p_sft (st_p s) = true -> T = p_soilT (st_p s)) ->
  Update (scribble T cal out nf tw dw s) = res_map (inputs T cal) (Update s).
Proof.
  intros T cal out nf tw dw s HI HC HT. unfold Update.
  replace (p_invalid (st_p (scribble T cal out nf tw dw s))) with (p_invalid (st_p s)) by (destruct s as [? ? ? [] ? ? ? ? ? ? ? ?]; reflexivity). rewrite HI.
  assert (P : update_prologue (scribble T cal out nf tw dw s) = res_map (fun x => (scribble T cal out nf tw dw (fst x), snd x)) (update_prologue s)).
  { destruct s as [hd pv so p mb pr pe ca ou gn go gq]. destruct p. unfold update_prologue, scribble, inputs, outputs. cbn in *. rewrite HC. destruct p_sft.
    - rewrite (HT eq_refl). destruct (frozen_factor _ _ _ _ _ _) as [fr|w]; reflexivity.
    - reflexivity. }
  rewrite P. destruct (update_prologue s) as [[s1 v]|w]; cbn [res_map bind fst snd]; [|reflexivity].
  replace (lgar_calc_mass_bal (p_cum (st_p (scribble T cal out nf tw dw s1))) (st_head (scribble T cal out nf tw dw s1))) with (lgar_calc_mass_bal (p_cum (st_p s1)) (st_head s1))
    by (destruct s1 as [? ? ? [] ? ? ? ? ? ? ? ?]; reflexivity).
  destruct (lgar_calc_mass_bal _ _) as [vol|w]; cbn [bind]; [|reflexivity].
  change (st_precip (scribble T cal out nf tw dw s1)) with (st_precip s1). change (st_pet (scribble T cal out nf tw dw s1)) with (st_pet s1).
  destruct (cassert (st_precip s1 >=? Fin 0)%d) as [[]|w]; cbn [bind]; [|reflexivity]. destruct (cassert (st_pet s1 >=? Fin 0)%d) as [[]|w]; cbn [bind]; [|reflexivity].
  assert (S : update_steps (scribble T cal out nf tw dw s1) = res_map (fun x => (scribble T cal out nf tw dw (fst (fst x)), snd (fst x), snd x)) (update_steps s1)).
  { destruct s1 as [hd pv so p mb pr pe ca ou gn go gq]. destruct p. unfold update_steps, scribble, inputs, outputs. cbn.
    destruct (d2i _) as [n|w]; reflexivity. }
  rewrite S. destruct (update_steps s1) as [[[s2 dt] n]|w]; cbn [res_map bind fst snd]; [|reflexivity].
  match goal with |- bind (subcycle_loop ?k ?u' ?s' ?a') _ = res_map _ (bind (subcycle_loop ?k ?u ?s ?a) _) => replace u' with u by (destruct s2 as [? ? ? [] ? ? ? ? ? ? ? ?]; reflexivity);
    replace a' with a by reflexivity; rewrite loop_scribble; destruct (subcycle_loop k u s a) as [[s3 a3]|w] end; cbn [res_map bind fst snd]; [|reflexivity].
  apply finish_scribble.
Qed.
End Edits.

Section Sessions.
Context {fp : Fp} {cfg : Cfg}.

Lemma update_flags : forall s t, p_invalid (st_p s) = false -> p_calib (st_p s) = false -> Update s = Ok t ->
  p_invalid (st_p t) = false /\ p_calib (st_p t) = false /\ p_sft (st_p t) = p_sft (st_p s).
Proof.
  intros s t HI HC H. destruct (executed_exists _ _ H) as (u & xs & X & Y). rewrite HI in Y. destruct Y as (s1 & vcal & vol & s2 & n & s3 & a & E1 & E2 & E3 & E4 & E5 & _ & E6).
  assert (F1 : p_invalid (st_p s1) = false /\ p_calib (st_p s1) = false /\ p_sft (st_p s1) = p_sft (st_p s)).
  { unfold update_prologue in E1. bind_inv E1 p Ep. assert (Q : p_invalid p = false /\ p_calib p = false /\ p_sft p = p_sft (st_p s)).
    { destruct (p_sft (st_p s)) eqn:SF; [bind_inv Ep fr Efr|]; apply Ok_inj in Ep; subst p; repeat split; assumption. }
    destruct Q as (Q1 & Q2 & Q3). cbv zeta in E1. rewrite Q2 in E1. apply Ok_inj, pair_equal_spec in E1 as [<- _]. cbn. auto. }
  destruct (steps_inv _ _ _ _ E3) as (_ & _ & ->). 
  assert (F3 : p_invalid (st_p s3) = false /\ p_calib (st_p s3) = false /\ p_sft (st_p s3) = p_sft (st_p s)).
  { apply (runs_ind_inv (fun s' _ => p_invalid (st_p s') = false /\ p_calib (st_p s') = false /\ p_sft (st_p s') = p_sft (st_p s)) u) in E5; [exact E5| |exact F1].
    intros t1 b1 t2 b2 HF E. destruct (substep_inv _ _ _ _ _ E) as (v1 & b & v2 & mbl & p1 & p2 & p3 & p4 & _ & _ & _ & _ & _ & _ & _ & _ & _ & -> & _). exact HF. }
  destruct (finish_inv _ _ _ _ E6) as (g & q & mbl & _ & _ & ->). exact F3.
Qed.

Definition scribbled (s s' : state) : Prop := exists T cal out nf tw dw, s' = scribble T cal out nf tw dw s.
Lemma edits_scribbled : forall s s' s1 s1', scribbled s s' -> user_edit s s1 -> user_edit s' s1' -> st_precip s1 = st_precip s1' -> st_pet s1 = st_pet s1' ->
  exists out nf tw dw, s1' = scribble (p_soilT (st_p s1')) (st_cal s1') out nf tw dw s1.
Proof.
  intros s s' s1 s1' (T & cal & out & nf & tw & dw & ->) (pr & pet & T1 & cal1 & out1 & nf1 & tw1 & dw1 & ->) (pr' & pet' & T2 & cal2 & out2 & nf2 & tw2 & dw2 & ->) E1 E2. cbn in E1, E2. subst pr' pet'.
  exists out2, nf2, tw2, dw2. destruct s as [? ? ? [] ? ? ? ? ? ? ? ?]. reflexivity.
Qed.
Lemma edit_flags : forall s s1, user_edit s s1 -> p_invalid (st_p s1) = p_invalid (st_p s) /\ p_calib (st_p s1) = p_calib (st_p s) /\ p_sft (st_p s1) = p_sft (st_p s).
Proof. intros s s1 (pr & pet & T1 & cal1 & out1 & nf1 & tw1 & dw1 & ->). repeat split. Qed.

Theorem edits_same : forall s s1 s2, user_edit s s1 -> user_edit s s2 -> p_invalid (st_p s) = false -> p_calib (st_p s) = false -> st_precip s1 = st_precip s2 -> st_pet s1 = st_pet s2 ->
  (p_sft (st_p s) = true -> p_soilT (st_p s1) = p_soilT (st_p s2)) -> both (fun t1 t2 => published t1 = published t2 /\ st_mb t1 = st_mb t2 /\ g_queue t1 = g_queue t2) (Update s1) (Update s2).
Proof.
  intros s s1 s2 E1 E2 HI HC P1 P2 HT. assert (X : scribbled s s).
  { exists (p_soilT (st_p s)), (st_cal s), (st_out s), (p_nfronts (st_p s)), (p_theta_wf (st_p s)), (p_depth_wf (st_p s)). destruct s as [? ? ? [] ? ? ? ? ? ? ? ?]. reflexivity. }
  destruct (edits_scribbled s s s1 s2 X E1 E2 P1 P2) as (out & nf & tw & dw & E). destruct (edit_flags _ _ E1) as (G1 & G2 & G3).
  assert (U := update_scribble (p_soilT (st_p s2)) (st_cal s2) out nf tw dw s1). rewrite <- E in U. rewrite U; [|congruence|congruence|rewrite G3; intro Z; symmetry; exact (HT Z)].
  destruct (Update s1) as [t|w]; [|reflexivity]. cbn [res_map both]. destruct t as [? ? ? [] ? ? ? ? ? ? ? ?]. auto.
Qed.
Lemma sessions_same : forall s rs t, session s rs t -> forall s' rs' t', scribbled s s' -> session s' rs' t' -> p_invalid (st_p s) = false -> p_calib (st_p s) = false ->
  Forall2 (fun r r' => fst (fst (fst r)) = fst (fst (fst r')) /\ snd (fst (fst r)) = snd (fst (fst r')) /\ (p_sft (st_p s) = true -> snd (fst r) = snd (fst r'))) rs rs' -> map snd rs = map snd rs'.
Proof.
  intros s rs t H. induction H as [s|s s1 s2 rs s3 Ed U H IH]; intros s' rs' t' HS H' HI HC F; inversion F as [|r r' q q' (F1 & F2 & F3) F4]; subst; [reflexivity|].
  inversion H' as [|x s1' s2' rs2 s3' Ed' U' H2]; subst. cbn [fst snd] in *.
  destruct (edits_scribbled s s' s1 s1' HS Ed Ed' F1 F2) as (out & nf & tw & dw & E). destruct (edit_flags _ _ Ed) as (G1 & G2 & G3). rewrite HI in G1. rewrite HC in G2.
  rewrite E, update_scribble, U in U'; [|assumption|assumption|rewrite G3; intro Z; symmetry; exact (F3 Z)]. cbn [res_map] in U'. apply Ok_inj in U'. rewrite <- U' in *.
  destruct (update_flags _ _ G1 G2 U) as (K1 & K2 & K3). cbn [map snd].
  replace (published (inputs (p_soilT (st_p s1')) (st_cal s1') s2)) with (published s2) by (destruct s2 as [? ? ? [] ? ? ? ? ? ? ? ?]; reflexivity). apply (f_equal (cons (published s2))).
  eapply IH; [|exact H2|assumption|assumption|].
  - exists (p_soilT (st_p s1')), (st_cal s1'), (st_out s2), (p_nfronts (st_p s2)), (p_theta_wf (st_p s2)), (p_depth_wf (st_p s2)). destruct s2 as [? ? ? [] ? ? ? ? ? ? ? ?]. reflexivity.
  - rewrite K3, G3. exact F4.
Qed.
Theorem session_inputs : forall s rs t rs' t', session s rs t -> session s rs' t' -> p_invalid (st_p s) = false -> p_calib (st_p s) = false ->
  Forall2 (fun r r' => fst (fst (fst r)) = fst (fst (fst r')) /\ snd (fst (fst r)) = snd (fst (fst r')) /\ (p_sft (st_p s) = true -> snd (fst r) = snd (fst r'))) rs rs' -> map snd rs = map snd rs'.
Proof.
  intros s rs t rs' t' H H' HI HC F. apply (sessions_same s rs t H s rs' t'); try assumption.
  exists (p_soilT (st_p s)), (st_cal s), (st_out s), (p_nfronts (st_p s)), (p_theta_wf (st_p s)), (p_depth_wf (st_p s)). destruct s as [? ? ? [] ? ? ? ? ? ? ? ?]. reflexivity.
Qed.
End Sessions.

(** ** The unit hydrograph *)
Section Routing.
Context {fp : Fp} {cfg : Cfg}.

Definition reroute n o q a b out (s : state) : state :=
  s <| g_N := n |> <| g_ord := o |> <| g_queue := q |> <| st_mb := (st_mb s) <| mb_giuh := a |> <| mb_Q := b |> |> <| st_out := out |>.
Lemma rr_p : forall n o q x y out s, st_p (reroute n o q x y out s) = st_p s. Proof. reflexivity. Qed.
Lemma rr_head : forall n o q x y out s, st_head (reroute n o q x y out s) = st_head s. Proof. reflexivity. Qed.
Lemma rr_precip : forall n o q x y out s, st_precip (reroute n o q x y out s) = st_precip s. Proof. reflexivity. Qed.
Lemma rr_pet : forall n o q x y out s, st_pet (reroute n o q x y out s) = st_pet s. Proof. reflexivity. Qed.
Lemma rr_env : forall n o q x y out s, env_of (reroute n o q x y out s) = env_of s. Proof. reflexivity. Qed.
Lemma rr_on : forall n o q x y out s, mb_on_ts (st_mb (reroute n o q x y out s)) = mb_on_ts (st_mb s). Proof. reflexivity. Qed.
Lemma rr_local : forall n o q x y out s, mb_local (st_mb (reroute n o q x y out s)) = mb_local (st_mb s). Proof. reflexivity. Qed.
Lemma substep_reroute : forall n o q x y out u s a, substep u (reroute n o q x y out s) a = res_map (fun r => (reroute n o q x y out (fst r), snd r)) (substep u s a).
Proof.
  intros. destruct s as [hd pv so p mb pr pe ca ou gn go gq]. destruct mb. unfold substep, reroute. cbn.
  repeat match goal with |- context [bind ?m _] => destruct m as [?|?]; cbn; [|reflexivity] end.
  match goal with |- context [if ?b then _ else _] => destruct b end; [reflexivity|].
  repeat match goal with |- context [bind ?m _] => destruct m as [?|?]; cbn; [|reflexivity] end. reflexivity.
Qed.
Lemma loop_reroute : forall n o q x y out u k s a, subcycle_loop k u (reroute n o q x y out s) a = res_map (fun r => (reroute n o q x y out (fst r), snd r)) (subcycle_loop k u s a).
Proof.
  intros n o q x y out u k. induction k as [|k IH]; intros s a; cbn [subcycle_loop]; [reflexivity|]. rewrite substep_reroute. destruct (substep u s a) as [[s1 a1]|w]; cbn [res_map bind fst snd]; [|reflexivity].
  change (st_p (reroute n o q x y out s1)) with (st_p s1). destruct (_ && _)%bool; [reflexivity|]. apply IH.
Qed.
Lemma unrouted_is : forall a b c d e f g h i j k, unrouted (mkOut a b c d e f g h i j k) = [a; b; c; d; e; f; i; j; k].
Proof. reflexivity. Qed.
Lemma finish_reroute : forall n o q x y out s a v t t', finish_update s a v = Ok t -> finish_update (reroute n o q x y out s) a v = Ok t' ->
  rerouted t t' /\ exists b b', st_out t = Some b /\ st_out t' = Some b' /\ unrouted b = unrouted b'.
Proof.
  intros n o q x y out s a v t t' E E'. destruct (finish_inv _ _ _ _ E) as (g & q1 & mbl & _ & L1 & ->). destruct (finish_inv _ _ _ _ E') as (g' & q2 & mbl' & _ & L2 & ->).
  rewrite rr_local, L1 in L2. injection L2 as <-. clear. split.
  - exists n, o, q2, (x + g')%d, (y + g')%d. eexists. reflexivity.
  - do 2 eexists. split; [reflexivity|]. split; [reflexivity|]. rewrite 2 unrouted_is. reflexivity.
Qed.
Lemma prologue_reroute : forall n o q x y out s, update_prologue (reroute n o q x y out s) = res_map (fun r => (reroute n o q x y out (fst r), snd r)) (update_prologue s).
Proof.
  intros n o q x y out s. destruct s as [hd pv so p mb pr pe ca ou gn go gq]. unfold update_prologue, reroute, update_calibratable_parameters. cbn.
  match goal with |- bind ?m _ = res_map _ (bind ?m _) => destruct m as [pp|w]; cbn; [|reflexivity] end. destruct (p_calib pp); [|reflexivity].
  repeat match goal with |- context [bind ?m _] => destruct m as [?|?]; cbn; [|reflexivity] | |- context [let '(_, _) := ?z in _] => destruct z end.
  all: reflexivity.
Qed.
Lemma steps_reroute : forall n o q x y out s, update_steps (reroute n o q x y out s) = res_map (fun r => (reroute n o q x y out (fst (fst r)), snd (fst r), snd r)) (update_steps s).
Proof. intros n o q x y out s. destruct s as [hd pv so p mb pr pe ca ou gn go gq]. destruct mb. unfold update_steps, reroute. cbn. destruct (d2i _) as [m|w]; reflexivity. Qed.

Lemma invalid_reroute : forall n o q x y out s, rerouted (update_invalid s) (update_invalid (reroute n o q x y out s)) /\ st_out (update_invalid (reroute n o q x y out s)) = st_out (update_invalid s) /\
  exists b, st_out (update_invalid s) = Some b.
Proof.
  intros n o q x y out s. split; [|split; [reflexivity|eexists; reflexivity]]. exists n, o, q, (Fin 0), (y + st_precip s * mm_to_cm)%d. eexists. reflexivity.
Qed.
Lemma rerouted_head : forall s s', rerouted s s' -> st_head s' = st_head s. Proof. intros s s' (n & o & q & a & b & out & ->). reflexivity. Qed.
Lemma rerouted_global : forall s s', rerouted s s' -> global_error (st_mb s') = global_error (st_mb s). Proof. intros s s' (n & o & q & a & b & out & ->). reflexivity. Qed.
Lemma rerouted_forcing : forall s s' p e, rerouted s s' -> rerouted (s <| st_precip := p |> <| st_pet := e |>) (s' <| st_precip := p |> <| st_pet := e |>).
Proof. intros s s' p e (n & o & q & a & b & out & ->). exists n, o, q, a, b, out. reflexivity. Qed.
Lemma columns_routing : forall t b b' h, unrouted b = unrouted b' -> same_but_routing (mkRowOut t (map D (columns_of b)) h) (mkRowOut t (map D (columns_of b')) h).
Proof.
  intros t [] [] h H. rewrite 2 unrouted_is in H. repeat split. intros k K4 K6. cbn [w_vars]. unfold columns_of. injection H as <- <- <- <- <- <- <- <- <-.
  do 4 (destruct k as [|k]; [reflexivity|]). destruct k as [|k]; [congruence|]. destruct k as [|k]; [reflexivity|]. destruct k as [|k]; [congruence|]. reflexivity.
Qed.
Definition ordinates (g : option (list dbl)) (c : conf) : conf := c <| cf_giuh := g |>.
Lemma line_ordinates : forall g c l, line_key l <> "giuh_ordinates"%string -> config_line (ordinates g c) l = res_map (ordinates g) (config_line c l).
Proof.
  intros g c l H. unfold config_line. cbv zeta. apply String.eqb_neq in H. rewrite H. clear H. destruct c.
  repeat match goal with |- (if ?b then _ else _) = _ => destruct b | |- bind ?m _ = res_map _ (bind ?m _) => destruct m as [?|?]; cbn [bind res_map] end; try reflexivity.
  all: cbn [ordinates Config.cf_endtime set].
  all: match goal with |- bind ?m _ = res_map _ (bind ?m' _) => change m with m'; destruct m' as [[?|]|?]; cbn [bind res_map]; try reflexivity end.
  all: destruct (cassert _) as [[]|]; reflexivity.
Qed.
Lemma lines_ordinates : forall ls ls', Forall2 other_hydrograph ls ls' -> forall c g d d', config_lines c ls = Ok d -> config_lines (ordinates g c) ls' = Ok d' -> exists g', d' = ordinates g' d.
Proof.
  intros ls ls' F. induction F as [|l l' ls ls' HL F IH]; intros c g d d' E E'; cbn [config_lines] in E, E'.
  - apply Ok_inj in E, E'. subst. exists g. reflexivity.
  - bind_inv E cx Ec. bind_inv E' cx' Ec'. enough (exists g', cx' = ordinates g' cx) as [g' ->] by (exact (IH _ _ _ _ E E')).
    assert (K : l = l' /\ line_key l <> "giuh_ordinates"%string \/ line_key l = "giuh_ordinates"%string /\ line_key l' = "giuh_ordinates"%string).
    { destruct HL as [<-|]; [|auto]. destruct (string_dec (line_key l) "giuh_ordinates"); auto. }
    destruct K as [[<- K]|[K K']].
    + rewrite line_ordinates, Ec in Ec'; [|assumption]. apply Ok_inj in Ec'. subst. exists g. reflexivity.
    + unfold config_line in Ec, Ec'. rewrite K in Ec. rewrite K' in Ec'. cbn in Ec, Ec'. bind_inv Ec v Ev. bind_inv Ec' v' Ev'. apply Ok_inj in Ec, Ec'. subst. exists (Some v'). destruct c. reflexivity.
Qed.
Lemma init_ordinates : forall files junk c g z z', init_rest files junk c = Ok z -> init_rest files junk (ordinates g c) = Ok z' ->
  sr_p z' = sr_p z /\ sr_head z' = sr_head z /\ sr_tab z' = sr_tab z /\ sr_vol z' = sr_vol z.
Proof.
  intros files junk [] g z z'. unfold init_rest, ordinates. cbv zeta.
  cbn [set Config.cf_thick Config.cf_stype Config.cf_giuh Config.cf_soilz Config.cf_psi Config.cf_maxtypes Config.cf_file Config.cf_wp Config.cf_fc Config.cf_closed Config.cf_adaptive Config.cf_timestep Config.cf_endtime Config.cf_fres Config.cf_sft Config.cf_pmax Config.cf_calib].
  destruct (need cf_stype) as [st|]; [|discriminate]. cbn [bind]. destruct (need cf_file) as [file|]; [|discriminate]. cbn [bind].
  match goal with |- context [(?n + 1 <? 0)%Z] => set (nst := n) end. destruct (nst + 1 <? 0)%Z; [discriminate|]. cbn [bind].
  destruct (lgar_read_vG_param_file _ _ _ _ _) as [tab|]; [|discriminate]. cbn [bind].
  destruct (known cf_thick) as [thick|]; [|discriminate]. cbn [bind]. destruct (any_invalid _ _ _ _) as [inv|]; [|discriminate]. cbn [bind].
  destruct (need cf_psi) as [psi|]; [|discriminate]. cbn [bind]. destruct (need cf_timestep) as [dt|]; [|discriminate]. cbn [bind]. destruct (need cf_endtime) as [et|]; [|discriminate]. cbn [bind].
  destruct (need cf_wp) as [wp|]; [|discriminate]. cbn [bind]. destruct (need cf_fc) as [fc|]; [|discriminate]. cbn [bind]. destruct (need cf_fres) as [fres|]; [|discriminate]. cbn [bind].
  destruct (need cf_giuh) as [ord|]; [|discriminate]. destruct (need g) as [ord'|]; [|discriminate]. cbn [bind]. destruct (resample fres ord) as [[n ords]|]; [|discriminate].
  destruct (resample fres ord') as [[n' ords']|]; [|discriminate]. cbn [bind].
  match goal with |- context [bind (if cf_sft then ?x else ?y) _] => destruct (if cf_sft then x else y) as [[ncells tz]|] end; [|discriminate]. cbn [bind].
  destruct (d2i _) as [fint|]; [|discriminate]. cbn [bind]. destruct (InitializeWettingFronts _ _ _ _ _ _) as [head|]; [|discriminate]. cbn [bind].
  destruct (lgar_calc_mass_bal _ _) as [vol|]; [|discriminate]. cbn [bind]. destruct (cassert _) as [[]|]; [|discriminate]. cbn [bind]. intros E E'. apply Ok_inj in E, E'. subst. repeat split.
Qed.
Lemma forcing_file_routing : forall ls ls', Forall2 other_hydrograph ls ls' -> forcing_file ls = forcing_file ls'.
Proof.
  intros ls ls' F. induction F as [|l l' ls ls' HL F IH]; [reflexivity|]. cbn [forcing_file]. destruct HL as [<-|[K K']]; [rewrite IH; reflexivity|]. rewrite K, K'. exact IH.
Qed.
Theorem routing_initialize : forall files junk ls ls' s s', Forall2 other_hydrograph ls ls' -> Initialize files junk ls = Ok s -> Initialize files junk ls' = Ok s' -> rerouted s s'.
Proof.
  intros files junk ls ls' s s' F E E'. unfold Initialize, InitFromConfigFile in E, E'. bind_inv E z Ez. bind_inv Ez c Ec. bind_inv E' z' Ez'. bind_inv Ez' c' Ec'.
  destruct (lines_ordinates ls ls' F conf0 None c c' Ec Ec') as [g ->]. destruct (init_ordinates _ _ _ _ _ _ Ez Ez') as (P & H & T & V).
  cbv zeta in E, E'. rewrite P, H, T, V in E'. bind_inv E vs Ev. bind_inv E os Eo. bind_inv E' vs' Ev'. bind_inv E' os' Eo'. rewrite Ev in Ev'. apply Ok_inj in Ev'. subst vs'.
  apply Ok_inj in E, E'. subst s s'. do 6 eexists. reflexivity.
Qed.
Lemma both_bind : forall A B C E (R : A -> B -> Prop) (Q : C -> E -> Prop) m m' f g, both R m m' -> (forall a b, R a b -> both Q (f a) (g b)) -> both Q (bind m f) (bind m' g).
Proof. intros A B C E R Q [a|w] [b|w'] f g H K; cbn in *; try contradiction; [apply K; exact H|exact H]. Qed.
Lemma both_res_map : forall A B C (h : A -> A) (Q : B -> C -> Prop) m f g, (forall a, both Q (f a) (g (h a))) -> both Q (bind m f) (bind (res_map h m) g).
Proof. intros A B C h Q [a|w] f g H; cbn; [apply H|reflexivity]. Qed.
Lemma both_refl : forall A (m : outcome A), both eq m m. Proof. intros A [a|w]; reflexivity. Qed.
Lemma both_same : forall A B C (Q : B -> C -> Prop) (m : outcome A) f g, (forall a, both Q (f a) (g a)) -> both Q (bind m f) (bind m g).
Proof. intros A B C Q [a|w] f g H; cbn; [apply H|reflexivity]. Qed.

Lemma routes_loop : forall u k s a s' a', subcycle_loop k u s a = Ok (s', a') -> g_N s' = g_N s /\ g_ord s' = g_ord s /\ g_queue s' = g_queue s.
Proof.
  intros u k s a s' a' H. destruct (loop_runs k u s a s' a' H) as (xs & E & _).
  apply (runs_ind_inv (fun t _ => g_N t = g_N s /\ g_ord t = g_ord s /\ g_queue t = g_queue s) u) in E; [exact E| |auto].
  intros t1 b1 t2 b2 HF X. destruct (substep_inv _ _ _ _ _ X) as (v1 & b & v2 & mbl & p1 & p2 & p3 & p4 & _ & _ & _ & _ & _ & _ & _ & _ & _ & -> & _). exact HF.
Qed.
Lemma routes_prologue : forall s s1 v, update_prologue s = Ok (s1, v) -> g_N s1 = g_N s /\ g_ord s1 = g_ord s /\ g_queue s1 = g_queue s.
Proof.
  intros s s1 v H. destruct s as [hd pv so p mb pr pe ca ou gn go gq]. pose proof (prologue_reroute gn go gq (mb_giuh mb) (mb_Q mb) ou (mkState hd pv so p mb pr pe ca ou gn go gq)) as P.
  replace (reroute gn go gq (mb_giuh mb) (mb_Q mb) ou (mkState hd pv so p mb pr pe ca ou gn go gq)) with (mkState hd pv so p mb pr pe ca ou gn go gq) in P by (destruct mb; reflexivity).
  rewrite H in P. cbn [res_map fst snd] in P. apply Ok_inj, pair_equal_spec in P as [-> _]. auto.
Qed.
Lemma both_finish : forall n o q x y out s a v, routes s -> routes (reroute n o q x y out s) ->
  both (fun t t' => rerouted t t' /\ routes t /\ routes t' /\ exists b b', st_out t = Some b /\ st_out t' = Some b' /\ unrouted b = unrouted b') (finish_update s a v) (finish_update (reroute n o q x y out s) a v).
Proof.
  intros n o q x y out s a v [R1 R2] [R1' R2'].
  destruct (giuh_ok (a_runoff a) _ _ _ (proj1 R1) (proj2 R1) R2) as (g & q1 & G & L). destruct (giuh_ok (a_runoff a) _ _ _ (proj1 R1') (proj2 R1') R2') as (g' & q1' & G' & L').
  destruct (finish_update s a v) as [t|w] eqn:E, (finish_update (reroute n o q x y out s) a v) as [t'|w'] eqn:E'; cbn [both].
  - destruct (finish_reroute _ _ _ _ _ _ _ _ _ _ _ E E') as [H1 H2]. split; [exact H1|]. split; [|split; [|exact H2]].
    + destruct (finish_inv _ _ _ _ E) as (h & q2 & mbl & G2 & _ & ->). rewrite G in G2. apply Ok_inj, pair_equal_spec in G2 as [_ <-]. split; [exact R1|]. rewrite <- L in R2. exact R2.
    + destruct (finish_inv _ _ _ _ E') as (h & q2 & mbl & G2 & _ & ->). rewrite G' in G2. apply Ok_inj, pair_equal_spec in G2 as [_ <-]. split; [exact R1'|]. rewrite <- L' in R2'. exact R2'.
  - unfold finish_update in E, E'. rewrite G in E. rewrite G' in E'. cbn [bind] in E, E'. rewrite rr_local in E'. destruct (mb_local (st_mb s)); discriminate.
  - unfold finish_update in E, E'. rewrite G in E. rewrite G' in E'. cbn [bind] in E, E'. rewrite rr_local in E'. destruct (mb_local (st_mb s)); discriminate.
  - unfold finish_update in E, E'. rewrite G in E. rewrite G' in E'. cbn [bind] in E, E'. rewrite rr_local in E'. destruct (mb_local (st_mb s)); [discriminate|congruence].
Qed.
Theorem routing_both : forall s s', rerouted s s' -> routes s -> routes s' ->
  both (fun t t' => rerouted t t' /\ routes t /\ routes t' /\ exists b b', st_out t = Some b /\ st_out t' = Some b' /\ unrouted b = unrouted b') (Update s) (Update s').
Proof.
  intros s s' (n & o & q & x & y & out & ->) HR HR'. fold (reroute n o q x y out s) in *. unfold Update. rewrite rr_p. destruct (p_invalid (st_p s)).
  { cbn [both]. destruct (invalid_reroute n o q x y out s) as (R & O & z & Z). split; [exact R|]. split; [exact HR|]. split; [exact HR'|]. exists z, z. rewrite O. auto. }
  rewrite prologue_reroute. destruct (update_prologue s) as [[s1 v]|w] eqn:EP; cbn [res_map bind fst snd]; [|reflexivity]. destruct (routes_prologue _ _ _ EP) as (P1 & P2 & P3). rewrite rr_p, rr_head, rr_precip, rr_pet.
  destruct (lgar_calc_mass_bal _ _) as [vol|w]; cbn [bind]; [|reflexivity].
  destruct (cassert (st_precip s1 >=? Fin 0)%d) as [[]|w]; cbn [bind]; [|reflexivity]. destruct (cassert (st_pet s1 >=? Fin 0)%d) as [[]|w]; cbn [bind]; [|reflexivity].
  rewrite steps_reroute. destruct (update_steps s1) as [[[s2 dt] m]|w] eqn:ES; cbn [res_map bind fst snd]; [|reflexivity]. cbv zeta. rewrite rr_p, rr_env, rr_on, loop_reroute.
  destruct (steps_inv _ _ _ _ ES) as (_ & _ & E2).
  set (u := mkU _ _ _ _ _ _ _). set (a0 := acc0 _ _). clearbody u a0.
  destruct (subcycle_loop (Z.to_nat m) u s2 a0) as [[s3 a3]|w] eqn:EL; cbn [res_map bind fst snd]; [|reflexivity]. destruct (routes_loop _ _ _ _ _ _ EL) as (L1 & L2 & L3).
  apply both_finish.
  - unfold routes. rewrite L1, L2, L3, E2. cbn [g_N g_ord g_queue set]. unfold routes in HR. rewrite <- P1, <- P2, <- P3 in HR. exact HR.
  - exact HR'.
Qed.

Definition routed_objects (o o' : obj) : Prop := rerouted (ob_s o) (ob_s o') /\ routes (ob_s o) /\ routes (ob_s o') /\ ob_pre o = ob_pre o'.
Lemma value_routing : forall name l o o', GetValuePtr name = Ok l -> (forall i, l <> LOut i) -> rerouted (ob_s o) (ob_s o') -> GetValue name o = GetValue name o'.
Proof.
  intros name l [s pre] [s' pre'] H N R. cbn [ob_s] in R. destruct R as (n & q & b & c & d & out & ->). unfold GetValue. rewrite H. cbn [bind].
  change (GetVarNbytes name (mkObj (s <| g_N := n |> <| g_ord := q |> <| g_queue := b |> <| st_mb := (st_mb s) <| mb_giuh := c |> <| mb_Q := d |> |> <| st_out := out |>) pre')) with (GetVarNbytes name (mkObj s pre)).
  destruct (items _ _) as [ix|w]; [|reflexivity]. cbn [bind]. destruct l; try reflexivity. destruct (N i eq_refl).
Qed.
Theorem routing_step : forall f i o o', routed_objects o o' -> both (fun x y => routed_objects (fst x) (fst y) /\ same_but_routing (snd x) (snd y)) (drive_step f i o) (drive_step f i o').
Proof.
  intros f i o o' (R & W & W' & P). unfold drive_step. apply both_same. intro p. rewrite 2 set_precip. cbn [bind]. apply both_same. intro e. rewrite 2 set_pet. cbn [bind ob_s ob_pre].
  apply both_bind with (R := fun x y => routed_objects x y /\ exists b b', st_out (ob_s x) = Some b /\ st_out (ob_s y) = Some b' /\ unrouted b = unrouted b').
  { unfold bmi_Update. cbn [ob_s ob_pre]. eapply both_bind; [exact (routing_both _ _ (rerouted_forcing _ _ p e R) W W')|]. intros t t' (A & B & C & D0). cbn [both]. split; [|exact D0].
    split; [exact A|]. split; [exact B|]. split; [exact C|exact P]. }
  intros a b [RO (c & c' & C1 & C2 & C3)]. destruct RO as (R1 & RO). cbv zeta.
  rewrite (value_routing "soil_moisture_wetting_fronts"%string LTheta a b eq_refl ltac:(discriminate) R1), (value_routing "soil_depth_wetting_fronts"%string LDepth a b eq_refl ltac:(discriminate) R1).
  replace (p_nfronts (st_p (ob_s b))) with (p_nfronts (st_p (ob_s a))) by (destruct R1 as (? & ? & ? & ? & ? & ? & ->); reflexivity).
  apply both_same. intro th. apply both_same. intros _. apply both_same. intro dp. apply both_same. intros _. apply both_same. intro t.
  rewrite (columns_some a c C1), (columns_some b c' C2). cbn [bind both fst snd]. split; [split; assumption|]. rewrite (rerouted_head _ _ R1). apply columns_routing. exact C3.
Qed.
Theorem routing_drive : forall k f i o o', routed_objects o o' -> both (fun x y => routed_objects (fst x) (fst y) /\ Forall2 same_but_routing (snd x) (snd y)) (drive k f i o) (drive k f i o').
Proof.
  induction k as [|k IH]; intros f i o o' R; cbn [drive]; [split; [exact R|constructor]|].
  eapply both_bind; [exact (routing_step f i o o' R)|]. intros [a r] [b r'] [R1 S1]. cbn [fst snd] in *. eapply both_bind; [exact (IH f (i + 1)%Z a b R1)|].
  intros [c rs] [d rs'] [R2 S2]. cbn [fst snd both] in *. split; [exact R2|]. constructor; assumption.
Qed.

Lemma init_routes : forall files junk ls s, Initialize files junk ls = Ok s -> exists factor k, d2i (lit 1 / p_fres (st_p s))%d = Ok factor /\ (0 < k)%Z /\ g_N s = (factor * k)%Z /\
  ((1 <= factor)%Z -> routes s).
Proof.
  intros files junk ls s H. destruct (init_inv _ _ _ _ H) as (c & st & rows & tab & thick & psi & ord & I). destruct (init_giuh _ _ _ _ _ _ _ _ _ _ _ I) as (factor & F1 & F2 & F3 & F4).
  exists factor, (Z.of_nat (List.length ord)). pose proof (ord_ne _ _ _ _ _ _ _ _ _ _ _ I) as NE. assert (0 < Z.of_nat (List.length ord))%Z by (destruct ord; [congruence|cbn [List.length]; lia]).
  split; [exact F1|]. split; [assumption|]. split; [exact F3|]. intro P. destruct (in_s _ _ _ _ _ _ _ _ _ _ _ I) as (_ & _ & _ & _ & _ & Q & _).
  unfold routes. rewrite F4, Q, F3, spread_length, repeat_length. nia.
Qed.
Theorem routing_simulate : forall files texts junk ls ls' s s', Forall2 other_hydrograph ls ls' -> Initialize files junk ls = Ok s -> Initialize files junk ls' = Ok s' -> (1 <= g_N s)%Z ->
  both (fun r r' => Forall2 same_but_routing (rs_rows r) (rs_rows r') /\ rs_printed r = rs_printed r') (simulate files texts junk ls) (simulate files texts junk ls').
Proof.
  intros files texts junk ls ls' s s' F E E' N. pose proof (routing_initialize _ _ _ _ _ _ F E E') as R. destruct (init_routes _ _ _ _ E) as (fa & k & F1 & F2 & F3 & F4).
  destruct (init_routes _ _ _ _ E') as (fa' & k' & F1' & F2' & F3' & F4').
  assert (fa' = fa). { destruct R as (? & ? & ? & ? & ? & ? & ->). cbn in F1'. congruence. } subst fa'. assert (1 <= fa)%Z by nia.
  unfold simulate. rewrite E, E'. cbn [bind]. unfold ReadForcingData. rewrite <- (forcing_file_routing _ _ F).
  replace (GetEndTime (mkObj s' (repeat None 11))) with (GetEndTime (mkObj s (repeat None 11))) by (destruct R as (? & ? & ? & ? & ? & ? & ->); reflexivity).
  replace (GetTimeStep (mkObj s' (repeat None 11))) with (GetTimeStep (mkObj s (repeat None 11))) by (destruct R as (? & ? & ? & ? & ? & ? & ->); reflexivity).
  apply both_same. intro n. apply both_same. intro f. apply both_same. intros _. eapply both_bind.
  { apply routing_drive. split; [exact R|]. split; [auto|]. split; [auto|reflexivity]. }
  intros [o rs] [o' rs'] [(R1 & _) S1]. cbn [fst snd both rs_rows rs_printed] in *. split; [exact S1|]. symmetry. apply rerouted_global. exact R1.
Qed.
End Routing.

(** ** The future *)
Section Future.
Context {fp : Fp} {cfg : Cfg}.

Lemma driven_prefix : forall k s ps rs t ps' rs' t', driven s ps rs t -> driven s ps' rs' t' -> firstn k ps = firstn k ps' -> firstn k rs = firstn k rs'.
Proof.
  induction k as [|k IH]; intros s ps rs t ps' rs' t' H H' E; [reflexivity|]. inversion H; subst; inversion H'; subst; cbn [firstn] in *; try discriminate; [reflexivity|].
  apply (f_equal (@Some _)) in E. assert (E1 := E). injection E1 as -> -> -> E2.
  match goal with A : Update ?a = Ok ?x, B : Update ?a = Ok ?y |- _ => rewrite A in B; apply Ok_inj in B; subst y end.
  match goal with A : st_out ?x = Some ?b, B : st_out ?x = Some ?b' |- _ => rewrite A in B; injection B as <- end. f_equal. eapply IH; eassumption.
Qed.
Lemma firstn_combine : forall A B k (l : list A) (m : list B), firstn k (combine l m) = combine (firstn k l) (firstn k m).
Proof. intros A B k. induction k as [|k IH]; intros [|a l] [|b m]; cbn; try reflexivity. f_equal. apply IH. Qed.
Theorem causal : forall files texts texts' junk ls f f' k r r', ReadForcingData texts ls = Ok f -> ReadForcingData texts' ls = Ok f' -> same_until k f f' ->
  simulate files texts junk ls = Ok r -> simulate files texts' junk ls = Ok r' -> firstn k (rs_rows r) = firstn k (rs_rows r').
Proof.
  intros files texts texts' junk ls f f' k r r' Rf Rf' (S1 & S2 & S3) H H'. destruct (simulate_inv _ _ _ _ _ H) as (s & f0 & n & Es & Ef & En & _ & D1 & _).
  destruct (simulate_inv _ _ _ _ _ H') as (s' & f0' & n' & Es' & Ef' & En' & _ & D1' & _). rewrite Rf in Ef. rewrite Rf' in Ef'. apply Ok_inj in Ef, Ef'. subst f0 f0'.
  rewrite Es in Es'. apply Ok_inj in Es'. subst s'. rewrite En in En'. apply Ok_inj in En'. subst n'. refine (driven_prefix _ _ _ _ _ _ _ _ D1 D1' _).
  unfold first_steps. rewrite !firstn_firstn, (Nat.min_comm k (Z.to_nat n)), <- !firstn_firstn, !firstn_combine, S1, S2, S3. reflexivity.
Qed.
End Future.
