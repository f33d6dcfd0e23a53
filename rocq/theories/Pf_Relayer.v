(** The hydraulic routines see the soil of each layer only. *)

From Coq Require Import Reals ZArith List Bool Lia FunctionalExtensionality.
From RecordUpdate Require Import RecordSet.
From Verif Require Import Outcome Dbl Types ListOps Soil Giuh Fronts Infil Move State Update Lib Pf_Update Pf_Bmi Pf_Calib Pf_Influence Spec_Relayer.
From Verif Require Import Update.
Import ListNotations.
Import RecordSetNotations.

Section Env.
Context {fp : Fp} {cfg : Cfg}.
Variables (nl : Z) (cum fr : list dbl) (st st' : list (option Z)) (so so' : list (option soil)).
Hypothesis SL : same_layers st so st' so'.
Let e := mkEnv nl cum st so fr.
Let e' := mkEnv nl cum st' so' fr.

Lemma E_soil : soil_of e = soil_of e'.
Proof.
  apply functional_extensionality. intros k. unfold soil_of. cbn [e_stype e_soils e e']. specialize (SL k). destruct (uget st k) as [t|r], (uget st' k) as [t'|r']; cbn [bind]; try contradiction; [exact SL|congruence].
Qed.
Ltac go := rewrite ?E_soil; reflexivity.
Ltac ext := repeat (apply functional_extensionality; intro).

(** Soil and Fronts *)
Lemma E_aet : calc_aet e = calc_aet e'. Proof. unfold calc_aet. go. Qed.
Lemma E_merge_step : merge_step e = merge_step e'. Proof. unfold merge_step. go. Qed.
Lemma E_merge_loop : forall k, merge_loop k e = merge_loop k e'.
Proof. induction k as [|k IH]; ext; cbn [merge_loop]; [reflexivity|]. rewrite ?IH, ?E_merge_step. reflexivity. Qed.
Lemma E_merge : lgar_merge_wetting_fronts e = lgar_merge_wetting_fronts e'. Proof. unfold lgar_merge_wetting_fronts. ext. rewrite ?E_merge_loop. reflexivity. Qed.
Lemma E_cross_step : cross_step e = cross_step e'. Proof. unfold cross_step. go. Qed.
Lemma E_cross_loop : forall k, cross_loop k e = cross_loop k e'.
Proof. induction k as [|k IH]; ext; cbn [cross_loop]; [reflexivity|]. rewrite ?IH, ?E_cross_step. reflexivity. Qed.
Lemma E_cross : lgar_wetting_fronts_cross_layer_boundary e = lgar_wetting_fronts_cross_layer_boundary e'. Proof. unfold lgar_wetting_fronts_cross_layer_boundary. ext. rewrite ?E_cross_loop. reflexivity. Qed.
Lemma E_domain_loop : forall k d p l, domain_loop k e d p l = domain_loop k e' d p l.
Proof.
  induction k as [|k IH]; intros d p l; cbn [domain_loop]; [reflexivity|]. destruct (_ >=? _)%Z; [reflexivity|]. destruct (lget l p) as [c|]; [|reflexivity]. cbn [bind]. cbn [e_stype e_soils e e'].
  pose proof (SL (f_layer c)) as K. destruct (uget st (f_layer c)) as [t|r], (uget st' (f_layer c)) as [t'|r']; cbn [bind]; try contradiction; [|congruence].
  rewrite K. destruct (lget l (S p)) as [n|]; [|reflexivity]. cbn [bind]. destruct (nth_error l (S (S p))); [apply IH|]. destruct (_ >=? _)%d; [reflexivity|apply IH].
Qed.
Lemma E_domain : lgar_wetting_front_cross_domain_boundary e = lgar_wetting_front_cross_domain_boundary e'.
Proof. unfold lgar_wetting_front_cross_domain_boundary. ext. destruct x0; [reflexivity|]. apply E_domain_loop. Qed.
Lemma E_fix_above : forall l k psi, fix_above e k psi l = fix_above e' k psi l.
Proof. induction l as [|c r IH]; intros; cbn [fix_above]; [reflexivity|]. rewrite E_soil, IH. reflexivity. Qed.
Lemma E_fix_above' : fix_above e = fix_above e'. Proof. ext. apply E_fix_above. Qed.
Lemma E_fix_pair : fix_pair e = fix_pair e'. Proof. unfold fix_pair. rewrite ?E_soil, ?E_fix_above'. reflexivity. Qed.
Lemma E_fix_loop : forall k, fix_loop k e = fix_loop k e'.
Proof. induction k as [|k IH]; ext; cbn [fix_loop]; [reflexivity|]. rewrite ?IH, ?E_fix_pair. reflexivity. Qed.
Lemma E_fix : lgar_fix_dry_over_wet_wetting_fronts e = lgar_fix_dry_over_wet_wetting_fronts e'. Proof. unfold lgar_fix_dry_over_wet_wetting_fronts. ext. rewrite ?E_fix_loop. reflexivity. Qed.

(** Infil *)
Lemma E_above : layers_above_sum e = layers_above_sum e'. Proof. unfold layers_above_sum. go. Qed.
Lemma E_storage : max_storage e = max_storage e'. Proof. unfold max_storage. go. Qed.
Lemma E_capacity : infiltration_capacity e = infiltration_capacity e'. Proof. unfold infiltration_capacity. rewrite ?E_soil, ?E_above, ?E_storage. reflexivity. Qed.
Lemma E_insert : lgar_insert_water e = lgar_insert_water e'. Proof. unfold lgar_insert_water. rewrite ?E_capacity. reflexivity. Qed.
Lemma E_create : lgar_create_surficial_front e = lgar_create_surficial_front e'. Proof. unfold lgar_create_surficial_front. rewrite ?E_merge, ?E_cross. go. Qed.
Lemma E_dry : lgar_calc_dry_depth e = lgar_calc_dry_depth e'. Proof. unfold lgar_calc_dry_depth. go. Qed.
Lemma E_den : dzdt_denominator e = dzdt_denominator e'. Proof. unfold dzdt_denominator. go. Qed.
Lemma E_dzdt_front : dzdt_front e = dzdt_front e'. Proof. unfold dzdt_front. rewrite ?E_soil, ?E_den. reflexivity. Qed.
Lemma E_dzdt_loop : forall l c n h, dzdt_loop e c n h l = dzdt_loop e' c n h l.
Proof. induction l as [|f r IH]; intros; cbn [dzdt_loop]; [reflexivity|]. rewrite ?E_soil, ?E_dzdt_front, ?IH. reflexivity. Qed.
Lemma E_dzdt : lgar_dzdt_calc e = lgar_dzdt_calc e'. Proof. unfold lgar_dzdt_calc. ext. rewrite ?E_dzdt_loop. reflexivity. Qed.
Lemma E_tmb_mass : tmb_mass e = tmb_mass e'. Proof. unfold tmb_mass. go. Qed.
Lemma E_tmb_step : tmb_step e = tmb_step e'. Proof. unfold tmb_step. rewrite ?E_tmb_mass. reflexivity. Qed.
Lemma E_tmb_loop : forall k, tmb_loop k e = tmb_loop k e'.
Proof. induction k as [|k IH]; ext; cbn [tmb_loop]; [reflexivity|]. rewrite ?IH, ?E_tmb_step. reflexivity. Qed.
Lemma E_tmb : lgar_theta_mass_balance e = lgar_theta_mass_balance e'. Proof. unfold lgar_theta_mass_balance. rewrite ?E_tmb_loop. reflexivity. Qed.

(** Move *)
Lemma E_masses : masses_above e = masses_above e'. Proof. unfold masses_above. go. Qed.
Lemma E_balance : balance_theta e = balance_theta e'. Proof. unfold balance_theta. rewrite ?E_masses, ?E_tmb. reflexivity. Qed.
Lemma E_move_one : move_one e = move_one e'. Proof. unfold move_one. rewrite ?E_soil, ?E_balance. reflexivity. Qed.
Lemma E_move_loop : forall k, move_loop k e = move_loop k e'.
Proof. induction k as [|k IH]; ext; cbn [move_loop]; [reflexivity|]. rewrite ?IH, ?E_move_one. reflexivity. Qed.
Lemma E_closure_loop : forall k, closure_loop k e = closure_loop k e'.
Proof. induction k as [|k IH]; ext; cbn [closure_loop]; [reflexivity|]. rewrite ?IH. reflexivity. Qed.
Lemma E_closure : closure e = closure e'. Proof. unfold closure. rewrite ?E_soil, ?E_cross, ?E_closure_loop. reflexivity. Qed.
Lemma E_check : check_and_fix e = check_and_fix e'. Proof. unfold check_and_fix. rewrite ?E_fix. reflexivity. Qed.
Lemma E_phases : merge_phases e = merge_phases e'. Proof. unfold merge_phases. rewrite ?E_merge, ?E_cross, ?E_check, ?E_domain. reflexivity. Qed.
Lemma E_refresh : forall l, refresh_psi e l = refresh_psi e' l.
Proof. induction l as [|f r IH]; intros; cbn [refresh_psi]; [reflexivity|]. rewrite ?E_soil, ?IH. reflexivity. Qed.
Lemma E_refresh' : refresh_psi e = refresh_psi e'. Proof. ext. apply E_refresh. Qed.
Lemma E_single : fix_single e = fix_single e'. Proof. unfold fix_single. go. Qed.
Lemma E_move : lgar_move_wetting_fronts e = lgar_move_wetting_fronts e'.
Proof. unfold lgar_move_wetting_fronts. ext. rewrite ?E_move_loop, ?E_closure, ?E_phases, ?E_refresh', ?E_single. reflexivity. Qed.

(** The sub-step *)
Lemma E_decision : create_decision e = create_decision e'. Proof. unfold create_decision. go. Qed.
Lemma E_hydro : forall dt n c w f m, sub_hydro (mkU e dt n c w f m) = sub_hydro (mkU e' dt n c w f m).
Proof.
  intros. unfold sub_hydro, sub_create, sub_insert, sub_move, sub_no_insert. cbn [u_env u_dt u_nint u_closed u_wilting u_fc u_pmax].
  rewrite ?E_aet, ?E_decision, ?E_move, ?E_dry, ?E_create, ?E_insert, ?E_dzdt. reflexivity.
Qed.
End Env.

Section State.
Context {fp : Fp} {cfg : Cfg}.

Definition relayer (st : list (option Z)) (so : list (option soil)) (s : state) : state := s <| st_soils := so |> <| st_p := (st_p s) <| p_stype := st |> |>.

Lemma substep_relayer : forall st so nl cum fr st0 so0 dt n c w f m s a, same_layers st0 so0 st so ->
  substep (mkU (mkEnv nl cum st so fr) dt n c w f m) (relayer st so s) a = res_map (fun x => (relayer st so (fst x), snd x)) (substep (mkU (mkEnv nl cum st0 so0 fr) dt n c w f m) s a).
Proof.
  intros st so nl cum fr st0 so0 dt n c w f m s a H. destruct s as [hd pv so1 p mb pr pe ca ou gn go gq]. destruct p. unfold substep, relayer. cbn [u_dt]. rewrite (E_hydro nl cum fr _ _ _ _ H). cbn - [sub_hydro].
  repeat match goal with |- context [bind ?m _] => destruct m as [?|?]; cbn - [sub_hydro]; [|reflexivity] end.
  match goal with |- context [if ?b then _ else _] => destruct b end; [reflexivity|].
  repeat match goal with |- context [bind ?m _] => destruct m as [?|?]; cbn - [sub_hydro]; [|reflexivity] end. reflexivity.
Qed.
Lemma loop_relayer : forall st so nl cum fr st0 so0 dt n c w f m k s a, same_layers st0 so0 st so ->
  subcycle_loop k (mkU (mkEnv nl cum st so fr) dt n c w f m) (relayer st so s) a = res_map (fun x => (relayer st so (fst x), snd x)) (subcycle_loop k (mkU (mkEnv nl cum st0 so0 fr) dt n c w f m) s a).
Proof.
  intros st so nl cum fr st0 so0 dt n c w f m k. induction k as [|k IH]; intros s a H; cbn [subcycle_loop]; [reflexivity|]. rewrite (substep_relayer _ _ _ _ _ _ _ _ _ _ _ _ _ _ _ H).
  destruct (substep _ s a) as [[s1 a1]|r]; cbn [res_map bind fst snd]; [|reflexivity].
  change (p_time (st_p (relayer st so s1))) with (p_time (st_p s1)). change (p_endtime (st_p (relayer st so s1))) with (p_endtime (st_p s1)).
  destruct (_ && _)%bool; [reflexivity|]. apply IH. exact H.
Qed.
Lemma finish_relayer : forall st so s a v, finish_update (relayer st so s) a v = res_map (relayer st so) (finish_update s a v).
Proof.
  intros. destruct s as [hd pv so1 p mb pr pe ca ou gn go gq]. destruct p. unfold finish_update, relayer. cbn.
  destruct (giuh_convolution_integral _ _ _ _) as [[g q]|w]; cbn; [|reflexivity]. destruct (mb_local mb); reflexivity.
Qed.
(** An Update once its prologue is done. *)
Definition after_prologue (s : state) (vcal : dbl) : outcome state :=
  volend <- lgar_calc_mass_bal (p_cum (st_p s)) (st_head s) ;;
  _ <- cassert (st_precip s >=? Fin 0)%d ;;
  _ <- cassert (st_pet s >=? Fin 0)%d ;;
  '(s, dt, n) <- update_steps s ;;
  let p := st_p s in
  let u := mkU (env_of s) dt (p_nint p) (p_closed p) (p_wilting p) (p_fc p) (p_pmax p) in
  '(s, a) <- subcycle_loop (Z.to_nat n) u s (acc0 volend (mb_on_ts (st_mb s))) ;;
  finish_update s a vcal.
Lemma rest_relayer : forall st so s v, same_layers (p_stype (st_p s)) (st_soils s) st so -> after_prologue (relayer st so s) v = res_map (relayer st so) (after_prologue s v).
Proof.
  intros st so s v H. unfold after_prologue. change (p_cum (st_p (relayer st so s))) with (p_cum (st_p s)). change (st_head (relayer st so s)) with (st_head s).
  change (st_precip (relayer st so s)) with (st_precip s). change (st_pet (relayer st so s)) with (st_pet s).
  destruct (lgar_calc_mass_bal _ _) as [vol|w]; cbn [bind]; [|reflexivity].
  destruct (cassert (st_precip s >=? Fin 0)%d) as [[]|w]; cbn [bind]; [|reflexivity]. destruct (cassert (st_pet s >=? Fin 0)%d) as [[]|w]; cbn [bind]; [|reflexivity].
  assert (S : update_steps (relayer st so s) = res_map (fun x => (relayer st so (fst (fst x)), snd (fst x), snd x)) (update_steps s)).
  { destruct s as [hd pv so1 p mb pr pe ca ou gn go gq]. destruct p. unfold update_steps, relayer. cbn. destruct (d2i _) as [n|w]; reflexivity. }
  rewrite S. destruct (update_steps s) as [[[s2 dt] n]|w] eqn:E2; cbn [res_map bind fst snd]; [|reflexivity].
  destruct (steps_inv _ _ _ _ E2) as (_ & _ & E).
  assert (H2 : same_layers (p_stype (st_p s2)) (st_soils s2) st so) by (rewrite E; exact H). clear E E2 S.
  unfold env_of. match goal with |- bind (subcycle_loop ?k ?u' ?s' ?a') _ = res_map _ (bind (subcycle_loop ?k ?u ?s ?a) _) =>
    change u' with (mkU (mkEnv (p_nlayers (st_p s2)) (p_cum (st_p s2)) st so (p_frozen (st_p s2))) dt (p_nint (st_p s2)) (p_closed (st_p s2)) (p_wilting (st_p s2)) (p_fc (st_p s2)) (p_pmax (st_p s2)));
    change a' with a; rewrite (loop_relayer _ _ _ _ _ _ _ _ _ _ _ _ _ _ _ _ H2); destruct (subcycle_loop k u s a) as [[s3 a3]|w] end; cbn [res_map bind fst snd]; [|reflexivity].
  apply finish_relayer.
Qed.

(** Calibration *)
Lemma calib_relayer : forall st st', own_rows st -> own_rows st' -> forall k cal done rest so so', same_layers st so st' so' ->
  both (fun x x' => fst x = fst x' /\ same_layers st (snd x) st' (snd x')) (calib_loop k st cal done rest so) (calib_loop k st' cal done rest so').
Proof.
  intros st st' O O'. induction k as [|k IH]; intros cal done rest so so' H; cbn [calib_loop]; [split; [reflexivity|exact H]|]. destruct rest as [|c r]; [reflexivity|]. cbv zeta.
  pose proof (H (f_layer c)) as K. destruct (uget st (f_layer c)) as [t|w] eqn:Et, (uget st' (f_layer c)) as [t'|w'] eqn:Et'; cbn [bind both]; try contradiction; [|exact K].
  repeat match goal with |- both _ (bind (aget ?l ?i) _) _ => destruct (aget l i) as [?|?]; cbn [bind]; [|reflexivity] end.
  rewrite <- K. destruct (uget so t) as [sl|w] eqn:Es; cbn [bind]; [|reflexivity].
  assert (B : forall (b : list (option soil)) i x y, uget b i = Ok x -> exists b', aset b i (Some y) = Ok b').
  { intros b i x y E. unfold uget, aget in E. unfold aset. destruct (i <? 0)%Z; [discriminate|]. destruct (nth_error b (Z.to_nat i)) eqn:En; [|discriminate]. assert (N : (Z.to_nat i < length b)%nat) by (apply nth_error_Some; congruence).
    apply Nat.ltb_lt in N. rewrite N. eauto. }
  symmetry in K. match goal with |- context [aset so t (Some ?x)] => set (sl' := x) end.
  destruct (B _ _ _ sl' Es) as (so1 & E1). destruct (B _ _ _ sl' K) as (so1' & E1'). rewrite E1, E1'. cbn [bind]. apply IH.
  intros j. pose proof (H j) as J. destruct (uget st j) as [x|] eqn:Ex, (uget st' j) as [x'|] eqn:Ex'; try contradiction; [|exact J].
  rewrite (uget_aset _ _ _ _ _ x E1), (uget_aset _ _ _ _ _ x' E1').
  destruct (x =? t)%Z eqn:X.
  - apply Z.eqb_eq in X. subst x. assert (j = f_layer c) by exact (O _ _ _ Ex Et). subst j. rewrite Et' in Ex'. apply Ok_inj in Ex'. subst x'. rewrite Z.eqb_refl. reflexivity.
  - destruct (x' =? t')%Z eqn:X'; [|exact J]. apply Z.eqb_eq in X'. subst x'. assert (j = f_layer c) by exact (O' _ _ _ Ex' Et'). subst j. rewrite Et in Ex. apply Ok_inj in Ex. subst x. rewrite Z.eqb_refl in X. discriminate.
Qed.

Lemma prologue_relayer : forall s st so, same_layers (p_stype (st_p s)) (st_soils s) st so -> (p_calib (st_p s) = true -> own_rows (p_stype (st_p s)) /\ own_rows st) ->
  both (fun x x' => relayered (fst x) (fst x') /\ snd x = snd x') (update_prologue s) (update_prologue (relayer st so s)).
Proof.
  intros s st so H HC. unfold update_prologue. cbv zeta. change (p_sft (st_p (relayer st so s))) with (p_sft (st_p s)).
  assert (P : forall p p', p' = p <| p_stype := st |> -> p_stype p = p_stype (st_p s) -> p_calib p = p_calib (st_p s) ->
    both (fun x x' => relayered (fst x) (fst x') /\ snd x = snd x')
      (let s0 := s <| st_p := p |> in if p_calib p then '(s', v) <- update_calibratable_parameters s0 ;; Ok (s' <| st_p := (st_p s') <| p_calib := false |> |>, v) else Ok (s0, Fin 0))
      (let s0 := (relayer st so s) <| st_p := p' |> in if p_calib p' then '(s', v) <- update_calibratable_parameters s0 ;; Ok (s' <| st_p := (st_p s') <| p_calib := false |> |>, v) else Ok (s0, Fin 0))).
  { intros p p' -> Es Ec. cbv zeta. change (p_calib (p <| p_stype := st |>)) with (p_calib p). rewrite Ec. destruct (p_calib (st_p s)) eqn:C.
    - destruct (HC eq_refl) as [O O']. unfold update_calibratable_parameters. cbn [bind]. destruct s as [hd pv so1 q mb pr pe ca ou gn go gq]. unfold relayer. cbn - [lgar_calc_mass_bal calib_loop both] in *.
      destruct (lgar_calc_mass_bal (p_cum p) hd) as [before|w]; cbn [bind both]; [|reflexivity]. rewrite Es.
      pose proof (calib_relayer _ _ O O' (Z.to_nat (p_nfronts p)) ca [] hd so1 so H) as K. change (p_stype (p <| p_stype := st |>)) with st. change (p_nfronts (p <| p_stype := st |>)) with (p_nfronts p).
      destruct (calib_loop _ (p_stype q) _ _ _ _) as [[l so2]|w], (calib_loop _ st _ _ _ _) as [[l' so2']|w']; cbn [both fst snd bind] in *; try contradiction; [|exact K].
      destruct K as [<- K]. change (p_cum (p <| p_stype := st |>)) with (p_cum p). destruct (lgar_calc_mass_bal (p_cum p) l) as [after|w]; cbn [bind both fst snd]; [|reflexivity].
      split; [|reflexivity]. exists st, so2'. split; [reflexivity|]. cbn. rewrite Es. exact K.
    - split; [|reflexivity]. exists st, so. split; [destruct s; reflexivity|]. cbn. rewrite Es. exact H. }
  destruct (p_sft (st_p s)).
  - cbn [bind]. change (p_nlayers (st_p (relayer st so s))) with (p_nlayers (st_p s)). change (p_cum (st_p (relayer st so s))) with (p_cum (st_p s)). change (p_soilTz (st_p (relayer st so s))) with (p_soilTz (st_p s)).
    change (p_soilT (st_p (relayer st so s))) with (p_soilT (st_p s)). change (p_ncells (st_p (relayer st so s))) with (p_ncells (st_p s)). change (p_frozen (st_p (relayer st so s))) with (p_frozen (st_p s)).
    destruct (frozen_factor _ _ _ _ _ _) as [fr|w]; cbn [bind]; [|reflexivity]. apply P; reflexivity.
  - cbn [bind]. apply P; reflexivity.
Qed.

Theorem update_relayer : forall s s', relayered s s' -> (p_calib (st_p s) = true -> own_rows (p_stype (st_p s)) /\ own_rows (p_stype (st_p s'))) -> both relayered (Update s) (Update s').
Proof.
  intros s s' (st & so & -> & H) HC. change (both relayered (Update s) (Update (relayer st so s))). unfold Update. change (p_invalid (st_p (relayer st so s))) with (p_invalid (st_p s)).
  destruct (p_invalid (st_p s)). { exists st, so. split; [destruct s; reflexivity|exact H]. }
  pose proof (prologue_relayer s st so H HC) as P. destruct (update_prologue s) as [[s1 v]|w], (update_prologue (relayer st so s)) as [[s1' v']|w']; cbn [both fst snd bind] in *; try contradiction; [|exact P].
  destruct P as [(st1 & so1 & -> & H1) <-]. fold (after_prologue s1 v). pose proof (rest_relayer st1 so1 s1 v H1) as R.
  change (both relayered (after_prologue s1 v) (after_prologue (relayer st1 so1 s1) v)). rewrite R. destruct (after_prologue s1 v) as [t|w] eqn:E; cbn [res_map both]; [|reflexivity].
  exists st1, so1. split; [reflexivity|].
  assert (I1 : same_layers (p_stype (st_p s1)) (st_soils s1) (p_stype (st_p s1)) (st_soils s1)) by (intros k; destruct (uget (p_stype (st_p s1)) k); reflexivity).
  pose proof (rest_relayer _ _ s1 v I1) as R'. assert (I2 : relayer (p_stype (st_p s1)) (st_soils s1) s1 = s1) by (destruct s1 as [? ? ? [] ? ? ? ? ? ? ? ?]; reflexivity).
  rewrite I2, E in R'. cbn [res_map] in R'. apply Ok_inj in R'. rewrite R'. exact H1.
Qed.
End State.
