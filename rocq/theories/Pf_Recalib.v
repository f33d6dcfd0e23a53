(** Calibration switched on, but no value changed. *)

From Coq Require Import String Reals Lra ZArith List Bool Lia.
From RecordUpdate Require Import RecordSet.
From Verif Require Import Outcome Dbl Types ListOps Soil Fronts Infil State Update Bmi Config Driver Lib Spec_Common Spec_Calib Pf_Calib Pf_Bmi Pf_BmiRun Pf_Init Pf_InitState Pf_Table Pf_ConfigThm Pf_DriverRun Pf_Influence
  Exact Spec_Config Spec_Update Pf_InitTotal Spec_Relayer Spec_Recalib.
From Verif Require Import Update.
Import ListNotations.
Import RecordSetNotations.
Open Scope list_scope.

Section Recalib.
Context {fp : Fp} {cfg : Cfg}.

(** ** One Update *)
Lemma soil_again : forall cal k sl te tr n al ks, has_values cal k sl -> aget (c_theta_e cal) (k - 1) = Ok te -> aget (c_theta_r cal) (k - 1) = Ok tr -> aget (c_n cal) (k - 1) = Ok n ->
  aget (c_alpha cal) (k - 1) = Ok al -> aget (c_Ksat cal) (k - 1) = Ok ks -> calib_soil sl te tr n al ks = sl.
Proof.
  intros cal k sl te tr n al ks (A1 & A2 & A3 & A4 & A5 & A6) B1 B2 B3 B4 B5. rewrite A1 in B1. rewrite A2 in B2. rewrite A3 in B3. rewrite A4 in B4. rewrite A5 in B5.
  apply Ok_inj in B1, B2, B3, B4, B5. subst. destruct sl. unfold calib_soil. cbn in *. rewrite <- A6. reflexivity.
Qed.
Lemma set_again : forall so t (sl : soil), uget so t = Ok sl -> aset so t (Some sl) = Ok so.
Proof.
  intros so t sl H. apply uget_Ok, aget_Ok in H as [P H]. assert (L : (Z.to_nat t < length so)%nat) by (apply nth_error_Some; congruence). apply aset_Ok. split; [lia|]. symmetry.
  revert H. generalize (Z.to_nat t). clear. intro k. revert k. induction so as [|x so IH]; intros [|k] H; cbn in *; try discriminate; [injection H as ->; reflexivity|]. f_equal. apply IH. assumption.
Qed.
Lemma theta_again : forall f x, f_theta f = x -> set_theta f x = f.
Proof. intros [] x <-. reflexivity. Qed.
Lemma loop_again : forall st cal so rest done, (forall f, In f rest -> exists sl, (t <- uget st (f_layer f) ;; uget so t) = Ok sl /\ has_values cal (f_layer f) sl /\ f_theta f = theta_of_h sl (f_psi f)) ->
  calib_loop (length rest) st cal done rest so = Ok (done ++ rest, so).
Proof.
  intros st cal so. induction rest as [|f rest IH]; intros done H; cbn [length calib_loop]; [reflexivity|].
  destruct (H f (or_introl eq_refl)) as (sl & S & V & T). bind_inv S t Et. rewrite Et. cbn [bind]. cbv zeta. pose proof V as (A1 & A2 & A3 & A4 & A5 & _). rewrite A1, A2, A3, A4, A5. cbn [bind]. rewrite S. cbn [bind].
  rewrite (soil_again _ _ _ _ _ _ _ _ V A1 A2 A3 A4 A5). rewrite (set_again _ _ _ S). cbn [bind]. rewrite (theta_again _ _ T), IH by (intros; apply H; right; assumption). rewrite <- app_assoc. reflexivity.
Qed.

Lemma prologue_again : forall s, own_values s -> p_calib (st_p s) = true -> update_prologue s = update_prologue (with_flag false s).
Proof.
  intros s [V F P N (m & M)] C. unfold update_prologue. cbv zeta. change (p_sft (st_p (with_flag false s))) with (p_sft (st_p s)).
  assert (E : forall fr s0, s0 = s <| st_p := (st_p s) <| p_frozen := fr |> |> ->
    ('(s', v) <- update_calibratable_parameters s0 ;; Ok (s' <| st_p := (st_p s') <| p_calib := false |> |>, v)) = Ok (with_flag false s <| st_p := (st_p (with_flag false s)) <| p_frozen := fr |> |>, Fin 0)).
  { intros fr s0 ->. unfold update_calibratable_parameters. cbv zeta.
    change (p_cum (st_p (s <| st_p := (st_p s) <| p_frozen := fr |> |>))) with (p_cum (st_p s)). change (st_head (s <| st_p := (st_p s) <| p_frozen := fr |> |>)) with (st_head s). rewrite M. cbn [bind].
    change (p_nfronts (st_p (s <| st_p := (st_p s) <| p_frozen := fr |> |>))) with (p_nfronts (st_p s)). rewrite N. unfold listLength. rewrite Nat2Z.id.
    change (p_stype (st_p (s <| st_p := (st_p s) <| p_frozen := fr |> |>))) with (p_stype (st_p s)). change (st_soils (s <| st_p := (st_p s) <| p_frozen := fr |> |>)) with (st_soils s).
    change (st_cal (s <| st_p := (st_p s) <| p_frozen := fr |> |>)) with (st_cal s). rewrite loop_again by exact V. cbn [bind app]. rewrite M. cbn [bind]. rewrite F, P.
    replace (Fin m - Fin m)%d with (Fin 0). 2: { cbn. replace (m - m)%R with 0%R by ring. rewrite rnd_zero. reflexivity. }
    destruct s as [? ? ? [] ? ? ? ? ? ? ? ?]. reflexivity. }
  destruct (p_sft (st_p s)).
  - change (p_cum (st_p (with_flag false s))) with (p_cum (st_p s)). change (p_nlayers (st_p (with_flag false s))) with (p_nlayers (st_p s)). change (p_soilTz (st_p (with_flag false s))) with (p_soilTz (st_p s)).
    change (p_soilT (st_p (with_flag false s))) with (p_soilT (st_p s)). change (p_ncells (st_p (with_flag false s))) with (p_ncells (st_p s)). change (p_frozen (st_p (with_flag false s))) with (p_frozen (st_p s)).
    destruct (frozen_factor _ _ _ _ _ _) as [fr|]; [|reflexivity]. cbn [bind]. change (p_calib ((st_p s) <| p_frozen := fr |>)) with (p_calib (st_p s)). rewrite C.
    change (p_calib ((st_p (with_flag false s)) <| p_frozen := fr |>)) with false. cbv iota. rewrite (E fr) by reflexivity. reflexivity.
  - cbn [bind]. rewrite C. change (p_calib (st_p (with_flag false s))) with false. cbv iota. rewrite (E (p_frozen (st_p s))); destruct s as [? ? ? [] ? ? ? ? ? ? ? ?]; reflexivity.
Qed.

Theorem update_again : forall s, own_values s -> p_calib (st_p s) = true -> p_invalid (st_p s) = false -> Update s = Update (with_flag false s).
Proof.
  intros s V C I. unfold Update. change (p_invalid (st_p (with_flag false s))) with (p_invalid (st_p s)). rewrite I. rewrite (prologue_again s V C). reflexivity.
Qed.

(** ** Initialize *)
Lemma rows_m : forall wp junk nst rs l i tab tab', read_rows wp junk nst rs l i tab = Ok tab' ->
  (forall t en, uget tab t = Ok en -> s_m (en_soil en) = (lit 1 - lit 1 / s_n (en_soil en))%d) -> forall t en, uget tab' t = Ok en -> s_m (en_soil en) = (lit 1 - lit 1 / s_n (en_soil en))%d.
Proof.
  intros wp junk nst. induction rs as [|r rs IH]; intros l i tab tab' H B; cbn [read_rows] in H; [apply Ok_inj in H; subst; exact B|]. bind_inv H q Eq0. destruct q as [l1 tab1].
  assert (B1 : forall t en, uget tab1 t = Ok en -> s_m (en_soil en) = (lit 1 - lit 1 / s_n (en_soil en))%d).
  { destruct (row_fields _ _ _ _ _ _ _ _ Eq0) as (_ & nm & tr & te & al & n & k & e & _ & _ & _ & D & A). intros t en U. 
    destruct (Z.eq_dec t i) as [->|Ne].
    - apply aset_Ok in A as [[P Q] ->]. apply uget_Ok, aget_Ok in U as [_ U]. rewrite nth_error_lset_eq in U by lia. injection U as ->.
      destruct (derive_fields _ _ _ _ _ _ _ _ _ D) as (_ & _ & _ & _ & _ & N & M & _). rewrite M, N. reflexivity.
    - apply (B t en). apply aset_Ok in A as [[P Q] ->]. apply uget_Ok, aget_Ok in U as [Pt U]. rewrite nth_error_lset_neq in U by lia. assert (G : aget tab t = Ok (Some en)) by (apply aget_Ok; auto). unfold uget. rewrite G. reflexivity. }
  destruct (nst =? i)%Z; [apply Ok_inj in H; subst; exact B1|]. exact (IH _ _ _ _ H B1).
Qed.

Lemma values_nth : forall k layer st tab head vs, layer_values k layer st tab head = Ok vs ->
  forall i t en, (i < k)%nat -> uget st (layer + Z.of_nat i) = Ok t -> uget tab t = Ok en -> exists f, nth_error vs i = Some (f, en_soil en).
Proof.
  induction k as [|k IH]; intros layer st tab head vs H i t en L T U; [lia|]. cbn [layer_values] in H. destruct head as [|f r]; [discriminate|]. bind_inv H t0 Et. bind_inv H e0 Ee. bind_inv H vs0 Ev. apply Ok_inj in H. subst vs.
  destruct i as [|i].
  - replace (layer + Z.of_nat 0)%Z with layer in T by lia. rewrite Et in T. apply Ok_inj in T. subst t0. rewrite Ee in U. apply Ok_inj in U. subst e0. exists f. reflexivity.
  - destruct (IH _ _ _ _ _ Ev i t en ltac:(lia)) as (g & G); [replace (layer + 1 + Z.of_nat i)%Z with (layer + Z.of_nat (S i))%Z by lia; exact T|exact U|]. exists g. exact G.
Qed.

Theorem init_own : forall files junk ls s, Initialize files junk ls = Ok s -> (exists m, mb_start (st_mb s) = Fin m) -> own_values s.
Proof.
  intros files junk ls s H (m & M). destruct (init_inv _ _ _ _ H) as (c & st & rows & tab & thick & psi & ord & I).
  pose proof (init_fronts _ _ _ _ _ _ _ _ _ _ _ I) as (Nu & L & P). destruct (in_vals _ _ _ _ _ _ _ _ _ _ _ I) as (vs & Vs & _ & _ & Cal). destruct (in_s _ _ _ _ _ _ _ _ _ _ _ I) as (_ & So & _).
  pose proof (in_p _ _ _ _ _ _ _ _ _ _ _ I) as (_ & _ & _ & _ & _ & Nf & _). constructor.
  - intros f Hf. apply In_nth_error in Hf as (i & Hi). pose proof (P i f Hi) as (t & en & d & ff & A1 & A2 & A3 & A4 & ->). exists (en_soil en). cbn [init_front f_layer f_theta f_psi] in *.
    assert (Li : (i < length thick)%nat). { rewrite <- L. apply nth_error_Some. congruence. }
    split; [|split].
    + unfold soil_of. cbn [env_of e_stype e_soils]. rewrite A1. cbn [bind]. rewrite So. apply uget_map. assumption.
    + destruct (values_nth _ _ _ _ _ _ Vs i t en Li) as (g & G); [replace (1 + Z.of_nat i)%Z with (Z.of_nat (S i)) by lia; assumption|assumption|]. rewrite Cal. unfold has_values. cbn [c_theta_e c_theta_r c_n c_alpha c_Ksat].
      assert (Q : forall (q : soil -> dbl), aget (map (fun v : front * soil => q (snd v)) vs) (Z.of_nat (S i) - 1) = Ok (q (en_soil en))).
      { intro q. apply aget_Ok. split; [lia|]. replace (Z.to_nat (Z.of_nat (S i) - 1)) with i by lia. rewrite nth_error_map, G. reflexivity. }
      repeat (split; [apply Q|]). eapply rows_m; [exact (in_tab _ _ _ _ _ _ _ _ _ _ _ I)| |exact A2]. intros t' en' U. exfalso. exact (uget_empty _ _ _ _ U).
    + reflexivity.
  - rewrite Cal. reflexivity.
  - rewrite Cal. reflexivity.
  - rewrite Nf. apply (in_len _ _ _ _ _ _ _ _ _ _ _ I).
  - exists m. rewrite <- M. apply (in_vol _ _ _ _ _ _ _ _ _ _ _ I).
Qed.

(** ** Configurations *)
Definition reflag (b : bool) (c : conf) : conf := c <| cf_calib := b |>.
Lemma line_reflag : forall b c l, String.eqb (line_key l) "calib_params" = false -> config_line (reflag b c) l = res_map (reflag b) (config_line c l).
Proof.
  intros b c l H. unfold config_line. cbv zeta. rewrite H. clear H. destruct c.
  repeat match goal with |- (if ?b then _ else _) = _ => destruct b | |- bind ?m _ = res_map _ (bind ?m _) => destruct m as [?|?]; cbn [bind res_map] end; try reflexivity.
  all: cbn [reflag Config.cf_endtime set].
  all: match goal with |- bind ?m _ = res_map _ (bind ?m' _) => change m with m'; destruct m' as [[?|]|?]; cbn [bind res_map]; try reflexivity end.
  all: destruct (cassert _) as [[]|]; reflexivity.
Qed.
Lemma line_legal : forall c l, line_key l = "calib_params"%string -> line_value l = "true"%string \/ line_value l = "false"%string -> exists b, config_line c l = Ok (reflag b c).
Proof.
  intros c l H V. unfold config_line. cbv zeta. rewrite H. cbn -[String.eqb]. cbn [String.eqb Ascii.eqb Bool.eqb]. destruct V as [-> | ->]; eexists; reflexivity.
Qed.
Lemma lines_but : forall ls c b, calib_legal ls -> config_lines (reflag b c) (but_calib ls) = res_map (reflag b) (config_lines c ls).
Proof.
  induction ls as [|l ls IH]; intros c b L; cbn [config_lines but_calib filter]; [reflexivity|]. assert (L1 : calib_legal ls) by (intros x Hx; apply L; right; assumption).
  destruct (String.eqb_spec (line_key l) "calib_params") as [K|K]; cbn [negb].
  - destruct (line_legal c l K (L l (or_introl eq_refl) K)) as (b' & ->). cbn [bind]. rewrite <- (IH (reflag b' c) b L1). destruct c; reflexivity.
  - cbn [config_lines]. rewrite line_reflag by (apply String.eqb_neq; assumption). destruct (config_line c l) as [d|]; cbn [res_map bind]; [exact (IH d b L1)|reflexivity].
Qed.
Lemma forcing_but : forall ls, forcing_file (but_calib ls) = forcing_file ls.
Proof.
  induction ls as [|l ls IH]; cbn [but_calib filter forcing_file]; [reflexivity|]. destruct (String.eqb (line_key l) "calib_params") eqn:K; cbn [negb forcing_file].
  - apply String.eqb_eq in K. rewrite K. cbn. exact IH.
  - destruct (String.eqb (line_key l) "forcing_file"); [reflexivity|exact IH].
Qed.

Definition restart (b : bool) (z : start) : start := mkStart (reflag b (sr_conf z)) ((sr_p z) <| p_calib := b |>) (sr_head z) (sr_tab z) (sr_vol z) (sr_N z) (sr_ord z).
Lemma rest_flag : forall files junk b c, init_rest files junk (reflag b c) = res_map (restart b) (init_rest files junk c).
Proof.
  intros files junk b c. destruct c. unfold reflag, init_rest. cbn [set Config.cf_thick Config.cf_stype Config.cf_giuh Config.cf_soilz Config.cf_psi Config.cf_maxtypes Config.cf_file Config.cf_wp Config.cf_fc Config.cf_closed Config.cf_adaptive Config.cf_timestep Config.cf_endtime Config.cf_fres Config.cf_sft Config.cf_pmax Config.cf_calib]. cbv zeta.
  repeat match goal with |- bind ?m _ = res_map _ (bind ?m _) => destruct m as [?|?]; cbn [bind res_map]; [|reflexivity] | |- context [let '(_, _) := ?p in _] => destruct p end. reflexivity.
Qed.
Lemma res_map_bind : forall (A B C : Type) (f : B -> C) (m : outcome A) (k : A -> outcome B), res_map f (bind m k) = bind m (fun x => res_map f (k x)).
Proof. intros A B C f [x|r] k; reflexivity. Qed.
Lemma bind_res_map : forall (A B C : Type) (f : A -> B) (m : outcome A) (k : B -> outcome C), bind (res_map f m) k = bind m (fun x => k (f x)).
Proof. intros A B C f [x|r] k; reflexivity. Qed.
Theorem initialize_but : forall files junk ls, calib_legal ls -> Initialize files junk (but_calib ls) = res_map (with_flag false) (Initialize files junk ls).
Proof.
  intros files junk ls L. unfold Initialize, InitFromConfigFile. change conf0 with (reflag false conf0) at 1. rewrite lines_but by assumption. rewrite !res_map_bind, !bind_res_map.
  destruct (config_lines conf0 ls) as [c|]; [|reflexivity]. cbn [bind]. rewrite rest_flag, bind_res_map. destruct (init_rest files junk c) as [z|]; [|reflexivity]. cbn [bind]. cbv zeta.
  change (p_nlayers (sr_p (restart false z))) with (p_nlayers (sr_p z)). change (p_stype (sr_p (restart false z))) with (p_stype (sr_p z)). change (sr_tab (restart false z)) with (sr_tab z). change (sr_head (restart false z)) with (sr_head z).
  change (sr_N (restart false z)) with (sr_N z). change (sr_ord (restart false z)) with (sr_ord z). rewrite res_map_bind.
  destruct (layer_values _ _ _ _ _) as [vs|]; [|reflexivity]. cbn [bind]. rewrite res_map_bind. destruct (zfor _ _ _ _) as [os|]; [|reflexivity]. cbn [bind res_map]. destruct z as [? [] ? ? ? ? ?]. reflexivity.
Qed.
Theorem initialize_flag : forall files junk ls ls', calib_legal ls -> calib_legal ls' -> but_calib ls = but_calib ls' ->
  both (fun s s' => exists b, s' = with_flag b s) (Initialize files junk ls) (Initialize files junk ls').
Proof.
  intros files junk ls ls' L L' B. pose proof (initialize_but files junk ls L) as A. pose proof (initialize_but files junk ls' L') as A'. rewrite B, A' in A.
  destruct (Initialize files junk ls) as [s|], (Initialize files junk ls') as [s'|]; cbn [res_map both] in *; try discriminate; [|congruence].
  exists (p_calib (st_p s')). apply Ok_inj in A. destruct s as [? ? ? [] ? ? ? ? ? ? ? ?], s' as [? ? ? [] ? ? ? ? ? ? ? ?]. unfold with_flag in *. cbn in A |- *. injection A. intros; subst. reflexivity.
Qed.

(** ** The standalone program *)
Lemma own_forcing : forall s p e, own_values s -> own_values (s <| st_precip := p |> <| st_pet := e |>).
Proof. intros s p e [V F P N M]. constructor; assumption. Qed.
Lemma GetValue_flag : forall name b s pre, GetValue name (mkObj (with_flag b s) pre) = GetValue name (mkObj s pre).
Proof. intros name b [? ? ? [] ? ? ? ? ? ? ? ?] pre. reflexivity. Qed.

Lemma step_flag : forall f i s pre b, own_values s -> p_invalid (st_p s) = false -> drive_step f i (mkObj (with_flag b s) pre) = drive_step f i (mkObj s pre).
Proof.
  intros f i s pre b V I. unfold drive_step. destruct (aget (fo_precip f) i) as [p|]; [|reflexivity]. cbn [bind]. rewrite !set_precip. cbn [bind].
  destruct (aget (fo_pet f) i) as [e|]; [|reflexivity]. cbn [bind]. rewrite !set_pet. cbn [bind ob_s ob_pre]. unfold bmi_Update. cbn [ob_s ob_pre].
  assert (U : Update (with_flag b s <| st_precip := p |> <| st_pet := e |>) = Update (s <| st_precip := p |> <| st_pet := e |>)).
  { set (s1 := s <| st_precip := p |> <| st_pet := e |>). change (with_flag b s <| st_precip := p |> <| st_pet := e |>) with (with_flag b s1). assert (V1 : own_values s1) by exact (own_forcing s p e V).
    assert (I1 : p_invalid (st_p s1) = false) by exact I. clearbody s1. destruct (p_calib (st_p s1)) eqn:C.
    - destruct b; [f_equal; destruct s1 as [? ? ? [] ? ? ? ? ? ? ? ?]; cbn in C; subst; reflexivity|]. symmetry. apply update_again; assumption.
    - destruct b; [|f_equal; destruct s1 as [? ? ? [] ? ? ? ? ? ? ? ?]; cbn in C; subst; reflexivity].
      rewrite (update_again (with_flag true s1)); [f_equal; destruct s1 as [? ? ? [] ? ? ? ? ? ? ? ?]; cbn in C; subst; reflexivity| |reflexivity|exact I1]. destruct V1. constructor; assumption. }
  rewrite U. reflexivity.
Qed.

Theorem simulate_flag : forall files junk texts ls ls', calib_legal ls -> calib_legal ls' -> but_calib ls = but_calib ls' ->
  (forall s, Initialize files junk ls = Ok s -> exists m, mb_start (st_mb s) = Fin m) -> both same_result (simulate files texts junk ls) (simulate files texts junk ls').
Proof.
  intros files junk texts ls ls' L L' B M. pose proof (initialize_flag files junk ls ls' L L' B) as IF. destruct (Initialize files junk ls) as [s|r] eqn:E, (Initialize files junk ls') as [s'|r'] eqn:E'; try contradiction; cbn [both] in IF.
  2: { subst. unfold simulate. rewrite E, E'. reflexivity. }
  destruct IF as (b & ->). pose proof (init_own _ _ _ _ E (M s eq_refl)) as V.
  assert (I : p_invalid (st_p s) = false). { destruct (init_inv _ _ _ _ E) as (c & st & rows & tab & thick & psi & ord & I). exact (init_valid _ _ _ _ _ _ _ _ _ _ _ I). }
  unfold simulate. rewrite E, E'. cbn [bind]. cbv zeta. change (GetEndTime (mkObj (with_flag b s) (repeat None 11))) with (GetEndTime (mkObj s (repeat None 11))).
  change (GetTimeStep (mkObj (with_flag b s) (repeat None 11))) with (GetTimeStep (mkObj s (repeat None 11))). destruct (d2i _) as [n|]; [|reflexivity]. cbn [bind].
  assert (F : ReadForcingData texts ls' = ReadForcingData texts ls) by (unfold ReadForcingData; rewrite <- (forcing_but ls'), <- B, forcing_but; reflexivity). rewrite F.
  destruct (ReadForcingData texts ls) as [f|]; [|reflexivity]. cbn [bind]. destruct (cassert _) as [[]|]; [|reflexivity]. cbn [bind].
  destruct (Z.to_nat n) as [|k]; cbn [drive].
  - cbn [bind both]. split; reflexivity.
  - rewrite step_flag by assumption. destruct (drive_step f 0 _) as [[o r]|]; [|reflexivity]. cbn [bind]. destruct (drive k f (0 + 1) o) as [[o2 rs]|]; [|reflexivity]. cbn [bind both]. split; reflexivity.
Qed.

(** A configuration that is accepted has legal lines. *)
Lemma accepted_legal : forall ls c d, config_lines c ls = Ok d -> calib_legal ls.
Proof.
  induction ls as [|l ls IH]; intros c d H x Hx K; [destruct Hx|]. cbn [config_lines] in H. bind_inv H e Ee. destruct Hx as [<-|Hx]; [|exact (IH _ _ H x Hx K)].
  unfold config_line in Ee. cbv zeta in Ee. rewrite K in Ee. cbn -[String.eqb] in Ee. cbn [String.eqb Ascii.eqb Bool.eqb] in Ee.
  destruct (String.eqb_spec (line_value l) "true"); [auto|]. destruct (String.eqb_spec (line_value l) "false"); [auto|]. discriminate.
Qed.
Lemma init_legal : forall files junk ls s, Initialize files junk ls = Ok s -> calib_legal ls.
Proof. intros files junk ls s H. unfold Initialize, InitFromConfigFile in H. bind_inv H z Ez. bind_inv Ez cx Ecx. exact (accepted_legal _ _ _ Ecx). Qed.
End Recalib.

Section Exact.
Local Existing Instance exact.
Context {cfg : Cfg}.
Theorem program_again : forall files texts junk ls ls' ts types gs psi dt fres max rows, good_config files ls ts types gs psi dt fres max rows -> calib_legal ls' -> but_calib ls = but_calib ls' ->
  both same_result (simulate files texts junk ls) (simulate files texts junk ls').
Proof.
  intros files texts junk ls ls' ts types gs psi dt fres max rows G L B. destruct (configured _ junk _ _ _ _ _ _ _ _ _ G) as (s & E & _ & ((m & _ & M) & _) & _).
  apply simulate_flag; [exact (init_legal _ _ _ _ E)|assumption|assumption|]. intros s1 E1. rewrite E in E1. apply Ok_inj in E1. subst. eauto.
Qed.
End Exact.
