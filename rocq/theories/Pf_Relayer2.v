(** Programs whose configurations put the same soils into the layers. *)

From Coq Require Import String Reals ZArith List Bool Lia.
From RecordUpdate Require Import RecordSet.
From Verif Require Import Outcome Dbl Types ListOps State Update Bmi Config Driver Lib Pf_Bmi Pf_BmiRun Pf_Init Pf_InitState Pf_DriverRun Pf_Influence Spec_Relayer Pf_Relayer.
From Verif Require Import Update.
Import ListNotations.
Import RecordSetNotations.
Open Scope list_scope.

Section Programs.
Context {fp : Fp} {cfg : Cfg}.

(** ** Configurations *)
Definition resoil (st : option (list Z)) (file : option string) (m : option Z) (c : conf) : conf := c <| cf_stype := st |> <| cf_file := file |> <| cf_maxtypes := m |>.
Lemma line_soils : forall a b m c l, ~ In (line_key l) soil_keys -> config_line (resoil a b m c) l = res_map (resoil a b m) (config_line c l).
Proof.
  intros a b m c l H. unfold config_line. cbv zeta. cbn [soil_keys In] in H.
  assert (H1 : String.eqb (line_key l) "layer_soil_type" = false) by (apply String.eqb_neq; intro K; apply H; rewrite K; auto).
  assert (H2 : String.eqb (line_key l) "soil_params_file" = false) by (apply String.eqb_neq; intro K; apply H; rewrite K; auto).
  assert (H3 : String.eqb (line_key l) "max_valid_soil_types" = false) by (apply String.eqb_neq; intro K; apply H; rewrite K; auto). rewrite H1, H2, H3. clear H H1 H2 H3. destruct c.
  repeat match goal with |- (if ?b then _ else _) = _ => destruct b | |- bind ?m _ = res_map _ (bind ?m _) => destruct m as [?|?]; cbn [bind res_map] end; try reflexivity.
  all: cbn [resoil Config.cf_endtime set].
  all: match goal with |- bind ?m _ = res_map _ (bind ?m' _) => change m with m'; destruct m' as [[?|]|?]; cbn [bind res_map]; try reflexivity end.
  all: destruct (cassert _) as [[]|]; reflexivity.
Qed.
Lemma line_soil_key : forall c l d, In (line_key l) soil_keys -> config_line c l = Ok d -> exists a b m, d = resoil a b m c.
Proof.
  intros c l d H E. unfold config_line in E. cbv zeta in E. cbn [soil_keys In] in H. destruct H as [H|[H|[H|[]]]]; rewrite <- H in E; cbn -[ReadVectorData to_ints stoi Z.min] in E.
  - apply Ok_inj in E. subst. exists (cf_stype c), (Some (line_value l)), (cf_maxtypes c). destruct c; reflexivity.
  - bind_inv E v Ev. bind_inv E z Ez. apply Ok_inj in E. subst. exists (Some z), (cf_file c), (cf_maxtypes c). destruct c; reflexivity.
  - bind_inv E z Ez. apply Ok_inj in E. subst. exists (cf_stype c), (cf_file c), (Some (Z.min z 15)). destruct c; reflexivity.
Qed.
Lemma lines_soils : forall ls ls', Forall2 other_soils ls ls' -> forall c a b m d d', config_lines c ls = Ok d -> config_lines (resoil a b m c) ls' = Ok d' -> exists a' b' m', d' = resoil a' b' m' d.
Proof.
  intros ls ls' F. induction F as [|l l' ls ls' HL F IH]; intros c a b m d d' E E'; cbn [config_lines] in E, E'.
  - apply Ok_inj in E, E'. subst. eauto.
  - bind_inv E cx Ec. bind_inv E' cx' Ec'. enough (exists a' b' m', cx' = resoil a' b' m' cx) as (a' & b' & m' & ->) by (exact (IH _ _ _ _ _ _ E E')).
    assert (K : l = l' /\ ~ In (line_key l) soil_keys \/ In (line_key l) soil_keys /\ In (line_key l') soil_keys).
    { destruct HL as [<-|]; [|auto]. destruct (in_dec string_dec (line_key l) soil_keys); auto. }
    destruct K as [[<- K]|[K K']].
    + rewrite line_soils, Ec in Ec'; [|assumption]. apply Ok_inj in Ec'. subst. eauto.
    + destruct (line_soil_key _ _ _ K Ec) as (a1 & b1 & m1 & ->). destruct (line_soil_key _ _ _ K' Ec') as (a2 & b2 & m2 & ->). exists a2, b2, m2. destruct c; reflexivity.
Qed.

Lemma fronts_same : forall nl psi st st' cum fr tab tab', same_layers st (soils_of tab) st' (soils_of tab') -> InitializeWettingFronts nl psi st cum fr tab = InitializeWettingFronts nl psi st' cum fr tab'.
Proof.
  intros nl psi st st' cum fr tab tab' H. unfold InitializeWettingFronts. apply zfor_same. intros i s. specialize (H i). destruct (uget st i) as [t|], (uget st' i) as [t'|]; cbn [bind]; try contradiction; [|congruence].
  rewrite !uget_soils in H. destruct (uget tab t) as [en|], (uget tab' t') as [en'|]; cbn [res_map bind] in *; try discriminate; [|congruence]. apply Ok_inj in H. rewrite H. reflexivity.
Qed.
Lemma layer_same : forall k layer st st' tab tab' head, same_layers st (soils_of tab) st' (soils_of tab') -> layer_values k layer st tab head = layer_values k layer st' tab' head.
Proof.
  induction k as [|k IH]; intros layer st st' tab tab' head H; [reflexivity|]. cbn [layer_values]. destruct head as [|f r]; [reflexivity|]. rewrite (IH _ _ _ _ _ r H).
  specialize (H layer). destruct (uget st layer) as [t|], (uget st' layer) as [t'|]; cbn [bind]; try contradiction; [|congruence].
  rewrite !uget_soils in H. destruct (uget tab t) as [en|], (uget tab' t') as [en'|]; cbn [res_map bind] in *; try discriminate; [|congruence]. apply Ok_inj in H. rewrite H. reflexivity.
Qed.

Lemma init_soils : forall files junk files' junk' c a b m z z', init_rest files junk c = Ok z -> init_rest files' junk' (resoil a b m c) = Ok z' ->
  same_layers (p_stype (sr_p z)) (soils_of (sr_tab z)) (p_stype (sr_p z')) (soils_of (sr_tab z')) ->
  (exists st inv, sr_p z' = (sr_p z) <| p_stype := st |> <| p_invalid := inv |>) /\ sr_head z' = sr_head z /\ sr_vol z' = sr_vol z /\ sr_N z' = sr_N z /\ sr_ord z' = sr_ord z.
Proof.
  intros files junk files' junk' [] a b m z z'. unfold init_rest, resoil. cbv zeta.
  cbn [set Config.cf_thick Config.cf_stype Config.cf_giuh Config.cf_soilz Config.cf_psi Config.cf_maxtypes Config.cf_file Config.cf_wp Config.cf_fc Config.cf_closed Config.cf_adaptive Config.cf_timestep Config.cf_endtime Config.cf_fres Config.cf_sft Config.cf_pmax Config.cf_calib].
  destruct (need cf_stype) as [st|]; [|discriminate]. destruct (need a) as [st'|]; [|discriminate]. cbn [bind]. destruct (need cf_file) as [file|]; [|discriminate]. destruct (need b) as [file'|]; [|discriminate]. cbn [bind].
  destruct ((match cf_maxtypes with Some z => z | None => 15 end) + 1 <? 0)%Z; [discriminate|]. destruct ((match m with Some z => z | None => 15 end) + 1 <? 0)%Z; [discriminate|]. cbn [bind].
  destruct (lgar_read_vG_param_file (files file) _ _ _ _) as [tab|]; [|discriminate]. destruct (lgar_read_vG_param_file (files' file') _ _ _ _) as [tab'|]; [|discriminate]. cbn [bind].
  destruct (known cf_thick) as [thick|]; [|discriminate]. cbn [bind]. destruct (any_invalid _ _ _ _) as [inv|]; [|discriminate]. destruct (any_invalid _ _ _ _) as [inv'|]; [|discriminate]. cbn [bind].
  destruct (need cf_psi) as [psi|]; [|discriminate]. cbn [bind]. destruct (need cf_timestep) as [dt|]; [|discriminate]. cbn [bind]. destruct (need cf_endtime) as [et|]; [|discriminate]. cbn [bind].
  destruct (need cf_wp) as [wp|]; [|discriminate]. cbn [bind]. destruct (need cf_fc) as [fc|]; [|discriminate]. cbn [bind]. destruct (need cf_fres) as [fres|]; [|discriminate]. cbn [bind].
  destruct (need cf_giuh) as [ord|]; [|discriminate]. cbn [bind]. destruct (resample fres ord) as [[n ords]|]; [|discriminate]. cbn [bind].
  match goal with |- context [bind (if cf_sft then ?x else ?y) _] => destruct (if cf_sft then x else y) as [[ncells tz]|] end; [|discriminate]. cbn [bind].
  destruct (d2i (fres / dt + _)) as [fint|]; [|discriminate]. cbn [bind].
  intros E E' SL. bind_inv E hds Ehd. bind_inv E' hds' Ehd'. bind_inv E vo Evo. bind_inv E' vo' Evo'. bind_inv E x1 Ex1. bind_inv E' x1' Ex1'. apply Ok_inj in E, E'. subst z z'. cbn [sr_p sr_tab State.p_stype] in SL.
  rewrite (fronts_same _ _ _ _ _ _ _ _ SL), Ehd' in Ehd. apply Ok_inj in Ehd. subst hds'. rewrite Evo in Evo'. apply Ok_inj in Evo'. subst vo'. repeat split. eexists. eexists. reflexivity.
Qed.

Theorem initialize_relayer : forall files junk files' junk' ls ls' s s', Forall2 other_soils ls ls' -> Initialize files junk ls = Ok s -> Initialize files' junk' ls' = Ok s' ->
  same_layers (p_stype (st_p s)) (st_soils s) (p_stype (st_p s')) (st_soils s') -> relayered s s'.
Proof.
  intros files junk files' junk' ls ls' s s' F E E' SL.
  assert (V : p_invalid (st_p s) = false). { destruct (init_inv _ _ _ _ E) as (c & st & rows & tab & thick & psi & ord & I). exact (init_valid _ _ _ _ _ _ _ _ _ _ _ I). }
  assert (V' : p_invalid (st_p s') = false). { destruct (init_inv _ _ _ _ E') as (c & st & rows & tab & thick & psi & ord & I). exact (init_valid _ _ _ _ _ _ _ _ _ _ _ I). }
  unfold Initialize, InitFromConfigFile in E, E'. bind_inv E z Ez. bind_inv Ez c Ec. bind_inv E' z' Ez'. bind_inv Ez' c' Ec'.
  destruct (lines_soils ls ls' F conf0 None None None c c' Ec Ec') as (a & b & m & ->). cbv zeta in E, E'.
  bind_inv E vs Ev. bind_inv E os Eo. bind_inv E' vs' Ev'. bind_inv E' os' Eo'. apply Ok_inj in E, E'.
  assert (SL' : same_layers (p_stype (sr_p z)) (soils_of (sr_tab z)) (p_stype (sr_p z')) (soils_of (sr_tab z'))) by (subst s s'; exact SL).
  destruct (init_soils _ _ _ _ _ _ _ _ _ _ Ez Ez' SL') as ((st & inv & P) & H & V0 & N & O). rewrite (layer_same _ _ _ _ _ _ _ SL') in Ev. rewrite P, H in Ev'. rewrite P in Ev. cbn [set State.p_nlayers State.p_stype] in *.
  assert (vs' = vs). { destruct (sr_p z). cbn in Ev, Ev'. rewrite Ev in Ev'. apply Ok_inj in Ev'. auto. } subst vs'.
  rewrite N, O, Eo in Eo'. apply Ok_inj in Eo'. subst os'. subst s s'. exists st, (soils_of (sr_tab z')). cbn [st_p p_invalid] in V, V'. rewrite P in *. rewrite H, V0, N in *. destruct (sr_p z). cbn in V, V', SL |- *. subst. split; [reflexivity|exact SL].
Qed.

(** ** The standalone program *)
Lemma GetValue_relayer : forall name st so s pre, GetValue name (mkObj (relayer st so s) pre) = GetValue name (mkObj s pre).
Proof. intros name st so [? ? ? [] ? ? ? ? ? ? ? ?] pre. reflexivity. Qed.
Lemma columns_relayer : forall st so s pre names, get_columns names (mkObj (relayer st so s) pre) = get_columns names (mkObj s pre).
Proof. intros st so s pre names. induction names as [|n r IH]; cbn [get_columns]; [reflexivity|]. rewrite GetValue_relayer, IH. reflexivity. Qed.

Definition same_obj (o o' : obj) : Prop := relayered (ob_s o) (ob_s o') /\ ob_pre o' = ob_pre o.
Definition calibrates (s s' : state) : Prop := p_calib (st_p s) = true -> own_rows (p_stype (st_p s)) /\ own_rows (p_stype (st_p s')).

Lemma step_relayer : forall f i o o', same_obj o o' -> calibrates (ob_s o) (ob_s o') ->
  both (fun x x' => same_obj (fst x) (fst x') /\ calibrates (ob_s (fst x)) (ob_s (fst x')) /\ snd x = snd x') (drive_step f i o) (drive_step f i o').
Proof.
  intros f i [s pre] [s' pre'] [R Epre] C. cbn [ob_s ob_pre] in *. subst pre'. unfold drive_step. destruct (aget (fo_precip f) i) as [p|]; [|reflexivity]. cbn [bind]. rewrite !set_precip. cbn [bind].
  destruct (aget (fo_pet f) i) as [e|]; [|reflexivity]. cbn [bind]. rewrite !set_pet. cbn [bind ob_s ob_pre]. unfold bmi_Update. cbn [ob_s ob_pre].
  assert (U : both relayered (Update (s <| st_precip := p |> <| st_pet := e |>)) (Update (s' <| st_precip := p |> <| st_pet := e |>))).
  { destruct R as (st & so & -> & SL). apply update_relayer; [|exact C]. exists st, so. split; [reflexivity|exact SL]. }
  destruct (Update (s <| st_precip := p |> <| st_pet := e |>)) as [t|w] eqn:E, (Update (s' <| st_precip := p |> <| st_pet := e |>)) as [t'|w'] eqn:E'; cbn [both bind] in *; try contradiction; [|exact U].
  assert (C' : calibrates t t').
  { intros Ct. destruct (Update_static _ _ E) as [S1 K]. destruct (Update_static _ _ E') as [S1' _].
    destruct S1 as (_ & _ & _ & _ & _ & S1 & _). destruct S1' as (_ & _ & _ & _ & _ & S1' & _).
    change (p_invalid (st_p (s <| st_precip := p |> <| st_pet := e |>))) with (p_invalid (st_p s)) in K.
    rewrite S1, S1'. destruct (p_invalid (st_p s)); [|destruct K as (_ & _ & K); congruence]. destruct K as (_ & _ & _ & K). apply C. rewrite K in Ct. exact Ct. }
  cbn [ob_s]. destruct U as (st1 & so1 & -> & SL1). change (t <| st_soils := so1 |> <| st_p := (st_p t) <| p_stype := st1 |> |>) with (relayer st1 so1 t) in *.
  change (p_nfronts (st_p (relayer st1 so1 t))) with (p_nfronts (st_p t)). rewrite !GetValue_relayer. cbv zeta.
  destruct (GetValue "soil_moisture_wetting_fronts" _) as [th|]; [|reflexivity]. cbn [bind]. destruct (into _ th) as [?|]; [|reflexivity]. cbn [bind].
  destruct (GetValue "soil_depth_wetting_fronts" _) as [dp|]; [|reflexivity]. cbn [bind]. destruct (into _ dp) as [?|]; [|reflexivity]. cbn [bind].
  destruct (aget (fo_time f) i) as [tm|]; [|reflexivity]. cbn [bind]. rewrite columns_relayer. destruct (get_columns column_names _) as [vars|]; [|reflexivity]. cbn [bind both fst snd].
  split; [|split; [exact C'|reflexivity]]. split; [|reflexivity]. exists st1, so1. split; [reflexivity|exact SL1].
Qed.
Lemma drive_relayer : forall k f i o o', same_obj o o' -> calibrates (ob_s o) (ob_s o') ->
  both (fun x x' => same_obj (fst x) (fst x') /\ snd x = snd x') (drive k f i o) (drive k f i o').
Proof.
  induction k as [|k IH]; intros f i o o' H C; cbn [drive]; [split; [exact H|reflexivity]|].
  pose proof (step_relayer f i o o' H C) as S. destruct (drive_step f i o) as [[o1 r]|w], (drive_step f i o') as [[o1' r']|w']; cbn [both fst snd bind] in *; try contradiction; [|exact S].
  destruct S as (H1 & C1 & <-). pose proof (IH f (i + 1)%Z o1 o1' H1 C1) as D. destruct (drive k f (i + 1)%Z o1) as [[o2 rs]|w], (drive k f (i + 1)%Z o1') as [[o2' rs']|w']; cbn [both fst snd bind] in *; try contradiction; [|exact D].
  destruct D as [D <-]. split; [exact D|reflexivity].
Qed.

Theorem simulate_relayer : forall files junk files' junk' texts texts' ls ls' s s', Forall2 other_soils ls ls' -> Initialize files junk ls = Ok s -> Initialize files' junk' ls' = Ok s' ->
  same_layers (p_stype (st_p s)) (st_soils s) (p_stype (st_p s')) (st_soils s') -> (p_calib (st_p s) = true -> own_rows (p_stype (st_p s)) /\ own_rows (p_stype (st_p s'))) ->
  ReadForcingData texts ls = ReadForcingData texts' ls' -> both same_result (simulate files texts junk ls) (simulate files' texts' junk' ls').
Proof.
  intros files junk files' junk' texts texts' ls ls' s s' F E E' SL C T. pose proof (initialize_relayer _ _ _ _ _ _ _ _ F E E' SL) as R. unfold simulate. rewrite E, E'. cbn [bind]. cbv zeta.
  assert (G : (GetEndTime (mkObj s' (repeat None 11)) / GetTimeStep (mkObj s' (repeat None 11)))%d = (GetEndTime (mkObj s (repeat None 11)) / GetTimeStep (mkObj s (repeat None 11)))%d)
    by (destruct R as (st & so & -> & _); reflexivity). rewrite G.
  destruct (d2i _) as [n|]; [|reflexivity]. cbn [bind]. rewrite <- T. destruct (ReadForcingData texts ls) as [f|]; [|reflexivity]. cbn [bind]. destruct (cassert _) as [[]|]; [|reflexivity]. cbn [bind].
  pose proof (drive_relayer (Z.to_nat n) f 0 (mkObj s (repeat None 11)) (mkObj s' (repeat None 11)) (conj R eq_refl) C) as D.
  destruct (drive _ f 0 (mkObj s _)) as [[o rs]|w], (drive _ f 0 (mkObj s' _)) as [[o' rs']|w']; cbn [both fst snd bind] in *; try contradiction; [|exact D].
  destruct D as [[D _] <-]. split; [reflexivity|]. cbn [rs_printed]. destruct D as (st & so & -> & _). reflexivity.
Qed.
End Programs.
