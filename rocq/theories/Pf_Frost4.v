(** Colder soil: sub-steps and Updates (exact arithmetic). *)

From Coq Require Import Reals Lra ZArith List Bool Lia.
From RecordUpdate Require Import RecordSet.
From Verif Require Import Outcome Dbl Types ListOps Soil Giuh Fronts Infil Move State Update Exact Lib Spec_Common Spec_Soil Spec_Update Spec_Profile Spec_Storage Spec_Physical Spec_Velocity Spec_Frozen Spec_Split Spec_Frost
  Pf_Dbl Pf_Pow Pf_Frozen Pf_Surface Pf_Update Pf_Structure Pf_Physical Pf_MoreRain Pf_Frost3.
Import ListNotations.
Import RecordSetNotations.
Open Scope R_scope.

Section Exactly.
Local Existing Instance exact.
Context {cfg : Cfg}.

Lemma substep_less : forall M e e' dt nint closed wp fc pm s s' a t t' a1 a2 r w i0 q0 i1 i2 q1 q2 o1 o2,
  let u := mkU e (Fin dt) nint closed wp fc (Fin pm) in let u' := mkU e' (Fin dt) nint closed wp fc (Fin pm) in
  other_frost e e' -> colder_factors (e_frozen e) (e_frozen e') -> sound_env e -> vg_column e -> conducts_at_most M e -> frozen_in_range e -> capillary closed nint e ->
  profile (e_nlayers e) (e_cum e) (st_head s) -> deepest_rests (st_head s) -> Forall (physical_front M e) (st_head s) -> Forall (lies (e_cum e)) (st_head s) ->
  st_head s' = st_head s -> st_precip s' = st_precip s -> st_pet s' = st_pet s -> p_precip_prev (st_p s') = p_precip_prev (st_p s) ->
  0 < dt -> 0 <= pm -> st_precip s = Fin r -> a_on a = Fin w -> 0 <= w -> a_in a = Fin i0 -> a_runoff a = Fin q0 -> ~ step_tie u s a ->
  substep u s a = Ok (t, a1) -> a_in a1 = Fin i1 -> a_runoff a1 = Fin q1 -> a_on a1 = Fin o1 -> i0 <= i1 -> o1 <= pm ->
  substep u' s' a = Ok (t', a2) -> a_in a2 = Fin i2 -> a_runoff a2 = Fin q2 -> a_on a2 = Fin o2 -> i0 <= i2 -> o2 <= pm ->
  (i1 <= i2 /\ q2 <= q1 /\ o2 <= o1) /\ i1 + q1 + o1 = i2 + q2 + o2.
Proof.
  intros M e e' dt nint closed wp fc pm s s' a t t' a1 a2 r w i0 q0 i1 i2 q1 q2 o1 o2 u u' HO HC HE HV HM HF HG HPr HDr HPh HL Eh Er Ep Epp Hd Hp Hr Ew Hw Ei0 Eq0 HT H1 I1 Q1 O1 L1 P1 H2 I2 Q2 O2 L2 P2.
  destruct (substep_inv _ _ _ _ _ H1) as (vs & b & ve & mbl & p & pt & pr & ptr & Epr & Eptr & Epp1 & _ & _ & HY & _ & _ & _ & _ & Ea).
  destruct (substep_inv _ _ _ _ _ H2) as (vs' & b' & ve' & mbl' & p' & pt' & pr' & ptr' & Epr' & Eptr' & Epp' & _ & _ & HY' & _ & _ & _ & _ & Ea').
  rewrite Eh, Epp in HY'. rewrite Er in Epr'. rewrite Ep in Eptr'. rewrite <- Epr in Epr'. rewrite <- Eptr in Eptr'. subst pr' ptr'. change (u_dt u') with (u_dt u) in Epp'. rewrite <- Epp1 in Epp'. subst p'.
  subst a1 a2. cbn [a_in a_runoff a_on] in *. rewrite Ei0 in I1, I2. rewrite Eq0 in Q1, Q2.
  destruct (fin_sum _ _ _ I1) as (v1 & V1 & ->). destruct (fin_sum _ _ _ Q1) as (k1 & K1 & ->). destruct (fin_sum _ _ _ I2) as (v2 & V2 & ->). destruct (fin_sum _ _ _ Q2) as (k2 & K2 & ->).
  assert (R1 : exists x, pr = Fin x /\ 0 <= x). { rewrite Epr, Hr. cbn. dsimp. dcrush; eexists; (split; [reflexivity|lra]). } destruct R1 as (x & R1 & R0).
  assert (HT' : ~ hydro_tie u (p_precip_prev (st_p s)) pr ptr p (clean_volon (a_on a)) (p + a_on a) (a_end a) (st_head s) (st_head s)). { intro T. apply HT. unfold step_tie. rewrite <- Epr, <- Eptr, <- Epp1. exact T. }
  rewrite R1 in Epp1. change (u_dt u) with (Fin dt) in Epp1. change (Fin x * Fin dt)%d with (Fin (x * dt)) in Epp1.
  rewrite R1, Epp1, Ew in HY, HY', HT'. unfold listCopy in HY, HY'. change (Fin (x * dt) + Fin w)%d with (Fin (x * dt + w)) in *.
  assert (W0 : 0 <= x * dt + w) by (apply Rplus_le_le_0_compat; [apply Rmult_le_pos|]; lra).
  destruct (hydro_surface _ _ _ _ _ _ _ _ _ _ _ _ _ HY V1 K1) as (y1 & Y1 & S1). destruct (hydro_surface _ _ _ _ _ _ _ _ _ _ _ _ _ HY' V2 K2) as (y2 & Y2 & S2).
  rewrite O1 in Y1. rewrite O2 in Y2. injection Y1 as <-. injection Y2 as <-.
  assert (HS : Str e (st_head s)) by (apply Str_iff; [apply (se_n _ HE)|split; assumption]).
  destruct e as [nl cum st so fr]. destruct e' as [nl' cum' st' so' fr']. destruct HO as (X1 & X2 & X3 & X4 & _). cbn [e_nlayers e_cum e_stype e_soils e_frozen] in *. subst nl' cum' st' so'.
  assert (G : v1 <= v2 /\ k2 <= k1 /\ o2 <= o1).
  { refine (hydro_less nl cum st so fr fr' HC HE HV M closed nint wp fc dt pm _ x _ _ _ _ _ _ _ v1 v2 k1 k2 o1 o2 HM HF HG HS HPh HL Hd Hp W0 HT' HY V1 K1 O1 HY' V2 K2 O2 _ _ P1 P2); lra. }
  split; lra.
Qed.

(** ** Temperatures *)
Lemma reduction_range : forall T, 0 < reduction T <= 1.
Proof. intro T. unfold reduction, Rmax, Rmin. destruct (Rle_dec _ 1); destruct (Rle_dec _ _); pose proof (exp_pos (-10 * (273.15 - T))); lra. Qed.
Lemma reduction_mono : forall T T', T <= T' -> reduction T <= reduction T'.
Proof.
  intros T T' H. unfold reduction. assert (E : exp (-10 * (273.15 - T)) <= exp (-10 * (273.15 - T'))).
  { destruct (Rle_lt_or_eq_dec _ _ H) as [L| ->]; [|lra]. left. apply exp_increasing. lra. }
  unfold Rmax, Rmin. repeat destruct (Rle_dec _ _); lra.
Qed.
Lemma mean_mono : forall g g', Forall2 (fun c d : R * R => fst c = fst d /\ snd c <= snd d) g g' -> g <> [] -> mean (map snd g) <= mean (map snd g').
Proof.
  intros g g' H Hn. unfold mean. assert (E : length g = length g' /\ Rsum (map snd g) <= Rsum (map snd g')). { clear Hn. induction H as [|c d l m [_ A] F [I1 I2]]; cbn; [split; [reflexivity|lra]|]. split; [congruence|lra]. }
  destruct E as [E1 E2]. rewrite !map_length, <- E1. apply Rmult_le_compat_r; [|exact E2]. left. apply Rinv_0_lt_compat. apply lt_0_INR. destruct g; [congruence|cbn; lia].
Qed.
Lemma layered_nonempty : forall lims gs rest, layered lims gs rest -> Forall (fun g => g <> []) gs.
Proof. induction lims as [|x ls IH]; intros [|g gs] rest H; cbn in H; try contradiction; constructor; [apply H|]. eapply IH. apply H. Qed.
Lemma factors_colder : forall gs gs', colder_cells gs gs' -> Forall (fun g => g <> []) gs ->
  colder_factors (Fin 1 :: map (fun g => Fin (reduction (mean (map snd g)))) gs) (Fin 1 :: map (fun g => Fin (reduction (mean (map snd g)))) gs').
Proof.
  intros gs gs' H HN. constructor; [exists 1, 1; repeat split; lra|]. induction H as [|g g' l m A F IH]; cbn; [constructor|]. inversion HN; subst. constructor; [|apply IH; assumption].
  do 2 eexists. do 2 (split; [reflexivity|]). split; [apply reduction_range|]. apply reduction_mono, mean_mono; assumption.
Qed.
Lemma layered_colder : forall lims gs gs' rest rest', colder_cells gs gs' -> Forall2 (fun c d : R * R => fst c = fst d) rest rest' -> layered lims gs rest -> layered lims gs' rest'.
Proof.
  induction lims as [|x ls IH]; intros gs gs' rest rest' H HR HL; destruct H as [|g g' l m A F]; cbn in HL |- *; try contradiction; [exact Logic.I|].
  destruct HL as (N & B & C & D). split; [|split; [|split]].
  - destruct A; [congruence|discriminate].
  - clear - A B. induction A as [|c d p q [E1 _] A IH]; [constructor|]. inversion B; subst. constructor; [rewrite <- E1; assumption|apply IH; assumption].
  - assert (E : Forall2 (fun c d : R * R => fst c = fst d) (concat l ++ rest) (concat m ++ rest')).
    { clear - F HR. induction F as [|p q l m A F IH]; cbn; [exact HR|]. rewrite <- !app_assoc. apply Forall2_app; [|exact IH]. clear - A. induction A as [|c d l m [E _] F IH]; constructor; assumption. }
    destruct E as [|c d p q E _]; [exact Logic.I|]. rewrite <- E. exact C.
  - eapply IH; [exact F|exact HR|exact D].
Qed.

(** The same for any two columns that differ in the factors only. *)
Lemma capacity_frost : forall e e' closed nint dt aet w r wfd head f1 f2,
  other_frost e e' -> colder_factors (e_frozen e) (e_frozen e') -> sound_env e -> vg_column e -> capillary closed nint e -> Forall (lies (e_cum e)) head -> Forall (fun f => 1 <= f_layer f <= e_nlayers e)%Z head ->
  infiltration_capacity e closed nint (Fin dt) aet (Fin w) (Fin r) wfd head = Ok f1 -> infiltration_capacity e' closed nint (Fin dt) aet (Fin w) (Fin r) wfd head = Ok f2 -> less f1 f2.
Proof.
  intros [nl cum st so fr] [nl' cum' st' so' fr'] closed nint dt aet w r wfd head f1 f2 (X1 & X2 & X3 & X4 & _) HC HE HV HG HL HR. cbn [e_nlayers e_cum e_stype e_soils e_frozen] in *. subst nl' cum' st' so'.
  exact (capacity_less nl cum st so fr fr' HC HE HV closed nint dt aet w r wfd head f1 f2 HG HL HR).
Qed.
Lemma dry_frost : forall e e' closed nint dt c l s te t1 d1 d2 x1 x2,
  other_frost e e' -> colder_factors (e_frozen e) (e_frozen e') -> vg_column e -> capillary closed nint e -> 0 < dt -> (1 <= f_layer c <= e_nlayers e)%Z -> soil_of e (f_layer c) = Ok s ->
  s_theta_e s = Fin te -> f_theta c = Fin t1 -> t1 <= te ->
  lgar_calc_dry_depth e closed nint (Fin dt) (c :: l) = Ok (d1, x1) -> lgar_calc_dry_depth e' closed nint (Fin dt) (c :: l) = Ok (d2, x2) -> less d1 d2.
Proof.
  intros [nl cum st so fr] [nl' cum' st' so' fr'] closed nint dt c l s te t1 d1 d2 x1 x2 (X1 & X2 & X3 & X4 & _) HC HV HG Hd HR Es Ete Et H H1 H2. cbn [e_nlayers e_cum e_stype e_soils e_frozen] in *. subst nl' cum' st' so'.
  destruct (HV _ _ HR Es) as (r & te' & a & n & m & k & V).
  eapply (dry_less nl cum st so fr fr' HC HV closed nint dt c c l l r te t1 s); try eassumption; [repeat split|exact (vg_r _ _ _ _ _ _ _ V)].
Qed.
Lemma temperatures_frost : forall lims gs gs' rest rest' fs f f', layered lims gs rest -> colder_cells gs gs' -> Forall2 (fun c d : R * R => fst c = fst d) rest rest' -> length fs = length lims ->
  let n := Z.of_nat (length lims) in let cum := Fin 0 :: map Fin lims in let k := Z.of_nat (length (concat gs ++ rest)) in let z := zs (concat gs ++ rest) in
  frozen_factor n cum z (Ts (concat gs ++ rest)) k (Fin 1 :: fs) = Ok f -> frozen_factor n cum z (Ts (concat gs' ++ rest')) k (Fin 1 :: fs) = Ok f' -> colder_factors f f'.
Proof.
  intros lims gs gs' rest rest' fs f f' HL HC HR Hfs n cum k z H H'. pose proof (layered_colder _ _ _ _ _ HC HR HL) as HL'.
  assert (ZZ : zs (concat gs ++ rest) = zs (concat gs' ++ rest') /\ length (concat gs ++ rest) = length (concat gs' ++ rest')).
  { assert (E : Forall2 (fun c d : R * R => fst c = fst d) (concat gs ++ rest) (concat gs' ++ rest')).
    { clear - HC HR. induction HC as [|p q l m A F IH]; cbn; [exact HR|]. rewrite <- !app_assoc. apply Forall2_app; [|exact IH]. clear - A. induction A as [|c d l m [E _] F IH]; constructor; assumption. }
    clear - E. unfold zs. induction E as [|c d l m A F [I1 I2]]; cbn; [auto|]. split; congruence. }
  destruct ZZ as [ZZ ZL]. unfold n, cum, k, z in *. rewrite (frozen_layers _ _ _ _ _ HL Hfs) in H. rewrite ZZ, ZL, (frozen_layers _ _ _ _ _ HL' Hfs) in H'. apply Ok_inj in H, H'. subst.
  apply factors_colder; [exact HC|eapply layered_nonempty; exact HL].
Qed.

(** ** An Update of one sub-step with soil temperatures *)
Lemma prologue_cells : forall s lims gs rest fs, p_calib (st_p s) = false -> p_sft (st_p s) = true -> p_nlayers (st_p s) = Z.of_nat (length lims) -> p_cum (st_p s) = Fin 0 :: map Fin lims -> p_frozen (st_p s) = Fin 1 :: fs -> length fs = length lims ->
  p_ncells (st_p s) = Z.of_nat (length (concat gs ++ rest)) -> p_soilTz (st_p s) = zs (concat gs ++ rest) -> p_soilT (st_p s) = Ts (concat gs ++ rest) -> layered lims gs rest ->
  update_prologue s = Ok (s <| st_p := (st_p s) <| p_frozen := Fin 1 :: map (fun g => Fin (reduction (mean (map snd g)))) gs |> |>, Fin 0).
Proof.
  intros s lims gs rest fs Hc Hs Hn Ecum Efr Hfs Enc Ez ET HL. unfold update_prologue. cbv zeta. rewrite Hs, Hn, Ecum, Efr, Enc, Ez, ET, (frozen_layers _ _ _ _ _ HL Hfs). cbn [bind].
  change (p_calib ((st_p s) <| p_frozen := Fin 1 :: map (fun g => Fin (reduction (mean (map snd g)))) gs |>)) with (p_calib (st_p s)). rewrite Hc. reflexivity.
Qed.

Lemma update_one_frost : forall s s1 t, p_invalid (st_p s) = false -> update_prologue s = Ok (s1, Fin 0) -> p_adaptive (st_p s1) = false -> substeps_of s1 1 -> Update s = Ok t ->
  exists volend a t', let s2 := s1 <| st_p := (st_p s1) <| p_timestep := p_timestep (st_p s1) |> <| p_finterval := 1%Z |> |> in
    let u := mkU (env_of s2) (p_timestep (st_p s1)) (p_nint (st_p s2)) (p_closed (st_p s2)) (p_wilting (st_p s2)) (p_fc (st_p s2)) (p_pmax (st_p s2)) in
    lgar_calc_mass_bal (p_cum (st_p s1)) (st_head s1) = Ok volend /\ update_steps s1 = Ok (s2, p_timestep (st_p s1), 1%Z) /\
    substep u s2 (acc0 volend (mb_on_ts (st_mb s1))) = Ok (t', a) /\
    mb_on_ts (st_mb t) = a_on a /\ exists b, st_out t = Some b /\ o_in b = (a_in a * cm_to_m)%d /\ o_runoff b = (a_runoff a * cm_to_m)%d.
Proof.
  intros s s1 t Hv Hpro Ha Hn H. destruct (Update_inv _ _ Hv H) as (s1' & vcal & volend & s2 & dt & n & s3 & a & E1 & E2 & E3 & E4 & E5 & E6 & E7).
  rewrite Hpro in E1. apply Ok_inj, pair_equal_spec in E1 as [<- <-].
  assert (E5' := E5). destruct (steps_inv _ _ _ _ E5) as (Ed & En & Es2). rewrite Ha in Ed. subst dt. unfold substeps_of in Hn. rewrite Hn in En. apply Ok_inj in En. subst n. subst s2.
  change (Z.to_nat 1) with 1%nat in E6. cbn [subcycle_loop] in E6. bind_inv E6 x Ex. destruct x as [s' a'].
  assert (E6' : s3 = s' /\ a = a'). { destruct (_ && _)%bool in E6; apply Ok_inj, pair_equal_spec in E6 as [<- <-]; auto. } destruct E6' as [-> ->]. clear E6.
  destruct (finish_inv _ _ _ _ E7) as (g & q & m & _ & _ & ->).
  exists volend, a', s'. cbv zeta. split; [exact E2|]. split; [exact E5|]. split; [exact Ex|]. split; [reflexivity|]. eexists. split; [reflexivity|]. split; reflexivity.
Qed.

Lemma update_less : forall M s lims gs gs' rest rest' fs t1 t2 b1 b2 dt pm r w i1 i2 q1 q2 o1 o2,
  let cold := s <| st_p := (st_p s) <| p_soilT := Ts (concat gs ++ rest) |> |> in let warm := s <| st_p := (st_p s) <| p_soilT := Ts (concat gs' ++ rest') |> |> in
  p_invalid (st_p s) = false -> p_calib (st_p s) = false -> p_sft (st_p s) = true -> p_adaptive (st_p s) = false -> substeps_of s 1 ->
  p_nlayers (st_p s) = Z.of_nat (length lims) -> p_cum (st_p s) = Fin 0 :: map Fin lims -> p_frozen (st_p s) = Fin 1 :: fs -> length fs = length lims ->
  p_ncells (st_p s) = Z.of_nat (length (concat gs ++ rest)) -> p_soilTz (st_p s) = zs (concat gs ++ rest) -> layered lims gs rest ->
  colder_cells gs gs' -> Forall2 (fun c d : R * R => fst c = fst d) rest rest' ->
  sound_env (env_of s) -> vg_column (env_of s) -> conducts_at_most M (env_of s) -> capillary (p_closed (st_p s)) (p_nint (st_p s)) (env_of s) ->
  profile (p_nlayers (st_p s)) (p_cum (st_p s)) (st_head s) -> deepest_rests (st_head s) -> Forall (physical_front M (env_of s)) (st_head s) -> Forall (lies (p_cum (st_p s))) (st_head s) ->
  p_timestep (st_p s) = Fin dt -> 0 < dt -> p_pmax (st_p s) = Fin pm -> 0 <= pm -> st_precip s = Fin r -> mb_on_ts (st_mb s) = Fin w -> 0 <= w -> ~ update_tie cold ->
  Update cold = Ok t1 -> st_out t1 = Some b1 -> o_in b1 = Fin i1 -> o_runoff b1 = Fin q1 -> mb_on_ts (st_mb t1) = Fin o1 -> 0 <= i1 -> o1 <= pm ->
  Update warm = Ok t2 -> st_out t2 = Some b2 -> o_in b2 = Fin i2 -> o_runoff b2 = Fin q2 -> mb_on_ts (st_mb t2) = Fin o2 -> 0 <= i2 -> o2 <= pm ->
  (i1 <= i2 /\ q2 <= q1 /\ o2 <= o1) /\ i1 + q1 + o1 / 100 = i2 + q2 + o2 / 100.
Proof.
  intros M s lims gs gs' rest rest' fs t1 t2 b1 b2 dt pm r w i1 i2 q1 q2 o1 o2 cold warm Hv Hc Hs Ha Hn Enl Ecum Efr Hfs Enc Ez HL HC HR HE HV HM HG HPr HDr HPh HLi Ed Hd Ep Hp Er Ew Hw HT H1 B1 I1 Q1 O1 L1 P1 H2 B2 I2 Q2 O2 L2 P2.
  pose proof (layered_colder _ _ _ _ _ HC HR HL) as HL'.
  assert (ZZ : zs (concat gs ++ rest) = zs (concat gs' ++ rest') /\ length (concat gs ++ rest) = length (concat gs' ++ rest')).
  { assert (E : Forall2 (fun c d : R * R => fst c = fst d) (concat gs ++ rest) (concat gs' ++ rest')).
    { clear - HC HR. induction HC as [|p q l m A F IH]; cbn; [exact HR|]. rewrite <- !app_assoc. apply Forall2_app; [|exact IH]. clear - A. induction A as [|c d l m [E _] F IH]; constructor; assumption. }
    clear - E. unfold zs. induction E as [|c d l m A F [I1 I2]]; cbn; [auto|]. split; congruence. }
  destruct ZZ as [ZZ ZL].
  pose proof (prologue_cells cold lims gs rest fs Hc Hs Enl Ecum Efr Hfs Enc Ez eq_refl HL) as PC.
  assert (PW : update_prologue warm = Ok (warm <| st_p := (st_p warm) <| p_frozen := Fin 1 :: map (fun g => Fin (reduction (mean (map snd g)))) gs' |> |>, Fin 0)).
  { apply (prologue_cells warm lims gs' rest' fs Hc Hs Enl Ecum Efr Hfs); [rewrite <- ZL; exact Enc|rewrite <- ZZ; exact Ez|reflexivity|exact HL']. }
  destruct (update_one_frost cold _ _ Hv PC Ha Hn H1) as (v1 & a1 & s1 & M1 & U1 & S1 & A1 & c1 & C1 & J1 & R1).
  destruct (update_one_frost warm _ _ Hv PW Ha Hn H2) as (v2 & a2 & s2 & M2 & U2 & S2 & A2 & c2 & C2 & J2 & R2).
  rewrite B1 in C1. injection C1 as <-. rewrite B2 in C2. injection C2 as <-. rewrite I1 in J1. rewrite I2 in J2. rewrite Q1 in R1. rewrite Q2 in R2. rewrite O1 in A1. rewrite O2 in A2.
  assert (V : v1 = v2). { change (lgar_calc_mass_bal (p_cum (st_p s)) (st_head s) = Ok v1) in M1. change (lgar_calc_mass_bal (p_cum (st_p s)) (st_head s) = Ok v2) in M2. rewrite M1 in M2. apply Ok_inj in M2. exact M2. } subst v2.
  assert (F : forall x y, Fin y = (x * cm_to_m)%d -> exists z, x = Fin z /\ z = 100 * y).
  { intros [z| | |] y K; dsimp; unfold inf_sign in *; cbn in K; repeat (destruct (Rlt_dec _ _) in K || destruct (Req_EM_T _ _) in K); try discriminate; try lra. injection K as K. exists z. split; [reflexivity|lra]. }
  destruct (F _ _ J1) as (x1 & X1 & G1). destruct (F _ _ J2) as (x2 & X2 & G2). destruct (F _ _ R1) as (z1 & Z1 & N1). destruct (F _ _ R2) as (z2 & Z2 & N2).
  set (fr := Fin 1 :: map (fun g => Fin (reduction (mean (map snd g)))) gs) in *. set (fr' := Fin 1 :: map (fun g => Fin (reduction (mean (map snd g)))) gs') in *.
  set (e := mkEnv (p_nlayers (st_p s)) (p_cum (st_p s)) (p_stype (st_p s)) (st_soils s) fr). set (e' := mkEnv (p_nlayers (st_p s)) (p_cum (st_p s)) (p_stype (st_p s)) (st_soils s) fr').
  assert (FC : colder_factors fr fr') by (apply factors_colder; [exact HC|eapply layered_nonempty; exact HL]).
  assert (LG : length gs = length lims). { clear - HL. revert gs HL. induction lims as [|x l IH]; intros [|g gs] H; cbn in H; try contradiction; [reflexivity|]. cbn. f_equal. apply IH. apply H. }
  assert (FA : forall k, (1 <= k <= p_nlayers (st_p s))%Z -> exists x, aget fr k = Ok (Fin x) /\ 0 < x <= 1).
  { intros k Hk. unfold aget. destruct (k <? 0)%Z eqn:K; [apply Z.ltb_lt in K; lia|]. destruct (nth_error fr (Z.to_nat k)) as [y|] eqn:N.
    - replace (Z.to_nat k) with (S (Z.to_nat (k - 1))) in N by lia. cbn in N. rewrite nth_error_map in N. destruct (nth_error gs _); [|discriminate]. injection N as <-. eexists. split; [reflexivity|apply reduction_range].
    - exfalso. apply nth_error_None in N. unfold fr in N. cbn [length] in N. rewrite map_length in N. lia. }
  assert (HE1 : sound_env e). { destruct HE as [A B C D _]. constructor; try assumption. intros k Hk. destruct (FA k Hk) as (x & Ex & _). eauto. }
  assert (HF1 : frozen_in_range e). { intros k Hk. destruct (FA k Hk) as (x & Ex & Hx). exists x. split; [exact Ex|lra]. }
  assert (HP1 : Forall (physical_front M e) (st_head s)). { revert HPh. apply Forall_impl. intros c [A B C]. constructor; assumption. }
  assert (HO1 : other_frost e e'). { repeat split. cbn. unfold fr, fr'. cbn. rewrite !map_length. f_equal. eapply Forall2_length. exact HC. }
  assert (T : (x1 <= x2 /\ z2 <= z1 /\ o2 <= o1) /\ x1 + z1 + o1 = x2 + z2 + o2); [|lra].
  cbv zeta in S1, S2, U1.
  assert (D1 : p_timestep (st_p cold) = Fin dt) by exact Ed.
  match type of S1 with substep ?x ?y ?z = _ => assert (EU : x = mkU e (Fin dt) (p_nint (st_p s)) (p_closed (st_p s)) (p_wilting (st_p s)) (p_fc (st_p s)) (Fin pm)) by (rewrite <- Ed, <- Ep; reflexivity); rewrite EU in S1; set (y1 := y) in *; set (u1 := x) in * end.
  match type of S2 with substep ?x ?y ?z = _ => assert (EU2 : x = mkU e' (Fin dt) (p_nint (st_p s)) (p_closed (st_p s)) (p_wilting (st_p s)) (p_fc (st_p s)) (Fin pm)) by (rewrite <- Ed, <- Ep; reflexivity); rewrite EU2 in S2; set (y2 := y) in * end.
  change (mb_on_ts (st_mb (warm <| st_p := (st_p warm) <| p_frozen := fr' |> |>))) with (mb_on_ts (st_mb (cold <| st_p := (st_p cold) <| p_frozen := fr |> |>))) in S2.
  refine (substep_less M e e' dt _ _ _ _ pm y1 y2 (acc0 v1 (mb_on_ts (st_mb s))) _ _ a1 a2 r w 0 0 x1 x2 z1 z2 o1 o2 HO1 FC HE1 HV HM HF1 HG HPr HDr HP1 HLi eq_refl eq_refl eq_refl eq_refl Hd Hp Er Ew Hw eq_refl eq_refl _ S1 X1 Z1 (eq_sym A1) _ P1 S2 X2 Z2 (eq_sym A2) _ P2); [|lra|lra].
  intro Tie. apply HT. exists (cold <| st_p := (st_p cold) <| p_frozen := fr |> |>), (Fin 0), v1, y1, (p_timestep (st_p cold)), 1%Z, [], y1, (acc0 v1 (mb_on_ts (st_mb cold))).
  split; [exact PC|]. split; [exact M1|]. split; [exact U1|]. cbv zeta. split; [apply runs_nil|]. split; [cbn; lia|]. unfold u1 in EU. cbv zeta in Tie. rewrite <- EU in Tie. exact Tie.
Qed.
End Exactly.
