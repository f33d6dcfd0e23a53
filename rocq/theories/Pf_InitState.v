(** The state that Initialize leaves, for every rounding. *)

From Coq Require Import String Ascii Reals Lra ZArith List Bool Lia.
From RecordUpdate Require Import RecordSet.
From Verif Require Import Outcome Dbl Exact Types ListOps Soil Fronts State Update Config Bmi Lib Spec_Common Spec_List Spec_Profile Spec_Update Spec_Bmi Spec_Config
  Pf_List Pf_Dbl Pf_Profile Pf_Text Pf_Config Pf_Lines Pf_Init Pf_Giuh.
Import ListNotations.
Import RecordSetNotations.
Open Scope string_scope.
Open Scope list_scope.

Section InitState.
Context {fp : Fp}.

(** ** Bounds of the configured values *)
Record bounded (c : conf) : Prop := mkBd {
  bd_thick : forall v, cf_thick c = Some v -> v <> [];
  bd_giuh : forall v, cf_giuh c = Some v -> v <> [];
  bd_soilz : forall v, cf_soilz c = Some v -> v <> [];
  bd_dt : forall v, cf_timestep c = Some v -> dgtb v (Fin 0) = true;
  bd_fres : forall v, cf_fres c = Some v -> dgtb v (Fin 0) = true;
  bd_end : forall v, cf_endtime c = Some v -> dgtb v (Fin 0) = true;
  bd_pmax : forall v, cf_pmax c = Some v -> not_negative v;
  bd_max : forall z, cf_maxtypes c = Some z -> (z <= 15)%Z }.

Lemma vector_nonempty : forall s v, ReadVectorData s = Ok v -> v <> [].
Proof.
  intros s v H. destruct (ReadVector_any s) as (t & ts & _ & _ & E). rewrite E in H.
  cbn in H. bind_inv H x Ex. bind_inv H r Er. apply Ok_inj in H. subst v. discriminate.
Qed.
Lemma line_bounded : forall c l d, bounded c -> config_line c l = Ok d -> bounded d.
Proof.
  intros c l d B H. unfold config_line in H. cbv zeta in H.
  repeat match type of H with
  | (if String.eqb _ _ then _ else _) = _ => destruct (String.eqb _ _)
  | (if is_in _ _ then _ else _) = _ => destruct (is_in _ _)
  end; try discriminate.
  all: repeat match type of H with
  | bind (ReadVectorData _) _ = _ => let v := fresh "v" in let E := fresh "E" in bind_inv H v E
  | bind (stod _) _ = _ => let v := fresh "v" in let E := fresh "E" in bind_inv H v E
  | bind (stoi _) _ = _ => let v := fresh "v" in let E := fresh "E" in bind_inv H v E
  | bind (to_ints _) _ = _ => let v := fresh "v" in let E := fresh "E" in bind_inv H v E
  | bind (cassert _) _ = _ => let v := fresh "v" in let E := fresh "E" in bind_inv H v E; apply cassert_Ok in E
  | bind (endtime_of _ _ _) _ = _ => let v := fresh "v" in let E := fresh "E" in bind_inv H v E; destruct v as [v|]; [|discriminate H]
  end.
  all: apply Ok_inj in H; subst d; destruct B; constructor; cbn; try assumption.
  all: intros w Q; injection Q as <-; try assumption.
  all: try (eapply vector_nonempty; eassumption).
  - lia.
  - apply nn_fmax0.
Qed.
Lemma lines_bounded : forall ls c d, bounded c -> config_lines c ls = Ok d -> bounded d.
Proof.
  induction ls as [|l ls IH]; intros c d B H; cbn in H; [apply Ok_inj in H; subst d; assumption|]. bind_inv H e Ee. eapply IH; [|exact H]. eapply line_bounded; eassumption.
Qed.
Lemma conf_bounded : forall ls c, config_lines conf0 ls = Ok c -> bounded c.
Proof. intros ls c H. eapply lines_bounded; [|exact H]. constructor; cbn; discriminate. Qed.

Lemma positive : forall v, dgtb v (Fin 0) = true -> v = PInf \/ exists x, v = Fin x /\ (0 < x)%R.
Proof. intros [x| | |] H; try discriminate; [right; exists x; split; [reflexivity|]; apply Rltb_true; exact H|auto]. Qed.
Lemma positive_nn : forall v, dgtb v (Fin 0) = true -> not_negative v.
Proof. intros v H. destruct (positive _ H) as [->|(x & -> & P)]; [reflexivity|]. apply nn_Fin. lra. Qed.

(** ** Soil types *)
Lemma read_length : forall wp junk nst rs l i tab tab', read_rows wp junk nst rs l i tab = Ok tab' -> length tab' = length tab.
Proof.
  intros wp junk nst. induction rs as [|r rs IH]; intros l i tab tab' H; cbn in H; [apply Ok_inj in H; subst; reflexivity|].
  bind_inv H q Eq0. destruct q as [l1 tab1].
  assert (L : length tab1 = length tab).
  { unfold read_row in Eq0. bind_inv Eq0 nm En. destruct (_ <=? _)%Z; [discriminate|]. destruct (_ <? _)%Z; [discriminate|]. bind_inv Eq0 u0 Eu0. destruct (_ =? _)%Z; [discriminate|].
    destruct (l_vals (scan r l)) as [|a [|b [|g [|d [|e [|? ?]]]]]]; try discriminate.
    bind_inv Eq0 va Ea. bind_inv Eq0 vb Eb. bind_inv Eq0 vg Eg. bind_inv Eq0 vd Ed. bind_inv Eq0 ve Ee. bind_inv Eq0 en Een. bind_inv Eq0 tb Et. apply Ok_inj, pair_equal_spec in Eq0 as [_ <-].
    apply aset_Ok in Et as [_ ->]. apply lset_length. }
  destruct (nst =? i)%Z; [apply Ok_inj in H; subst; assumption|]. rewrite (IH _ _ _ _ H). assumption.
Qed.
Lemma uget_Ok : forall A (a : list (option A)) i x, uget a i = Ok x -> aget a i = Ok (Some x).
Proof. intros A a i x H. unfold uget in H. bind_inv H o Eo. destruct o; [|discriminate]. apply Ok_inj in H. subst. assumption. Qed.
Lemma uget_map : forall A B (f : A -> B) (a : list (option A)) i x, uget a i = Ok x -> uget (map (option_map f) a) i = Ok (f x).
Proof.
  intros A B f a i x H. apply uget_Ok, aget_Ok in H as [P H]. unfold uget.
  assert (E : aget (map (option_map f) a) i = Ok (Some (f x))). { apply aget_Ok. split; [assumption|]. rewrite nth_error_map, H. reflexivity. }
  rewrite E. reflexivity.
Qed.
Lemma valid_all : forall k layer stype nst b, any_invalid k layer stype nst = Ok b ->
  (forall j t, (j < k)%nat -> uget stype (layer + Z.of_nat j) = Ok t -> (t <= nst)%Z) -> b = false.
Proof.
  induction k as [|k IH]; intros layer stype nst b H P; cbn in H; [apply Ok_inj in H; auto|].
  bind_inv H t Et. destruct (Z.ltb_spec nst t) as [L|L].
  - specialize (P 0%nat t ltac:(lia)). rewrite Z.add_0_r in P. specialize (P Et). lia.
  - eapply IH; [exact H|]. intros j t' Hj E. apply (P (S j) t'); [lia|]. replace (layer + Z.of_nat (S j))%Z with (layer + 1 + Z.of_nat j)%Z by lia. assumption.
Qed.

(** ** The unit hydrograph *)
Lemma fill : forall k j0 pre o f m, Z.of_nat (length pre) = (j0 + f + 1)%Z ->
  forall (a : list (option dbl)), a = pre ++ repeat None (k + m) ->
  zfor j0 k (fun j a => o' <- (Ok o : outcome dbl) ;; aset a (j + f + 1)%Z (Some o')) a = Ok ((pre ++ repeat (Some o) k) ++ repeat None m).
Proof.
  induction k as [|k IH]; intros j0 pre o f m L a ->; cbn [zfor]; [rewrite app_nil_r; reflexivity|].
  cbn [bind repeat plus]. rewrite aset_app by lia. cbn [bind].
  rewrite (IH (j0 + 1)%Z (pre ++ [Some o]) o f m); [|rewrite app_length; cbn [length]; lia|rewrite <- app_assoc; reflexivity].
  do 2 f_equal. rewrite <- !app_assoc. reflexivity.
Qed.

Lemma zfor_ext : forall S (f g : Z -> S -> outcome S) k i x, (forall i x, f i x = g i x) -> zfor i k f x = zfor i k g x.
Proof. intros S f g k. induction k as [|k IH]; intros i x H; [reflexivity|]. cbn. rewrite H. destruct (g i x); [|reflexivity]. cbn. apply IH. assumption. Qed.

Lemma spread_length : forall k x ord, length (spread k x ord) = (k * length ord)%nat.
Proof. intros k x ord. unfold spread. induction ord as [|o ord IH]; cbn; [lia|]. rewrite app_length, repeat_length, IH. lia. Qed.
Lemma resample_loop : forall k x b a ord, ord = a ++ b ->
  zfor (Z.of_nat (length a)) (length b) (fun i a =>
    zfor 0 k (fun j a => o <- aget ord i ;; aset a (j + i * Z.of_nat k + 1)%Z (Some (o / x)%d)) a)
    ((None :: map Some (spread k x a)) ++ repeat None (k * length b)) = Ok (None :: map Some (spread k x ord)).
Proof.
  intros k x. induction b as [|o b IH]; intros a ord E.
  - rewrite app_nil_r in E. subst a. cbn [length zfor]. rewrite Nat.mul_0_r. cbn [repeat]. rewrite app_nil_r. reflexivity.
  - cbn [length zfor].
    assert (G : aget ord (Z.of_nat (length a)) = Ok o) by (subst ord; apply aget_app; reflexivity).
    rewrite (zfor_ext _ _ (fun j a0 => o' <- (Ok (o / x)%d : outcome dbl) ;; aset a0 (j + Z.of_nat (length a) * Z.of_nat k + 1)%Z (Some o')));
      [|intros i y; rewrite G; reflexivity].
    rewrite (fill k 0 (None :: map Some (spread k x a)) (o / x)%d (Z.of_nat (length a) * Z.of_nat k)%Z (k * length b)).
    + cbn [bind]. replace (Z.of_nat (length a) + 1)%Z with (Z.of_nat (length (a ++ [o]))) by (rewrite app_length; cbn [length]; lia).
      replace ((None :: map Some (spread k x a)) ++ repeat (Some (o / x)%d) k) with (None :: map Some (spread k x (a ++ [o]))).
      * apply IH. rewrite <- app_assoc. assumption.
      * unfold spread. rewrite flat_map_app, map_app. cbn [flat_map]. rewrite app_nil_r. cbn [app]. do 2 f_equal. clear. induction k; cbn; [reflexivity|f_equal; assumption].
    + cbn [length]. rewrite map_length, spread_length. lia.
    + f_equal. f_equal. lia.
Qed.
Lemma resample_is : forall fres ord n a, resample fres ord = Ok (n, a) ->
  exists factor, d2i (lit 1 / fres)%d = Ok factor /\ n = (factor * Z.of_nat (length ord))%Z /\
    ((0 <= factor)%Z -> a = None :: map Some (spread (Z.to_nat factor) (dofZ factor) ord)).
Proof.
  intros fres ord n a H. unfold resample in H. bind_inv H factor Ef. cbv zeta in H. bind_inv H ar Ea. apply Ok_inj, pair_equal_spec in H as [<- <-].
  exists factor. split; [assumption|]. split; [reflexivity|]. intro P.
  pose proof (resample_loop (Z.to_nat factor) (dofZ factor) ord [] ord eq_refl) as Q. cbn [length spread flat_map map app] in Q.
  change (None :: repeat None (Z.to_nat factor * length ord)) with (repeat (@None dbl) (S (Z.to_nat factor * length ord))) in Q.
  replace (S (Z.to_nat factor * length ord)) with (Z.to_nat (factor * Z.of_nat (length ord) + 1)) in Q by nia.
  rewrite Z2Nat.id in Q by assumption. change (Z.of_nat 0) with 0%Z in Q. rewrite Q in Ea. apply Ok_inj in Ea. symmetry. exact Ea.
Qed.
Lemma copy_loop : forall k (a pre : list dbl) (l : list (option dbl)), k = length a -> l = None :: map Some (pre ++ a) ->
  zfor (Z.of_nat (length pre)) k (fun i acc => o <- uget l (i + 1) ;; Ok (acc ++ [o])) pre = Ok (pre ++ a).
Proof.
  induction k as [|k IH]; intros a pre l K L.
  - destruct a; [|discriminate]. rewrite app_nil_r. reflexivity.
  - destruct a as [|x a]; [discriminate|]. injection K as K. cbn [zfor].
    assert (G : uget l (Z.of_nat (length pre) + 1) = Ok x).
    { unfold uget. subst l. rewrite map_app. cbn [map]. rewrite app_comm_cons, aget_app; [reflexivity|]. cbn [length]. rewrite map_length. lia. }
    rewrite G. cbn [bind]. replace (Z.of_nat (length pre) + 1)%Z with (Z.of_nat (length (pre ++ [x]))) by (rewrite app_length; cbn [length]; lia).
    rewrite (IH a (pre ++ [x]) l K); [rewrite <- app_assoc; reflexivity|]. rewrite <- app_assoc. assumption.
Qed.

Section Of.
Variables (files : string -> option (list row)) (junk : dbl) (ls : list string) (s : state)
  (c : conf) (st : list Z) (rows : list row) (tab : list (option entry)) (thick : list dbl) (psi : dbl) (ord : list dbl).
Hypothesis I : initialised files junk ls s c st rows tab thick psi ord.
Let cbd : bounded c := conf_bounded _ _ (in_conf _ _ _ _ _ _ _ _ _ _ _ I).

Lemma thick_ne : thick <> [].
Proof. eapply bd_thick; [exact cbd|]. apply (in_thick _ _ _ _ _ _ _ _ _ _ _ I). Qed.
Lemma layers_pos : (1 <= Z.of_nat (length thick))%Z.
Proof. pose proof thick_ne as T. destruct thick; [contradiction|cbn [length]; lia]. Qed.
Lemma init_fronts : numbered (st_head s) /\ length (st_head s) = length thick /\
  forall i f, nth_error (st_head s) i = Some f -> at_layer psi (p_stype (st_p s)) (p_cum (st_p s)) (p_frozen (st_p s)) tab (Z.of_nat (S i)) f.
Proof. apply fronts_are with (1 := in_head _ _ _ _ _ _ _ _ _ _ _ I). Qed.
Lemma init_nl : p_nlayers (st_p s) = Z.of_nat (length thick). Proof. apply (in_p _ _ _ _ _ _ _ _ _ _ _ I). Qed.

Lemma init_profile : profile (p_nlayers (st_p s)) (p_cum (st_p s)) (st_head s).
Proof.
  destruct init_fronts as (N & L & P). rewrite init_nl, <- L. eapply layered_profile; [|exact N|exact P].
  intro E. rewrite E in L. apply thick_ne. destruct thick; [reflexivity|discriminate].
Qed.
Lemma init_rests : deepest_rests (st_head s).
Proof. intros f H. destruct init_fronts as (_ & _ & P). destruct (P _ _ H) as (t & en & d & ff & _ & _ & _ & _ & ->). reflexivity. Qed.

Lemma init_soil : forall k, (1 <= k <= p_nlayers (st_p s))%Z -> exists t en, uget (p_stype (st_p s)) k = Ok t /\ uget tab t = Ok en /\ soil_of (env_of s) k = Ok (en_soil en).
Proof.
  intros k K. rewrite init_nl in K. destruct init_fronts as (_ & L & P).
  destruct (nth_error (st_head s) (Z.to_nat (k - 1))) as [f|] eqn:E; [|apply nth_error_None in E; lia].
  destruct (P _ _ E) as (t & en & d & ff & A & B & _). replace (Z.of_nat (S (Z.to_nat (k - 1)))) with k in A by lia. exists t, en. split; [assumption|split; [assumption|]].
  unfold soil_of. cbn [env_of e_stype e_soils]. rewrite A. cbn [bind].
  destruct (in_s _ _ _ _ _ _ _ _ _ _ _ I) as (_ & S & _). rewrite S. apply uget_map. assumption.
Qed.

(** A soil type out of range never gets past Initialize: the code reads the table outside of its bounds. *)
Lemma init_valid : p_invalid (st_p s) = false.
Proof.
  eapply valid_all; [apply (in_invalid _ _ _ _ _ _ _ _ _ _ _ I)|].
  intros j t Hj E. replace (1 + Z.of_nat j)%Z with (Z.of_nat (S j)) in E by lia.
  destruct (init_soil (Z.of_nat (S j))) as (t' & en & A & B & _). { rewrite init_nl. lia. }
  rewrite E in A. apply Ok_inj in A. subst t'. apply uget_Ok, aget_Ok in B as [P B].
  assert (Q : (Z.to_nat t < length tab)%nat) by (apply nth_error_Some; congruence).
  rewrite (read_length _ _ _ _ _ _ _ _ (in_tab _ _ _ _ _ _ _ _ _ _ _ I)), repeat_length in Q.
  pose proof (in_nst _ _ _ _ _ _ _ _ _ _ _ I). lia.
Qed.

(** ** The unit hydrograph of the state *)
Lemma fres_pos : dgtb (p_fres (st_p s)) (Fin 0) = true.
Proof. eapply bd_fres; [exact cbd|]. apply (in_fres _ _ _ _ _ _ _ _ _ _ _ I). Qed.
Lemma dt_pos : dgtb (p_timestep (st_p s)) (Fin 0) = true.
Proof. eapply bd_dt; [exact cbd|]. apply (in_dt _ _ _ _ _ _ _ _ _ _ _ I). Qed.
Lemma ord_ne : ord <> [].
Proof. eapply bd_giuh; [exact cbd|]. apply (in_giuh _ _ _ _ _ _ _ _ _ _ _ I). Qed.
Lemma trunc_nonneg : forall x, (0 <= x)%R -> (0 <= trunc x)%Z.
Proof. intros x H. unfold trunc. destruct (Rlt_dec x 0); [lra|]. destruct (base_Int_part x) as [A B]. assert (Q : (-1 < IZR (Int_part x))%R) by lra. apply lt_IZR in Q. lia. Qed.
Lemma d2i_nonneg : forall d z, not_negative d -> d2i d = Ok z -> (0 <= z)%Z.
Proof.
  intros [x| | |] z N H; try discriminate. unfold d2i in H. destruct (_ && _)%bool; [|discriminate]. apply Ok_inj in H. subst z. apply trunc_nonneg. apply nn_Fin_inv. assumption.
Qed.
Lemma init_giuh : exists factor, d2i (lit 1 / p_fres (st_p s))%d = Ok factor /\ (0 <= factor)%Z /\ g_N s = (factor * Z.of_nat (length ord))%Z /\
  g_ord s = spread (Z.to_nat factor) (dofZ factor) ord.
Proof.
  destruct (in_ords _ _ _ _ _ _ _ _ _ _ _ I) as (ords & R & C). destruct (resample_is _ _ _ _ R) as (factor & D & N & A).
  assert (P : (0 <= factor)%Z). { eapply d2i_nonneg; [|exact D]. apply nn_div; [apply nn_lit; lra|apply positive_nn, fres_pos]. }
  exists factor. split; [assumption|]. split; [assumption|]. split; [assumption|].
  pose proof (copy_loop (Z.to_nat (g_N s)) (spread (Z.to_nat factor) (dofZ factor) ord) [] ords) as Q. cbn [length app] in Q. change (Z.of_nat 0) with 0%Z in Q.
  rewrite Q in C; [apply Ok_inj in C; auto| |apply A; assumption]. rewrite spread_length, N. nia.
Qed.
Lemma layer_values_length : forall k layer stype tb l vs, layer_values k layer stype tb l = Ok vs -> length vs = k.
Proof.
  induction k as [|k IH]; intros layer stype tb l vs H; cbn in H; [apply Ok_inj in H; subst; reflexivity|]. destruct l as [|f r]; [discriminate|].
  bind_inv H t Et. bind_inv H en Een. bind_inv H ws Ews. apply Ok_inj in H. subst vs. cbn. f_equal. eapply IH. exact Ews.
Qed.
Lemma init_arrays : arrays_ok (mkObj s (repeat None 11)).
Proof.
  destruct (in_p _ _ _ _ _ _ _ _ _ _ _ I) as (P1 & P2 & P3 & P4 & P5 & P6 & P7 & _).
  destruct (in_vals _ _ _ _ _ _ _ _ _ _ _ I) as (vs & V1 & V2 & V3 & V4). apply layer_values_length in V1.
  pose proof (in_cells _ _ _ _ _ _ _ _ _ _ _ I) as C.
  constructor; cbn [ob_s ob_pre]; rewrite ?V2, ?V3, ?V4, ?P6, ?P1; cbn [c_theta_e c_theta_r c_n c_alpha c_Ksat]; rewrite ?map_length, ?V1; try reflexivity; try lia.
  - rewrite P3. cbn [length]. rewrite running_length. lia.
  - rewrite P7, repeat_length. destruct (cf_sft c); destruct C as [? ?]; lia.
Qed.

Lemma init_signs : Forall not_negative ord -> signs s.
Proof.
  intro F. destruct (in_p _ _ _ _ _ _ _ _ _ _ _ I) as (_ & _ & _ & _ & _ & _ & _ & Mn & _ & _ & Pm & _).
  destruct (in_vals _ _ _ _ _ _ _ _ _ _ _ I) as (vs & _ & _ & _ & Cal). destruct (in_s _ _ _ _ _ _ _ _ _ _ _ I) as (_ & _ & _ & _ & _ & Q & Mb).
  assert (PM : not_negative (p_pmax (st_p s))). { rewrite Pm. destruct (cf_pmax c) as [v|] eqn:E; [|apply nn_zero]. eapply bd_pmax; [exact cbd|exact E]. }
  split; [|split; [|split]].
  - unfold sane. rewrite Mn, Cal. cbn [c_pmax]. pose proof (positive_nn _ dt_pos). pose proof (positive_nn _ fres_pos). auto.
  - rewrite Mb. cbn. apply nn_zero.
  - destruct init_giuh as (factor & _ & P & _ & ->). unfold spread. apply Forall_flat_map. eapply Forall_impl; [|exact F]. intros o No. cbn.
    apply Forall_forall. intros x Hx. apply repeat_spec in Hx. subst x. apply nn_div; [assumption|]. unfold dofZ. apply nn_lit. apply IZR_le. assumption.
  - rewrite Q. apply Forall_forall. intros x Hx. apply repeat_spec in Hx. subst x. apply nn_zero.
Qed.

Lemma init_sound : finite (p_timestep (st_p s)) -> finite (p_fres (st_p s)) -> (1 <= g_N s)%Z ->
  (forall k, (0 <= k <= p_nlayers (st_p s))%Z -> exists z, aget (p_cum (st_p s)) k = Ok (Fin z) /\ rnd z = Fin z) ->
  (forall k z z', (0 <= k < p_nlayers (st_p s))%Z -> aget (p_cum (st_p s)) k = Ok (Fin z) -> aget (p_cum (st_p s)) (k + 1)%Z = Ok (Fin z') -> (z < z')%R) ->
  sound_state s.
Proof.
  intros Fd Ff N C1 C2. destruct (in_p _ _ _ _ _ _ _ _ _ _ _ I) as (P1 & _ & _ & _ & P5 & _ & _ & Mn & _).
  destruct (in_s _ _ _ _ _ _ _ _ _ _ _ I) as (_ & _ & _ & _ & _ & Q & _).
  constructor.
  - constructor; cbn [env_of e_nlayers e_cum e_frozen]; try assumption.
    + rewrite P1. apply layers_pos.
    + intros k K. destruct (init_soil k K) as (t & en & _ & _ & E). exists (en_soil en). exact E.
    + intros k K. apply aget_in_range. rewrite P5, repeat_length. rewrite P1 in K. lia.
  - apply init_profile.
  - apply init_rests.
  - rewrite Mn. split; [assumption|]. split; [assumption|]. split; [|assumption]. apply positive_nn, dt_pos.
  - split; [assumption|]. destruct init_giuh as (factor & _ & P & E & ->). rewrite spread_length, Q, repeat_length. nia.
Qed.
Lemma init_ready_calib : p_calib (st_p s) = true -> (p_nfronts (st_p s) <= listLength (st_head s))%Z /\
    Forall (fun c => (p_nlayers (st_p s) <= Z.of_nat (length c))%Z)
      [c_theta_e (st_cal s); c_theta_r (st_cal s); c_n (st_cal s); c_alpha (st_cal s); c_Ksat (st_cal s)].
Proof.
  intros _. pose proof init_arrays as A. split.
  - destruct (in_p _ _ _ _ _ _ _ _ _ _ _ I) as (_ & _ & _ & _ & _ & P6 & _). rewrite P6. rewrite (in_len _ _ _ _ _ _ _ _ _ _ _ I). lia.
  - destruct A; cbn [ob_s] in *. repeat constructor; lia.
Qed.
End Of.
End InitState.
