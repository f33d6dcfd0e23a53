(** The state that Initialize leaves, in exact arithmetic. *)

From Coq Require Import String Ascii Reals Lra ZArith List Bool Lia.
From RecordUpdate Require Import RecordSet.
From Verif Require Import Outcome Dbl Exact Types ListOps Soil Fronts State Update Config Bmi Lib Spec_Common Spec_List Spec_Column Spec_Soil Spec_Profile Spec_Update Spec_Storage
  Spec_Bmi Spec_Config Pf_List Pf_Dbl Pf_Column Pf_Soil Pf_Profile Pf_Storage Pf_Text Pf_Config Pf_Lines Pf_Init Pf_InitState Pf_Table.
Import ListNotations.
Import RecordSetNotations.
Open Scope string_scope.
Open Scope list_scope.
Open Scope R_scope.
Local Existing Instance exact.

Lemma running_exact : forall ts z, running (Fin z) (map Fin ts) = map Fin (tl (boundaries z ts)).
Proof.
  induction ts as [|t ts IH]; intros z; [reflexivity|]. cbn [map running boundaries tl]. change (Fin z + Fin t)%d with (Fin (z + t)). rewrite IH.
  destruct ts; reflexivity.
Qed.
Lemma cum_exact : forall ts, Fin 0 :: running (Fin 0) (map Fin ts) = map Fin (boundaries 0 ts).
Proof. intro ts. rewrite running_exact. destruct ts; reflexivity. Qed.
Lemma finite_map : forall l : list dbl, Forall finite l -> l = map Fin (map val l).
Proof. induction 1 as [|x l [r ->] _ IH]; [reflexivity|]. cbn. rewrite <- IH. reflexivity. Qed.
Lemma value_exact : forall ns, map (fun n => @rnd exact (value n)) ns = map Fin (map value ns).
Proof. intro ns. rewrite map_map. reflexivity. Qed.

Section Of.
Variables (files : string -> option (list row)) (junk : dbl) (ls : list string) (s : state)
  (c : conf) (st : list Z) (rows : list row) (tab : list (option entry)) (psi : R) (ord : list dbl) (ts : list R).
Hypothesis I : initialised files junk ls s c st rows tab (map Fin ts) (Fin psi) ord.

Lemma cum_is : p_cum (st_p s) = map Fin (boundaries 0 ts).
Proof. destruct (in_p _ _ _ _ _ _ _ _ _ _ _ I) as (_ & _ & -> & _). apply cum_exact. Qed.
Lemma nl_is : p_nlayers (st_p s) = Z.of_nat (length ts).
Proof. rewrite (init_nl _ _ _ _ _ _ _ _ _ _ _ I), map_length. reflexivity. Qed.
Lemma aget_cum : forall k, (k <= length ts)%nat -> aget (p_cum (st_p s)) (Z.of_nat k) = Ok (Fin (Rsum (firstn k ts))).
Proof.
  intros k K. rewrite cum_is. apply aget_Ok. split; [lia|]. rewrite Nat2Z.id, nth_error_map, boundaries_nth by assumption. cbn. do 2 f_equal. ring.
Qed.

Lemma init_sound_exact : Forall (Rlt 0) ts -> finite (p_timestep (st_p s)) -> finite (p_fres (st_p s)) -> (1 <= g_N s)%Z -> sound_state s.
Proof.
  intros T Fd Ff N. apply (init_sound _ _ _ _ _ _ _ _ _ _ _ I Fd Ff N).
  - intros k K. rewrite nl_is in K. exists (Rsum (firstn (Z.to_nat k) ts)). split; [|reflexivity]. rewrite <- aget_cum by lia. f_equal. lia.
  - intros k z z' K A B. rewrite nl_is in K. rewrite <- (Z2Nat.id k), aget_cum in A by lia. replace (k + 1)%Z with (Z.of_nat (S (Z.to_nat k))) in B by lia.
    rewrite aget_cum in B by lia. apply Ok_inj in A, B. assert (A' : z = Rsum (firstn (Z.to_nat k) ts)) by congruence. assert (B' : z' = Rsum (firstn (S (Z.to_nat k)) ts)) by congruence. rewrite A', B', firstn_sum_S by lia.
    rewrite Forall_forall in T. assert (0 < nth (Z.to_nat k) ts 0) by (apply T, nth_In; lia). lra.
Qed.

(** ** The soils *)
Hypothesis Phys : Forall physical_row rows.
Lemma phys_full : forall r, In r rows -> exists nm tr te al n k, r = full_row nm tr te al n k.
Proof. intros r H. rewrite Forall_forall in Phys. destruct (Phys r H) as (nm & tr & te & al & n & k & -> & _). repeat eexists. Qed.
Lemma entry_row : forall t en, uget tab t = Ok en -> exists nm tr te al n k, (1 <= t)%Z /\
  nth_error rows (Z.to_nat (t - 1)) = Some (full_row nm (Fin tr) (Fin te) (Fin al) (Fin n) (Fin k)) /\ tr < te /\ 0 < al /\ 1 < n /\ 0 < k /\
  derive (p_wilting (st_p s)) junk (Fin tr) (Fin te) (Fin al) (Fin n) (Fin k) nm = Ok en.
Proof.
  intros t en G. destruct (table_rows _ _ _ _ _ _ _ _ (in_tab _ _ _ _ _ _ _ _ _ _ _ I) phys_full eq_refl t en G) as [E|(j & nm & tr & te & al & n & k & T & Nj & D)].
  - exfalso. exact (uget_empty _ _ _ _ E).
  - rewrite Forall_forall in Phys. destruct (Phys _ (nth_error_In _ _ Nj)) as (nm' & tr' & te' & al' & n' & k' & Q & _ & B1 & B2 & B3 & B4).
    injection Q as <- -> -> -> -> ->. exists nm, tr', te', al', n', k'. replace (Z.to_nat (t - 1)) with j by lia. repeat split; try assumption. lia.
Qed.
Lemma entry_soil : forall t en, uget tab t = Ok en -> exists r e a n m k, vg_soil (en_soil en) r e a n m k.
Proof.
  intros t en G. destruct (entry_row t en G) as (nm & tr & te & al & n & k & _ & _ & A & B & N & K & D).
  destruct (derive_is (p_wilting (st_p s)) junk tr te al n k nm B N) as (en' & psib & hmin & D' & S & M & _). rewrite D in D'. apply Ok_inj in D'. subst en'.
  exists tr, te, al, n, (1 - / n), k. rewrite S. constructor; cbn; try reflexivity; try lra.
Qed.

Hypothesis Wet : 0 <= psi.
Lemma front_is : forall i f, nth_error (st_head s) i = Some f -> exists t en r e a n m k,
  uget (p_stype (st_p s)) (Z.of_nat (S i)) = Ok t /\ uget tab t = Ok en /\ soil_of (env_of s) (Z.of_nat (S i)) = Ok (en_soil en) /\ vg_soil (en_soil en) r e a n m k /\
  f_num f = Z.of_nat (S i) /\ f_layer f = Z.of_nat (S i) /\ f_bottom f = true /\ f_dzdt f = Fin 0 /\ f_depth f = Fin (Rsum (firstn (S i) ts)) /\ f_psi f = Fin psi /\
  f_theta f = Fin (vg_theta r e a n m psi) /\ r <= vg_theta r e a n m psi <= e /\ f_K f = Fin (vg_K k m (vg_Se a n m psi)) /\ 0 <= vg_K k m (vg_Se a n m psi) <= k.
Proof.
  intros i f H. destruct (init_fronts _ _ _ _ _ _ _ _ _ _ _ I) as (_ & L & P). rewrite map_length in L.
  assert (Li : (i < length ts)%nat) by (rewrite <- L; apply nth_error_Some; congruence).
  destruct (P i f H) as (t & en & d & ff & A & B & C & D & ->). destruct (entry_soil t en B) as (r & e & a & n & m & k & V).
  assert (SO : soil_of (env_of s) (Z.of_nat (S i)) = Ok (en_soil en)).
  { destruct (init_soil _ _ _ _ _ _ _ _ _ _ _ I (Z.of_nat (S i))) as (t' & en' & A' & B' & C'). { rewrite nl_is. lia. }
    rewrite A in A'. apply Ok_inj in A'. subst t'. rewrite B in B'. apply Ok_inj in B'. subst en'. assumption. }
  exists t, en, r, e, a, n, m, k. rewrite aget_cum in C by lia. apply Ok_inj in C. subst d.
  assert (F1 : ff = Fin 1).
  { destruct (in_p _ _ _ _ _ _ _ _ _ _ _ I) as (_ & _ & _ & _ & Fr & _). rewrite Fr in D. apply aget_Ok in D as [_ D]. apply nth_error_In, repeat_spec in D. assumption. }
  subst ff. pose proof V as [Vr Ve Va Vn Vm Vk Vre Va0 Vn1 Vm01 Vk0].
  pose proof (theta_of_h_is _ _ _ _ _ _ _ _ V Wet) as T. pose proof (theta_range r e a n m psi Vre Va0 Vn1 Vm01 Wet) as TR.
  destruct (Se_h_range a n m psi Va0 ltac:(lra) (proj1 Vm01) Wet) as [S0 S1].
  unfold init_front. cbn [f_num f_layer f_bottom f_dzdt f_depth f_psi f_theta f_K]. rewrite T, Vk.
  change (Fin 1 * Fin k)%d with (Fin (1 * k)). rewrite Rmult_1_l.
  rewrite (Se_of_theta_is _ _ _ _ _ _ _ _ V). unfold K_of_Se. rewrite Vm.
  replace ((vg_theta r e a n m psi - r) / (e - r)) with (vg_Se a n m psi) by (unfold vg_theta; field; lra).
  rewrite (K_of_Se_is (vg_Se a n m psi) k m) by lra.
  pose proof (vg_K_range k m (vg_Se a n m psi) ltac:(lra) (proj1 Vm01) ltac:(lra)) as KR.
  repeat match goal with |- _ /\ _ => split end; try assumption; try reflexivity; try lra.
Qed.

Definition soils_of : list soil := map (fun i => match soil_of (env_of s) (Z.of_nat (S i)) with Ok x => x | _ => mkSoil NaN NaN NaN NaN NaN NaN NaN NaN NaN end) (seq 0 (length ts)).
Lemma soils_nth : forall i x, (i < length ts)%nat -> soil_of (env_of s) (Z.of_nat (S i)) = Ok x -> nth_error soils_of i = Some x.
Proof.
  intros i x L H. unfold soils_of. rewrite nth_error_map. replace (nth_error (seq 0 (length ts)) i) with (Some i).
  - cbn [option_map]. rewrite H. reflexivity.
  - symmetry. rewrite nth_error_nth' with (d := 0%nat) by (rewrite seq_length; assumption). rewrite seq_nth by assumption. reflexivity.
Qed.
Lemma init_column : column (env_of s) ts soils_of.
Proof.
  constructor; cbn [env_of e_nlayers e_cum e_frozen].
  - apply nl_is.
  - unfold soils_of. rewrite map_length, seq_length. reflexivity.
  - apply cum_is.
  - intros k x H. assert (L : (k < length ts)%nat). { assert (Q : nth_error soils_of k <> None) by congruence. apply nth_error_Some in Q. unfold soils_of in Q. rewrite map_length, seq_length in Q. assumption. }
    destruct (init_soil _ _ _ _ _ _ _ _ _ _ _ I (Z.of_nat (S k))) as (t & en & _ & _ & E). { rewrite nl_is. lia. }
    rewrite (soils_nth _ _ L E) in H. injection H as <-. assumption.
  - destruct (in_p _ _ _ _ _ _ _ _ _ _ _ I) as (_ & _ & _ & _ & -> & _). rewrite repeat_length, map_length. reflexivity.
Qed.

Definition thetas : list R := map (fun f => val (f_theta f)) (st_head s).
Lemma head_length : length (st_head s) = length ts.
Proof. destruct (init_fronts _ _ _ _ _ _ _ _ _ _ _ I) as (_ & L & _). rewrite map_length in L. assumption. Qed.
Lemma init_hydrostatic : hydrostatic ts psi soils_of thetas (st_head s).
Proof.
  split; [unfold soils_of; rewrite map_length, seq_length; reflexivity|]. split; [unfold thetas; rewrite map_length; apply head_length|]. split; [apply head_length|].
  intros i f H. assert (Li : (i < length ts)%nat) by (rewrite <- head_length; apply nth_error_Some; congruence).
  destruct (front_is i f H) as (t & en & r & e & a & n & m & k & F1 & F2 & F3 & F4 & F5 & F6 & F7 & F8 & F9 & F10 & F11 & F12 & F13 & F14).
  exists (en_soil en), r, e, a, n, m, k, (vg_theta r e a n m psi). split; [apply soils_nth; assumption|]. split; [assumption|].
  split; [unfold thetas; rewrite nth_error_map, H; cbn; rewrite F11; reflexivity|].
  do 6 (split; [assumption|]). split; [assumption|]. split; [reflexivity|]. split; [assumption|]. eexists. split; [eassumption|]. split; [reflexivity|assumption].
Qed.

Lemma layer_slabs : forall (l : list front) us z, length l = length us ->
  (forall i f, nth_error l i = Some f -> f_depth f = Fin (z + Rsum (firstn (S i) us))) -> slabs z l = layer_storage us (map (fun f => val (f_theta f)) l).
Proof.
  induction l as [|f l IH]; intros [|u us] z L H; try discriminate; [reflexivity|]. cbn [slabs map layer_storage].
  pose proof (H 0%nat f eq_refl) as Hf. rewrite Hf. cbn [val firstn Rsum].
  rewrite (IH us (z + (u + 0))).
  - ring.
  - injection L as L. assumption.
  - intros i g G. rewrite (H (S i) g G). cbn [firstn Rsum]. f_equal. destruct us; cbn; ring.
Qed.
Lemma init_measured : measured (st_head s).
Proof.
  apply Forall_forall. intros f Hf. apply In_nth_error in Hf as [i Hi].
  destruct (front_is i f Hi) as (t & en & r & e & a & n & m & k & _ & _ & _ & _ & _ & _ & _ & _ & F9 & _ & F11 & _). split; eexists; eassumption.
Qed.
Lemma init_storage : mb_start (st_mb s) = Fin (layer_storage ts thetas).
Proof.
  pose proof (in_vol _ _ _ _ _ _ _ _ _ _ _ I) as V. pose proof (init_profile _ _ _ _ _ _ _ _ _ _ _ I) as P.
  rewrite (mass_is_storage (p_nlayers (st_p s)) (p_cum (st_p s)) (st_head s)) in V; try assumption.
  - apply Ok_inj in V. rewrite <- V. f_equal. unfold storage, thetas. apply layer_slabs; [apply head_length|].
    intros i f H. destruct (front_is i f H) as (t & en & r & e & a & n & m & k & _ & _ & _ & _ & _ & _ & _ & _ & F9 & _). rewrite F9. f_equal. ring.
  - rewrite (init_nl _ _ _ _ _ _ _ _ _ _ _ I). apply (layers_pos _ _ _ _ _ _ _ _ _ _ _ I).
  - apply init_measured.
  - change 0%Z with (Z.of_nat 0). rewrite aget_cum by lia. reflexivity.
Qed.
Lemma init_fresh : fresh s.
Proof.
  destruct (in_s _ _ _ _ _ _ _ _ _ _ _ I) as (_ & _ & _ & _ & _ & _ & Mb). pose proof init_storage as St. split.
  - exists (layer_storage ts thetas). split; [|assumption]. rewrite <- St. apply (in_vol _ _ _ _ _ _ _ _ _ _ _ I).
  - rewrite Mb. cbn. repeat split; reflexivity.
Qed.
Lemma init_within : within_soils (env_of s) (st_head s).
Proof.
  apply Forall_forall. intros f Hf. apply In_nth_error in Hf as [i Hi].
  destruct (front_is i f Hi) as (t & en & r & e & a & n & m & k & _ & _ & F3 & F4 & _ & F6 & _ & _ & _ & _ & F11 & F12 & _).
  exists (en_soil en), r, e, (vg_theta r e a n m psi). rewrite F6. split; [assumption|]. split; [apply F4|]. split; [apply F4|]. split; assumption.
Qed.
End Of.
