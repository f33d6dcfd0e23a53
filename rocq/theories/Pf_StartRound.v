(** The first state in binary64: no NaN, and conductivities that fall with the initial head. *)

From Coq Require Import String Reals Lra ZArith List Bool Lia.
From Verif Require Import Outcome Dbl Binary64 Types ListOps Soil State Config Lib Spec_Common Spec_Config Spec_Soil Spec_RoundMono Spec_SatRound Spec_DryStart Spec_StartRound Pf_Init Pf_InitState Pf_ConfigMore Pf_RoundMono Pf_SatRound Pf_DryStart Pf_Counts.
Import ListNotations.
Open Scope R_scope.

(** Conductivity of the fronts of a first state, whatever the rounding. *)
Lemma start_K : forall (fp : Fp) files junk ls s, Initialize files junk ls = Ok s ->
  forall i g, nth_error (st_head s) i = Some g -> exists sl, soil_of (env_of s) (Z.of_nat (S i)) = Ok sl /\ f_K g = K_of_Se sl (Se_of_theta sl (f_theta g)) (Fin 1 * s_Ksat sl)%d.
Proof.
  intros fp files junk ls s H i g E. destruct (init_inv _ _ _ _ H) as (c & st & rows & tab & thick & psi & ord & J).
  destruct (init_fronts _ _ _ _ _ _ _ _ _ _ _ J) as (N & Len & F). destruct (F i g E) as (t & en & d & ff & T & En & D & Ff & ->). pose proof (init_nl _ _ _ _ _ _ _ _ _ _ _ J) as Nl.
  assert (B : (i < length (st_head s))%nat) by (apply nth_error_Some; congruence).
  destruct (init_soil _ _ _ _ _ _ _ _ _ _ _ J (Z.of_nat (S i))) as (t' & en' & T' & En' & S); [lia|]. assert (t' = t) by congruence. subst t'. assert (en' = en) by congruence. subst en'.
  exists (en_soil en). split; [exact S|]. destruct (in_p _ _ _ _ _ _ _ _ _ _ _ J) as (_ & _ & _ & _ & P5 & _). rewrite P5 in Ff.
  assert (X : ff = Fin 1).
  { unfold aget in Ff. destruct (Z.of_nat (Datatypes.S i) <? 0)%Z; [discriminate|]. destruct (nth_error (repeat (lit 1) (Datatypes.S (length thick))) (Z.to_nat (Z.of_nat (Datatypes.S i)))) as [x|] eqn:Q; [|discriminate]. apply Ok_inj in Ff. subst x.
    apply nth_error_In, repeat_spec in Q. rewrite Q. unfold lit. apply rnd_one. }
  rewrite X. reflexivity.
Qed.

Section B64.
Local Existing Instance binary64.
Notation nn a := (below (Fin 0) a).

Lemma content_fin : forall s r e h, rounded_soil s r e -> nn h -> exists t, theta_of_h s h = Fin t /\ r <= t.
Proof.
  intros s r e h RS N. pose proof RS as (_ & _ & R & E & Hr & _). destruct (theta_mono s r e h h RS N ltac:(apply below_refl; intro; subst h; discriminate)) as (_ & A & B).
  cbn [dsub dadd] in B. assert (Q : exists x, rnd (e - r) = Fin x /\ 0 <= x <= 1) by (apply Pf_SoilAny.rnd_unit; lra). destruct Q as (x & Q & X). rewrite Q in B. cbn [dadd] in B.
  rewrite Pf_Binary64.rnd_small in B by (apply fits; lra). destruct (theta_of_h s h) as [t| | |]; try discriminate. apply below_fin in A. eauto.
Qed.

Lemma start_sane : forall files junk ls s l np, last_line "initial_psi" l ls -> assigns "initial_psi" (text np) l -> good_numeral np -> 0 <= value np -> Initialize files junk ls = Ok s ->
  (forall k sl, (1 <= k <= p_nlayers (st_p s))%Z -> soil_of (env_of s) k = Ok sl -> double_soil sl) ->
  forall f, In f (st_head s) -> exists sl, soil_of (env_of s) (f_layer f) = Ok sl /\ sane_front sl f.
Proof.
  intros files junk ls s l np L A G V H DS f F. apply In_nth_error in F as (i & F). destruct (start_structure _ _ _ _ _ _ L A G H) as (_ & N & FS). destruct (FS i f F) as (_ & F2 & _ & F4 & _ & sl & F6 & F7).
  destruct (start_K _ _ _ _ _ H i f F) as (sl' & S' & K). rewrite F6 in S'. apply Ok_inj in S'. subst sl'. exists sl. rewrite F2. split; [exact F6|].
  assert (B : (i < length (st_head s))%nat) by (apply nth_error_Some; congruence).
  destruct (DS (Z.of_nat (S i)) sl) as (r & e & k & RS & He & EK & Hk & K0); [unfold listLength in N; lia|exact F6|].
  assert (NP : nn (rnd (value np))) by (apply nn_rnd; assumption). destruct (content_fin sl r e _ RS NP) as (t & T & Lt).
  assert (HT : t <= e \/ exists h, nn h /\ below (Fin t) (theta_of_h sl h)) by (right; exists (rnd (value np)); split; [exact NP|]; rewrite T; apply below_fin; lra).
  pose proof (saturation_unit sl r e t RS He Lt HT) as U. pose proof RS as (Er & _ & _ & _ & _ & _ & _ & m & Em & Hm).
  assert (K1 : (Fin 1 * s_Ksat sl)%d = Fin k) by (rewrite EK; cbn [dmul]; rewrite Rmult_1_l; exact Hk).
  rewrite K1, F7, T in K. unfold K_of_Se in K. rewrite Em in K. destruct (K_range _ k m U Hk K0 ltac:(lra)) as (KK & EKK & RK). rewrite EKK in K.
  unfold sane_front. rewrite F7, T, F4, K, Er, EK. repeat split; eauto; try (apply below_fin; lra).
Qed.

Lemma drier_K : forall files junk ls l s l' s' np np', last_line "initial_psi" l ls -> assigns "initial_psi" (text np) l -> good_numeral np -> assigns "initial_psi" (text np') l' -> good_numeral np' ->
  0 <= value np <= value np' -> Initialize files junk ls = Ok s -> Initialize files junk (ls ++ [l']) = Ok s' -> rounded_column (env_of s) ->
  (forall k sl, (1 <= k <= p_nlayers (st_p s))%Z -> soil_of (env_of s) k = Ok sl -> double_soil sl) ->
  forall i f f', nth_error (st_head s) i = Some f -> nth_error (st_head s') i = Some f' -> below (f_K f') (f_K f) /\ below (f_psi f) (f_psi f').
Proof.
  intros files junk ls l s l' s' np np' L A G A' G' Hp H H' RC DS i f f' F F'. destruct (dry_start _ _ _ _ _ _ _ _ _ L A G A' G' Hp H H' RC) as (EE & _ & _).
  assert (L' : last_line "initial_psi" l' (ls ++ [l'])).
  { split; [|exists ls, []; split; [reflexivity|intros x []]]. destruct A' as [->|(u & ->)]; right; eexists; reflexivity. }
  destruct (start_structure _ _ _ _ _ _ L A G H) as (_ & N & FS). destruct (FS i f F) as (_ & _ & _ & F4 & _ & sl & F6 & F7).
  destruct (start_structure _ _ _ _ _ _ L' A' G' H') as (_ & N' & FS'). destruct (FS' i f' F') as (_ & _ & _ & F4' & _ & sl1 & F6' & F7'). rewrite EE, F6 in F6'. apply Ok_inj in F6'. subst sl1.
  destruct (start_K _ _ _ _ _ H i f F) as (sl1 & S1 & K). rewrite F6 in S1. apply Ok_inj in S1. subst sl1. destruct (start_K _ _ _ _ _ H' i f' F') as (sl1 & S1 & K'). rewrite EE, F6 in S1. apply Ok_inj in S1. subst sl1.
  assert (B : (i < length (st_head s))%nat) by (apply nth_error_Some; congruence).
  destruct (DS (Z.of_nat (S i)) sl) as (r & e & k & RS & He & EK & Hk & K0); [unfold listLength in N; lia|exact F6|].
  assert (NP : nn (rnd (value np))) by (apply nn_rnd; lra). assert (NP' : nn (rnd (value np'))) by (apply nn_rnd; lra). assert (PP : below (rnd (value np)) (rnd (value np'))) by (apply below_rnd; lra).
  split; [|rewrite F4, F4'; exact PP].
  destruct (content_fin sl r e _ RS NP) as (t & T & Lt). destruct (content_fin sl r e _ RS NP') as (t' & T' & Lt').
  assert (HT : t <= e \/ exists h, nn h /\ below (Fin t) (theta_of_h sl h)) by (right; exists (rnd (value np)); split; [exact NP|]; rewrite T; apply below_fin; lra).
  assert (HT' : t' <= e \/ exists h, nn h /\ below (Fin t') (theta_of_h sl h)) by (right; exists (rnd (value np')); split; [exact NP'|]; rewrite T'; apply below_fin; lra).
  pose proof (saturation_unit sl r e t RS He Lt HT) as U. pose proof (saturation_unit sl r e t' RS He Lt' HT') as U'.
  destruct (theta_mono _ _ _ _ _ RS NP PP) as (M1 & _). rewrite T, T' in M1. apply below_fin in M1.
  pose proof RS as (_ & _ & R & E & Hr & _ & _ & m & Em & Hm). destruct (porosity e r R E Hr He) as (EX & HX).
  assert (SE : below (Se_of_theta sl (Fin t')) (Se_of_theta sl (Fin t))) by (apply (Se_theta_mono sl r e); [exact RS|rewrite EX; injection; lra|exact M1]).
  assert (K1 : (Fin 1 * s_Ksat sl)%d = Fin k) by (rewrite EK; cbn [dmul]; rewrite Rmult_1_l; exact Hk).
  rewrite K, K', F7, F7', T, T', K1. unfold K_of_Se. rewrite Em. apply K_mono; try assumption. lra.
Qed.
End B64.
