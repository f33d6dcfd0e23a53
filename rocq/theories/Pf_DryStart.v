(** A larger initial head gives a drier first state. *)

From Coq Require Import String Ascii Reals Lra ZArith List Bool Lia.
From RecordUpdate Require Import RecordSet.
From Verif Require Import Outcome Dbl Types ListOps Soil Fronts State Config Lib Spec_Common Spec_Config Spec_RoundMono Spec_DryStart Pf_Config Pf_Lines Pf_Init Pf_InitState Pf_ConfigMore Pf_RoundMono.
Import ListNotations.
Import RecordSetNotations.
Open Scope R_scope.

Section Any.
Context {fp : Fp}.
Notation nn a := (below (Fin 0) a).

Lemma sum_mono : forall a a' b b', nn a -> below a a' -> nn b -> below b b' -> below (a + b)%d (a' + b')%d /\ nn (a + b)%d.
Proof.
  intros a a' b b' Na A Nb B. destruct a as [x| | |], a' as [x'| | |], b as [y| | |], b' as [y'| | |]; try discriminate; cbn [dadd]; try apply below_fin in A; try apply below_fin in B; try apply below_fin in Na; try apply below_fin in Nb; split; try reflexivity;
    try (apply to_PInf, rnd_not_nan); try (apply below_rnd; lra); try (apply nn_rnd; lra).
Qed.
Lemma scale_mono_r : forall k a b, 0 < k -> nn a -> below a b -> below (a * Fin k)%d (b * Fin k)%d /\ nn (a * Fin k)%d.
Proof.
  intros k a b Hk Na H. assert (C : forall a, (a * Fin k)%d = (Fin k * a)%d) by (intros [x| | |]; try reflexivity; cbn; rewrite Rmult_comm; reflexivity). rewrite !C. apply scale_mono; assumption.
Qed.

(** Storage of lists with one front in each layer, from layer [k] on. *)
Lemma mass_mono : forall cum l l' k sum sum' v v', Forall2 drier l l' ->
  (forall i f, nth_error l i = Some f -> f_layer f = (k + Z.of_nat i)%Z /\ (exists b c x, aget cum (f_layer f - 1) = Ok (Fin b) /\ f_depth f = Fin c /\ (Fin c - Fin b)%d = Fin x /\ 0 < x)) ->
  (forall f, In f l' -> nn (f_theta f)) -> nn sum' -> below sum' sum ->
  mass_loop cum l sum = Ok v -> mass_loop cum l' sum' = Ok v' -> below v' v.
Proof.
  intros cum l l' k sum sum' v v' D. revert k sum sum'. induction D as [|c c' l l' (Dl & _ & Dd & _ & Dt) D IH]; intros k sum sum' HL HT N S H H'; cbn [mass_loop] in H, H'.
  - apply Ok_inj in H. apply Ok_inj in H'. subst. exact S.
  - destruct (HL 0%nat c eq_refl) as (Lc & b & d & x & EB & ED & EX & Hx). rewrite Dl, EB in H'. rewrite EB in H. cbn [bind] in H, H'. rewrite Dd, ED in H'. rewrite ED in H.
    assert (Nt : nn (f_theta c')) by (apply HT; left; reflexivity).
    destruct D as [|n n' l l' Dn D].
    + apply Ok_inj in H. apply Ok_inj in H'. subst. rewrite EX. destruct (scale_mono_r x _ _ Hx Nt Dt) as (A & B). apply sum_mono; assumption.
    + destruct (HL 1%nat n eq_refl) as (Ln & _). pose proof Dn as (Dnl & _). rewrite Dnl in H'.
      assert (Q : (f_layer n =? f_layer c)%Z = false) by (apply Z.eqb_neq; rewrite Ln, Lc; lia). rewrite Q in H, H'. rewrite EX in H, H'.
      destruct (scale_mono x _ _ Hx Nt Dt) as (A & B). destruct (sum_mono _ _ _ _ N S B A) as (P & P0).
      apply (IH (k + 1)%Z _ _) with (5 := H) (6 := H'); try assumption.
      * intros i f E. destruct (HL (Datatypes.S i) f E) as (W & W'). split; [rewrite W; lia|exact W'].
      * intros f F. apply HT. right. exact F.
Qed.

(** Appending a line that sets the initial head. *)
Lemma psi_line : forall c l np c', assigns "initial_psi" (text np) l -> good_numeral np -> config_line c l = Ok c' -> c' = c <| cf_psi := Some (rnd (value np)) |>.
Proof.
  intros c l np c' A G Q. assert (K : In "initial_psi"%string keys) by (cbn; tauto). destruct (plain_text _ G) as (_ & P & _). destruct (assigns_value _ _ _ K P A) as [V Kl].
  unfold config_line in Q; cbv zeta in Q; rewrite Kl, V in Q; cbn [String.eqb Ascii.eqb Bool.eqb] in Q. bind_inv Q v Ev. apply Ok_inj in Q. destruct (read_number _ _ G Ev) as [-> _]. symmetry. exact Q.
Qed.

Lemma dry_start : forall files junk ls l s l' s' np np', last_line "initial_psi" l ls -> assigns "initial_psi" (text np) l -> good_numeral np -> assigns "initial_psi" (text np') l' -> good_numeral np' ->
  0 <= value np <= value np' -> Initialize files junk ls = Ok s -> Initialize files junk (ls ++ [l']) = Ok s' -> rounded_column (env_of s) ->
  env_of s' = env_of s /\ Forall2 drier (st_head s) (st_head s') /\ below (mb_start (st_mb s')) (mb_start (st_mb s)).
Proof.
  intros files junk ls l s l' s' np np' L A G A' G' Hp H H' RC.
  destruct (init_inv _ _ _ _ H) as (c & st & rows & tab & thick & psi & ord & J). destruct (init_inv _ _ _ _ H') as (c' & st' & rows' & tab' & thick' & psi' & ord' & J').
  pose proof (in_conf _ _ _ _ _ _ _ _ _ _ _ J) as C. pose proof (in_conf _ _ _ _ _ _ _ _ _ _ _ J') as C'. rewrite lines_app, C in C'. cbn [bind config_lines] in C'. bind_inv C' cx Ecx. apply Ok_inj in C'. subst cx.
  pose proof (psi_line _ _ _ _ A' G' Ecx) as EC.
  assert (E1 : st' = st) by (pose proof (in_st _ _ _ _ _ _ _ _ _ _ _ J) as X; pose proof (in_st _ _ _ _ _ _ _ _ _ _ _ J') as Y; rewrite EC in Y; cbn in Y; congruence).
  assert (E2 : thick' = thick) by (pose proof (in_thick _ _ _ _ _ _ _ _ _ _ _ J) as X; pose proof (in_thick _ _ _ _ _ _ _ _ _ _ _ J') as Y; rewrite EC in Y; cbn in Y; congruence).
  assert (E3 : rows' = rows) by (destruct (in_rows _ _ _ _ _ _ _ _ _ _ _ J) as (f & X & X'); destruct (in_rows _ _ _ _ _ _ _ _ _ _ _ J') as (f' & Y & Y'); rewrite EC in Y; cbn in Y; congruence).
  assert (E4 : p_wilting (st_p s') = p_wilting (st_p s)) by (pose proof (in_wp _ _ _ _ _ _ _ _ _ _ _ J) as X; pose proof (in_wp _ _ _ _ _ _ _ _ _ _ _ J') as Y; rewrite EC in Y; cbn in Y; congruence).
  assert (E5 : tab' = tab).
  { pose proof (in_tab _ _ _ _ _ _ _ _ _ _ _ J) as X. pose proof (in_tab _ _ _ _ _ _ _ _ _ _ _ J') as Y. rewrite EC, E3, E4 in Y. cbn [cf_maxtypes set] in Y. change (cf_maxtypes (c <| cf_psi := Some (rnd (value np')) |>)) with (cf_maxtypes c) in Y. rewrite X in Y. apply Ok_inj in Y. symmetry. exact Y. }
  assert (EE : env_of s' = env_of s).
  { destruct (in_p _ _ _ _ _ _ _ _ _ _ _ J) as (P1 & _ & P3 & P4 & P5 & _). destruct (in_p _ _ _ _ _ _ _ _ _ _ _ J') as (Q1 & _ & Q3 & Q4 & Q5 & _).
    destruct (in_s _ _ _ _ _ _ _ _ _ _ _ J) as (_ & S2 & _). destruct (in_s _ _ _ _ _ _ _ _ _ _ _ J') as (_ & T2 & _). unfold env_of. rewrite P1, P3, P4, P5, S2, Q1, Q3, Q4, Q5, T2. subst. reflexivity. }
  split; [exact EE|].
  assert (L' : last_line "initial_psi" l' (ls ++ [l'])).
  { split; [|exists ls, []; split; [reflexivity|intros x []]]. destruct A' as [->|(u & ->)]; right; eexists; reflexivity. }
  destruct (start_structure _ _ _ _ _ _ L A G H) as (_ & N & F). destruct (start_structure _ _ _ _ _ _ L' A' G' H') as (_ & N' & F'). rewrite EE in F'.
  assert (EP : p_cum (st_p s') = p_cum (st_p s)) by (apply (f_equal e_cum) in EE; exact EE). assert (EN : p_nlayers (st_p s') = p_nlayers (st_p s)) by (apply (f_equal e_nlayers) in EE; exact EE).
  assert (LEN : length (st_head s') = length (st_head s)) by (unfold listLength in N, N'; lia).
  assert (NP : nn (rnd (value np))) by (apply nn_rnd; lra). assert (PP : below (rnd (value np)) (rnd (value np'))) by (apply below_rnd; lra).
  assert (PT : forall i f f', nth_error (st_head s) i = Some f -> nth_error (st_head s') i = Some f' -> drier f f' /\ nn (f_theta f')).
  { intros i f f' X X'. destruct (F i f X) as (F1 & F2 & F3 & _ & F5 & sl & F6 & F7). destruct (F' i f' X') as (G1 & G2 & G3 & _ & G5 & sl' & G6 & G7). rewrite EP, F5 in G5. apply Ok_inj in G5. rewrite F6 in G6. apply Ok_inj in G6. subst sl'.
    assert (B : (i < length (st_head s))%nat) by (apply nth_error_Some; congruence).
    destruct (RC (Z.of_nat (S i))) as (_ & sl' & r & t & W & RS); [cbn [env_of e_nlayers]; unfold listLength in N; lia|]. rewrite F6 in W. apply Ok_inj in W. subst sl'.
    destruct (theta_mono _ _ _ _ _ RS NP PP) as (M1 & M2 & _). unfold drier. rewrite F1, F2, F3, F7, G1, G2, G3, G7. repeat split; [congruence|exact M1|].
    eapply below_trans; [|exact M2]. apply below_fin. destruct RS as (_ & _ & RR & _). lra. }
  assert (D : Forall2 drier (st_head s) (st_head s')).
  { revert PT LEN. clear. generalize (st_head s) (st_head s'). intros a b. revert b. induction a as [|f a IH]; intros [|f' b] P E; try discriminate; constructor.
    - apply (P 0%nat); reflexivity.
    - apply IH; [intros i x y X Y; apply (P (S i)); assumption|cbn in E; lia]. }
  split; [exact D|]. pose proof (in_vol _ _ _ _ _ _ _ _ _ _ _ J) as V. pose proof (in_vol _ _ _ _ _ _ _ _ _ _ _ J') as V'. rewrite EP in V'.
  eapply (mass_mono _ _ _ 1%Z (Fin 0) (Fin 0) _ _ D); [| | | |exact V|exact V'].
  - intros i f X. destruct (F i f X) as (F1 & F2 & F3 & _ & F5 & _). split; [rewrite F2; lia|]. assert (B : (i < length (st_head s))%nat) by (apply nth_error_Some; congruence).
    destruct (RC (Z.of_nat (S i))) as ((b & cc & x & W1 & W2 & W3 & W4) & _); [cbn [env_of e_nlayers]; unfold listLength in N; lia|]. cbn [env_of e_cum] in W1, W2. rewrite F2. rewrite F5 in W2. apply Ok_inj in W2. eauto 10.
  - intros f' X'. apply In_nth_error in X' as (i & X'). destruct (nth_error (st_head s) i) as [f|] eqn:X; [exact (proj2 (PT _ _ _ X X'))|].
    apply nth_error_None in X. assert (i < length (st_head s'))%nat by (apply nth_error_Some; congruence). lia.
  - apply below_fin. lra.
  - apply below_fin. lra.
Qed.
End Any.
