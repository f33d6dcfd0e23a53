(** The greatest depth of ponded water: any rounding. *)

From Coq Require Import Reals Lra ZArith List Bool Lia.
From RecordUpdate Require Import RecordSet.
From Verif Require Import Outcome Dbl Types ListOps Soil Giuh Fronts Infil Move State Update Lib Spec_Common Spec_Split Spec_Ponding Pf_Update Pf_Ponding.
Import ListNotations.
Import RecordSetNotations.
Open Scope R_scope.

Section Any.
Context {fp : Fp} {cfg : Cfg}.

(** A product is not changed by adding zero. *)
Lemma mul_stable : forall x y, (x * y + Fin 0)%d = (x * y)%d.
Proof.
  intros x y. assert (A : forall r, (rnd r + Fin 0)%d = rnd r).
  { intro r. destruct (rnd r) as [z| | |] eqn:E; try reflexivity. cbn. rewrite Rplus_0_r. eapply rnd_idem. exact E. }
  destruct x as [x| | |], y as [y| | |]; try reflexivity; try apply A; cbn; unfold inf_sign; repeat destruct (Rlt_dec _ _); reflexivity.
Qed.

(** A positive rest means that less goes in than there is. *)
Lemma rest_min : forall w x pm, (dfmax (w - x - Fin 0 * Fin 0)%d (Fin 0) >? pm)%d = true -> (pm >? Fin 0)%d = true -> dfmin w x = x.
Proof.
  intros w x pm H Hp. assert (G : (w - x - Fin 0 * Fin 0)%d = PInf \/ exists z, (w - x - Fin 0 * Fin 0)%d = Fin z /\ 0 < z).
  { destruct (w - x - Fin 0 * Fin 0)%d as [z| | |] eqn:E; [right; exists z; split; [reflexivity|]|left; reflexivity| |]; unfold dgtb, dltb, dfmax, Rltb in *; destruct pm as [p| | |]; cbn in *; try discriminate;
      unfold Rltb in *; repeat destruct (Rlt_dec _ _) in *; try discriminate; lra. }
  assert (M0 : (Fin 0 * Fin 0)%d = Fin 0) by (cbn; rewrite Rmult_0_l; apply rnd_zero). rewrite M0 in G.
  assert (Z : forall d, (d - Fin 0)%d = PInf \/ (exists z, (d - Fin 0)%d = Fin z /\ 0 < z) -> d = PInf \/ exists z, d = Fin z /\ 0 < z).
  { intros [z| | |] [K|(k & K & P)]; cbn in K; try discriminate; auto; right; exists z; (split; [reflexivity|]); rewrite Rminus_0_r in K; apply Rnot_le_lt; intro L;
      pose proof (rnd_mono _ _ L) as Q; rewrite rnd_zero, K in Q; cbn in Q; [discriminate|]. unfold Rleb in Q. destruct (Rle_dec k 0); [lra|discriminate]. }
  apply Z in G. destruct w as [w| | |], x as [x| | |]; cbn in G |- *; try reflexivity; try (destruct G as [G|(z & G & _)]; discriminate).
  assert (L : x < w). { apply Rnot_le_lt. intro L. assert (L' : w - x <= 0) by lra. pose proof (rnd_mono _ _ L') as Q. rewrite rnd_zero in Q. destruct G as [G|(z & G & P)]; rewrite G in Q; cbn in Q; [discriminate|]. unfold Rleb in Q. destruct (Rle_dec z 0); [lra|discriminate]. }
  unfold Rltb. destruct (Rlt_dec w x); [lra|reflexivity].
Qed.

Lemma partition_any : forall dt pm w f v, 0 < dt -> snd (surface_partition (Fin dt) w v pm f) = v \/ snd (surface_partition (Fin dt) w v pm f) = dfmin w (f * Fin dt)%d.
Proof.
  intros dt pm w f v Hd. unfold surface_partition. assert (Z : (Fin 0 / Fin dt)%d = Fin 0). { cbn. destruct (Req_EM_T dt 0); [lra|]. unfold Rdiv. rewrite Rmult_0_l. apply rnd_zero. }
  rewrite Z, mul_stable. destruct (pm >? Fin 0)%d eqn:E; [|right; reflexivity]. destruct (_ <? pm)%d; [right; reflexivity|]. destruct (_ >? pm)%d eqn:G; [|left; reflexivity].
  right. cbn [snd]. symmetry. exact (rest_min _ _ _ G E).
Qed.

(** The water that goes in is itself not changed by adding it to zero. *)
Lemma partition_stable : forall dt pm w f, 0 < dt -> (Fin 0 + w)%d = w -> let v := snd (surface_partition (Fin dt) w (Fin 0) pm f) in (Fin 0 + v)%d = v.
Proof.
  intros dt pm w f Hd Hw v. destruct (partition_any dt pm w f (Fin 0) Hd) as [E|E]; fold v in E; rewrite E; [cbn; rewrite Rplus_0_l; apply rnd_zero|].
  pose proof (mul_stable f (Fin dt)) as M. destruct (f * Fin dt)%d as [x| | |] eqn:EX, w as [w| | |]; cbn in *; try reflexivity; try assumption; try (rewrite Rplus_0_l; rewrite Rplus_0_r in M; exact M).
  unfold Rltb. destruct (Rlt_dec _ _); [exact Hw|]. rewrite Rplus_0_l. rewrite Rplus_0_r in M. exact M.
Qed.

Lemma insert_any : forall e closed nint dt aet pm pm' w r wfd head q1 o1 i1 q2 o2 i2, 0 < dt ->
  lgar_insert_water e closed nint (Fin dt) aet w (Fin 0) r wfd pm head = Ok (q1, o1, i1) -> lgar_insert_water e closed nint (Fin dt) aet w (Fin 0) r wfd pm' head = Ok (q2, o2, i2) ->
  (i1 = Fin 0 <-> i2 = Fin 0) -> i1 = i2.
Proof.
  intros e closed nint dt aet pm pm' w r wfd head q1 o1 i1 q2 o2 i2 Hd H1 H2 HV. unfold lgar_insert_water in H1, H2. bind_inv H1 fcap EF. rewrite EF in H2. cbn [bind] in H2.
  pose proof (partition_any dt pm w fcap (Fin 0) Hd) as PA. pose proof (partition_any dt pm' w fcap (Fin 0) Hd) as PB. apply Ok_inj in H1, H2. rewrite H1 in PA. rewrite H2 in PB. cbn [snd] in PA, PB.
  destruct PA as [PA|PA], PB as [PB|PB]; try congruence; [rewrite (proj1 HV PA); exact PA|rewrite (proj2 HV PB); symmetry; exact PB].
Qed.

Lemma hydro_any : forall e dt nint closed wp fc pm pm' pp prate petr precip volon w volend head prev b1 b2,
  let u := mkU e (Fin dt) nint closed wp fc pm in let u' := mkU e (Fin dt) nint closed wp fc pm' in 0 < dt ->
  sub_hydro u pp prate petr precip volon w volend head prev = Ok b1 -> sub_hydro u' pp prate petr precip volon w volend head prev = Ok b2 ->
  (Fin 0 + w)%d = w -> ((Fin 0 + b_volin b1)%d = Fin 0 <-> (Fin 0 + b_volin b2)%d = Fin 0) ->
  same_but_dzdt (b_head b1) (b_head b2) /\ b_aet b1 = b_aet b2 /\ b_rech b1 = b_rech b2 /\ b_volin b1 = b_volin b2.
Proof.
  intros e dt nint closed wp fc pm pm' pp prate petr precip volon w volend head prev b1 b2 u u' Hd H1 H2 HW HV. unfold sub_hydro in H1, H2. cbv zeta in H1, H2.
  cbn [u u' u_env u_dt u_nint u_closed u_wilting u_fc] in H1, H2.
  bind_inv H1 aet Eaet. rewrite Eaet in H2. cbn [bind] in H2. bind_inv H1 cr Ecr. rewrite Ecr in H2. cbn [bind] in H2.
  assert (NR : forall u b, b_head (sub_no_insert u b) = b_head b /\ b_prev (sub_no_insert u b) = b_prev b /\ b_aet (sub_no_insert u b) = b_aet b /\ b_volin (sub_no_insert u b) = b_volin b /\ b_rech (sub_no_insert u b) = b_rech b).
  { intros x b. unfold sub_no_insert. destruct (_ <? _)%d; repeat split. }
  destruct cr.
  - change (sub_create u' (wetting_front_free_drainage head) volend aet w head prev) with (sub_create u (wetting_front_free_drainage head) volend aet w head prev) in H2.
    bind_inv H1 b Eb. rewrite Eb in H2. cbn [bind] in H2. rewrite andb_false_r in H1, H2. cbn [bind] in H1, H2. bind_inv H1 l1 El1. bind_inv H2 l2 El2. apply Ok_inj in H1, H2. subst b1 b2.
    cbn [b_head b_aet b_rech b_volin b_runoff b_on] in *.
    destruct (NR u b) as (N1 & N2 & N3 & N4 & N5). destruct (NR u' b) as (M1 & M2 & M3 & M4 & M5). rewrite N1 in El1. rewrite M1 in El2. rewrite N3, N4, N5, M3, M4, M5.
    split; [exact (dz_trans _ _ _ (dz_sym _ _ (dzdt_but _ _ _ _ _ _ El1)) (dzdt_but _ _ _ _ _ _ El2))|]. repeat split.
  - cbn [bind] in H1, H2. cbn [negb] in H1, H2. rewrite andb_true_r in H1, H2. cbn [b_ponded] in H1, H2. destruct (w >? Fin 0)%d.
    + bind_inv H1 cc1 CC1. bind_inv H2 cc2 CC2. unfold sub_insert in CC1, CC2. cbn [u u' u_env u_dt u_nint u_closed u_pmax b_aet b_ponded b_volin b_head b_prev b_rech] in CC1, CC2. unfold lgar_insert_water in CC1, CC2.
      bind_inv CC1 x1 X1. bind_inv X1 fcap EF. rewrite EF in CC2. cbn [bind] in CC2. apply Ok_inj in X1. subst x1.
      pose proof (partition_any dt pm w fcap (Fin 0) Hd) as PA. pose proof (partition_any dt pm' w fcap (Fin 0) Hd) as PB.
      pose proof (partition_stable dt pm w fcap Hd HW) as TA. pose proof (partition_stable dt pm' w fcap Hd HW) as TB. cbv zeta in TA, TB.
      destruct (surface_partition (Fin dt) w (Fin 0) pm fcap) as [[r1 p1] v1] eqn:S1. destruct (surface_partition (Fin dt) w (Fin 0) pm' fcap) as [[r2 p2] v2] eqn:S2. cbn [snd] in PA, PB, TA, TB.
      destruct (r1 <? Fin 0)%d; [discriminate|]. destruct (r2 <? Fin 0)%d; [discriminate|]. apply Ok_inj in CC1, CC2. subst cc1 cc2.
      bind_inv H1 m1 M1. bind_inv H2 m2 M2. unfold sub_move in M1, M2. cbn [u u' u_env u_dt b_volin b_aet b_head b_prev b_ponded b_runoff b_on] in M1, M2.
      bind_inv M1 y1 Y1. destruct y1 as [[l1 a1] rc1]. bind_inv M2 y2 Y2. destruct y2 as [[l2 a2] rc2]. apply Ok_inj in M1, M2. subst m1 m2.
      bind_inv H1 k1 K1. bind_inv H2 k2 K2. apply Ok_inj in H1, H2. subst b1 b2. cbn [b_head b_aet b_rech b_volin b_runoff b_on b_ponded] in *.
      rewrite TA, TB in HV. assert (E : v1 = v2). { destruct PA as [PA|PA], PB as [PB|PB]; try congruence; [rewrite (proj1 HV PA); exact PA|rewrite (proj2 HV PB); symmetry; exact PB]. } subst v2. rewrite Y1 in Y2. apply Ok_inj in Y2. injection Y2 as <- <- <-.
      split; [exact (dz_trans _ _ _ (dz_sym _ _ (dzdt_but _ _ _ _ _ _ K1)) (dzdt_but _ _ _ _ _ _ K2))|]. repeat split.
    + cbn [bind] in H1, H2. set (b0 := mkSub head prev aet w (Fin 0) (Fin 0) (Fin 0) (Fin 0)) in *.
      bind_inv H1 m1 M1. bind_inv H2 m2 M2. unfold sub_move in M1, M2. cbn [u u' u_env u_dt] in M1, M2.
      destruct (NR u b0) as (N1 & N2 & N3 & N4 & N5). destruct (NR u' b0) as (R1 & R2 & R3 & R4 & R5). rewrite N1, N2, N3, N4 in M1. rewrite R1, R2, R3, R4 in M2.
      bind_inv M1 y1 Y1. rewrite Y1 in M2. destruct y1 as [[l1 a1] rc1]. cbn [bind] in M2. apply Ok_inj in M1, M2. subst m1 m2.
      bind_inv H1 k1 K1. bind_inv H2 k2 K2. apply Ok_inj in H1, H2. subst b1 b2. cbn [b_head b_aet b_rech b_volin b_runoff b_on b_ponded] in *.
      split; [exact (dz_trans _ _ _ (dz_sym _ _ (dzdt_but _ _ _ _ _ _ K1)) (dzdt_but _ _ _ _ _ _ K2))|]. repeat split.
Qed.

Lemma substep_any : forall e dt nint closed wp fc pm pm' s s' a t t' a1 a2,
  let u := mkU e (Fin dt) nint closed wp fc pm in let u' := mkU e (Fin dt) nint closed wp fc pm' in
  st_head s' = st_head s -> st_precip s' = st_precip s -> st_pet s' = st_pet s -> p_precip_prev (st_p s') = p_precip_prev (st_p s) -> p_cum (st_p s') = p_cum (st_p s) ->
  0 < dt -> a_in a = Fin 0 -> substep u s a = Ok (t, a1) -> substep u' s' a = Ok (t', a2) -> (a_in a1 = Fin 0 <-> a_in a2 = Fin 0) ->
  same_but_dzdt (st_head t) (st_head t') /\ a_precip a1 = a_precip a2 /\ a_pet a1 = a_pet a2 /\ a_aet a1 = a_aet a2 /\ a_rech a1 = a_rech a2 /\ a_end a1 = a_end a2 /\ a_in a1 = a_in a2.
Proof.
  intros e dt nint closed wp fc pm pm' s s' a t t' a1 a2 u u' Eh Er Ep Epp Ec Hd Ei H1 H2 J.
  destruct (substep_inv _ _ _ _ _ H1) as (vs & b & ve & mbl & p & pt & pr & ptr & Epr & Eptr & Epp1 & Ept1 & _ & HY & VE & _ & _ & T1 & Ea).
  destruct (substep_inv _ _ _ _ _ H2) as (vs' & b' & ve' & mbl' & p' & pt' & pr' & ptr' & Epr' & Eptr' & Epp' & Ept' & _ & HY' & VE' & _ & _ & T2 & Ea').
  rewrite Eh, Epp in HY'. rewrite Er in Epr'. rewrite Ep in Eptr'. rewrite <- Epr in Epr'. rewrite <- Eptr in Eptr'. subst pr' ptr'. change (u_dt u') with (u_dt u) in Epp', Ept'. rewrite <- Epp1 in Epp'. rewrite <- Ept1 in Ept'. subst p' pt'. rewrite Ec in VE'.
  assert (HV : (Fin 0 + b_volin b)%d = Fin 0 <-> (Fin 0 + b_volin b')%d = Fin 0) by (subst a1 a2; cbn [a_in] in J; rewrite Ei in J; exact J).
  assert (HW : forall x y, (Fin 0 + (x + y))%d = (x + y)%d).
  { assert (A : forall r, (Fin 0 + rnd r)%d = rnd r). { intro r. destruct (rnd r) as [z| | |] eqn:E; try reflexivity. cbn. rewrite Rplus_0_l. eapply rnd_idem. exact E. }
    intros [x| | |] [y| | |]; try reflexivity. apply A. }
  destruct (hydro_any e dt nint closed wp fc pm pm' _ _ _ _ _ _ _ _ _ b b' Hd HY HY' (HW _ _) HV) as (A & B & CC & D).
  subst a1 a2 t t'. cbn [a_in a_runoff a_on a_precip a_pet a_aet a_rech a_end st_head] in *. rewrite B, CC, D.
  split; [exact A|]. repeat split.
  unfold lgar_calc_mass_bal in VE, VE'. rewrite (mass_but _ _ _ _ A) in VE. rewrite VE in VE'. apply Ok_inj in VE'. exact VE'.
Qed.
End Any.
