(** The greatest depth of ponded water: proofs (exact arithmetic). *)

From Coq Require Import Reals Lra ZArith List Bool Lia.
From RecordUpdate Require Import RecordSet.
From Verif Require Import Outcome Dbl Types ListOps Soil Giuh Fronts Infil Move State Update Exact Lib Spec_Common Spec_Split Spec_Ponding Pf_Dbl Pf_Update Pf_MoreRain.
Import ListNotations.
Import RecordSetNotations.
Open Scope R_scope.

Section Any.
Context {fp : Fp} {cfg : Cfg}.

Lemma dz_refl : forall l, same_but_dzdt l l.
Proof. induction l; constructor; [repeat split|assumption]. Qed.
Lemma dz_sym : forall l l', same_but_dzdt l l' -> same_but_dzdt l' l.
Proof. induction 1 as [|f g l l' (A & B & C & D & E & F & G) H IH]; constructor; [repeat split; congruence|exact IH]. Qed.
Lemma dz_trans : forall l l' l'', same_but_dzdt l l' -> same_but_dzdt l' l'' -> same_but_dzdt l l''.
Proof.
  intros l l' l'' H. revert l''. induction H as [|f g l l' (A & B & C & D & E & F & G) H IH]; intros l'' K; inversion K as [|? h ? m (A' & B' & C' & D' & E' & F' & G') K']; subst; [constructor|].
  constructor; [repeat split; congruence|apply IH; exact K'].
Qed.

Lemma dzdt_loop_but : forall e closed nint h l l', dzdt_loop e closed nint h l = Ok l' -> same_but_dzdt l l'.
Proof.
  intros e closed nint h. induction l as [|c r IH]; intros l' H; cbn [dzdt_loop] in H; [apply Ok_inj in H; subst; constructor|].
  destruct (f_K c <? Fin 0)%d; [discriminate|]. bind_inv H s Es. bind_inv H ff Ef. destruct r as [|n r]; [apply Ok_inj in H; subst; apply dz_refl|].
  bind_inv H v Ev. bind_inv H r' Er. apply Ok_inj in H. subst. constructor; [repeat split|apply IH; exact Er].
Qed.
Lemma dzdt_but : forall e closed nint h l l', lgar_dzdt_calc e closed nint h l = Ok l' -> same_but_dzdt l l'.
Proof. intros e closed nint h [|c r] l' H; [discriminate|]. eapply dzdt_loop_but. exact H. Qed.

Lemma mass_but : forall cum l l' x, same_but_dzdt l l' -> mass_loop cum l x = mass_loop cum l' x.
Proof.
  intros cum l l' x H. revert x. induction H as [|f g l l' (A & B & C & D & E & F & G) H IH]; intro x; [reflexivity|]. cbn [mass_loop]. rewrite E. destruct (aget cum (f_layer g - 1)%Z) as [b|]; [|reflexivity]. cbn [bind].
  rewrite A, B. destruct H as [|f' g' m m' (A' & B' & C' & D' & E' & F' & G') H]; [reflexivity|]. rewrite B', E'. apply IH.
Qed.
End Any.

Section Exactly.
Local Existing Instance exact.
Context {cfg : Cfg}.

Lemma partition_ponding : forall dt pm pm' f w q1 o1 i1 q2 o2 i2, 0 < dt -> 0 <= pm <= pm' -> 0 <= w ->
  surface_partition (Fin dt) (Fin w) (Fin 0) (Fin pm) f = (Fin q1, Fin o1, Fin i1) ->
  surface_partition (Fin dt) (Fin w) (Fin 0) (Fin pm') f = (Fin q2, Fin o2, Fin i2) ->
  0 <= i1 -> 0 <= i2 -> o1 <= pm -> o2 <= pm' -> i1 = i2 /\ o1 <= o2 <= o1 + (pm' - pm) /\ q2 <= q1 /\ o1 + q1 = o2 + q2.
Proof.
  intros dt pm pm' f w q1 o1 i1 q2 o2 i2 Hd Hp Hw H1 H2. unfold surface_partition in H1, H2. revert H1 H2.
  assert (Z : (Fin 0 / Fin dt)%d = Fin 0). { cbn. destruct (Req_EM_T dt 0); [lra|]. cbn. f_equal. field. lra. } rewrite Z.
  generalize (f * Fin dt)%d. intros x H1 H2 Hi1 Hi2 Ho1 Ho2.
  destruct x as [x| | |]; dcrush; dinv; subst; try discriminate; repeat split; lra.
Qed.

Lemma insert_ponding : forall e closed nint dt aet pm pm' w r wfd head q1 o1 i1 q2 o2 i2, 0 < dt -> 0 <= pm <= pm' -> 0 <= w ->
  lgar_insert_water e closed nint (Fin dt) aet (Fin w) (Fin 0) r wfd (Fin pm) head = Ok (Fin q1, Fin o1, Fin i1) ->
  lgar_insert_water e closed nint (Fin dt) aet (Fin w) (Fin 0) r wfd (Fin pm') head = Ok (Fin q2, Fin o2, Fin i2) ->
  0 <= i1 -> 0 <= i2 -> o1 <= pm -> o2 <= pm' -> i1 = i2 /\ o1 <= o2 <= o1 + (pm' - pm) /\ q2 <= q1 /\ o1 + q1 = o2 + q2.
Proof.
  intros e closed nint dt aet pm pm' w r wfd head q1 o1 i1 q2 o2 i2 Hd Hp Hw H1 H2. unfold lgar_insert_water in H1, H2. bind_inv H1 fcap EF. rewrite EF in H2. cbn [bind] in H2. apply Ok_inj in H1, H2.
  exact (partition_ponding dt pm pm' fcap w q1 o1 i1 q2 o2 i2 Hd Hp Hw H1 H2).
Qed.

Lemma no_insert_ponding : forall e dt nint closed wp fc pm pm' b w q1 o1 q2 o2, 0 <= pm <= pm' -> 0 <= w -> b_ponded b = Fin w ->
  let b1 := sub_no_insert (mkU e dt nint closed wp fc (Fin pm)) b in let b2 := sub_no_insert (mkU e dt nint closed wp fc (Fin pm')) b in
  b_runoff b1 = Fin q1 -> b_on b1 = Fin o1 -> b_runoff b2 = Fin q2 -> b_on b2 = Fin o2 -> o1 <= o2 <= o1 + (pm' - pm) /\ q2 <= q1 /\ o1 + q1 = o2 + q2.
Proof.
  intros e dt nint closed wp fc pm pm' b w q1 o1 q2 o2 Hp Hw Eb. unfold sub_no_insert. cbn [u_pmax]. rewrite Eb. cbv zeta. intros. dcrush; cbn in *; dinv; subst; lra.
Qed.
Lemma no_insert_rest : forall u b, b_head (sub_no_insert u b) = b_head b /\ b_prev (sub_no_insert u b) = b_prev b /\ b_aet (sub_no_insert u b) = b_aet b /\ b_volin (sub_no_insert u b) = b_volin b /\ b_rech (sub_no_insert u b) = b_rech b.
Proof. intros u b. unfold sub_no_insert. destruct (_ <? _)%d; repeat split. Qed.

Lemma create_ponded : forall e w dry t l l' p v, lgar_create_surficial_front e (Fin w) dry t l = Ok (l', Fin p, v) -> 0 <= w -> 0 <= p.
Proof.
  intros e w dry t l l' p v H Hw. unfold lgar_create_surficial_front in H. bind_inv H s Es. bind_inv H z Ez. bind_inv H ff Ef. bind_inv H l2 El. apply Ok_inj in H. apply pair_equal_spec in H as [H _]. apply pair_equal_spec in H as [_ H].
  destruct (dry * (s_theta_e s - t) >? Fin w)%d eqn:G; [injection H as <-; lra|]. revert G H. generalize (dry * (s_theta_e s - t))%d. intros [x| | |] G H; dsimp; try discriminate. cbn in H. injection H as <-. destruct (Rlt_dec w x); [discriminate|lra].
Qed.

Lemma hydro_ponding : forall e dt nint closed wp fc pm pm' pp prate petr precip volon w volend head prev b1 b2 i1 i2 q1 q2 o1 o2,
  let u := mkU e (Fin dt) nint closed wp fc (Fin pm) in let u' := mkU e (Fin dt) nint closed wp fc (Fin pm') in
  0 < dt -> 0 <= pm <= pm' -> 0 <= w ->
  sub_hydro u pp prate petr precip volon (Fin w) volend head prev = Ok b1 -> b_volin b1 = Fin i1 -> b_runoff b1 = Fin q1 -> b_on b1 = Fin o1 -> 0 <= i1 -> o1 <= pm ->
  sub_hydro u' pp prate petr precip volon (Fin w) volend head prev = Ok b2 -> b_volin b2 = Fin i2 -> b_runoff b2 = Fin q2 -> b_on b2 = Fin o2 -> 0 <= i2 -> o2 <= pm' ->
  same_but_dzdt (b_head b1) (b_head b2) /\ b_aet b1 = b_aet b2 /\ b_rech b1 = b_rech b2 /\ i1 = i2 /\ o1 <= o2 <= o1 + (pm' - pm) /\ q2 <= q1 /\ o1 + q1 = o2 + q2.
Proof.
  intros e dt nint closed wp fc pm pm' pp prate petr precip volon w volend head prev b1 b2 i1 i2 q1 q2 o1 o2 u u' Hd Hp Hw H1 I1 Q1 O1 Hi1 Ho1 H2 I2 Q2 O2 Hi2 Ho2. unfold sub_hydro in H1, H2. cbv zeta in H1, H2.
  cbn [u u' u_env u_dt u_nint u_closed u_wilting u_fc] in H1, H2.
  bind_inv H1 aet Eaet. rewrite Eaet in H2. cbn [bind] in H2. bind_inv H1 cr Ecr. rewrite Ecr in H2. cbn [bind] in H2.
  destruct cr.
  - change (sub_create u' (wetting_front_free_drainage head) volend aet (Fin w) head prev) with (sub_create u (wetting_front_free_drainage head) volend aet (Fin w) head prev) in H2.
    bind_inv H1 b Eb. rewrite Eb in H2. cbn [bind] in H2. rewrite andb_false_r in H1, H2. cbn [bind] in H1, H2. bind_inv H1 l1 El1. bind_inv H2 l2 El2. apply Ok_inj in H1, H2. subst b1 b2.
    cbn [b_head b_aet b_rech b_volin b_runoff b_on] in *.
    destruct (no_insert_rest u b) as (N1 & N2 & N3 & N4 & N5). destruct (no_insert_rest u' b) as (M1 & M2 & M3 & M4 & M5). rewrite N1, N3, N4, N5, M1, M3, M4, M5 in *.
    split; [exact (dz_trans _ _ _ (dz_sym _ _ (dzdt_but _ _ _ _ _ _ El1)) (dzdt_but _ _ _ _ _ _ El2))|]. split; [reflexivity|]. split; [reflexivity|].
    split; [congruence|].
    assert (P : exists p, b_ponded b = Fin p /\ 0 <= p).
    { unfold sub_create in Eb. bind_inv Eb x Ex. destruct x as [[l a] pd]. bind_inv Eb y Ey. destruct y as [dry dl]. bind_inv Eb h Eh. bind_inv Eb z Ez. destruct z as [[l3 p] v]. apply Ok_inj in Eb. subst b. cbn [b_ponded b_volin] in *.
      assert (exists x, p = Fin x) as [x ->]; [|exists x; split; [reflexivity|eapply create_ponded; eassumption]].
      clear - Q1 O1. unfold sub_no_insert in Q1, O1. cbn [b_ponded b_runoff b_on u_pmax u] in *. destruct p; dsimp; cbn in *; try discriminate; eauto. }
    destruct P as (p & Ep & P0). exact (no_insert_ponding _ _ _ _ _ _ _ _ _ _ _ _ _ _ Hp P0 Ep Q1 O1 Q2 O2).
  - cbn [bind] in H1, H2. cbn [negb] in H1, H2. rewrite andb_true_r in H1, H2. cbn [b_ponded] in H1, H2. destruct (Fin w >? Fin 0)%d.
    + bind_inv H1 cc1 CC1. bind_inv H2 cc2 CC2. unfold sub_insert in CC1, CC2. cbn [u u' u_env u_dt u_nint u_closed u_pmax b_aet b_ponded b_volin b_head b_prev b_rech] in CC1, CC2. unfold lgar_insert_water in CC1, CC2.
      bind_inv CC1 x1 X1. bind_inv X1 fcap EF. rewrite EF in CC2. cbn [bind] in CC2. apply Ok_inj in X1. subst x1.
      destruct (surface_partition (Fin dt) (Fin w) (Fin 0) (Fin pm) fcap) as [[r1 p1] v1] eqn:S1. destruct (surface_partition (Fin dt) (Fin w) (Fin 0) (Fin pm') fcap) as [[r2 p2] v2] eqn:S2.
      destruct (r1 <? Fin 0)%d; [discriminate|]. destruct (r2 <? Fin 0)%d; [discriminate|]. apply Ok_inj in CC1, CC2. subst cc1 cc2.
      bind_inv H1 m1 M1. bind_inv H2 m2 M2. unfold sub_move in M1, M2. cbn [u u' u_env u_dt b_volin b_aet b_head b_prev b_ponded b_runoff b_on] in M1, M2.
      bind_inv M1 y1 Y1. destruct y1 as [[l1 a1] rc1]. bind_inv M2 y2 Y2. destruct y2 as [[l2 a2] rc2]. apply Ok_inj in M1, M2. subst m1 m2.
      bind_inv H1 k1 K1. bind_inv H2 k2 K2. apply Ok_inj in H1, H2. subst b1 b2. cbn [b_head b_aet b_rech b_volin b_runoff b_on b_ponded] in *. subst r1 p1 v1 r2 p2 v2.
      pose proof (partition_ponding dt pm pm' fcap w q1 o1 i1 q2 o2 i2 Hd Hp Hw S1 S2 Hi1 Hi2 Ho1 Ho2) as (E & T). subst i2. rewrite Y1 in Y2. apply Ok_inj in Y2. injection Y2 as <- <- <-.
      split; [exact (dz_trans _ _ _ (dz_sym _ _ (dzdt_but _ _ _ _ _ _ K1)) (dzdt_but _ _ _ _ _ _ K2))|]. repeat (split; [reflexivity|]). exact T.
    + cbn [bind] in H1, H2. set (b0 := mkSub head prev aet (Fin w) (Fin 0) (Fin 0) (Fin 0) (Fin 0)) in *.
      bind_inv H1 m1 M1. bind_inv H2 m2 M2. unfold sub_move in M1, M2. cbn [u u' u_env u_dt] in M1, M2.
      destruct (no_insert_rest u b0) as (N1 & N2 & N3 & N4 & N5). destruct (no_insert_rest u' b0) as (R1 & R2 & R3 & R4 & R5). rewrite N1, N2, N3, N4 in M1. rewrite R1, R2, R3, R4 in M2.
      bind_inv M1 y1 Y1. rewrite Y1 in M2. destruct y1 as [[l1 a1] rc1]. cbn [bind] in M2. apply Ok_inj in M1, M2. subst m1 m2.
      bind_inv H1 k1 K1. bind_inv H2 k2 K2. apply Ok_inj in H1, H2. subst b1 b2. cbn [b_head b_aet b_rech b_volin b_runoff b_on b_ponded] in *.
      split; [exact (dz_trans _ _ _ (dz_sym _ _ (dzdt_but _ _ _ _ _ _ K1)) (dzdt_but _ _ _ _ _ _ K2))|]. repeat (split; [reflexivity|]). split; [congruence|].
      exact (no_insert_ponding _ _ _ _ _ _ _ _ b0 w _ _ _ _ Hp Hw eq_refl Q1 O1 Q2 O2).
Qed.

Lemma substep_ponding : forall e dt nint closed wp fc pm pm' s s' a t t' a1 a2 r w i0 q0 i1 i2 q1 q2 o1 o2,
  let u := mkU e (Fin dt) nint closed wp fc (Fin pm) in let u' := mkU e (Fin dt) nint closed wp fc (Fin pm') in
  st_head s' = st_head s -> st_precip s' = st_precip s -> st_pet s' = st_pet s -> p_precip_prev (st_p s') = p_precip_prev (st_p s) -> p_cum (st_p s') = p_cum (st_p s) ->
  0 < dt -> 0 <= pm <= pm' -> st_precip s = Fin r -> a_on a = Fin w -> 0 <= w -> a_in a = Fin i0 -> a_runoff a = Fin q0 ->
  substep u s a = Ok (t, a1) -> a_in a1 = Fin i1 -> a_runoff a1 = Fin q1 -> a_on a1 = Fin o1 -> i0 <= i1 -> o1 <= pm ->
  substep u' s' a = Ok (t', a2) -> a_in a2 = Fin i2 -> a_runoff a2 = Fin q2 -> a_on a2 = Fin o2 -> i0 <= i2 -> o2 <= pm' ->
  same_but_dzdt (st_head t) (st_head t') /\ (a_precip a1 = a_precip a2 /\ a_pet a1 = a_pet a2 /\ a_aet a1 = a_aet a2 /\ a_rech a1 = a_rech a2 /\ a_end a1 = a_end a2) /\ i1 = i2 /\ (o1 <= o2 <= o1 + (pm' - pm) /\ q2 <= q1) /\ o1 + q1 = o2 + q2.
Proof.
  intros e dt nint closed wp fc pm pm' s s' a t t' a1 a2 r w i0 q0 i1 i2 q1 q2 o1 o2 u u' Eh Er Ep Epp Ec Hd Hp Hr Ew Hw Ei0 Eq0 H1 I1 Q1 O1 L1 P1 H2 I2 Q2 O2 L2 P2.
  destruct (substep_inv _ _ _ _ _ H1) as (vs & b & ve & mbl & p & pt & pr & ptr & Epr & Eptr & Epp1 & Ept1 & _ & HY & VE & _ & _ & T1 & Ea).
  destruct (substep_inv _ _ _ _ _ H2) as (vs' & b' & ve' & mbl' & p' & pt' & pr' & ptr' & Epr' & Eptr' & Epp' & Ept' & _ & HY' & VE' & _ & _ & T2 & Ea').
  rewrite Eh, Epp in HY'. rewrite Er in Epr'. rewrite Ep in Eptr'. rewrite <- Epr in Epr'. rewrite <- Eptr in Eptr'. subst pr' ptr'. change (u_dt u') with (u_dt u) in Epp', Ept'. rewrite <- Epp1 in Epp'. rewrite <- Ept1 in Ept'. subst p' pt'. rewrite Ec in VE'.
  subst a1 a2 t t'. cbn [a_in a_runoff a_on a_precip a_pet a_aet a_rech a_end st_head] in *. rewrite Ei0 in I1, I2. rewrite Eq0 in Q1, Q2.
  destruct (fin_sum _ _ _ I1) as (v1 & V1 & ->). destruct (fin_sum _ _ _ Q1) as (k1 & K1 & ->). destruct (fin_sum _ _ _ I2) as (v2 & V2 & ->). destruct (fin_sum _ _ _ Q2) as (k2 & K2 & ->).
  assert (R1 : exists x, pr = Fin x /\ 0 <= x). { rewrite Epr, Hr. cbn. dsimp. dcrush; eexists; (split; [reflexivity|lra]). } destruct R1 as (x & R1 & R0).
  assert (EP : p = Fin (x * dt)) by (rewrite Epp1, R1; reflexivity). rewrite EP, Ew in HY, HY'. change (Fin (x * dt) + Fin w)%d with (Fin (x * dt + w)) in *.
  assert (W0 : 0 <= x * dt + w) by (apply Rplus_le_le_0_compat; [apply Rmult_le_pos|]; lra).
  destruct (hydro_ponding e dt nint closed wp fc pm pm' _ _ _ _ _ _ _ _ _ b b' v1 v2 k1 k2 o1 o2 Hd Hp W0 HY V1 K1 O1 ltac:(lra) P1 HY' V2 K2 O2 ltac:(lra) P2) as (A & B & C & D & F & G & J).
  split; [exact A|]. split; [|split; [lra|split; [split; lra|lra]]]. repeat split; [rewrite B|rewrite C|]; try reflexivity.
  unfold lgar_calc_mass_bal in VE, VE'. rewrite (mass_but _ _ _ _ A) in VE. rewrite VE in VE'. apply Ok_inj in VE'. exact VE'.
Qed.

Lemma update_one_all : forall s t, plain s -> substeps_of s 1 -> Update s = Ok t ->
  exists volend a t', lgar_calc_mass_bal (p_cum (st_p s)) (st_head s) = Ok volend /\
    substep (mkU (env_of s) (p_timestep (st_p s)) (p_nint (st_p s)) (p_closed (st_p s)) (p_wilting (st_p s)) (p_fc (st_p s)) (p_pmax (st_p s)))
      (s <| st_p := (st_p s) <| p_finterval := 1%Z |> |>) (acc0 volend (mb_on_ts (st_mb s))) = Ok (t', a) /\ finish_update t' a (Fin 0) = Ok t.
Proof.
  intros s t (Hv & Hc & Hs & Ha) Hn H. destruct (Update_inv _ _ Hv H) as (s1 & vcal & volend & s2 & dt & n & s3 & a & E1 & E2 & E3 & E4 & E5 & E6 & E7).
  unfold update_prologue in E1. rewrite Hs in E1. cbn [bind] in E1. change (p_calib (st_p (s <| st_p := st_p s |>))) with (p_calib (st_p s)) in E1. rewrite Hc in E1. apply Ok_inj, pair_equal_spec in E1 as [E1 EV]. subst vcal.
  assert (E1' : s1 = s) by (rewrite <- E1; destruct s; reflexivity). clear E1. subst s1.
  destruct (steps_inv _ _ _ _ E5) as (Ed & En & ->). rewrite Ha in Ed. subst dt. unfold substeps_of in Hn. rewrite Hn in En. apply Ok_inj in En. subst n.
  change (Z.to_nat 1) with 1%nat in E6. cbn [subcycle_loop] in E6. bind_inv E6 x Ex. destruct x as [s' a'].
  assert (E6' : s3 = s' /\ a = a'). { destruct (_ && _)%bool in E6; apply Ok_inj, pair_equal_spec in E6 as [<- <-]; auto. } destruct E6' as [-> ->]. clear E6.
  exists volend, a', s'. split; [exact E2|]. split; [|exact E7]. rewrite <- Ex. f_equal; destruct s as [? ? ? pp]; destruct pp; reflexivity.
Qed.

Lemma update_ponding : forall s pm pm' t1 t2 b1 b2 dt r w i1 i2 q1 q2 o1 o2,
  let lo := s <| st_p := (st_p s) <| p_pmax := Fin pm |> |> in let hi := s <| st_p := (st_p s) <| p_pmax := Fin pm' |> |> in
  plain s -> substeps_of s 1 -> p_timestep (st_p s) = Fin dt -> 0 < dt -> 0 <= pm <= pm' -> st_precip s = Fin r -> mb_on_ts (st_mb s) = Fin w -> 0 <= w ->
  Update lo = Ok t1 -> st_out t1 = Some b1 -> o_in b1 = Fin i1 -> o_runoff b1 = Fin q1 -> mb_on_ts (st_mb t1) = Fin o1 -> 0 <= i1 -> o1 <= pm ->
  Update hi = Ok t2 -> st_out t2 = Some b2 -> o_in b2 = Fin i2 -> o_runoff b2 = Fin q2 -> mb_on_ts (st_mb t2) = Fin o2 -> 0 <= i2 -> o2 <= pm' ->
  (same_but_dzdt (st_head t1) (st_head t2) /\ same_fronts t1 t2) /\ (o_precip b1 = o_precip b2 /\ o_pet b1 = o_pet b2 /\ o_aet b1 = o_aet b2 /\ o_rech b1 = o_rech b2 /\ o_end b1 = o_end b2) /\
  i1 = i2 /\ (o1 <= o2 <= o1 + (pm' - pm) /\ q2 <= q1) /\ o1 / 100 + q1 = o2 / 100 + q2.
Proof.
  intros s pm pm' t1 t2 b1 b2 dt r w i1 i2 q1 q2 o1 o2 lo hi HP Hn Ed Hd Hp Er Ew Hw H1 B1 I1 Q1 O1 L1 P1 H2 B2 I2 Q2 O2 L2 P2.
  destruct (update_one_all lo t1 HP Hn H1) as (v1 & a1 & s1 & E1 & S1 & F1). destruct (update_one_all hi t2 HP Hn H2) as (v2 & a2 & s2 & E2 & S2 & F2).
  assert (V : v1 = v2). { change (lgar_calc_mass_bal (p_cum (st_p s)) (st_head s) = Ok v1) in E1. change (lgar_calc_mass_bal (p_cum (st_p s)) (st_head s) = Ok v2) in E2. rewrite E1 in E2. apply Ok_inj in E2. exact E2. } subst v2.
  destruct (finish_inv _ _ _ _ F1) as (g1 & k1 & m1 & _ & _ & ->). destruct (finish_inv _ _ _ _ F2) as (g2 & k2 & m2 & _ & _ & ->).
  cbn [st_out st_mb mb_on_ts st_head] in *. injection B1 as <-. injection B2 as <-. cbn [o_in o_runoff] in *.
  assert (F : forall x y, (x * cm_to_m)%d = Fin y -> exists z, x = Fin z /\ z = 100 * y).
  { intros [z| | |] y K; dsimp; unfold inf_sign in *; cbn in K; repeat (destruct (Rlt_dec _ _) in K || destruct (Req_EM_T _ _) in K); try discriminate; try lra. injection K as K. exists z. split; [reflexivity|lra]. }
  destruct (F _ _ I1) as (x1 & X1 & G1). destruct (F _ _ I2) as (x2 & X2 & G2). destruct (F _ _ Q1) as (z1 & Z1 & N1). destruct (F _ _ Q2) as (z2 & Z2 & N2).
  match type of S1 with substep ?x ?y ?z = _ => assert (EU : x = mkU (env_of s) (Fin dt) (p_nint (st_p s)) (p_closed (st_p s)) (p_wilting (st_p s)) (p_fc (st_p s)) (Fin pm)) by (rewrite <- Ed; reflexivity); rewrite EU in S1; set (y1 := y) in * end.
  match type of S2 with substep ?x ?y ?z = _ => assert (EU2 : x = mkU (env_of s) (Fin dt) (p_nint (st_p s)) (p_closed (st_p s)) (p_wilting (st_p s)) (p_fc (st_p s)) (Fin pm')) by (rewrite <- Ed; reflexivity); rewrite EU2 in S2; set (y2 := y) in * end.
  change (mb_on_ts (st_mb lo)) with (mb_on_ts (st_mb s)) in S1. change (mb_on_ts (st_mb hi)) with (mb_on_ts (st_mb s)) in S2.
  assert (HH : st_head y2 = st_head y1) by reflexivity.
  destruct (substep_ponding (env_of s) dt _ _ _ _ pm pm' y1 y2 (acc0 v1 (mb_on_ts (st_mb s))) s1 s2 a1 a2 r w 0 0 x1 x2 z1 z2 o1 o2 HH eq_refl eq_refl eq_refl eq_refl Hd Hp Er Ew Hw eq_refl eq_refl S1 X1 Z1 O1 ltac:(lra) P1 S2 X2 Z2 O2 ltac:(lra) P2)
    as (A & (A1 & A2 & A3 & A4 & A5) & B & C & D).
  assert (SF : listLength (st_head s1) = listLength (st_head s2) /\ map f_theta (st_head s1) = map f_theta (st_head s2) /\ map (fun f => f_depth f * cm_to_m)%d (st_head s1) = map (fun f => f_depth f * cm_to_m)%d (st_head s2)).
  { clear - A. unfold listLength. induction A as [|f g l l' (K1 & K2 & _) A (J1 & J2 & J3)]; [repeat split|]. cbn [map length]. rewrite K1, K2, J2, J3. repeat split. lia. }
  split; [split; [exact A|exact SF]|]. cbn [o_precip o_pet o_aet o_rech o_end]. rewrite A1, A2, A3, A4, A5. split; [repeat split|]. split; [lra|]. split; [split; lra|lra].
Qed.
End Exactly.
