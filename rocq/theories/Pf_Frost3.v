(** Colder soil: the capacity, the dry depth and a new front (exact arithmetic). *)

From Coq Require Import Reals Lra ZArith List Bool Lia.
From RecordUpdate Require Import RecordSet.
From Verif Require Import Outcome Dbl Types ListOps Soil Giuh Fronts Infil Move State Update Exact Lib Spec_Common Spec_Soil Spec_Update Spec_Profile Spec_Storage Spec_Physical Spec_Velocity Spec_Frost
  Pf_Dbl Pf_Pow Pf_Geff Pf_Soil Pf_Frozen Pf_Surface Pf_Update Pf_Structure Pf_SafeMove Pf_SafeUpdate Pf_Physical Pf_Physical2 Pf_MoreRain Pf_Frost Pf_Frost2.
Import ListNotations.
Import RecordSetNotations.
Open Scope R_scope.

Section Cold.
Local Existing Instance exact.
Context {cfg : Cfg}.
Variables (nl : Z) (cum : list dbl) (st : list (option Z)) (so : list (option soil)) (fr fr' : list dbl).
Hypothesis HC : colder_factors fr fr'.
Let e := mkEnv nl cum st so fr.
Let e' := mkEnv nl cum st so fr'.
Hypothesis HE : sound_env e.
Hypothesis HV : vg_column e.

Lemma factor_at : forall k x x', aget fr k = Ok x -> aget fr' k = Ok x' -> exists a b, x = Fin a /\ x' = Fin b /\ 0 < a <= b.
Proof.
  intros k x x' H H'. unfold aget in *. destruct (k <? 0)%Z; [discriminate|]. revert H H'. generalize (Z.to_nat k) as j. clear k. clear HV HE e e'. induction HC as [|y y' l m A F IH]; intros j H H'; destruct j; try discriminate.
  - cbn in *. apply Ok_inj in H, H'. subst. assumption.
  - cbn in *. eapply IH; eassumption.
Qed.

Lemma sum_less : forall lay j k x y X Y, (1 <= lay <= nl)%Z -> (1 <= k)%Z -> (k + Z.of_nat j <= lay)%Z -> 0 < y <= x ->
  zfor k j (fun k sum => s <- soil_of e (lay - k)%Z ;; ff <- aget fr (lay - k)%Z ;; let Kk := (s_Ksat s * ff)%d in c1 <- aget cum (lay - k)%Z ;; c0 <- aget cum (lay - (k + 1))%Z ;; Ok (sum + (c1 - c0) / Kk)%d) (Fin x) = Ok X ->
  zfor k j (fun k sum => s <- soil_of e' (lay - k)%Z ;; ff <- aget fr' (lay - k)%Z ;; let Kk := (s_Ksat s * ff)%d in c1 <- aget cum (lay - k)%Z ;; c0 <- aget cum (lay - (k + 1))%Z ;; Ok (sum + (c1 - c0) / Kk)%d) (Fin y) = Ok Y ->
  exists x' y', X = Fin x' /\ Y = Fin y' /\ 0 < y' <= x'.
Proof.
  intros lay. induction j as [|j IH]; intros k x y X Y Hl Hk Hj Hxy E1 E2; cbn [zfor] in E1, E2.
  - apply Ok_inj in E1, E2. subst. eauto.
  - bind_inv E1 x1 Q1. bind_inv E2 y1 Q2. bind_inv Q1 s Es. bind_inv Q1 ff Ef. bind_inv Q1 ca Ec1. bind_inv Q1 cb Ec0. bind_inv Q2 s' Es'. bind_inv Q2 ff' Ef'. rewrite Ec1, Ec0 in Q2. cbn [bind] in Q2.
    change (soil_of e' (lay - k)%Z) with (soil_of e (lay - k)%Z) in Es'. rewrite Es in Es'. apply Ok_inj in Es'. subst s'.
    destruct (factor_at _ _ _ Ef Ef') as (a & b & -> & -> & Hab). destruct (HV (lay - k)%Z s ltac:(cbn [e_nlayers e]; lia) Es) as (r & te & al & n & m & kk & V). pose proof (vg_k0 _ _ _ _ _ _ _ V) as K0.
    rewrite (vg_k _ _ _ _ _ _ _ V) in Q1, Q2.
    destruct (se_cum _ HE (lay - k)%Z ltac:(cbn [e_nlayers e]; lia)) as (z1 & Z1 & _). destruct (se_cum _ HE (lay - (k + 1))%Z ltac:(cbn [e_nlayers e]; lia)) as (z0 & Z0 & _).
    cbn [e_cum e] in Z1, Z0. rewrite Z1 in Ec1. apply Ok_inj in Ec1. rewrite Z0 in Ec0. apply Ok_inj in Ec0. subst ca cb.
    assert (HZ : z0 < z1). { apply (se_incr _ HE (lay - (k + 1))%Z); [cbn [e_nlayers e]; lia|exact Z0|]. replace (lay - (k + 1) + 1)%Z with (lay - k)%Z by lia. exact Z1. }
    assert (A : 0 < kk * a) by (apply Rmult_lt_0_compat; lra). assert (B : kk * a <= kk * b) by (apply Rmult_le_compat_l; lra).
    assert (T : 0 < (z1 - z0) / (kk * b) <= (z1 - z0) / (kk * a)). { split; [apply Rdiv_lt_0_compat; lra|]. apply Rmult_le_compat_l; [lra|]. apply Rinv_le_contravar; lra. }
    cbn [dmul dsub rnd exact] in Q1, Q2. rewrite div_fin in Q1, Q2 by lra. cbn in Q1, Q2. apply Ok_inj in Q1, Q2. subst x1 y1.
    eapply IH; [exact Hl|..|exact E1|exact E2]; [lia|lia|lra].
Qed.

Lemma capacity_less : forall closed nint dt aet w r wfd head f1 f2, capillary closed nint e -> Forall (lies cum) head -> Forall (fun f => 1 <= f_layer f <= nl)%Z head -> 
  infiltration_capacity e closed nint (Fin dt) aet (Fin w) (Fin r) wfd head = Ok f1 -> infiltration_capacity e' closed nint (Fin dt) aet (Fin w) (Fin r) wfd head = Ok f2 -> less f1 f2.
Proof.
  intros closed nint dt aet w r wfd head f1 f2 HG HL HR H1 H2. unfold infiltration_capacity in H1, H2. cbv zeta in H1, H2.
  bind_inv H1 fd Efd. bind_inv H1 s Es. bind_inv H1 cur Ecur. bind_inv H1 ff Ef. bind_inv H1 G EG. bind_inv H1 p Ep. bind_inv H1 s1 Es1. bind_inv H1 cm Ecm. bind_inv H1 ms Ems.
  rewrite Efd in H2. cbn [bind] in H2. bind_inv H2 s' Es'. change (soil_of e' (f_layer fd)) with (soil_of e (f_layer fd)) in Es'. rewrite Es in Es'. apply Ok_inj in Es'. subst s'.
  rewrite Ecur in H2. cbn [bind] in H2. bind_inv H2 ff' Ef'. bind_inv H2 G' EG'. bind_inv H2 p' Ep'. bind_inv H2 s1' Es1'. change (soil_of e' (f_layer cur)) with (soil_of e (f_layer cur)) in Es1'. rewrite Es1 in Es1'. apply Ok_inj in Es1'. subst s1'.
  change (e_cum e') with (e_cum e) in H2. rewrite Ecm in H2. cbn [bind] in H2. change (max_storage e') with (max_storage e) in H2. rewrite Ems in H2. cbn [bind] in H2. change (e_nlayers e') with (e_nlayers e) in *.
  apply Ok_inj in H1, H2. subst f1 f2. apply less_cap.
  assert (L : less p p'); [|destruct (_ && _)%bool; [apply less_min|]; exact L]. clear ms cm Ems Ecm Es1 s1.
  assert (Ifd : In fd head). { unfold pget in Efd. destruct (findFront wfd head); [|discriminate]. unfold lget in Efd. destruct (nth_error head n) eqn:N; [|discriminate]. apply Ok_inj in Efd. subst. eapply nth_error_In; eassumption. }
  rewrite Forall_forall in HL, HR. destruct (HL _ Ifd) as (z & c & Ez & Z0 & Ec & Hcz). specialize (HR _ Ifd).
  destruct (factor_at _ _ _ Ef Ef') as (a & b & -> & -> & Hab). destruct (HV _ s HR Es) as (rr & te & al & n & m & kk & V). pose proof (vg_k0 _ _ _ _ _ _ _ V) as K0.
  assert (A : 0 < kk * a) by (apply Rmult_lt_0_compat; lra). assert (B : kk * a <= kk * b) by (apply Rmult_le_compat_l; lra).
  rewrite (vg_k _ _ _ _ _ _ _ V) in *. change (Fin kk * Fin a)%d with (Fin (kk * a)) in *. change (Fin kk * Fin b)%d with (Fin (kk * b)) in *.
  assert (HH : exists h, dfmax (Fin w - Fin r * Fin dt)%d (Fin 0) = Fin h /\ 0 <= h). { cbn. dsimp. dcrush; eexists; (split; [reflexivity|lra]). }
  destruct HH as (h & EH & H0). rewrite EH in Ep, Ep'. clear EH.
  assert (GG : G = G' /\ not_negative G).
  { destruct (listLength head =? e_nlayers e)%Z; [apply Ok_inj in EG, EG'; subst; split; [reflexivity|apply nn_Fin; lra]|].
    bind_inv EG nx Enx. rewrite Enx in EG'. cbn [bind] in EG'. rewrite (geff_indep cfg _ _ _ _ (kk * b) (kk * a)) in EG' by lra. rewrite EG in EG'. apply Ok_inj in EG'. split; [exact EG'|].
    eapply geff_sat; [exact HG|exact HV|exact HR|exact Es|exact EG]. }
  destruct GG as [<- NG]. clear EG EG'. rewrite Ez in Ep, Ep'. change (e_cum e) with cum in *. change (e_cum e') with cum in *.
  destruct (f_layer fd =? 1)%Z eqn:E1.
  - apply Ok_inj in Ep, Ep'. subst p p'. destruct G as [g| | |]; try (left; reflexivity).
    + apply nn_Fin_inv in NG. right. change (Fin g + Fin h)%d with (Fin (g + h)). rewrite div_fin by lra. change (lit 1) with (Fin 1). cbn. do 2 eexists. do 2 (split; [reflexivity|]).
      assert (0 <= (g + h) / z) by (apply Rmult_le_pos; [lra|left; apply Rinv_0_lt_compat; lra]). apply Rmult_le_compat_r; lra.
    + left. cbn. destruct (Rlt_dec z 0); [lra|]. cbn. unfold inf_sign. destruct (Rlt_dec 0 (kk * a)); [|lra]. destruct (Rlt_dec 0 (kk * b)); [reflexivity|lra].
    + cbn in NG. discriminate.
  - apply Z.eqb_neq in E1. rewrite Ec in Ep, Ep'. cbn [bind] in Ep, Ep'. bind_inv Ep X EX. bind_inv Ep' Y EY. apply Ok_inj in Ep, Ep'. subst p p'.
    change (Fin z - Fin c)%d with (Fin (z - c)) in EX, EY. rewrite div_fin in EX, EY by lra.
    assert (T : 0 < (z - c) / (kk * b) <= (z - c) / (kk * a)). { split; [apply Rdiv_lt_0_compat; lra|]. apply Rmult_le_compat_l; [lra|]. apply Rinv_le_contravar; lra. }
    cbn [e e_nlayers] in HR. destruct (sum_less (f_layer fd) (Z.to_nat (f_layer fd - 1)) 1 _ _ X Y HR ltac:(lia) ltac:(lia) T EX EY) as (x & y & -> & -> & Hxy). clear EX EY.
    rewrite !div_fin by lra. assert (D : z / x <= z / y) by (apply Rmult_le_compat_l; [lra|apply Rinv_le_contravar; lra]).
    destruct G as [g| | |]; try (left; reflexivity).
    + apply nn_Fin_inv in NG. right. change (Fin g + Fin h)%d with (Fin (g + h)). cbn [dmul rnd exact]. rewrite !div_fin by lra. cbn. do 2 eexists. do 2 (split; [reflexivity|]).
      assert ((g + h) * (kk * a) / z <= (g + h) * (kk * b) / z); [|lra]. apply Rmult_le_compat_r; [left; apply Rinv_0_lt_compat; lra|]. apply Rmult_le_compat_l; lra.
    + left. cbn. unfold inf_sign. destruct (Rlt_dec 0 (kk * a)); [|lra]. destruct (Rlt_dec 0 (kk * b)); [|lra]. cbn. destruct (Rlt_dec z 0); [lra|]. reflexivity.
    + cbn in NG. discriminate.
Qed.

(** The dry depth grows with the conductivity. *)
Lemma dry_less : forall closed nint dt c c' l l' r te t1 s d1 d2 x1 x2, capillary closed nint e -> 0 < dt -> but_K c c' -> (1 <= f_layer c <= nl)%Z -> soil_of e (f_layer c) = Ok s ->
  s_theta_r s = Fin r -> s_theta_e s = Fin te -> f_theta c = Fin t1 -> t1 <= te ->
  lgar_calc_dry_depth e closed nint (Fin dt) (c :: l) = Ok (d1, x1) -> lgar_calc_dry_depth e' closed nint (Fin dt) (c' :: l') = Ok (d2, x2) -> less d1 d2.
Proof.
  intros closed nint dt c c' l l' r te t1 s d1 d2 x1 x2 HG Hd (_ & Bt & _ & Bl & _) HR Es Er Ete Et1 Hle H1 H2. unfold lgar_calc_dry_depth in H1, H2. unfold lget in H1, H2. cbn [nth_error bind] in H1, H2.
  rewrite <- Bl in H2. rewrite <- Bt in H2. rewrite Es in H1. cbn [bind] in H1. change (soil_of e' (f_layer c)) with (soil_of e (f_layer c)) in H2. rewrite Es in H2. cbn [bind] in H2.
  bind_inv H1 ff Ef. bind_inv H2 ff' Ef'. cbv zeta in H1, H2. bind_inv H1 G EG. bind_inv H2 G' EG'. bind_inv H1 ck Eck. change (e_cum e') with (e_cum e) in H2. rewrite Eck in H2. cbn [bind] in H2.
  apply Ok_inj, pair_equal_spec in H1 as [H1 _]. apply Ok_inj, pair_equal_spec in H2 as [H2 _]. subst d1 d2.
  destruct (factor_at _ _ _ Ef Ef') as (a & b & -> & -> & Hab). destruct (HV _ s HR Es) as (rr & tt & al & n & m & kk & V). pose proof (vg_k0 _ _ _ _ _ _ _ V) as K0.
  assert (A : 0 < kk * a) by (apply Rmult_lt_0_compat; lra). assert (B : kk * a <= kk * b) by (apply Rmult_le_compat_l; lra).
  rewrite (vg_k _ _ _ _ _ _ _ V) in *. change (Fin kk * Fin a)%d with (Fin (kk * a)) in *. change (Fin kk * Fin b)%d with (Fin (kk * b)) in *.
  rewrite (geff_indep cfg _ _ _ _ (kk * b) (kk * a)) in EG' by lra. rewrite EG in EG'. apply Ok_inj in EG'. subst G'.
  pose proof (geff_sat cfg _ _ _ _ _ _ _ _ HG HV HR Es EG) as NG. clear EG. rewrite Ete, Et1. change (Fin te - Fin t1)%d with (Fin (te - t1)).
  change (Fin dt * Fin (kk * a))%d with (Fin (dt * (kk * a))). change (Fin dt * Fin (kk * b))%d with (Fin (dt * (kk * b))).
  assert (A' : 0 < dt * (kk * a)) by (apply Rmult_lt_0_compat; lra). assert (B' : dt * (kk * a) <= dt * (kk * b)) by (apply Rmult_le_compat_l; lra).
  assert (M : forall x y z, less x y -> less (dfmin z x) (dfmin z y)).
  { intros x y z [<-|(p & q & -> & -> & H)]; [left; reflexivity|]. destruct z as [z| | |]; dsimp; dcrush; try (left; reflexivity); right; do 2 eexists; repeat (split; [reflexivity|]); lra. }
  apply M. destruct (Rle_lt_or_eq_dec _ _ Hle) as [Hlt|<-].
  - rewrite !div_fin by lra. set (ta := dt * (kk * a) / (te - t1)). set (tb := dt * (kk * b) / (te - t1)).
    assert (TA : 0 < ta) by (apply Rdiv_lt_0_compat; lra). assert (TB : ta <= tb) by (apply Rmult_le_compat_r; [left; apply Rinv_0_lt_compat; lra|lra]). clearbody ta tb.
    destruct G as [g| | |].
    + apply nn_Fin_inv in NG. change (lit 4) with (Fin 4). change (lit (1 / 2)) with (Fin (1 / 2)).
      change (Fin ta * Fin ta + Fin 4 * Fin ta * Fin g)%d with (Fin (ta * ta + 4 * ta * g)). change (Fin tb * Fin tb + Fin 4 * Fin tb * Fin g)%d with (Fin (tb * tb + 4 * tb * g)).
      assert (S1 : 0 <= ta * ta + 4 * ta * g) by nra. assert (S2 : ta * ta + 4 * ta * g <= tb * tb + 4 * tb * g) by nra.
      unfold dsqrt. cbn. destruct (Rlt_dec (ta * ta + 4 * ta * g) 0); [lra|]. destruct (Rlt_dec (tb * tb + 4 * tb * g) 0); [lra|].
      right. cbn. do 2 eexists. do 2 (split; [reflexivity|]). pose proof (sqrt_le_1_alt _ _ S2). lra.
    + left. change (lit 4) with (Fin 4). cbn. unfold inf_sign. destruct (Rlt_dec 0 (4 * ta)); [|lra]. destruct (Rlt_dec 0 (4 * tb)); [|lra]. reflexivity.
    + cbn in NG. discriminate.
    + left. reflexivity.
  - left. replace (t1 - t1) with 0 by ring. cbn. destruct (Req_EM_T 0 0); [|lra]. unfold inf_sign. destruct (Rlt_dec 0 (dt * (kk * a))); [|lra]. destruct (Rlt_dec 0 (dt * (kk * b))); [|lra]. reflexivity.
Qed.

Lemma create_is : forall en w dry th head l p i, lgar_create_surficial_front en w dry th head = Ok (l, p, i) -> exists s, soil_of en 1 = Ok s /\
  let q := (dry * (s_theta_e s - th))%d in i = (if (q >? w)%d then w else q) /\ p = (if (q >? w)%d then Fin 0 else (w - q)%d).
Proof.
  intros en w dry th head l p i H. unfold lgar_create_surficial_front in H. bind_inv H s Es. cbv zeta in H. bind_inv H x Ex. bind_inv H ff Eff. bind_inv H m1 El1.
  apply Ok_inj, pair_equal_spec in H as [H V1]. apply pair_equal_spec in H as [_ P1]. exists s. split; [exact Es|]. split; [symmetry; exact V1|symmetry; exact P1].
Qed.

Lemma create_less : forall w dry dry' th head head' l l' te s p i p' i', 0 <= w -> less dry dry' -> soil_of e 1 = Ok s -> s_theta_e s = Fin te -> th <= te ->
  lgar_create_surficial_front e (Fin w) dry (Fin th) head = Ok (l, Fin p, Fin i) -> lgar_create_surficial_front e' (Fin w) dry' (Fin th) head' = Ok (l', Fin p', Fin i') -> i <= i' /\ p' <= p.
Proof.
  intros w dry dry' th head head' l l' te s p i p' i' Hw HL Es Ete Hth H1 H2. apply create_is in H1 as (s1 & E1 & I1 & P1). apply create_is in H2 as (s2 & E2 & I2 & P2).
  change (soil_of e' 1) with (soil_of e 1) in E2. rewrite Es in E1, E2. apply Ok_inj in E1, E2. subst s1 s2. rewrite Ete in *. change (Fin te - Fin th)%d with (Fin (te - th)) in *.
  destruct HL as [<-|(a & b & -> & -> & Hab)].
  - rewrite <- I2 in I1. rewrite <- P2 in P1. injection I1 as <-. injection P1 as <-. lra.
  - assert (M : a * (te - th) <= b * (te - th)) by (apply Rmult_le_compat_r; lra). cbn [dmul rnd exact] in *. revert M I1 P1 I2 P2. generalize (a * (te - th)) (b * (te - th)). intros x y M I1 P1 I2 P2.
    dcrush; dinv; subst; lra.
Qed.

Lemma rK_refl_all : forall l, Forall2 rK l l.
Proof. induction l as [|f l IH]; constructor; [apply rK_but; repeat split|exact IH]. Qed.

(** One sub-step. *)
Lemma hydro_less : forall M closed nint wp fc dt pm pp r petr volon w volend head b1 b2 i1 i2 q1 q2 o1 o2,
  let u := mkU e (Fin dt) nint closed wp fc (Fin pm) in let u' := mkU e' (Fin dt) nint closed wp fc (Fin pm) in
  conducts_at_most M e -> frozen_in_range e -> capillary closed nint e -> Str e head -> Forall (physical_front M e) head -> Forall (lies cum) head ->
  0 < dt -> 0 <= pm -> 0 <= w -> ~ hydro_tie u pp (Fin r) petr (Fin (r * dt)) volon (Fin w) volend head head ->
  sub_hydro u pp (Fin r) petr (Fin (r * dt)) volon (Fin w) volend head head = Ok b1 -> b_volin b1 = Fin i1 -> b_runoff b1 = Fin q1 -> b_on b1 = Fin o1 ->
  sub_hydro u' pp (Fin r) petr (Fin (r * dt)) volon (Fin w) volend head head = Ok b2 -> b_volin b2 = Fin i2 -> b_runoff b2 = Fin q2 -> b_on b2 = Fin o2 ->
  0 <= i1 -> 0 <= i2 -> o1 <= pm -> o2 <= pm -> i1 <= i2 /\ q2 <= q1 /\ o2 <= o1.
Proof.
  intros M closed nint wp fc dt pm pp r petr volon w volend head b1 b2 i1 i2 q1 q2 o1 o2 u u' HM HF HG HS HP HL Hd Hp Hw HT H1 I1 Q1 O1 H2 I2 Q2 O2 Hi1 Hi2 Ho1 Ho2.
  destruct (hydro_ways _ _ _ _ _ _ _ _ _ _ _ _ _ _ H1 I1 Q1 O1) as (aet & cr1 & A1 & C1 & W1). destruct (hydro_ways _ _ _ _ _ _ _ _ _ _ _ _ _ _ H2 I2 Q2 O2) as (aet' & cr2 & A2 & C2 & W2).
  change (u_env u) with e in *. change (u_env u') with e' in *. change (u_dt u') with (Fin dt) in *. change (u_dt u) with (Fin dt) in *. change (u_pmax u) with (Fin pm) in *. change (u_pmax u') with (Fin pm) in *.
  change (u_closed u) with closed in *. change (u_closed u') with closed in *. change (u_nint u) with nint in *. change (u_nint u') with nint in *.
  change (u_wilting u) with wp in *. change (u_wilting u') with wp in *. change (u_fc u) with fc in *. change (u_fc u') with fc in *.
  change (calc_aet e' petr (Fin dt) wp fc head) with (calc_aet e petr (Fin dt) wp fc head) in A2. rewrite A1 in A2. apply Ok_inj in A2. subst aet'.
  change (create_decision e' head pp (Fin (r * dt)) volon) with (create_decision e head pp (Fin (r * dt)) volon) in C2. rewrite C1 in C2. apply Ok_inj in C2. subst cr2.
  destruct W1 as [(E & l & h & dry & l1 & p & b' & G1 & G2 & G3 & G4 & G5 & G6 & G7)|[(E & L & f & G1 & G2)|(E & L & E' & b' & G1 & G2 & G3)]].
  - destruct W2 as [(_ & l2 & h2 & dry2 & l3 & p2 & b2' & F1 & F2 & F3 & F4 & F5 & F6 & F7)|[(E' & _)|(E' & _)]]; [|congruence|congruence]. subst cr1.
    assert (T1 : ~ move_tie e (Fin dt) (Fin 0) (wetting_front_free_drainage head) volend aet head head).
    { intro T. apply HT. unfold hydro_tie. change (u_env u) with e. change (u_dt u) with (Fin dt). change (u_wilting u) with wp. change (u_fc u) with fc. exists aet, true. split; [exact A1|]. split; [exact C1|]. left. exact T. }
    destruct l as [[l a1] pd]. destruct l2 as [[l2 a2] pd2]. cbn [fst] in *.
    assert (FD : finite (Fin dt)) by (exists dt; reflexivity).
    assert (P1 : Forall (physical_front M e) l).
    { assert (P0 : Forall (phys e M) head) by (eapply Forall_impl; [|exact HP]; intros c; apply phys_iff; exact HV).
      assert (P2 : Forall (phys e M) l) by (refine (move_phys e M HV HM HF HE _ _ _ _ _ _ _ _ _ _ HS (st_num _ _ HS) eq_refl FD T1 P0 G1)).
      eapply Forall_impl; [|exact P2]. intros c. apply phys_iff. exact HV. }
    pose proof (ends_Ok _ _ _ _ _ (move_ok e (Fin dt) (Fin 0) (wetting_front_free_drainage head) volend aet head head HE HS (st_num _ _ HS) eq_refl FD T1) G1) as S1. cbn [fst] in S1.
    pose proof (F_move nl cum st so fr fr' ltac:(eapply Forall2_length; exact HC) (Fin dt) (Fin 0) (wetting_front_free_drainage head) volend aet head head head head (rK_refl_all head) (rK_refl_all head)) as FM.
    fold e in FM. fold e' in FM. rewrite G1, F1 in FM. cbn in FM. destruct FM as (LL & _).
    destruct (Str_head e l HE S1) as (h' & rest & -> & Hh). cbn in G3. apply Ok_inj in G3. subst h'. inversion LL as [|? h2' ? rest2 HK LL']; subst. cbn in F3. apply Ok_inj in F3. subst h2'.
    pose proof (proj1 (rK_but _ _) HK) as HB. inversion P1 as [|? ? Ph _]; subst. destruct Ph as [Pl (s & rr & te & al & n & m & kk & t & Es & V & Et & Ht & _) _]. rewrite Hh in Pl.
    destruct dry as [dry x1]. destruct dry2 as [dry2 x2]. cbn [fst] in *.
    assert (LD : less dry dry2).
    { eapply dry_less; [exact HG|exact Hd|exact HB|rewrite Hh; exact Pl|exact Es|exact (vg_r _ _ _ _ _ _ _ V)|exact (vg_e _ _ _ _ _ _ _ V)|exact Et|lra|exact G2|exact F2]. }
    rewrite Hh in Es. assert (Et2 : f_theta h2 = Fin t) by (destruct HB as (_ & K & _); congruence). rewrite Et in G4. rewrite Et2 in F4.
    destruct (create_less _ _ _ _ _ _ _ _ _ _ _ _ _ _ Hw LD Es (vg_e _ _ _ _ _ _ _ V) (proj2 Ht) G4 F4) as [K1 K2].
    destruct (no_insert_mono u' pm b2' b' p2 p eq_refl Hp F5 G5 K2) as (q & o & q' & o' & J1 & J2 & J3 & J4 & J5 & J6 & _).
    change (sub_no_insert u' b') with (sub_no_insert u b') in J3, J4. rewrite F6 in J1. rewrite F7 in J2. rewrite G6 in J3. rewrite G7 in J4. injection J1 as <-. injection J2 as <-. injection J3 as <-. injection J4 as <-. auto.
  - destruct W2 as [(E' & _)|[(_ & L2 & f2 & F1 & F2)|(_ & L2 & _)]]; [congruence| |lra].
    refine (partition_less _ _ _ _ _ _ _ _ _ _ _ (capacity_less _ _ _ _ _ _ _ _ _ _ HG HL _ G1 F1) Hd Hp Hw G2 F2 Hi1 Hi2 Ho1 Ho2).
    revert HP. apply Forall_impl. intros c Pc. apply Pc.
  - destruct W2 as [(E2 & _)|[(_ & L2 & _)|(_ & L2 & E2 & b2' & F1 & F2 & F3)]]; [congruence|lra|]. subst i1 i2.
    destruct (no_insert_mono u' pm b2' b' w w eq_refl Hp F1 G1 (Rle_refl _)) as (q & o & q' & o' & J1 & J2 & J3 & J4 & J5 & J6 & _).
    change (sub_no_insert u' b') with (sub_no_insert u b') in J3, J4. rewrite F2 in J1. rewrite F3 in J2. rewrite G2 in J3. rewrite G3 in J4. injection J1 as <-. injection J2 as <-. injection J3 as <-. injection J4 as <-. split; [lra|auto].
Qed.
End Cold.
