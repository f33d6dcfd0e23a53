(** Two sub-steps that start alike and differ in the rain. *)

From Coq Require Import Reals Lra ZArith List Bool Lia.
From RecordUpdate Require Import RecordSet.
From Verif Require Import Outcome Dbl Types ListOps Soil Giuh Fronts Infil Move State Update Exact Lib Spec_Common Pf_Dbl Pf_Surface Pf_Update Spec_Split.
Import ListNotations.
Import RecordSetNotations.
Open Scope R_scope.

Section Exactly.
Local Existing Instance exact.
Context {cfg : Cfg}.

Lemma partition_mono : forall dt pm f w1 w2 q1 o1 i1 q2 o2 i2, 0 < dt -> 0 <= pm -> 0 <= w1 <= w2 ->
  surface_partition (Fin dt) (Fin w1) (Fin 0) (Fin pm) f = (Fin q1, Fin o1, Fin i1) ->
  surface_partition (Fin dt) (Fin w2) (Fin 0) (Fin pm) f = (Fin q2, Fin o2, Fin i2) ->
  0 <= i1 -> 0 <= i2 -> o1 <= pm -> o2 <= pm -> i1 <= i2 /\ q1 <= q2 /\ o1 <= o2.
Proof.
  intros dt pm f w1 w2 q1 o1 i1 q2 o2 i2 Hd Hp Hw H1 H2. unfold surface_partition in H1, H2.
  revert H1 H2. generalize (f * Fin dt)%d as q. intros q H1 H2 Hi1 Hi2 Ho1 Ho2.
  destruct q as [q| | |]; dcrush; dinv; subst; try discriminate; lra.
Qed.

Lemma partition_signs : forall dt pm f w q o i, 0 < dt -> 0 <= pm -> 0 <= w -> surface_partition (Fin dt) (Fin w) (Fin 0) (Fin pm) f = (Fin q, Fin o, Fin i) -> 0 <= q /\ 0 <= o.
Proof.
  intros dt pm f w q o i Hd Hp Hw H. unfold surface_partition in H. revert H. generalize (f * Fin dt)%d as x. intros x H.
  destruct x as [x| | |]; dcrush; dinv; subst; try discriminate; lra.
Qed.

Lemma create_mono : forall e dry th head w1 w2 l1 l2 p1 p2 i1 i2, 0 <= w1 <= w2 ->
  lgar_create_surficial_front e (Fin w1) dry th head = Ok (l1, Fin p1, Fin i1) -> lgar_create_surficial_front e (Fin w2) dry th head = Ok (l2, Fin p2, Fin i2) ->
  i1 <= i2 /\ p1 <= p2 /\ (0 <= i2 -> 0 <= p2).
Proof.
  intros e dry th head w1 w2 l1 l2 p1 p2 i1 i2 Hw H1 H2. unfold lgar_create_surficial_front in H1, H2. bind_inv H1 s Es. bind_inv H2 s' Es'. rewrite Es in Es'. injection Es' as <-.
  bind_inv H1 x Ex. bind_inv H1 ff Eff. bind_inv H1 m1 El1. bind_inv H2 x' Ex'. bind_inv H2 ff' Eff'. bind_inv H2 m2 El2.
  apply Ok_inj, pair_equal_spec in H1 as [H1 V1]. apply pair_equal_spec in H1 as [_ P1]. apply Ok_inj, pair_equal_spec in H2 as [H2 V2]. apply pair_equal_spec in H2 as [_ P2].
  clear - Hw V1 P1 V2 P2. revert V1 P1 V2 P2. generalize (dry * (s_theta_e s - th))%d as q. intros q V1 P1 V2 P2.
  destruct q as [q| | |]; dcrush; dinv; subst; try discriminate; lra.
Qed.

Lemma no_insert_mono : forall u pm b1 b2 p1 p2, u_pmax u = Fin pm -> 0 <= pm -> b_ponded b1 = Fin p1 -> b_ponded b2 = Fin p2 -> p1 <= p2 ->
  exists q1 o1 q2 o2, b_runoff (sub_no_insert u b1) = Fin q1 /\ b_on (sub_no_insert u b1) = Fin o1 /\ b_runoff (sub_no_insert u b2) = Fin q2 /\ b_on (sub_no_insert u b2) = Fin o2 /\
    q1 <= q2 /\ o1 <= o2 /\ 0 <= q2 /\ (0 <= p2 -> 0 <= o2).
Proof.
  intros u pm b1 b2 p1 p2 Eu Hp E1 E2 H. unfold sub_no_insert. rewrite Eu, E1, E2. dsimp. dcrush; cbn; do 4 eexists; repeat (split; [reflexivity|]); lra.
Qed.

Lemma capacity_same : forall e closed nint dt aet w r wfd head, 0 <= w ->
  infiltration_capacity e closed nint (Fin dt) aet (Fin (r * dt + w)) (Fin r) wfd head = infiltration_capacity e closed nint (Fin dt) aet (Fin w) (Fin 0) wfd head.
Proof.
  intros. unfold infiltration_capacity. cbv zeta. replace (dfmax (Fin (r * dt + w) - Fin r * Fin dt)%d (Fin 0)) with (Fin w); [replace (dfmax (Fin w - Fin 0 * Fin dt)%d (Fin 0)) with (Fin w); [reflexivity|]|];
  dsimp; dcrush; f_equal; lra.
Qed.

(** What a sub-step makes of its surface water: nothing, a new front, or infiltration. *)
Lemma hydro_ways : forall u pp prate petr precip volon w volend head prev b i q o, sub_hydro u pp prate petr precip volon (Fin w) volend head prev = Ok b ->
  b_volin b = Fin i -> b_runoff b = Fin q -> b_on b = Fin o ->
  exists aet cr, (if (petr >? Fin 0)%d then calc_aet (u_env u) petr (u_dt u) (u_wilting u) (u_fc u) head else Ok (Fin 0)) = Ok aet /\ create_decision (u_env u) head pp precip volon = Ok cr /\
    ((cr = true /\ exists l h dry l' p b', lgar_move_wetting_fronts (u_env u) (u_dt u) (Fin 0) (wetting_front_free_drainage head) volend aet head prev = Ok l /\
        lgar_calc_dry_depth (u_env u) (u_closed u) (u_nint u) (u_dt u) (fst (fst l)) = Ok dry /\ lget (fst (fst l)) 0 = Ok h /\
        lgar_create_surficial_front (u_env u) (Fin w) (fst dry) (f_theta h) (fst (fst l)) = Ok (l', Fin p, Fin i) /\ b_ponded b' = Fin p /\ b_runoff (sub_no_insert u b') = Fin q /\ b_on (sub_no_insert u b') = Fin o) \/
     (cr = false /\ 0 < w /\ exists f, infiltration_capacity (u_env u) (u_closed u) (u_nint u) (u_dt u) aet (Fin w) prate (wetting_front_free_drainage head) head = Ok f /\
        surface_partition (u_dt u) (Fin w) (Fin 0) (u_pmax u) f = (Fin q, Fin o, Fin i)) \/
     (cr = false /\ w <= 0 /\ i = 0 /\ exists b', b_ponded b' = Fin w /\ b_runoff (sub_no_insert u b') = Fin q /\ b_on (sub_no_insert u b') = Fin o)).
Proof.
  intros u pp prate petr precip volon w volend head prev b i q o H Hi Hq Ho. unfold sub_hydro in H.
  bind_inv H aet Eaet. bind_inv H cr Ecr. bind_inv H b1 Eb1. bind_inv H b2 Eb2. bind_inv H b3 Eb3. bind_inv H l El. injection H as <-. cbn in Hi, Hq, Ho. exists aet, cr. split; [exact Eaet|]. split; [exact Ecr|].
  assert (E3 : b_volin b3 = b_volin b2 /\ b_runoff b3 = b_runoff b2 /\ b_on b3 = b_on b2).
  { destruct cr; [injection Eb3 as <-; auto|]. unfold sub_move in Eb3. bind_inv Eb3 y Ey. destruct y as [[? ?] ?]. injection Eb3 as <-. auto. }
  destruct E3 as (E31 & E32 & E33). rewrite E31 in Hi. rewrite E32 in Hq. rewrite E33 in Ho. clear E31 E32 E33 Eb3.
  assert (E4 : b_volin (sub_no_insert u b1) = b_volin b1) by (unfold sub_no_insert; destruct (dltb _ _); reflexivity).
  destruct cr.
  - left. split; [reflexivity|]. rewrite andb_false_r in Eb2. injection Eb2 as <-. rewrite E4 in Hi.
    unfold sub_create in Eb1. bind_inv Eb1 y Ey. destruct y as [[l1 a1] pd]. bind_inv Eb1 z Ez. destruct z as [dry dl]. bind_inv Eb1 h Eh. bind_inv Eb1 t Et. destruct t as [[l2 p2] v2].
    injection Eb1 as <-. cbn in Hi. subst v2. destruct (create_conserves _ _ _ _ _ _ _ _ Et _ eq_refl) as (p & -> & _).
    do 6 eexists. split; [exact Ey|]. cbn [fst]. split; [exact Ez|]. split; [exact Eh|]. split; [exact Et|]. split; [|split; [exact Hq|exact Ho]]. reflexivity.
  - right. injection Eb1 as <-. cbn [b_ponded negb] in Eb2. rewrite andb_true_r in Eb2. destruct (Fin w >? Fin 0)%d eqn:W.
    + left. split; [reflexivity|]. cbn in W. unfold Rltb in W. destruct (Rlt_dec 0 w) as [W'|]; [|discriminate]. split; [exact W'|].
      unfold sub_insert in Eb2. bind_inv Eb2 y Ey. destruct y as [[ro po] vo]. destruct (ro <? Fin 0)%d; [discriminate|]. injection Eb2 as <-. cbn in *. subst.
      unfold lgar_insert_water in Ey. bind_inv Ey fcap Ef. injection Ey as Ey. exists fcap. split; [exact Ef|exact Ey].
    + right. split; [reflexivity|]. cbn in W. unfold Rltb in W. destruct (Rlt_dec 0 w) as [|W']; [discriminate|]. split; [lra|]. injection Eb2 as <-. rewrite E4 in Hi. cbn in Hi. injection Hi as <-.
      split; [reflexivity|]. eexists. split; [|split; [exact Hq|exact Ho]]. reflexivity.
Qed.

Lemma hydro_mono : forall u pp r1 r2 petr volon dt pm w volend head prev b1 b2 i1 i2 q1 q2 o1 o2,
  u_dt u = Fin dt -> 0 < dt -> u_pmax u = Fin pm -> 0 <= pm -> 0 <= w -> 0 <= r1 <= r2 -> (w = 0 \/ (Fin 0 <? volon)%d = true \/ 0 < r1) ->
  sub_hydro u pp (Fin r1) petr (Fin (r1 * dt)) volon (Fin (r1 * dt + w)) volend head prev = Ok b1 -> b_volin b1 = Fin i1 -> b_runoff b1 = Fin q1 -> b_on b1 = Fin o1 ->
  sub_hydro u pp (Fin r2) petr (Fin (r2 * dt)) volon (Fin (r2 * dt + w)) volend head prev = Ok b2 -> b_volin b2 = Fin i2 -> b_runoff b2 = Fin q2 -> b_on b2 = Fin o2 ->
  0 <= i1 -> 0 <= i2 -> o1 <= pm -> o2 <= pm -> i1 <= i2 /\ q1 <= q2 /\ o1 <= o2.
Proof.
  intros u pp r1 r2 petr volon dt pm w volend head prev b1 b2 i1 i2 q1 q2 o1 o2 Ed Hd Ep Hp Hw Hr Hc H1 I1 Q1 O1 H2 I2 Q2 O2 Hi1 Hi2 Ho1 Ho2.
  assert (M : r1 * dt <= r2 * dt) by (apply Rmult_le_compat_r; lra). assert (N : 0 <= r1 * dt) by (apply Rmult_le_pos; lra).
  destruct (hydro_ways _ _ _ _ _ _ _ _ _ _ _ _ _ _ H1 I1 Q1 O1) as (aet & cr1 & A1 & C1 & W1). destruct (hydro_ways _ _ _ _ _ _ _ _ _ _ _ _ _ _ H2 I2 Q2 O2) as (aet' & cr2 & A2 & C2 & W2).
  rewrite A1 in A2. apply Ok_inj in A2. subst aet'. rewrite Ed, Ep in *.
  assert (C : cr1 = cr2 \/ (cr1 = false /\ r1 = 0 /\ w = 0)).
  { unfold create_decision in C1, C2. bind_inv C1 h Eh. bind_inv C1 s Es. bind_inv C2 h' Eh'. bind_inv C2 s' Es'. rewrite Eh in Eh'. apply Ok_inj in Eh'. subst h'. rewrite Es in Es'. apply Ok_inj in Es'. subst s'.
    apply Ok_inj in C1, C2. revert C1 C2. destruct (_ || _)%bool eqn:V; [intros <- <-; left; reflexivity|]. apply orb_false_elim in V as [_ V].
    destruct (pp =? Fin 0)%d; [|cbn; intros <- <-; left; reflexivity]. cbn [andb]. cbn. unfold Rltb. destruct (Rlt_dec 0 (r1 * dt)) as [L|L].
    - destruct (Rlt_dec 0 (r2 * dt)); [|lra]. intros <- <-. left; reflexivity.
    - intros <- _. right. split; [reflexivity|]. assert (Z : r1 = 0). { destruct (Rle_lt_or_eq_dec 0 r1 (proj1 Hr)) as [K|K]; [|auto]. exfalso. apply L. apply Rmult_lt_0_compat; lra. }
      split; [exact Z|]. destruct Hc as [K|[K|K]]; [exact K| |lra]. unfold dgtb in V. rewrite K in V. discriminate. }
  assert (Z0 : forall b', w = 0 -> r1 = 0 -> b_ponded b' = Fin (r1 * dt + w) -> b_runoff (sub_no_insert u b') = Fin q1 -> b_on (sub_no_insert u b') = Fin o1 -> q1 = 0 /\ o1 = 0).
  { intros b' -> -> Eb. unfold sub_no_insert. rewrite Ep, Eb. dsimp. dcrush; cbn; intros X Y; injection X as <-; injection Y as <-; split; lra. }
  assert (Z1 : i2 = i2 -> 0 <= q2 /\ 0 <= o2).
  { intros _. destruct W2 as [(E & l & h & dry & l' & p & b' & G1 & G2 & G3 & G4 & G5 & G6 & G7)|[(E & L & f & G1 & G2)|(E & L & E' & b' & G1 & G2 & G3)]].
    - destruct (no_insert_mono u pm b' b' p p Ep Hp G5 G5 (Rle_refl _)) as (q & o & q' & o' & K1 & K2 & K3 & K4 & K5 & K6 & K7 & K8). rewrite G6 in K3. rewrite G7 in K4. injection K3 as <-. injection K4 as <-.
      destruct (create_mono _ _ _ _ _ _ _ _ _ _ _ _ (conj (Rplus_le_le_0_compat _ _ (Rle_trans _ _ _ N M) Hw) (Rle_refl _)) G4 G4) as (_ & _ & K). auto.
    - destruct (partition_signs _ _ _ _ _ _ _ Hd Hp (Rlt_le _ _ L) G2) as [K1 K2]. auto.
    - destruct (no_insert_mono u pm b' b' _ _ Ep Hp G1 G1 (Rle_refl _)) as (q & o & q' & o' & K1 & K2 & K3 & K4 & K5 & K6 & K7 & K8). rewrite G2 in K3. rewrite G3 in K4. injection K3 as <-. injection K4 as <-.
      split; [auto|]. apply K8. lra. }
  specialize (Z1 eq_refl).
  destruct C as [<-|(-> & Er & Ew)].
  - destruct W1 as [(E & l & h & dry & l1 & p & b' & G1 & G2 & G3 & G4 & G5 & G6 & G7)|[(E & L & f & G1 & G2)|(E & L & E' & b' & G1 & G2 & G3)]].
    + destruct W2 as [(_ & l2 & h2 & dry2 & l3 & p2 & b2' & F1 & F2 & F3 & F4 & F5 & F6 & F7)|[(E' & _)|(E' & _)]]; [|congruence|congruence].
      rewrite G1 in F1. apply Ok_inj in F1. subst l2. rewrite G2 in F2. apply Ok_inj in F2. subst dry2. rewrite G3 in F3. apply Ok_inj in F3. subst h2.
      destruct (create_mono _ _ _ _ _ _ _ _ _ _ _ _ (conj (Rplus_le_le_0_compat _ _ N Hw) (Rplus_le_compat_r w _ _ M)) G4 F4) as (K1 & K2 & _).
      destruct (no_insert_mono u pm b' b2' p p2 Ep Hp G5 F5 K2) as (q & o & q' & o' & J1 & J2 & J3 & J4 & J5 & J6 & _).
      rewrite G6 in J1. rewrite G7 in J2. rewrite F6 in J3. rewrite F7 in J4. injection J1 as <-. injection J2 as <-. injection J3 as <-. injection J4 as <-. auto.
    + destruct W2 as [(E' & _)|[(_ & L2 & f2 & F1 & F2)|(_ & L2 & _)]]; [congruence| |lra].
      rewrite (capacity_same _ _ _ _ _ _ _ _ _ Hw) in G1. rewrite (capacity_same _ _ _ _ _ _ _ _ _ Hw) in F1. rewrite G1 in F1. apply Ok_inj in F1. subst f2. refine (partition_mono _ _ _ _ _ _ _ _ _ _ _ Hd Hp _ G2 F2 Hi1 Hi2 Ho1 Ho2). lra.
    + assert (w = 0 /\ r1 * dt = 0) as [Ew Er] by lra. assert (r1 = 0) by (apply Rmult_integral in Er; lra). destruct (Z0 b' Ew H G1 G2 G3) as [-> ->]. lra.
  - destruct W1 as [(E & _)|[(_ & L & _)|(_ & L & E' & b' & G1 & G2 & G3)]]; [congruence|subst; lra|]. destruct (Z0 b' Ew Er G1 G2 G3) as [-> ->]. lra.
Qed.

Lemma fin_sum : forall x y z, (Fin x + y)%d = Fin z -> exists v, y = Fin v /\ z = x + v.
Proof. intros x [y| | |] z H; dsimp; try discriminate. cbn in H. injection H as <-. eauto. Qed.

Lemma substep_mono : forall u s a r1 r2 t1 t2 a1 a2 dt pm w i0 q0 i1 i2 q1 q2 o1 o2,
  u_dt u = Fin dt -> 0 < dt -> u_pmax u = Fin pm -> 0 <= pm -> 0 <= r1 <= r2 ->
  a_on a = Fin w -> 0 <= w -> (w = 0 \/ 1 / 1000000000000 < w \/ 0 < r1) -> a_in a = Fin i0 -> a_runoff a = Fin q0 ->
  substep u (s <| st_precip := Fin r1 |>) a = Ok (t1, a1) -> a_in a1 = Fin i1 -> a_runoff a1 = Fin q1 -> a_on a1 = Fin o1 -> i0 <= i1 -> o1 <= pm ->
  substep u (s <| st_precip := Fin r2 |>) a = Ok (t2, a2) -> a_in a2 = Fin i2 -> a_runoff a2 = Fin q2 -> a_on a2 = Fin o2 -> i0 <= i2 -> o2 <= pm ->
  (i1 <= i2 /\ q1 <= q2 /\ o1 <= o2) /\ (i2 - i1) + (q2 - q1) + (o2 - o1) = (r2 - r1) / 10 * dt.
Proof.
  intros u s a r1 r2 t1 t2 a1 a2 dt pm w i0 q0 i1 i2 q1 q2 o1 o2 Ed Hd Ep Hp Hr Ew Hw Hc Ei0 Eq0 H1 I1 Q1 O1 L1 P1 H2 I2 Q2 O2 L2 P2.
  destruct (substep_inv _ _ _ _ _ H1) as (vs & b & ve & mbl & p & pt & pr & ptr & Epr & Eptr & Epp & _ & _ & HY & _ & _ & _ & _ & Ea).
  destruct (substep_inv _ _ _ _ _ H2) as (vs' & b' & ve' & mbl' & p' & pt' & pr' & ptr' & Epr' & Eptr' & Epp' & _ & _ & HY' & _ & _ & _ & _ & Ea').
  subst a1 a2. cbn [a_in a_runoff a_on] in *. rewrite Ei0 in I1, I2. rewrite Eq0 in Q1, Q2.
  destruct (fin_sum _ _ _ I1) as (v1 & V1 & ->). destruct (fin_sum _ _ _ Q1) as (k1 & K1 & ->). destruct (fin_sum _ _ _ I2) as (v2 & V2 & ->). destruct (fin_sum _ _ _ Q2) as (k2 & K2 & ->).
  assert (R1 : pr = Fin (r1 / 10)). { rewrite Epr. cbn. dsimp. dcrush; cbn; f_equal; lra. } assert (R2 : pr' = Fin (r2 / 10)). { rewrite Epr'. cbn. dsimp. dcrush; cbn; f_equal; lra. }
  rewrite R1, Ed in Epp. cbn in Epp. rewrite R2, Ed in Epp'. cbn in Epp'.
  rewrite R1 in HY. rewrite R2 in HY'. subst p p' ptr ptr'. clear Epr Epr' R1 R2 pr pr' H1 H2. rewrite Ew in HY, HY'. change (p_precip_prev (st_p (s <| st_precip := Fin r1 |>))) with (p_precip_prev (st_p s)) in HY. change (p_precip_prev (st_p (s <| st_precip := Fin r2 |>))) with (p_precip_prev (st_p s)) in HY'.
  change (st_pet (s <| st_precip := Fin r1 |>)) with (st_pet s) in HY. change (st_pet (s <| st_precip := Fin r2 |>)) with (st_pet s) in HY'.
  change (st_head (s <| st_precip := Fin r1 |>)) with (st_head s) in HY. change (st_head (s <| st_precip := Fin r2 |>)) with (st_head s) in HY'.
  change (Fin (r1 / 10 * dt) + Fin w)%d with (Fin (r1 / 10 * dt + w)) in HY. change (Fin (r2 / 10 * dt) + Fin w)%d with (Fin (r2 / 10 * dt + w)) in HY'.
  destruct (hydro_surface _ _ _ _ _ _ _ _ _ _ _ _ _ HY V1 K1) as (y1 & Y1 & S1). destruct (hydro_surface _ _ _ _ _ _ _ _ _ _ _ _ _ HY' V2 K2) as (y2 & Y2 & S2).
  rewrite O1 in Y1. rewrite O2 in Y2. injection Y1 as <-. injection Y2 as <-.
  assert (M : v1 <= v2 /\ k1 <= k2 /\ o1 <= o2).
  { refine (hydro_mono _ _ _ _ _ _ _ _ _ _ _ _ _ _ _ _ _ _ _ _ Ed Hd Ep Hp Hw _ _ HY V1 K1 O1 HY' V2 K2 O2 _ _ P1 P2); try lra.
    destruct Hc as [->|[K|K]]; [left; reflexivity| |right; right; lra]. right; left. unfold clean_volon. dsimp. dcrush; cbn; unfold Rltb in *; dcrush; try reflexivity; exfalso; lra. }
  split; lra.
Qed.

(** An Update of one sub-step. *)
Lemma update_one : forall s t, plain s -> substeps_of s 1 -> Update s = Ok t ->
  exists volend u a t', u_dt u = p_timestep (st_p s) /\ u_pmax u = p_pmax (st_p s) /\ u = mkU (env_of s) (p_timestep (st_p s)) (p_nint (st_p s)) (p_closed (st_p s)) (p_wilting (st_p s)) (p_fc (st_p s)) (p_pmax (st_p s)) /\
    lgar_calc_mass_bal (p_cum (st_p s)) (st_head s) = Ok volend /\
    substep u (s <| st_p := (st_p s) <| p_finterval := 1%Z |> |>) (acc0 volend (mb_on_ts (st_mb s))) = Ok (t', a) /\
    mb_on_ts (st_mb t) = a_on a /\ exists b, st_out t = Some b /\ o_in b = (a_in a * cm_to_m)%d /\ o_runoff b = (a_runoff a * cm_to_m)%d.
Proof.
  intros s t (Hv & Hc & Hs & Ha) Hn H. destruct (Update_inv _ _ Hv H) as (s1 & vcal & volend & s2 & dt & n & s3 & a & E1 & E2 & E3 & E4 & E5 & E6 & E7).
  unfold update_prologue in E1. rewrite Hs in E1. cbn [bind] in E1. change (p_calib (st_p (s <| st_p := st_p s |>))) with (p_calib (st_p s)) in E1. rewrite Hc in E1. apply Ok_inj, pair_equal_spec in E1 as [E1 _].
  assert (E1' : s1 = s) by (rewrite <- E1; destruct s; reflexivity). clear E1. subst s1.
  destruct (steps_inv _ _ _ _ E5) as (Ed & En & ->). rewrite Ha in Ed. subst dt. unfold substeps_of in Hn. rewrite Hn in En. apply Ok_inj in En. subst n.
  change (Z.to_nat 1) with 1%nat in E6. cbn [subcycle_loop] in E6. bind_inv E6 x Ex. destruct x as [s' a'].
  assert (E6' : s3 = s' /\ a = a'). { destruct (_ && _)%bool in E6; apply Ok_inj, pair_equal_spec in E6 as [<- <-]; auto. } destruct E6' as [-> ->]. clear E6.
  destruct (finish_inv _ _ _ _ E7) as (g & q & m & _ & _ & ->).
  exists volend, (mkU (env_of s) (p_timestep (st_p s)) (p_nint (st_p s)) (p_closed (st_p s)) (p_wilting (st_p s)) (p_fc (st_p s)) (p_pmax (st_p s))), a', s'.
  split; [reflexivity|]. split; [reflexivity|]. split; [reflexivity|]. split; [exact E2|]. split; [|split; [reflexivity|eexists; split; [reflexivity|split; reflexivity]]].
  rewrite <- Ex. f_equal; destruct s as [? ? ? pp]; destruct pp; reflexivity.
Qed.

Lemma update_mono : forall s r1 r2 t1 t2 b1 b2 dt pm w i1 i2 q1 q2 o1 o2,
  plain s -> substeps_of s 1 -> p_timestep (st_p s) = Fin dt -> 0 < dt -> p_pmax (st_p s) = Fin pm -> 0 <= pm -> 0 <= r1 <= r2 ->
  mb_on_ts (st_mb s) = Fin w -> 0 <= w -> (w = 0 \/ 1 / 1000000000000 < w \/ 0 < r1) ->
  Update (s <| st_precip := Fin r1 |>) = Ok t1 -> st_out t1 = Some b1 -> o_in b1 = Fin i1 -> o_runoff b1 = Fin q1 -> mb_on_ts (st_mb t1) = Fin o1 -> 0 <= i1 -> o1 <= pm ->
  Update (s <| st_precip := Fin r2 |>) = Ok t2 -> st_out t2 = Some b2 -> o_in b2 = Fin i2 -> o_runoff b2 = Fin q2 -> mb_on_ts (st_mb t2) = Fin o2 -> 0 <= i2 -> o2 <= pm ->
  (i1 <= i2 /\ q1 <= q2 /\ o1 <= o2) /\ (i2 - i1) + (q2 - q1) + (o2 / 100 - o1 / 100) = (r2 - r1) / 1000 * dt.
Proof.
  intros s r1 r2 t1 t2 b1 b2 dt pm w i1 i2 q1 q2 o1 o2 HP Hn Ed Hd Ep Hp Hr Ew Hw Hc H1 B1 I1 Q1 O1 L1 P1 H2 B2 I2 Q2 O2 L2 P2.
  assert (HP1 : plain (s <| st_precip := Fin r1 |>)) by exact HP. assert (Hn1 : substeps_of (s <| st_precip := Fin r1 |>) 1) by exact Hn. destruct (update_one _ _ HP1 Hn1 H1) as (v1 & u1 & a1 & s1 & D1 & M1 & U1 & E1 & S1 & A1 & c1 & C1 & J1 & R1).
  assert (HP2 : plain (s <| st_precip := Fin r2 |>)) by exact HP. assert (Hn2 : substeps_of (s <| st_precip := Fin r2 |>) 1) by exact Hn. destruct (update_one _ _ HP2 Hn2 H2) as (v2 & u2 & a2 & s2 & D2 & M2 & U2 & E2 & S2 & A2 & c2 & C2 & J2 & R2).
  rewrite B1 in C1. injection C1 as <-. rewrite B2 in C2. injection C2 as <-. rewrite I1 in J1. rewrite I2 in J2. rewrite Q1 in R1. rewrite Q2 in R2. rewrite O1 in A1. rewrite O2 in A2.
  assert (U : u1 = u2) by (rewrite U1, U2; reflexivity). rewrite <- U in S2. clear U U2 D2 M2 u2.
  assert (V : v1 = v2). { change (lgar_calc_mass_bal (p_cum (st_p s)) (st_head s) = Ok v1) in E1. change (lgar_calc_mass_bal (p_cum (st_p s)) (st_head s) = Ok v2) in E2. rewrite E1 in E2. apply Ok_inj in E2. exact E2. } subst v2.
  assert (F : forall x y, Fin y = (x * cm_to_m)%d -> exists z, x = Fin z /\ z = 100 * y).
  { intros [z| | |] y K; dsimp; unfold inf_sign in *; cbn in K; repeat (destruct (Rlt_dec _ _) in K || destruct (Req_EM_T _ _) in K); try discriminate; try lra. injection K as K. exists z. split; [reflexivity|lra]. }
  destruct (F _ _ J1) as (x1 & X1 & G1). destruct (F _ _ J2) as (x2 & X2 & G2). destruct (F _ _ R1) as (z1 & Z1 & N1). destruct (F _ _ R2) as (z2 & Z2 & N2).
  change (s <| st_precip := Fin r1 |> <| st_p := (st_p (s <| st_precip := Fin r1 |>)) <| p_finterval := 1%Z |> |>) with ((s <| st_p := (st_p s) <| p_finterval := 1%Z |> |>) <| st_precip := Fin r1 |>) in S1.
  change (s <| st_precip := Fin r2 |> <| st_p := (st_p (s <| st_precip := Fin r2 |>)) <| p_finterval := 1%Z |> |>) with ((s <| st_p := (st_p s) <| p_finterval := 1%Z |> |>) <| st_precip := Fin r2 |>) in S2.
  change (mb_on_ts (st_mb (s <| st_precip := Fin r1 |>))) with (mb_on_ts (st_mb s)) in S1. change (mb_on_ts (st_mb (s <| st_precip := Fin r2 |>))) with (mb_on_ts (st_mb s)) in S2.
  assert (D1' : u_dt u1 = Fin dt) by (rewrite D1; exact Ed). assert (M1' : u_pmax u1 = Fin pm) by (rewrite M1; exact Ep).
  assert (T : (x1 <= x2 /\ z1 <= z2 /\ o1 <= o2) /\ (x2 - x1) + (z2 - z1) + (o2 - o1) = (r2 - r1) / 10 * dt).
  { refine (substep_mono u1 _ (acc0 v1 (mb_on_ts (st_mb s))) r1 r2 _ _ _ _ dt pm w 0 0 x1 x2 z1 z2 o1 o2 D1' Hd M1' Hp Hr _ Hw Hc eq_refl eq_refl S1 X1 Z1 (eq_sym A1) _ P1 S2 X2 Z2 (eq_sym A2) _ P2); [exact Ew|lra|lra]. }
  split; lra.
Qed.
End Exactly.
