(** Sub-steps of columns of several layers whose passes leave the fronts drier downwards (exact arithmetic). *)

From Coq Require Import Reals Lra ZArith List Bool Lia.
From Verif Require Import Outcome Dbl Exact Types ListOps Soil Fronts Infil Move State Update Lib Spec_Common Spec_Soil Spec_List Spec_Update Spec_Profile Spec_Storage Spec_Velocity Spec_Advance Spec_Balance Spec_Shares
  Spec_Physical Spec_Meet Spec_Motion Spec_Upright Spec_Layered Pf_Dbl Pf_Pow Pf_Soil Pf_List Pf_Update Pf_Profile Pf_Structure Pf_Storage Pf_Merge Pf_Cross Pf_Repair Pf_SafeMove Pf_SafeUpdate Pf_Surface Pf_Single Pf_SingleMerge
  Pf_SubSingle Pf_Advance Pf_Physical Pf_Physical2 Pf_Velocity Pf_Fuel Pf_Level Pf_Level2 Pf_Shares Pf_Books Pf_Motion Pf_Motion2 Pf_Motion3 Pf_Drier Pf_Drier2.
Import ListNotations.
Open Scope R_scope.

(** The water that stays on the surface. *)
Section Surface.
Local Existing Instance exact.
Lemma partition_pond : forall dt w pm f_p r on i, 0 <= w -> 0 <= pm -> surface_partition dt (Fin w) (Fin 0) (Fin pm) f_p = (r, on, Fin i) ->
  exists ro o, r = Fin ro /\ on = Fin o /\ w = i + ro + o /\ 0 <= o.
Proof.
  intros dt w pm f_p r on i Hw Hpm. unfold surface_partition. generalize (f_p * dt)%d as q. intros q H.
  destruct q as [q| | |], dt as [dt| | |]; dcrush; dinv; subst; try discriminate; (do 2 eexists; split; [first [reflexivity|eassumption]|split; [first [reflexivity|eassumption]|split; lra]]).
Qed.
Lemma rest_pond : forall u b w pm, u_pmax u = Fin pm -> 0 <= pm -> b_ponded b = Fin w -> 0 <= w -> exists ro o h, b_runoff (sub_no_insert u b) = Fin ro /\ b_on (sub_no_insert u b) = Fin o /\ b_ponded (sub_no_insert u b) = Fin h /\
  0 <= o /\ 0 <= h /\ w = ro + o /\
  b_head (sub_no_insert u b) = b_head b /\ b_prev (sub_no_insert u b) = b_prev b /\ b_volin (sub_no_insert u b) = b_volin b /\ b_aet (sub_no_insert u b) = b_aet b /\ b_rech (sub_no_insert u b) = b_rech b.
Proof.
  intros u b w pm Ep Hp Ew Hw. unfold sub_no_insert. rewrite Ep, Ew. destruct (Fin w <? Fin pm)%d; cbn; do 3 eexists; repeat (split; [first [reflexivity|lra]|]); reflexivity.
Qed.
Lemma create_rest : forall (cfg : Cfg) e w dry th l l' x v, lgar_create_surficial_front e (Fin w) dry th l = Ok (l', Fin x, v) -> 0 <= x.
Proof.
  intros cfg e w dry th l l' x v H. unfold lgar_create_surficial_front in H. bind_inv H s Es. cbv zeta in H. bind_inv H z Ez. bind_inv H ff Ef. bind_inv H l5 Q9. apply Ok_inj in H.
  apply pair_equal_spec in H as [H _]. apply pair_equal_spec in H as [_ H]. clear - H. revert H. generalize (dry * (s_theta_e s - th))%d as q. intros q H.
  destruct q as [q| | |]; dcrush; dinv; subst; try discriminate; lra.
Qed.
End Surface.

Section Step.
Local Existing Instance exact.
Context {cfg : Cfg}.
Variables (e : env) (M : R) (qs : list part).
Hypothesis HL : layers M qs e.
Let HE := la_env _ _ _ HL.
Let HV := la_soils _ _ _ HL.
Let HM := la_most _ _ _ HL.
Let HF := la_frozen _ _ _ HL.
Let HC := la_conducting _ _ _ HL.
Let HQ := la_strata _ _ _ HL.
Notation phys := (phys e M).
Notation upright_profile := (upright_profile e M).

Lemma top_zero : aget (e_cum e) 0 = Ok (Fin 0).
Proof. pose proof (se_n _ HE). change 0%Z with (1 - 1)%Z. rewrite (strata_cum e qs HQ 1) by lia. rewrite top_1. reflexivity. Qed.
Let H0 := top_zero.

Lemma top_nonneg : forall k, 0 <= top_of qs k.
Proof.
  intro k. unfold top_of. destruct HQ as (_ & F & _). generalize (Z.to_nat (k - 1)) as n. clear - F. induction F as [|q r Hq F IH]; intros [|n]; cbn; try lra. specialize (IH n). lra.
Qed.

Lemma orderly_moving : forall l, orderly M e l -> Forall moving l.
Proof. intros l O. eapply Forall_impl; [|exact (od_sinking _ _ _ O)]. intros f (d & v & E1 & E2 & _). split; [exists d|exists v]; assumption. Qed.
Lemma orderly_str : forall l, orderly M e l -> Str e l.
Proof. intros l O. apply Str_iff; [pose proof (se_n _ HE); lia|]. split; [exact (od_profile _ _ _ O)|exact (od_rests _ _ _ O)]. Qed.
Lemma orderly_phys : forall l, orderly M e l -> Forall phys l.
Proof. intros l O. eapply Forall_impl; [|exact (od_physical _ _ _ O)]. intros f. apply phys_iff; assumption. Qed.
Lemma orderly_measured : forall l, orderly M e l -> measured l.
Proof. intros l O. exact (start_measured e M HV HE l (orderly_phys l O) (orderly_moving l O)). Qed.
Lemma orderly_curve : forall l, orderly M e l -> Forall (on_curve qs) l.
Proof.
  intros l O. apply (physical_curve M e); [exact HQ|exact (od_physical _ _ _ O)|]. eapply Forall_impl; [|exact (od_seated _ _ _ O)]. intros f [Q _]. exact Q.
Qed.
Lemma orderly_down : forall l, orderly M e l -> Forall (moves_down qs) l.
Proof.
  intros l O. pose proof (od_physical _ _ _ O) as P. pose proof (od_seated _ _ _ O) as S. pose proof (od_sinking _ _ _ O) as K. rewrite Forall_forall in *. intros f Hf.
  destruct (K f Hf) as (d & v & E1 & E2 & K1 & K2). destruct (S f Hf) as (_ & z & Ez & Hz). rewrite E1 in Hz. cbn [val] in Hz.
  pose proof (ph_layer _ _ _ (P f Hf)) as R. rewrite (strata_cum e qs HQ) in Ez by lia. apply Ok_inj in Ez. injection Ez as <-.
  exists d, v. split; [exact E1|]. split; [exact E2|]. split; [lra|]. split; [exact K1|]. intros L B. rewrite L, top_1 in Hz. split; [exact Hz|exact (K2 B)].
Qed.

(** ** How far the motion may be off *)

(** The motion of the sub-step leaves the storage off by at most [B]. *)
Definition closes (u : upar) (pp pr pe pc vo w old : dbl) (l : list front) (B : R) : Prop :=
  exists vin aet, hydro_motion u pp pr pe pc vo w l l (Fin vin) aet /\
    forall l' a' q, lgar_move_wetting_fronts e (u_dt u) (Fin vin) (wetting_front_free_drainage l) old aet l l = Ok (l', a', q) ->
      exists a2 q2, a' = Fin a2 /\ q = Fin q2 /\ Rabs (storage l' - (val old + vin - a2 - q2)) <= B.

(** What [hydro_calm] needs. *)
Definition gentle (u : upar) (pp pr pe pc vo w old : dbl) (l : list front) : Prop :=
  u_env u = e /\ Str e l /\ Forall phys l /\ Forall moving l /\ finite (u_dt u) /\ not_negative (u_dt u) /\ not_negative w /\
  ~ hydro_tie u pp pr pe pc vo w old l l /\ hydro_upright u pp pr pe pc vo w old l l.

Lemma gentle_motion : forall u pp pr pe pc vo w old l vin aet, gentle u pp pr pe pc vo w old l -> hydro_motion u pp pr pe pc vo w l l vin aet ->
  let wfd := wetting_front_free_drainage l in
  ~ move_tie e (u_dt u) vin wfd old aet l l /\ ~ move_degenerate e (u_dt u) vin wfd old aet l l /\ ~ move_inverted e (u_dt u) vin wfd old aet l l /\ pass_upright e (u_dt u) vin wfd aet l l.
Proof.
  intros u pp pr pe pc vo w old l vin aet (Eu & HS & P & N & Hdt & Ndt & Hw & HT & HU) HM0 wfd.
  destruct (hydro_calm e M HV HM HF HE u pp pr pe pc vo w old l Eu HS P N Hdt Ndt Hw HT HU) as [HD HI].
  split; [|split; [|split]].
  - intro T. apply HT. unfold hydro_tie. cbv zeta. destruct HM0 as (aet0 & create & Ea & Ec & HB). rewrite Eu in *. exists aet0, create. split; [exact Ea|]. split; [exact Ec|]. destruct create.
    + destruct HB as [-> ->]. left. exact T.
    + destruct HB as (b & Qb & -> & ->). exists b. split; [exact Qb|exact T].
  - intro D. apply HD. left. exists vin, aet. split; [exact HM0|]. rewrite Eu. exact D.
  - intro D. apply HI. exists vin, aet. split; [exact HM0|]. rewrite Eu. exact D.
  - destruct HU as [HU _]. specialize (HU vin aet HM0). rewrite Eu in HU. exact HU.
Qed.

Lemma gap_closes : forall u pp pr pe pc vo w old l r, gentle u pp pr pe pc vo w (Fin old) l -> hydro_gap u pp pr pe pc vo w (Fin old) l l r ->
  closes u pp pr pe pc vo w (Fin old) l (Rmax (Rabs r) (2 / 10000000000)).
Proof.
  intros u pp pr pe pc vo w old l r G (vin & aet & l1 & a1 & HM0 & QL & ->). exists vin, aet. split; [exact HM0|]. intros l' a' q E.
  destruct (gentle_motion _ _ _ _ _ _ _ _ _ _ _ G HM0) as (T & D & I & U). destruct G as (Eu & HS & P & N & Hdt & _). rewrite Eu in QL. cbn [val].
  destruct (motion_balance e M HV HM HF HE H0 (u_dt u) vin _ old aet l l l1 a1 l' a' q HS P N (st_num _ _ HS) eq_refl Hdt T D QL E) as (a2 & q2 & x & Hx & E1 & E2 & B & _ & _ & _ & X).
  specialize (X I). subst x. exists a2, q2. split; [exact E1|]. split; [exact E2|]. lra.
Qed.

Lemma column_depth : forall l, in_column e l -> Forall (fun f => val (f_depth f) <= top_of qs (e_nlayers e + 1)) l.
Proof.
  intros l (D & ED & F). pose proof (se_n _ HE). replace (e_nlayers e) with (e_nlayers e + 1 - 1)%Z in ED by lia. rewrite (strata_cum e qs HQ) in ED by lia. apply Ok_inj in ED. injection ED as <-. exact F.
Qed.

Lemma wet_closes : forall u pp pr pe pc vo w l f r vin aet a1, gentle u pp pr pe pc vo w (Fin (storage l)) l -> orderly M e l -> l = f :: r -> f_bottom f = false -> in_column e l ->
  hydro_met u pp pr pe pc vo w (Fin (storage l)) l l vin aet a1 -> closes u pp pr pe pc vo w (Fin (storage l)) l (Rmax (INR (length l) * tol + (aet - a1)) (2 / 10000000000)).
Proof.
  intros u pp pr pe pc vo w l f r vin aet a1 G O El Bf IC [HM0 (l1 & QL)]. exists vin, (Fin aet). split; [exact HM0|]. intros l' a' q E.
  destruct (gentle_motion _ _ _ _ _ _ _ _ _ _ _ G HM0) as (T & D & I & U). destruct G as (Eu & HS & P & N & (dt & Edt) & Ndt & _). rewrite Eu in QL. rewrite Edt in *. cbn [val].
  assert (Hdt : 0 <= dt). { unfold not_negative in Ndt. cbn in Ndt. unfold Rltb in Ndt. destruct (Rlt_dec dt 0); [discriminate|lra]. }
  destruct (wet_motion e M HV HM HF HE H0 qs dt vin aet l l' a' q a1 l1 f r HQ HS (od_meet _ _ _ O) El Bf P (orderly_curve l O) (orderly_down l O) (od_drier _ _ _ O) (column_depth l IC) Hdt T D QL E)
    as (_ & a2 & q2 & x & _ & E1 & E2 & B & X). specialize (X I). subst x. exists a2, q2. split; [exact E1|]. split; [exact E2|]. lra.
Qed.

Lemma dry_closes : forall u pp pr pe pc vo w l vin aet a1, gentle u pp pr pe pc vo w (Fin (storage l)) l -> orderly M e l -> in_column e l -> 0 <= vin < a1 ->
  hydro_met u pp pr pe pc vo w (Fin (storage l)) l l vin aet a1 -> closes u pp pr pe pc vo w (Fin (storage l)) l (Rmax (INR (length l) * tol + 3 * (aet - a1)) (2 / 10000000000)).
Proof.
  intros u pp pr pe pc vo w l vin aet a1 G O IC Hv [HM0 (l1 & QL)]. exists vin, (Fin aet). split; [exact HM0|]. intros l' a' q E.
  destruct (gentle_motion _ _ _ _ _ _ _ _ _ _ _ G HM0) as (T & D & I & U). destruct G as (Eu & HS & P & N & (dt & Edt) & Ndt & _). rewrite Eu in QL. rewrite Edt in *. cbn [val].
  assert (Hdt : 0 <= dt). { unfold not_negative in Ndt. cbn in Ndt. unfold Rltb in Ndt. destruct (Rlt_dec dt 0); [discriminate|lra]. }
  destruct (dry_motion e M HV HM HF HE H0 qs dt vin aet l l' a' q a1 l1 HQ HS (od_meet _ _ _ O) P (orderly_curve l O) (orderly_down l O) (od_drier _ _ _ O) (column_depth l IC) Hdt (proj1 Hv) T D QL (proj2 Hv) E)
    as (a2 & q2 & x & _ & E1 & E2 & B & X). specialize (X I). subst x. exists a2, q2. split; [exact E1|]. split; [exact E2|]. lra.
Qed.

(** ** The sub-step *)

Theorem hydro_kept : forall u pp pr pe pc vo w old pm l b B, gentle u pp pr pe pc vo (Fin w) (Fin old) l -> u_pmax u = Fin pm -> 0 <= pm -> 0 <= w ->
  closes u pp pr pe pc vo (Fin w) (Fin old) l B -> sub_hydro u pp pr pe pc vo (Fin w) (Fin old) l l = Ok b ->
  exists vin ro on a q h l0, b_volin b = Fin vin /\ b_runoff b = Fin ro /\ b_on b = Fin on /\ b_aet b = Fin a /\ b_rech b = Fin q /\ w = vin + ro + on /\ 0 <= on /\
    Rabs (storage (b_head b) - (old + w - ro - on - a - q)) <= B /\
    upright_profile l0 /\ 0 <= h /\ lgar_dzdt_calc e (u_closed u) (u_nint u) (Fin h) l0 = Ok (b_head b).
Proof.
  intros u pp pr pe pc vo w old pm l b B G Epm Hpm Hw (vin & aet & HM0 & CL) E. cbn [val] in CL. set (wfd := wetting_front_free_drainage l) in *.
  destruct (gentle_motion _ _ _ _ _ _ _ _ _ _ _ G HM0) as (T1 & DM & IM & PU). fold wfd in T1, DM, IM, PU. pose proof G as (Eu & HS & P & N & Hdt & Ndt & Nw & HT & HU1 & HU2). cbv zeta in HU1, HU2. rewrite Eu in HU1, HU2. fold wfd in HU1, HU2.
  unfold sub_hydro in E. cbv zeta in E. rewrite Eu in E.
  bind_inv E aet0 Ea. bind_inv E create Ec. bind_inv E b1 Q1. bind_inv E b2 Q2. bind_inv E b3 Q3. bind_inv E l4 Q4. apply Ok_inj in E. subst b.
  cbn [b_head b_volin b_runoff b_on b_aet b_rech].
  pose proof HM0 as (aet0' & create' & Ea' & Ec' & HB). rewrite Eu in Ea', Ec'. rewrite Ea in Ea'. apply Ok_inj in Ea'. subst aet0'. rewrite Ec in Ec'. apply Ok_inj in Ec'. subst create'.
  destruct create.
  - destruct HB as [HB1 ->]. injection HB1 as ->. rewrite andb_false_r in Q2. apply Ok_inj in Q2, Q3. subst b2 b3.
    unfold sub_create in Q1. cbv zeta in Q1. rewrite Eu in Q1. bind_inv Q1 x2 Q5. destruct x2 as [[l2 a2] pd]. bind_inv Q1 x3 Q6. destruct x3 as [dry d]. bind_inv Q1 h Q7.
    bind_inv Q1 x4 Q8. destruct x4 as [[l3 w3] v3]. apply Ok_inj in Q1. subst b1.
    destruct (CL _ _ _ Q5) as (av & qv & -> & -> & BD).
    pose proof (move_upright e M HV HM HF HE (u_dt u) (Fin 0) wfd (Fin old) aet0 l l l2 (Fin av) (Fin qv) HS P N (st_num _ _ HS) eq_refl Hdt T1 PU Q5) as U2. pose proof U2 as (S2 & P2 & M2 & _).
    destruct (Str_head e l2 HE S2) as (h' & r' & -> & Hh). pose proof Q7 as Q7'. cbn in Q7'. apply Ok_inj in Q7'. subst h'.
    destruct (dry_finite e M HV HF HE _ _ _ _ _ _ S2 P2 Ndt Q6) as (dv & ->).
    assert (T2 : ~ create_tie e (Fin w) (Fin dv) (f_theta h) (h :: r')).
    { intro T. apply HT. unfold hydro_tie. rewrite Eu. exists aet0, true. split; [exact Ea|]. split; [exact Ec|]. right. exists (h :: r'), (Fin av), (Fin qv), (Fin dv), d, h. auto. }
    assert (WE : forall s ff, soil_of e 1 = Ok s -> aget (e_frozen e) 1 = Ok ff -> val (f_theta h) < val (f_theta (surficial s ff (Fin w) (Fin dv) (f_theta h)))).
    { intros s ff Es Ef. exact (HU2 aet0 (h :: r') (Fin av) (Fin qv) (Fin dv) d h s ff Ea Ec Q5 Q6 Q7 Es Ef). }
    assert (Fd : finite (Fin dv)) by (exists dv; reflexivity).
    pose proof (create_calm e M HV HM HF HE (Fin w) (Fin dv) h r' U2 Hh Nw Fd WE T2) as D2.
    pose proof (create_upright e M HV HM HF HE (Fin w) (Fin dv) h r' l3 w3 v3 U2 Hh Nw Fd WE T2 Q8) as U3.
    destruct (create_ledger e M HV HM HF HE w dv h r' l3 w3 v3 S2 P2 M2 Hh Hw T2 D2 Q8) as (vi & -> & -> & SV & M3).
    assert (Hvi : 0 <= w - vi).
    { exact (create_rest _ e w _ _ _ _ _ _ Q8). }
    match type of Q4 with context [sub_no_insert u ?bb] => destruct (rest_pond u bb (w - vi) pm Epm Hpm eq_refl Hvi) as (ro & on & hp & F1 & F2 & F3 & F4 & F5 & F6 & F7 & _ & F8 & F9 & F10) end.
    rewrite F1, F2, F8, F9, F10. rewrite F3, F7 in Q4. cbn [b_head b_volin b_aet b_rech] in *.
    destruct U3 as (S3 & U3). destruct (dzdt_storage e HE _ _ _ _ _ S3 Q4) as [G1 G2]. rewrite G1, SV.
    assert (Er : (if (Fin qv <>? Fin 0)%d then Fin qv else Fin 0) = Fin qv).
    { destruct (Fin qv <>? Fin 0)%d eqn:Z; [reflexivity|]. f_equal. unfold dneb in Z. cbn in Z. unfold Reqb in Z. destruct (Req_EM_T qv 0); [auto|discriminate]. }
    rewrite Er. exists vi, ro, on, av, qv, hp, l3. do 5 (split; [reflexivity|]). split; [lra|]. split; [assumption|]. split; [|split; [split; assumption|split; assumption]].
    replace (storage (h :: r') + vi - (old + w - ro - on - av - qv)) with (storage (h :: r') - (old + 0 - av - qv)) by lra. exact BD.
  - apply Ok_inj in Q1. subst b1. rewrite andb_true_r in Q2. cbn [b_ponded] in Q2.
    destruct HB as (bb & Qb & V1 & V2). rewrite Qb in Q2. apply Ok_inj in Q2. subst bb.
    assert (GG : b_head b2 = l /\ b_prev b2 = l /\ exists ro on hp, b_runoff b2 = Fin ro /\ b_on b2 = Fin on /\ b_ponded b2 = Fin hp /\ w = vin + ro + on /\ 0 <= on /\ 0 <= hp).
    { destruct (Fin w >? Fin 0)%d.
      - unfold sub_insert in Qb. cbn [b_aet b_ponded b_volin b_head b_prev b_rech] in Qb. bind_inv Qb x Qx. destruct x as [[ro po] vv]. destruct (ro <? Fin 0)%d; [discriminate|]. apply Ok_inj in Qb. subst b2. cbn [b_head b_prev b_runoff b_on b_volin b_ponded] in *. subst vv.
        unfold lgar_insert_water in Qx. bind_inv Qx fp Qf. apply Ok_inj in Qx. rewrite Epm in Qx. destruct (partition_pond _ _ _ _ _ _ _ Hw Hpm Qx) as (r1 & o1 & -> & -> & Y & Z). do 2 (split; [reflexivity|]). exists r1, o1, o1. auto 10.
      - apply Ok_inj in Qb. subst b2. destruct (rest_pond u (mkSub l l aet0 (Fin w) (Fin 0) (Fin 0) (Fin 0) (Fin 0)) w pm Epm Hpm eq_refl Hw) as (ro & on & hp & F1 & F2 & F3 & F4 & F5 & F6 & F7 & F8 & F9 & _).
        rewrite F9 in V1. cbn [b_volin] in V1. injection V1 as ->. split; [exact F7|]. split; [exact F8|]. exists ro, on, hp. do 3 (split; [assumption|]). split; [lra|]. auto. }
    destruct GG as (B1 & B2 & ro & on & hp & F1 & F2 & F3 & F4 & F5 & F6). unfold sub_move in Q3. rewrite B1, B2, Eu, <- V1, <- V2 in Q3. bind_inv Q3 x Q5. destruct x as [[l2 a2] re]. apply Ok_inj in Q3. subst b3. cbn [b_head b_volin b_runoff b_on b_aet b_rech b_ponded] in *.
    destruct (CL _ _ _ Q5) as (av & qv & -> & -> & BD). rewrite F3 in Q4.
    pose proof (move_upright e M HV HM HF HE (u_dt u) (Fin vin) wfd (Fin old) aet l l l2 (Fin av) (Fin qv) HS P N (st_num _ _ HS) eq_refl Hdt T1 PU Q5) as U2.
    destruct U2 as (S2 & U2). destruct (dzdt_storage e HE _ _ _ _ _ S2 Q4) as [G1 G2]. rewrite G1, F1, F2. exists vin, ro, on, av, qv, hp, l2. do 5 (split; [reflexivity|]). split; [lra|]. split; [assumption|].
    split; [|split; [split; assumption|split; assumption]].
    replace (storage l2 - (old + w - ro - on - av - qv)) with (storage l2 - (old + vin - av - qv)) by lra. exact BD.
Qed.

(** ** Velocities *)

Lemma velocity_kept : forall closed nint h l l', capillary closed nint e -> 0 <= h -> upright_profile l -> lgar_dzdt_calc e closed nint (Fin h) l = Ok l' -> Forall (seated e) l' -> Forall sinking l'.
Proof.
  intros closed nint h l l' HG Hh (HS & P & MS & LV & DN) E SE.
  assert (BV : Forall2 but_velocity l l').
  { unfold lgar_dzdt_calc in E. destruct l as [|c r]; [discriminate|].
    assert (R : forall f, In f (c :: r) -> (1 <= f_layer f <= e_nlayers e)%Z) by (intros f Hf; apply In_nth_error in Hf as [i Ei]; eapply Str_range; eassumption).
    exact (proj1 (ends_Ok _ _ _ _ _ (dzdt_loop_ok e closed nint (Fin h) (c :: r) HE R) E)). }
  assert (SE0 : Forall (seated e) l). { clear - BV SE. induction BV as [|f g l l' B F IH]; [constructor|]. apply Forall_cons_iff in SE as [S1 S2]. constructor; [|exact (IH S2)]. rewrite B in S1. exact S1. }
  assert (FL : Forall (flowing e) l).
  { rewrite Forall_forall in *. intros f Hf. destruct (P f Hf) as (L & HO & _ & (K & EK & HK)). destruct (SE0 f Hf) as ((h0 & Eh0) & z & Ez & Hz).
    constructor.
    - exists K. split; [exact EK|lra].
    - destruct HO as [HO|HO]; [congruence|exact HO].
    - rewrite (strata_cum e qs HQ) in Ez by lia. apply Ok_inj in Ez. injection Ez as <-. pose proof (top_nonneg (f_layer f)). lra.
    - exists z. auto. }
  assert (WD : wet_over_dry l).
  { intros i f g Ef Eg Bf. destruct (Str_next e l i f HS Ef Bf) as (g' & Eg' & L). rewrite Eg in Eg'. injection Eg' as <-. apply Rlt_le. exact (DN i f g Ef Eg (eq_sym L)). }
  destruct (velocities_exact e closed nint h l HE HV HC HG Hh (proj1 (proj1 (Str_iff e l (se_n _ HE)) HS)) MS (phys_soils e M HV HE l P) FL WD) as (N & HN).
  pose (cfg2 := {| fuel := Nat.max (@fuel cfg) N; ngen := @ngen cfg |}).
  destruct (HN cfg2 ltac:(cbn; lia)) as (l2 & E2 & HVel).
  destruct (@dzdt_more exact cfg cfg2 ltac:(cbn; lia) e closed nint (Fin h) l) as [A|A]; [rewrite E in A; discriminate|]. rewrite E, E2 in A. apply Ok_inj in A. subst l2.
  destruct HVel as [Len HVel]. apply Forall_forall. intros g Hg. apply In_nth_error in Hg as (i & Eg). assert (Hi : (i < length l)%nat) by (rewrite <- Len; apply nth_error_Some; congruence).
  destruct (nth_error l i) as [f|] eqn:Ef; [|apply nth_error_None in Ef; lia]. destruct (HVel i f g Ef Eg) as (Gg & HV1 & HV2 & HV3).
  assert (Hf : In f l) by (eapply nth_error_In; eassumption). pose proof (proj1 (Forall_forall _ _) MS f Hf) as Mf. destruct Mf as ((d & Ed) & _).
  assert (Dg : f_depth g = Fin d) by (rewrite Gg; exact Ed). assert (Bg : f_bottom g = f_bottom f) by (rewrite Gg; reflexivity). exists d.
  destruct (Nat.eq_dec (S i) (length l)) as [Z|Z].
  - specialize (HV1 Z). subst g. exists 0. split; [exact Dg|]. split; [apply (st_rest _ _ HS); replace (length l - 1)%nat with i by lia; exact Ef|]. split; [lra|]. intro B.
    destruct (Str_next e l i f HS Ef B) as (n & En & _). assert (S i < length l)%nat by (apply nth_error_Some; congruence). lia.
  - destruct (f_bottom f) eqn:B.
    + exists 0. split; [exact Dg|]. split; [apply HV2; [lia|reflexivity]|]. split; [lra|]. rewrite Bg. discriminate.
    + destruct (HV3 ltac:(lia) eq_refl) as (v & Ev & Hv). exists v. split; [exact Dg|]. split; [exact Ev|]. split; [lra|]. intros _. lra.
Qed.

(** ** One sub-step after another *)

Definition placed (u : upar) (s : state) (a : acc) (p on dt pm : R) : Prop :=
  u_env u = e /\ env_of s = e /\ u_pmax u = Fin pm /\ 0 <= pm /\ u_dt u = Fin dt /\ 0 < dt /\ capillary (u_closed u) (u_nint u) e /\ orderly M e (st_head s) /\
  st_precip s = Fin p /\ a_on a = Fin on /\ 0 <= on /\ a_end a = Fin (storage (st_head s)).

Lemma placed_closes : forall u s a p on dt pm w B, placed u s a p on dt pm -> (dfmax (st_precip s) (Fin 0) * mm_to_cm * u_dt u + a_on a)%d = Fin w -> 0 <= w ->
  ~ step_tie u s a -> step_upright u s a -> off_by u s a B ->
  at_step (fun u pp pr pe pc vo w old l (_ : list front) => gentle u pp pr pe pc vo w old l) u s a /\ at_step (fun u pp pr pe pc vo w old l (_ : list front) => closes u pp pr pe pc vo w old l B) u s a.
Proof.
  intros u s a p on dt pm w B (Eu & Es & Epm & Hpm & Edt & Hdt & HG & O & Ep & Eon & Hon & Eend) Ew Hw HT HU OB.
  assert (G : at_step (fun u pp pr pe pc vo w old l (_ : list front) => gentle u pp pr pe pc vo w old l) u s a).
  { unfold at_step. cbv zeta. unfold gentle. split; [exact Eu|]. split; [exact (orderly_str _ O)|]. split; [exact (orderly_phys _ O)|]. split; [exact (orderly_moving _ O)|].
    split; [exists dt; exact Edt|]. split; [rewrite Edt; apply ltb_f; lra|]. split; [rewrite Ew; apply ltb_f; lra|]. split; [exact HT|exact HU]. }
  split; [exact G|]. unfold at_step in *. cbv zeta in *. rewrite Eend in *. destruct OB as [r OB|f l vin aet a1 El Bf IC OB|vin aet a1 IC Hv OB]; unfold step_gap, step_met, at_step in OB; cbv zeta in OB; rewrite Eend in OB.
  - exact (gap_closes _ _ _ _ _ _ _ _ _ _ G OB).
  - rewrite Eu in IC. exact (wet_closes _ _ _ _ _ _ _ _ _ _ _ _ _ G O El Bf IC OB).
  - rewrite Eu in IC. exact (dry_closes _ _ _ _ _ _ _ _ _ _ _ G O IC Hv OB).
Qed.

(** What a sub-step does to the fronts and to the water. *)
Lemma placed_hydro : forall u s a p on dt pm B b, placed u s a p on dt pm -> ~ step_tie u s a -> step_upright u s a -> off_by u s a B -> at_step sub_hydro u s a = Ok b ->
  let rain := Rmax p 0 / 10 * dt in
  (dfmax (st_precip s) (Fin 0) * mm_to_cm * u_dt u)%d = Fin rain /\ Str e (b_head b) /\ measured (b_head b) /\ (Forall (seated e) (b_head b) -> orderly M e (b_head b)) /\
  exists vin ro on' av q m, b_volin b = Fin vin /\ b_runoff b = Fin ro /\ b_on b = Fin on' /\ b_aet b = Fin av /\ b_rech b = Fin q /\ rain + on = vin + ro + on' /\ 0 <= on' /\
    Rabs (storage (b_head b) - (storage (st_head s) + rain + on - ro - on' - av - q)) <= B /\
    local_balance (Fin (storage (st_head s))) (Fin rain) (clean_volon (a_on a)) (b_runoff b) (b_aet b) (b_on b) (b_rech b) (Fin (storage (b_head b))) = Fin m /\
    Rabs m <= B + 1 / 1000000000000.
Proof.
  intros u s a p on dt pm B b PL HT HU OB E rain. pose proof PL as (Eu & Es & Epm & Hpm & Edt & Hdt & HG & O & Ep & Eon & Hon & Eend).
  assert (Er : (dfmax (st_precip s) (Fin 0) * mm_to_cm * u_dt u)%d = Fin rain). { rewrite Ep, Edt, fmax_fin. change mm_to_cm with (Fin (1 / 10)). unfold rain. cbn. f_equal. field. }
  assert (H1 : 0 <= rain). { unfold rain. pose proof (Rmax_r p 0). apply Rmult_le_pos; lra. }
  assert (Ew : (dfmax (st_precip s) (Fin 0) * mm_to_cm * u_dt u + a_on a)%d = Fin (rain + on)) by (rewrite Er, Eon; reflexivity).
  destruct (placed_closes u s a p on dt pm (rain + on) B PL Ew ltac:(lra) HT HU OB) as [G CL].
  unfold at_step in *. cbv zeta in *. rewrite Ew, Er, Eend in *.
  destruct (hydro_kept u _ _ _ _ _ (rain + on) (storage (st_head s)) pm (st_head s) b B G Epm Hpm ltac:(lra) CL E) as (vin & ro & on' & av & q & h & l0 & F1 & F2 & F3 & F4 & F5 & F6 & F7 & F8 & U0 & Hh & QV).
  pose proof U0 as (S0 & P0 & M0 & _). destruct (dzdt_storage e HE _ _ _ _ _ S0 QV) as [_ M2]. specialize (M2 M0).
  assert (S2 : Str e (b_head b)).
  { pose proof G as (_ & HS & _ & _ & Fdt & _ & _ & HT' & _). pose proof HE as HE'. pose proof HS as HS'. rewrite <- Eu in HE', HS'.
    pose proof (ends_Ok _ _ _ _ _ (hydro_ok u _ _ _ _ _ _ _ _ HE' HS' Fdt HT') E) as S2. cbv beta in S2. rewrite Eu in S2. exact S2. }
  split; [reflexivity|]. split; [exact S2|]. split; [exact M2|]. split.
  { intro SE. destruct (dzdt_upright e M HE _ _ _ _ _ U0 QV) as [D2 L2].
    assert (P2 : Forall phys (b_head b)). { pose proof G as (_ & HS & P & _ & Fdt & _ & Nw & HT' & _). exact (hydro_phys e M HV HM HF HE u _ _ _ _ _ _ _ _ b Eu HS Fdt Nw HT' P E). }
    destruct (proj1 (Str_iff e _ (se_n _ HE)) S2) as [A1 A2]. constructor; [exact A1|exact A2| |exact SE| |exact D2|].
    - eapply Forall_impl; [|exact P2]. intros f. apply (phys_iff e M HV).
    - exact (velocity_kept _ _ _ _ _ HG Hh U0 QV SE).
    - apply (level_meet e M); assumption. }
  destruct (clean_value on Hon) as (von & Ev & Hv). exists vin, ro, on', av, q, (storage (st_head s) + rain + von - ro - av - on' - q - storage (b_head b)).
  do 5 (split; [assumption|]). split; [lra|]. split; [assumption|].
  split. { replace (storage (st_head s) + rain + on - ro - on' - av - q) with (storage (st_head s) + (rain + on) - ro - on' - av - q) by ring. exact F8. }
  split. { rewrite F2, F3, F4, F5, Eon, Ev. reflexivity. }
  rewrite <- Rabs_Ropp.
  replace (- (storage (st_head s) + rain + von - ro - av - on' - q - storage (b_head b))) with ((storage (b_head b) - (storage (st_head s) + (rain + on) - ro - on' - av - q)) + (on - von)) by ring.
  eapply Rle_trans; [apply Rabs_triang|]. lra.
Qed.

Theorem placed_step : forall u s a p on dt pm B s' a', placed u s a p on dt pm -> substep u s a = Ok (s', a') -> undisturbed u (mkStep s a s' a') -> off_by u s a B ->
  balanced_step M u (mkStep s a s' a') B /\ exists on', placed u s' a' (Rmax p 0) on' dt pm.
Proof.
  intros u s a p on dt pm B s' a' PL E (HT & HU & SE) OB. cbn [x_s x_a x_s' x_a'] in *.
  destruct (substep_inv _ _ _ _ _ E) as (vs & b & ve & mbl & precip & pet & prate & petr & K1 & K2 & K3 & K4 & K5 & Eh & K6 & K7 & _ & E1 & E2).
  assert (Eb : at_step sub_hydro u s a = Ok b) by (unfold at_step; cbv zeta; rewrite <- K1, <- K2, <- K3; exact Eh).
  destruct (placed_hydro u s a p on dt pm B b PL HT HU OB Eb) as (Er & S2 & M2 & OD & vin & ro & on' & av & q & m & F1 & F2 & F3 & F4 & F5 & F6 & F7 & F8 & F9 & F10). set (rain := Rmax p 0 / 10 * dt) in *.
  pose proof PL as (Eu & Es & Epm & Hpm & Edt & Hdt & HG & O & Ep & Eon & Hon & Eend). rewrite K1, Er in K3.
  assert (C : p_cum (st_p s) = e_cum e) by (rewrite <- Es; reflexivity). rewrite C in K5, K6. rewrite (mass_of e HE H0 _ S2 M2) in K6. rewrite (mass_of e HE H0 _ (orderly_str _ O) (orderly_measured _ O)) in K5.
  apply Ok_inj in K5, K6. subst vs ve precip mbl. rewrite F9 in E1.
  assert (Hh : st_head s' = b_head b) by (rewrite E1; reflexivity). rewrite Eu, Hh in SE. specialize (OD SE).
  split.
  - split; [cbn [x_s']; rewrite Eu, Hh; exact OD|]. exists dt, p, on, vin, ro, on', av, q, m. unfold ponded_before, residual. cbn [x_s x_a x_s' x_a']. cbv zeta. fold rain. rewrite Hh.
    split; [exact Edt|]. split; [exact Hdt|]. split; [exact Ep|]. split; [exact Eon|]. split; [exact Hon|]. split; [exact F7|].
    subst a'. cbn [a_precip a_in a_runoff a_aet a_rech a_on]. rewrite F1, F2, F3, F4, F5. do 6 (split; [reflexivity|]). split; [exact F6|]. split; [exact F8|]. split; [rewrite E1; reflexivity|exact F10].
  - exists on'. unfold placed. rewrite Hh. do 1 (split; [exact Eu|]). split; [rewrite E1; exact Es|]. do 4 (split; [assumption|]). split; [exact HG|]. split; [exact OD|].
    split; [rewrite E1; cbn; rewrite Ep; apply fmax_fin|]. rewrite E2. cbn [a_on a_end]. split; [exact F3|]. split; [exact F7|reflexivity].
Qed.

(** The balance check passes when the sub-step is off by little. *)
Theorem placed_checked : forall u s a p on dt pm B b, placed u s a p on dt pm -> ~ step_tie u s a -> step_upright u s a -> off_by u s a B -> B + 1 / 1000000000000 <= 1 / 10000 ->
  at_step sub_hydro u s a = Ok b -> ends (fun why => why = AssertFail) (fun _ => True) (substep u s a).
Proof.
  intros u s a p on dt pm B b PL HT HU OB HB Eb.
  destruct (placed_hydro u s a p on dt pm B b PL HT HU OB Eb) as (Er & S2 & M2 & OD & vin & ro & on' & av & q & m & F1 & F2 & F3 & F4 & F5 & F6 & F7 & F8 & F9 & F10).
  pose proof PL as (Eu & Es & Epm & Hpm & Edt & Hdt & HG & O & Ep & Eon & Hon & Eend).
  unfold substep. match goal with |- context [p_cum ?q] => change (p_cum q) with (p_cum (st_p s)); change (p_precip_prev q) with (p_precip_prev (st_p s)) end. cbv zeta.
  assert (C : p_cum (st_p s) = e_cum e) by (rewrite <- Es; reflexivity). rewrite C, (mass_of e HE H0 _ (orderly_str _ O) (orderly_measured _ O)). cbn [bind]. unfold listCopy.
  unfold at_step in Eb. cbv zeta in Eb. rewrite Eb. cbn [bind]. rewrite (mass_of e HE H0 _ S2 M2). cbn [bind]. rewrite Er, F9.
  change (dabs (Fin m)) with (Fin (Rabs m)). change (lit (1 / 10000)) with (Fin (1 / 10000)). unfold dgtb at 1. rewrite ltb_f by lra.
  destruct (Str_head e _ HE S2) as (h & r' & -> & _). cbn [lget nth_error bind]. destruct (f_depth h >? Fin 0)%d; exact Logic.I || reflexivity.
Qed.
End Step.
