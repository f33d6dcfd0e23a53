(** The water ledger of a sub-step in a column of several layers (exact arithmetic). *)

From Coq Require Import Reals Lra ZArith List Bool Lia.
From Verif Require Import Outcome Dbl Exact Types ListOps Soil Fronts Infil Move State Update Lib Spec_Common Spec_Soil Spec_List Spec_Update Spec_Profile Spec_Storage Spec_Advance Spec_Balance Spec_Shares
  Spec_Physical Spec_Motion Pf_Dbl Pf_Pow Pf_Soil Pf_List Pf_Profile Pf_Structure Pf_Storage Pf_Merge Pf_Cross Pf_Repair Pf_SafeMove Pf_SafeUpdate Pf_Surface Pf_Update Pf_Single Pf_SingleMerge
  Pf_SubSingle Pf_Advance Pf_Physical Pf_Physical2 Pf_Books Pf_Motion.
Import ListNotations.
Open Scope R_scope.

Section Motion.
Local Existing Instance exact.
Context {cfg : Cfg}.
Variables (e : env) (M : R).
Hypothesis HV : vg_column e.
Hypothesis HM : conducts_at_most M e.
Hypothesis HF : frozen_in_range e.
Hypothesis HE : sound_env e.
Hypothesis H0 : aget (e_cum e) 0 = Ok (Fin 0).

Let phys := phys e M.

Lemma phys_theta_finite : forall f, phys f -> finite (f_theta f).
Proof.
  intros f P. pose proof P as (R & _). destruct (env_soil e _ HE R) as [s Es].
  destruct (phys_within e M HV f s P Es) as (r & te & a & n & m & k & t & _ & Et & _). exists t. assumption.
Qed.

Lemma pass_measured : forall dt vin wfd prev head aet l1 a1, Str e head -> Forall phys head -> Forall moving head -> numbered prev -> length prev = length head -> finite dt ->
  move_loop (length head) e dt vin wfd prev (listLength head) head aet = Ok (l1, a1) -> measured l1.
Proof.
  intros dt vin wfd prev head aet l1 a1 HS P N HN HL Hdt Q. destruct (profile_of e HE head HS) as [HP HR].
  destruct (loop_advances e dt vin wfd prev head aet l1 a1 HE HP HR HN HL Hdt Q) as [T _].
  assert (P1 : Forall phys l1) by exact (move_loop_phys e M HV _ _ _ _ _ _ _ _ _ _ P Q). destruct Hdt as (t & ->).
  clear - T P1 N HE HV. induction T as [|c c' l l' (_ & _ & _ & _ & _ & D) T IH]; [constructor|]. inversion P1; subst. inversion N as [|? ? [(d & Ed) (v & Ev)] N']; subst.
  constructor; [|apply IH; assumption]. split; [|apply phys_theta_finite; assumption]. rewrite Ed, Ev in D.
  destruct (f_bottom c); [rewrite D; eexists; reflexivity|]. destruct (f_layer c =? 1)%Z; [|rewrite D; eexists; reflexivity].
  destruct D as (z & Ez & ->). destruct (env_cum e (e_nlayers e) HE) as (y & Ey & _); [destruct HE; lia|]. rewrite Ez in Ey. apply Ok_inj in Ey. subst z.
  cbn. unfold Rltb. destruct (Rlt_dec _ _); eexists; reflexivity.
Qed.

(** The balance of the motion, with [r] the gap of the pass. *)
Theorem motion_balance : forall dt vin wfd old aet head prev l1 a1 l' a' q, Str e head -> Forall phys head -> Forall moving head -> numbered prev -> length prev = length head -> finite dt ->
  ~ move_tie e dt (Fin vin) wfd (Fin old) aet head prev -> ~ move_degenerate e dt (Fin vin) wfd (Fin old) aet head prev ->
  move_loop (length head) e dt (Fin vin) wfd prev (listLength head) head aet = Ok (l1, Fin a1) ->
  lgar_move_wetting_fronts e dt (Fin vin) wfd (Fin old) aet head prev = Ok (l', a', q) ->
  exists a2 q2 x, 0 <= x /\ a' = Fin a2 /\ q = Fin q2 /\
    Rabs (storage l' - (old + vin - a2 - q2)) <= Rmax (Rabs (storage l1 - (old + vin - a1))) (2 / 10000000000) + 2 * x /\ measured l' /\ Str e l' /\ Forall phys l' /\
    (~ move_inverted e dt (Fin vin) wfd (Fin old) aet head prev -> x = 0).
Proof.
  intros dt vin wfd old aet head prev l1 a1 l' a' q HS P N HN HL Hdt HT HD Q1 E.
  assert (M1 : measured l1) by exact (pass_measured _ _ _ _ _ _ _ _ HS P N HN HL Hdt Q1).
  destruct (motion_ledger e M HV HM HF HE H0 dt vin wfd old aet head prev l1 a1 l' a' q HS P HN HL Hdt HT HD Q1 M1 E) as (s2 & a2 & q2 & q3 & x & CL & Hx & -> & -> & B & G1 & G2 & G3 & G4 & _).
  exists (if Rlt_dec (1 / 10000000) x then a2 - x else a2), (q2 + q3), x. split; [assumption|]. split; [reflexivity|]. split; [reflexivity|]. split; [|auto].
  pose proof (Rmax_l (Rabs (storage l1 - (old + vin - a1))) (2 / 10000000000)) as X1. pose proof (Rmax_r (Rabs (storage l1 - (old + vin - a1))) (2 / 10000000000)) as X2.
  set (y := if Rlt_dec (1 / 10000000) x then a2 - x else a2). assert (Y : Rabs (y - a2) <= x).
  { unfold y. destruct (Rlt_dec _ _); [replace (a2 - x - a2) with (- x) by ring; rewrite Rabs_Ropp, Rabs_right; lra|]. replace (a2 - a2) with 0 by ring. rewrite Rabs_R0. lra. }
  destruct CL as [(-> & -> & ->)|[(C & -> & ->)|(-> & ->)]].
  - replace (storage l' - (old + vin - y - (0 + q3))) with ((storage l' - (storage l1 - q3)) + ((storage l1 - (old + vin - a1)) + (y - a1))) by ring.
    eapply Rle_trans; [apply Rabs_triang|]. pose proof (Rabs_triang (storage l1 - (old + vin - a1)) (y - a1)). lra.
  - replace (storage l' - (old + vin - y - (0 + q3))) with ((storage l' - (s2 - q3)) + ((s2 - (old + vin - a1)) + (y - a1))) by ring.
    eapply Rle_trans; [apply Rabs_triang|]. pose proof (Rabs_triang (s2 - (old + vin - a1)) (y - a1)). lra.
  - set (err := Rabs (s2 - (old + vin - a1))) in *.
    replace (storage l' - (old + vin - y - (old + vin - a1 - err - s2 + q3))) with ((storage l' - (s2 - q3)) + (y - (a1 + err))) by ring.
    eapply Rle_trans; [apply Rabs_triang|]. lra.
Qed.

(** ** Creating a front *)

Lemma dry_capped : forall z tau w, tau <> NInf -> (forall y, tau = Fin y -> 0 <= y) -> finite (dfmin (Fin z) (lit (1 / 2) * (tau + dsqrt w))).
Proof.
  intros z tau w N1 N2. assert (W : dsqrt w = NaN \/ dsqrt w = PInf \/ exists v, dsqrt w = Fin v).
  { destruct w as [v| | |]; cbn; try destruct (Rlt_dec v 0); cbn; eauto. }
  change (lit (1 / 2)) with (Fin (1 / 2)). unfold finite.
  assert (Z : (Fin (1 / 2) * PInf)%d = PInf) by (cbn; unfold inf_sign; destruct (Rlt_dec _ _); [reflexivity|lra]).
  destruct tau as [y| | |]; [| |contradiction|]; destruct W as [->|[->|(v & ->)]]; cbn [dadd]; try rewrite Z; cbn; unfold Rltb; try destruct (Rlt_dec _ _); eauto.
Qed.

Lemma dry_finite : forall closed nint dt l dry d, Str e l -> Forall phys l -> not_negative dt -> lgar_calc_dry_depth e closed nint dt l = Ok (dry, d) -> finite dry.
Proof.
  intros closed nint dt l dry d HS P Hdt E. unfold lgar_calc_dry_depth in E. bind_inv E c Ec0. bind_inv E s Es. bind_inv E ff Ef. cbv zeta in E. bind_inv E g0 Eg. bind_inv E ck Ek.
  apply Ok_inj in E. injection E as E _. subst dry. pose proof (proj1 (lget_Ok _ _ _) Ec0) as Ec. assert (R := Str_range _ _ _ _ HS Ec).
  destruct (env_cum e (f_layer c) HE ltac:(lia)) as (z & Ez & _). rewrite Ek in Ez. apply Ok_inj in Ez. subst ck.
  assert (Pc : phys c). { rewrite Forall_forall in P. apply P. eapply nth_error_In. eassumption. }
  destruct (phys_within e M HV c s Pc Es) as (r & te & a & n & m & k & t & V & Et & B). rewrite Et, (vg_e _ _ _ _ _ _ _ V), (vg_k _ _ _ _ _ _ _ V).
  destruct (HF _ R) as (x & Ex & Bx). rewrite Ef in Ex. apply Ok_inj in Ex. subst ff. pose proof (vg_k0 _ _ _ _ _ _ _ V) as Hk.
  assert (NT : forall tau, tau = (dt * (Fin k * Fin x) / (Fin te - Fin t))%d -> tau <> NInf /\ forall y, tau = Fin y -> 0 <= y).
  { intros tau ->. change (Fin k * Fin x)%d with (Fin (k * x)). change (Fin te - Fin t)%d with (Fin (te - t)). assert (Hkx : 0 <= k * x) by (apply Rmult_le_pos; lra).
    unfold not_negative in Hdt. destruct dt as [y| | |]; cbn in *.
    - assert (0 <= y). { unfold Rltb in Hdt. destruct (Rlt_dec y 0); [discriminate|lra]. } assert (0 <= y * (k * x)) by (apply Rmult_le_pos; lra).
      destruct (Req_EM_T (te - t) 0) as [Z|Z].
      + unfold inf_sign. destruct (Rlt_dec _ _); [split; [discriminate|intros; discriminate]|]. destruct (Rlt_dec _ _); [lra|]. split; [discriminate|intros; discriminate].
      + split; [discriminate|]. intros w Ew. injection Ew as <-. apply Rmult_le_pos; [assumption|]. left. apply Rinv_0_lt_compat. lra.
    - unfold inf_sign. repeat destruct (Rlt_dec _ _); try lra; cbn; repeat destruct (Rlt_dec _ _); try lra; split; try discriminate; intros; discriminate.
    - discriminate.
    - split; [discriminate|intros; discriminate]. }
  specialize (NT _ eq_refl). destruct NT as [N1 N2]. set (tau := (dt * (Fin k * Fin x) / (Fin te - Fin t))%d) in *. clearbody tau.
  exact (dry_capped z tau _ N1 N2).
Qed.

Lemma create_ledger : forall pond dry h r l' w v, Str e (h :: r) -> Forall phys (h :: r) -> measured (h :: r) -> f_layer h = 1%Z -> 0 <= pond ->
  ~ create_tie e (Fin pond) (Fin dry) (f_theta h) (h :: r) -> ~ create_degenerate e (Fin pond) (Fin dry) (f_theta h) (h :: r) ->
  lgar_create_surficial_front e (Fin pond) (Fin dry) (f_theta h) (h :: r) = Ok (l', w, v) ->
  exists vin, v = Fin vin /\ w = Fin (pond - vin) /\ storage l' = storage (h :: r) + vin /\ measured l'.
Proof.
  intros pond dry h r l' w v HS P ML Lh Np HT HD E.
  assert (P' : Forall phys l') by (eapply (create_phys e M HV HM HF HE (Fin pond) (Fin dry) h r); [inversion P; assumption|exact Lh|exact P|apply ltb_f; lra|exact E]).
  unfold lgar_create_surficial_front in E. bind_inv E s Es. cbv zeta in E. bind_inv E z Ez. bind_inv E ff Ef. unfold listInsertFirst in E. bind_inv E l1 Q1.
  apply Ok_inj in E. apply pair_equal_spec in E as [E E3]. apply pair_equal_spec in E as [E1 E2]. subst l1.
  inversion ML as [|x0 y0 [[dh Edh] [t1 Et1]] ML']; subst x0 y0. inversion P as [|x0 y0 Ph Pr]; subst x0 y0.
  destruct (phys_within e M HV h s Ph) as (rr & te & a & n & m & k & t1' & V & Et & B); [rewrite Lh; exact Es|]. rewrite Et1 in Et. injection Et as <-.
  set (f := surficial s ff (Fin pond) (Fin dry) (f_theta h)).
  assert (Ff : forall q, q = (Fin dry * (s_theta_e s - f_theta h) >? Fin pond)%d -> q = if Rlt_dec pond (dry * (te - t1)) then true else false).
  { intros q ->. rewrite Et1, (vg_e _ _ _ _ _ _ _ V). cbn. unfold Rltb. reflexivity. }
  set (t := if Rlt_dec pond (dry * (te - t1)) then t1 + pond / dry else te). set (vin := if Rlt_dec pond (dry * (te - t1)) then pond else dry * (te - t1)).
  assert (Hv : vin = dry * (t - t1)). { unfold vin, t. destruct (Rlt_dec pond (dry * (te - t1))); [|ring]. assert (dry <> 0) by (intro Z; subst dry; lra). field. assumption. }
  assert (Ft : f_theta f = Fin t).
  { unfold f, surficial. cbv zeta. cbn [f_theta]. rewrite (Ff _ eq_refl). unfold t. destruct (Rlt_dec pond (dry * (te - t1))) as [Q|Q]; [|apply V].
    assert (D0 : 0 < dry). { destruct (Rle_lt_dec dry 0); [|assumption]. exfalso. assert (dry * (te - t1) <= 0); [|lra]. assert (0 <= (- dry) * (te - t1)) by (apply Rmult_le_pos; lra). lra. }
    rewrite Et1, (vg_e _ _ _ _ _ _ _ V), div_fin by lra. change (Fin t1 + Fin (pond / dry))%d with (Fin (t1 + pond / dry)).
    assert (pond / dry < te - t1). { apply Rmult_lt_reg_r with dry; [lra|]. unfold Rdiv. rewrite Rmult_assoc, Rinv_l by lra. lra. }
    cbn. unfold Rltb. destruct (Rlt_dec _ _); [reflexivity|lra]. }
  exists vin. split. { rewrite <- E3. rewrite (Ff _ eq_refl). unfold vin. rewrite Et1, (vg_e _ _ _ _ _ _ _ V). destruct (Rlt_dec _ _); reflexivity. }
  split. { rewrite <- E2. rewrite (Ff _ eq_refl). unfold vin. rewrite Et1, (vg_e _ _ _ _ _ _ _ V). destruct (Rlt_dec _ _); cbn; f_equal; ring. }
  change (set_dzdt _ _) with f in Q1. change (set_num h (f_num h + 1) :: map _ r) with (bump 1 (h :: r)) in Q1.
  assert (SF : Str e (f :: bump 1 (h :: r))) by (apply insert_str; auto).
  assert (MF : measured (f :: bump 1 (h :: r))) by (constructor; [split; [exists dry; reflexivity|exists t; exact Ft]|apply measured_bump; assumption]).
  assert (SV : storage (f :: bump 1 (h :: r)) = storage (h :: r) + vin).
  { unfold storage. change (f :: bump 1 (h :: r)) with ([f] ++ bump 1 (h :: r)). rewrite slabs_app, slabs_bump. cbn [slabs lastd]. rewrite Ft, Et1, Edh, Hv. change (f_depth f) with (Fin dry). cbn [val]. lra. }
  assert (PF : Forall phys (f :: bump 1 (h :: r))).
  { constructor; [|unfold bump; apply Forall_map; eapply Forall_impl; [|exact P]; intros g0 Hg; apply phys_num; exact Hg].
    assert (R1 : (1 <= 1 <= e_nlayers e)%Z) by (destruct HE; lia). destruct (frozen_get e HF 1%Z ff R1 Ef) as (x & -> & Bx).
    assert (Bt : rr <= t <= te). { unfold t. destruct (Rlt_dec pond (dry * (te - t1))) as [Q|Q]; [|lra].
      assert (D0 : 0 < dry). { destruct (Rle_lt_dec dry 0); [|assumption]. exfalso. assert (dry * (te - t1) <= 0); [|lra]. assert (0 <= (- dry) * (te - t1)) by (apply Rmult_le_pos; lra). lra. }
      assert (0 <= pond / dry) by (apply Rmult_le_pos; [assumption|left; apply Rinv_0_lt_compat; assumption]).
      assert (pond / dry < te - t1). { apply Rmult_lt_reg_r with dry; [lra|]. unfold Rdiv. rewrite Rmult_assoc, Rinv_l by lra. lra. } lra. }
    destruct (conduct_from e M HM s rr te a n m k t x 1%Z V Bt R1 Es Bx) as [(K & EK & BK) _]. destruct (head_from s rr te a n m k t V Bt) as [A C].
    unfold f, surficial in Ft. cbv zeta in Ft. cbn [f_theta] in Ft. unfold f, surficial. cbv zeta. rewrite Ft. split; [exact R1|]. split; [exact A|]. split; [exists s; split; [exact Es|exact C]|]. cbn [f_K]. rewrite EK.
    exists (K * x). split; [reflexivity|]. split; nra. }
  cbn [bump map] in Q1. destruct (f_depth f >? _)%d eqn:C.
  2: { apply Ok_inj in Q1. subst l'. split; [exact SV|exact MF]. }
  change (f :: set_num h (f_num h + 1) :: map _ r) with (f :: bump 1 (h :: r)) in Q1. bind_inv Q1 l2 Q2.
  assert (D2 : ~ (~ measured l2 \/ cross_blocked e l2)) by (intro D; apply HD; exists s, ff, h, r, l2; do 2 (split; [assumption|]); split; [reflexivity|]; split; [exact C|]; split; [exact Q2|exact D]).
  assert (M2 : measured l2) by (apply measured_not; tauto). pose proof (merge_ledger e HE _ _ SF MF Q2 M2) as S2.
  pose proof (ends_Ok _ _ _ _ _ (merge_ok e _ HE SF) Q2) as Str2. assert (P2 : Forall phys l2) by (eapply merge_phys; [exact HV|exact HM|exact HF|exact PF|exact Q2]).
  destruct (profile_of e HE l2 Str2) as [HP HR].
  assert (T2 : ~ cross_tie e l2) by (intro T; apply HT; exists s, ff, h, r, l2; do 2 (split; [assumption|]); split; [reflexivity|]; split; [exact C|]; split; [exact Q2|exact T]).
  destruct (cross_spec e l2 HE HV HP HR M2 (phys_soils e M HV HE _ P2) T2 ltac:(tauto)) as (l3 & X1 & X2 & _ & X4 & _). rewrite X1 in Q1. apply Ok_inj in Q1. subst l3.
  split; [lra|exact X4].
Qed.

(** ** The surface *)

Lemma partition_finite : forall dt w pm f_p r on i, surface_partition dt (Fin w) (Fin 0) (Fin pm) f_p = (r, on, Fin i) -> exists ro o, r = Fin ro /\ on = Fin o /\ w = i + ro + o.
Proof.
  intros dt w pm f_p r on i. unfold surface_partition. generalize (f_p * dt)%d as q. intros q H.
  destruct q as [q| | |], dt as [dt| | |]; dcrush; dinv; subst; try discriminate; (do 2 eexists; split; [first [reflexivity|eassumption]|split; [first [reflexivity|eassumption]|lra]]).
Qed.

Lemma rest_finite : forall u b w pm, u_pmax u = Fin pm -> b_ponded b = Fin w -> exists ro o, b_runoff (sub_no_insert u b) = Fin ro /\ b_on (sub_no_insert u b) = Fin o /\ w = ro + o /\
  b_head (sub_no_insert u b) = b_head b /\ b_prev (sub_no_insert u b) = b_prev b /\ b_volin (sub_no_insert u b) = b_volin b /\ b_aet (sub_no_insert u b) = b_aet b /\ b_rech (sub_no_insert u b) = b_rech b.
Proof.
  intros u b w pm Ep Ew. unfold sub_no_insert. rewrite Ep, Ew. destruct (Fin w <? Fin pm)%d; cbn; do 2 eexists; (split; [reflexivity|split; [reflexivity|split; [lra|auto]]]).
Qed.

Lemma velocity_storage : forall l l', Forall2 but_velocity l l' -> forall z, slabs z l' = slabs z l.
Proof. intros l l' F. induction F as [|f g l l' B F IH]; intro z; [reflexivity|]. cbn [slabs]. rewrite B. cbn [set_dzdt f_theta f_depth]. rewrite IH. reflexivity. Qed.
Lemma velocity_measured : forall l l', Forall2 but_velocity l l' -> measured l -> measured l'.
Proof. intros l l' F H. induction F as [|f g l l' B F IH]; [constructor|]. inversion H; subst. constructor; [|apply IH; assumption]. rewrite B. assumption. Qed.

Lemma dzdt_storage : forall closed nint h l l', Str e l -> lgar_dzdt_calc e closed nint h l = Ok l' -> storage l' = storage l /\ (measured l -> measured l').
Proof.
  intros closed nint h l l' HS E. unfold lgar_dzdt_calc in E. destruct l as [|c r]; [congruence|].
  assert (R : forall f, In f (c :: r) -> (1 <= f_layer f <= e_nlayers e)%Z) by (intros f Hf; apply In_nth_error in Hf as [i Ei]; eapply Str_range; eassumption).
  pose proof (ends_Ok _ _ _ _ _ (dzdt_loop_ok e closed nint h (c :: r) HE R) E) as [F _]. split; [apply (velocity_storage _ _ F 0)|apply (velocity_measured _ _ F)].
Qed.

(** ** The sub-step *)

Theorem hydro_ledger : forall u pp pr pe pc vo w old pm l b r, u_env u = e -> u_pmax u = Fin pm -> Str e l -> Forall phys l -> Forall moving l -> finite (u_dt u) -> not_negative (u_dt u) -> 0 <= w ->
  ~ hydro_tie u pp pr pe pc vo (Fin w) (Fin old) l l -> ~ hydro_degenerate u pp pr pe pc vo (Fin w) (Fin old) l l -> hydro_gap u pp pr pe pc vo (Fin w) (Fin old) l l r ->
  sub_hydro u pp pr pe pc vo (Fin w) (Fin old) l l = Ok b ->
  exists vin ro on a q x, b_volin b = Fin vin /\ b_runoff b = Fin ro /\ b_on b = Fin on /\ b_aet b = Fin a /\ b_rech b = Fin q /\ w = vin + ro + on /\ 0 <= x /\
    Rabs (storage (b_head b) - (old + w - ro - on - a - q)) <= Rmax (Rabs r) (2 / 10000000000) + 2 * x /\ measured (b_head b) /\
    (~ hydro_inverted u pp pr pe pc vo (Fin w) (Fin old) l l -> x = 0).
Proof.
  intros u pp pr pe pc vo w old pm l b r Eu Epm HS P N Hdt Ndt Hw HT HD (vin & aet & l1 & a1 & HM0 & QL & ->) E. cbn [val]. rewrite Eu in QL.
  set (wfd := wetting_front_free_drainage l) in *. unfold sub_hydro in E. cbv zeta in E. rewrite Eu in E.
  bind_inv E aet0 Ea. bind_inv E create Ec. bind_inv E b1 Q1. bind_inv E b2 Q2. bind_inv E b3 Q3. bind_inv E l4 Q4. apply Ok_inj in E. subst b.
  cbn [b_head b_volin b_runoff b_on b_aet b_rech].
  assert (DM : ~ move_degenerate e (u_dt u) (Fin vin) wfd (Fin old) aet l l) by (intro D; apply HD; left; rewrite Eu; exists (Fin vin), aet; split; assumption).
  assert (IM : ~ hydro_inverted u pp pr pe pc vo (Fin w) (Fin old) l l -> ~ move_inverted e (u_dt u) (Fin vin) wfd (Fin old) aet l l).
  { intros X I. apply X. exists (Fin vin), aet. split; [exact HM0|]. rewrite Eu. exact I. }
  pose proof HM0 as (aet0' & create' & Ea' & Ec' & HB). rewrite Eu in Ea', Ec'. rewrite Ea in Ea'. apply Ok_inj in Ea'. subst aet0'. rewrite Ec in Ec'. apply Ok_inj in Ec'. subst create'.
  destruct create.
  - destruct HB as [HB1 ->]. injection HB1 as ->. rewrite andb_false_r in Q2. apply Ok_inj in Q2, Q3. subst b2 b3.
    unfold sub_create in Q1. cbv zeta in Q1. rewrite Eu in Q1. bind_inv Q1 x2 Q5. destruct x2 as [[l2 a2] pd]. bind_inv Q1 x3 Q6. destruct x3 as [dry d]. bind_inv Q1 h Q7.
    bind_inv Q1 x4 Q8. destruct x4 as [[l3 w3] v3]. apply Ok_inj in Q1. subst b1.
    assert (T1 : ~ move_tie e (u_dt u) (Fin 0) wfd (Fin old) aet0 l l).
    { intro T. apply HT. unfold hydro_tie. rewrite Eu. exists aet0, true. split; [exact Ea|]. split; [exact Ec|]. left. exact T. }
    destruct (motion_balance (u_dt u) 0 wfd old aet0 l l l1 a1 l2 a2 pd HS P N (st_num _ _ HS) eq_refl Hdt T1 DM QL Q5) as (av & qv & x & Hx & -> & -> & B & M2 & S2 & P2 & X).
    destruct (Str_head e l2 HE S2) as (h' & r' & -> & Hh). cbn in Q7. apply Ok_inj in Q7. subst h'.
    destruct (dry_finite _ _ _ _ _ _ S2 P2 Ndt Q6) as (dv & ->).
    assert (T2 : ~ create_tie e (Fin w) (Fin dv) (f_theta h) (h :: r')).
    { intro T. apply HT. unfold hydro_tie. rewrite Eu. exists aet0, true. split; [exact Ea|]. split; [exact Ec|]. right. exists (h :: r'), (Fin av), (Fin qv), (Fin dv), d, h. auto. }
    assert (D2 : ~ create_degenerate e (Fin w) (Fin dv) (f_theta h) (h :: r')).
    { intro T. apply HD. right. rewrite Eu. exists aet0, (h :: r'), (Fin av), (Fin qv), (Fin dv), d, h. split; [exact Ea|]. split; [exact Ec|]. split; [exact Q5|]. split; [exact Q6|]. split; [reflexivity|exact T]. }
    destruct (create_ledger w dv h r' l3 w3 v3 S2 P2 M2 Hh Hw T2 D2 Q8) as (vi & -> & -> & SV & M3).
    pose proof (ends_Ok _ _ _ _ _ (create_ok e (Fin w) (Fin dv) (f_theta h) (h :: r') HE S2 T2) Q8) as S3. cbn [fst] in S3.
    match type of Q4 with context [sub_no_insert u ?bb] => destruct (rest_finite u bb (w - vi) pm Epm eq_refl) as (ro & on & F1 & F2 & F3 & F4 & _ & F6 & F7 & F8) end.
    rewrite F1, F2, F6, F7, F8. rewrite F4 in Q4. cbn [b_head b_volin b_aet b_rech] in *.
    destruct (dzdt_storage _ _ _ _ _ S3 Q4) as [G1 G2]. rewrite G1, SV.
    assert (Er : (if (Fin qv <>? Fin 0)%d then Fin qv else Fin 0) = Fin qv).
    { destruct (Fin qv <>? Fin 0)%d eqn:Z; [reflexivity|]. f_equal. unfold dneb in Z. cbn in Z. unfold Reqb in Z. destruct (Req_EM_T qv 0); [auto|discriminate]. }
    rewrite Er. exists vi, ro, on, av, qv, x. do 5 (split; [reflexivity|]). split; [lra|]. split; [assumption|]. split; [|split; [apply G2; assumption|intro Y; apply X, IM; assumption]].
    replace (storage (h :: r') + vi - (old + w - ro - on - av - qv)) with (storage (h :: r') - (old + 0 - av - qv)) by lra. exact B.
  - apply Ok_inj in Q1. subst b1. rewrite andb_true_r in Q2. cbn [b_ponded] in Q2.
    destruct HB as (bb & Qb & V1 & V2). rewrite Qb in Q2. apply Ok_inj in Q2. subst bb.
    assert (G : b_head b2 = l /\ b_prev b2 = l /\ exists ro on, b_runoff b2 = Fin ro /\ b_on b2 = Fin on /\ w = vin + ro + on).
    { destruct (Fin w >? Fin 0)%d.
      - unfold sub_insert in Qb. cbn [b_aet b_ponded b_volin b_head b_prev b_rech] in Qb. bind_inv Qb x Qx. destruct x as [[ro po] vv]. destruct (ro <? Fin 0)%d; [discriminate|]. apply Ok_inj in Qb. subst b2. cbn [b_head b_prev b_runoff b_on b_volin] in *. subst vv.
        unfold lgar_insert_water in Qx. bind_inv Qx fp Qf. apply Ok_inj in Qx. rewrite Epm in Qx. destruct (partition_finite _ _ _ _ _ _ _ Qx) as (r1 & o1 & -> & -> & Y). do 2 (split; [reflexivity|]). eauto.
      - apply Ok_inj in Qb. subst b2. destruct (rest_finite u (mkSub l l aet0 (Fin w) (Fin 0) (Fin 0) (Fin 0) (Fin 0)) w pm Epm eq_refl) as (ro & on & F1 & F2 & F3 & F4 & F5 & F6 & F7 & F8).
        rewrite F6 in V1. cbn [b_volin] in V1. injection V1 as ->. split; [exact F4|]. split; [exact F5|]. exists ro, on. split; [exact F1|]. split; [exact F2|]. lra. }
    destruct G as (B1 & B2 & ro & on & F1 & F2 & F3). unfold sub_move in Q3. rewrite B1, B2, Eu, <- V1, <- V2 in Q3. bind_inv Q3 x Q5. destruct x as [[l2 a2] re]. apply Ok_inj in Q3. subst b3. cbn [b_head b_volin b_runoff b_on b_aet b_rech b_ponded] in *.
    assert (T1 : ~ move_tie e (u_dt u) (Fin vin) wfd (Fin old) aet l l).
    { intro T. apply HT. unfold hydro_tie. rewrite Eu. exists aet0, false. split; [exact Ea|]. split; [exact Ec|]. exists b2. split; [exact Qb|]. rewrite <- V1, <- V2. exact T. }
    destruct (motion_balance (u_dt u) vin wfd old aet l l l1 a1 l2 a2 re HS P N (st_num _ _ HS) eq_refl Hdt T1 DM QL Q5) as (av & qv & x & Hx & -> & -> & B & M2 & S2 & P2 & X).
    destruct (dzdt_storage _ _ _ _ _ S2 Q4) as [G1 G2]. rewrite G1, F1, F2. exists vin, ro, on, av, qv, x. do 5 (split; [reflexivity|]). split; [lra|]. split; [assumption|].
    split; [|split; [apply G2; assumption|intro Y; apply X, IM; assumption]].
    replace (storage l2 - (old + w - ro - on - av - qv)) with (storage l2 - (old + vin - av - qv)) by lra. exact B.
Qed.

(** ** The whole sub-step *)

(** The circumstances of a sub-step. *)
Definition steady (u : upar) (s : state) (a : acc) (p on dt r : R) : Prop :=
  u_env u = e /\ env_of s = e /\ finite (u_pmax u) /\ u_dt u = Fin dt /\ 0 <= dt /\ Str e (st_head s) /\ Forall phys (st_head s) /\ Forall moving (st_head s) /\
  st_precip s = Fin p /\ a_on a = Fin on /\ 0 <= on /\ a_end a = Fin (storage (st_head s)) /\ ~ step_tie u s a /\ ~ step_degenerate u s a /\ step_gap u s a r.

Lemma step_hydro : forall u s a p on dt r b, steady u s a p on dt r -> at_step sub_hydro u s a = Ok b ->
  let rain := Rmax p 0 / 10 * dt in
  (dfmax (st_precip s) (Fin 0) * mm_to_cm * u_dt u)%d = Fin rain /\ Str e (b_head b) /\ measured (b_head b) /\ 
  exists vin ro on' av q x m, b_volin b = Fin vin /\ b_runoff b = Fin ro /\ b_on b = Fin on' /\ b_aet b = Fin av /\ b_rech b = Fin q /\ rain + on = vin + ro + on' /\ 0 <= x /\
    Rabs (storage (b_head b) - (storage (st_head s) + rain + on - ro - on' - av - q)) <= Rmax (Rabs r) (2 / 10000000000) + 2 * x /\
    local_balance (Fin (storage (st_head s))) (Fin rain) (clean_volon (a_on a)) (b_runoff b) (b_aet b) (b_on b) (b_rech b) (Fin (storage (b_head b))) = Fin m /\
    Rabs m <= Rmax (Rabs r) (2 / 10000000000) + 2 * x + 1 / 1000000000000 /\ (~ step_inverted u s a -> x = 0).
Proof.
  intros u s a p on dt r b (Eu & Es & (pm & Epm) & Edt & Hdt & HS & P & N & Ep & Eon & Hon & Eend & HT & HD & HG) E rain.
  assert (Er : (dfmax (st_precip s) (Fin 0) * mm_to_cm * u_dt u)%d = Fin rain). { rewrite Ep, Edt, fmax_fin. change mm_to_cm with (Fin (1 / 10)). unfold rain. cbn. f_equal. field. }
  assert (H1 : 0 <= rain). { unfold rain. pose proof (Rmax_r p 0). apply Rmult_le_pos; [|assumption]. lra. }
  unfold step_tie in HT. unfold step_degenerate, at_step in HD. unfold step_gap, at_step in HG. unfold at_step in E. unfold step_inverted, at_step. cbv zeta in *.
  rewrite Er, Eend, Eon in *. change (Fin rain + Fin on)%d with (Fin (rain + on)) in *.
  set (prate := (dfmax (st_precip s) (Fin 0) * mm_to_cm)%d) in *. set (petr := (dfmax (st_pet s) (Fin 0) * mm_to_cm)%d) in *.
  assert (Fdt : finite (u_dt u)) by (exists dt; assumption). assert (Ndt : not_negative (u_dt u)) by (rewrite Edt; apply ltb_f; lra).
  pose proof HE as HE'. pose proof HS as HS'. rewrite <- Eu in HE', HS'. pose proof (ends_Ok _ _ _ _ _ (hydro_ok u _ _ _ _ _ _ _ _ HE' HS' Fdt HT) E) as S2. cbv beta in S2. rewrite Eu in S2.
  destruct (hydro_ledger u _ _ _ _ _ (rain + on) (storage (st_head s)) pm (st_head s) b r Eu Epm HS P N Fdt Ndt ltac:(lra) HT HD HG E) as (vin & ro & on' & av & q & x & F1 & F2 & F3 & F4 & F5 & F6 & F7 & F8 & F9 & F10).
  split; [reflexivity|]. split; [exact S2|]. split; [exact F9|].
  destruct (clean_value on Hon) as (von & Ev & Hv). exists vin, ro, on', av, q, x, (storage (st_head s) + rain + von - ro - av - on' - q - storage (b_head b)).
  do 5 (split; [assumption|]). split; [assumption|]. split; [assumption|].
  split. { replace (storage (st_head s) + rain + on - ro - on' - av - q) with (storage (st_head s) + (rain + on) - ro - on' - av - q) by ring. exact F8. }
  split. { rewrite F2, F3, F4, F5, Ev. reflexivity. }
  split; [|exact F10]. rewrite <- Rabs_Ropp.
  replace (- (storage (st_head s) + rain + von - ro - av - on' - q - storage (b_head b))) with ((storage (b_head b) - (storage (st_head s) + (rain + on) - ro - on' - av - q)) + (on - von)) by ring.
  eapply Rle_trans; [apply Rabs_triang|]. lra.
Qed.

Lemma start_measured : forall l, Forall phys l -> Forall moving l -> measured l.
Proof. intros l P N. rewrite Forall_forall in *. apply Forall_forall. intros f Hf. split; [apply N; assumption|apply phys_theta_finite, P; assumption]. Qed.

Theorem substep_ledger : forall u s a p on dt r s' a', steady u s a p on dt r -> substep u s a = Ok (s', a') ->
  let rain := Rmax p 0 / 10 * dt in
  exists vin ro on' av q x m, 
    a_precip a' = (a_precip a + Fin rain)%d /\ a_in a' = (a_in a + Fin vin)%d /\ a_runoff a' = (a_runoff a + Fin ro)%d /\ a_aet a' = (a_aet a + Fin av)%d /\ a_rech a' = (a_rech a + Fin q)%d /\ a_on a' = Fin on' /\
    a_end a' = Fin (storage (st_head s')) /\ rain + on = vin + ro + on' /\ 0 <= x /\
    Rabs (storage (st_head s') - (storage (st_head s) + rain + on - ro - on' - av - q)) <= Rmax (Rabs r) (2 / 10000000000) + 2 * x /\
    mb_local (st_mb s') = Some (Fin m) /\ Rabs m <= Rmax (Rabs r) (2 / 10000000000) + 2 * x + 1 / 1000000000000 /\ (~ step_inverted u s a -> x = 0).
Proof.
  intros u s a p on dt r s' a' HY E rain.
  destruct (substep_inv _ _ _ _ _ E) as (vs & b & ve & mbl & precip & pet & prate & petr & K1 & K2 & K3 & K4 & K5 & Eh & K6 & K7 & _ & E1 & E2).
  assert (Eb : at_step sub_hydro u s a = Ok b) by (unfold at_step; cbv zeta; rewrite <- K1, <- K2, <- K3; exact Eh).
  destruct (step_hydro u s a p on dt r b HY Eb) as (Er & S2 & M2 & vin & ro & on' & av & q & x & m & F1 & F2 & F3 & F4 & F5 & F6 & F7 & F8 & F9 & F10 & F11).
  destruct HY as (Eu & Es & _ & Edt & Hdt & HS & P & N & _). rewrite K1, Er in K3. fold rain in K3, F6, F8, F9.
  assert (C : p_cum (st_p s) = e_cum e) by (rewrite <- Es; reflexivity). rewrite C in K5, K6. rewrite (mass_of e HE H0 _ S2 M2) in K6. rewrite (mass_of e HE H0 _ HS (start_measured _ P N)) in K5.
  apply Ok_inj in K5, K6. subst vs ve precip mbl. rewrite F9 in E1. subst s' a'. cbn [a_precip a_in a_runoff a_aet a_rech a_on a_end].
  exists vin, ro, on', av, q, x, m. rewrite F1, F2, F3, F4, F5. do 7 (split; [reflexivity|]). do 2 (split; [assumption|]). split; [exact F8|]. split; [reflexivity|]. split; [exact F10|exact F11].
Qed.

(** The balance check of the sub-step passes. *)
Theorem substep_checked : forall u s a p on dt r b, steady u s a p on dt r -> ~ step_inverted u s a -> Rmax (Rabs r) (2 / 10000000000) + 1 / 1000000000000 <= 1 / 10000 ->
  at_step sub_hydro u s a = Ok b -> ends (fun why => why = AssertFail) (fun _ => True) (substep u s a).
Proof.
  intros u s a p on dt r b HY HI HR Eb.
  destruct (step_hydro u s a p on dt r b HY Eb) as (Er & S2 & M2 & vin & ro & on' & av & q & x & m & F1 & F2 & F3 & F4 & F5 & F6 & F7 & F8 & F9 & F10 & F11). specialize (F11 HI). subst x.
  destruct HY as (Eu & Es & _ & Edt & Hdt & HS & P & N & _).
  unfold substep. match goal with |- context [p_cum ?q] => change (p_cum q) with (p_cum (st_p s)); change (p_precip_prev q) with (p_precip_prev (st_p s)) end. cbv zeta.
  assert (C : p_cum (st_p s) = e_cum e) by (rewrite <- Es; reflexivity). rewrite C, (mass_of e HE H0 _ HS (start_measured _ P N)). cbn [bind]. unfold listCopy.
  unfold at_step in Eb. cbv zeta in Eb. rewrite Eb. cbn [bind]. rewrite (mass_of e HE H0 _ S2 M2). cbn [bind]. rewrite Er, F9.
  change (dabs (Fin m)) with (Fin (Rabs m)). change (lit (1 / 10000)) with (Fin (1 / 10000)). unfold dgtb at 1. rewrite ltb_f by lra.
  destruct (Str_head e _ HE S2) as (h & r' & -> & _). cbn [lget nth_error bind]. destruct (f_depth h >? Fin 0)%d; exact Logic.I || reflexivity.
Qed.

(** ** Motion in dry weather *)

Theorem dry_motion : forall qs dt precip aet head l' a' q aet1 l1, strata e qs -> Str e head -> heads_meet e head ->
  Forall phys head -> Forall (on_curve qs) head -> Forall (moves_down qs) head -> drier_downwards head -> Forall (fun f => val (f_depth f) <= top_of qs (e_nlayers e + 1)) head -> 0 <= dt -> 0 <= precip ->
  let wfd := wetting_front_free_drainage head in
  ~ move_tie e (Fin dt) (Fin precip) wfd (Fin (storage head)) (Fin aet) head head -> ~ move_degenerate e (Fin dt) (Fin precip) wfd (Fin (storage head)) (Fin aet) head head ->
  move_loop (length head) e (Fin dt) (Fin precip) wfd head (listLength head) head (Fin aet) = Ok (l1, Fin aet1) -> precip < aet1 ->
  lgar_move_wetting_fronts e (Fin dt) (Fin precip) wfd (Fin (storage head)) (Fin aet) head head = Ok (l', a', q) ->
  exists a2 q2 x, 0 <= x /\ a' = Fin a2 /\ q = Fin q2 /\
    Rabs (storage l' - (storage head + precip - a2 - q2)) <= Rmax (INR (length head) * tol + 3 * (aet - aet1)) (2 / 10000000000) + 2 * x /\
    (~ move_inverted e (Fin dt) (Fin precip) wfd (Fin (storage head)) (Fin aet) head head -> x = 0).
Proof.
  intros qs dt precip aet head l' a' q aet1 l1 HQ HS HMe P OC MD DD IN Hdt Hp wfd HT HD Q1 Ha E. destruct (profile_of e HE head HS) as [HP HR].
  destruct (dry_pass e qs dt precip aet head l1 aet1 HQ HP HR HMe OC MD DD IN Hdt Hp Ha Q1) as (_ & Hle & B).
  assert (N : Forall moving head) by (eapply Forall_impl; [|exact MD]; intros f (d & v & E1 & E2 & _); split; [exists d|exists v]; assumption).
  destruct (motion_balance (Fin dt) precip wfd (storage head) (Fin aet) head head l1 aet1 l' a' q HS P N (st_num _ _ HS) eq_refl ltac:(exists dt; reflexivity) HT HD Q1 E) as (a2 & q2 & x & Hx & E1 & E2 & B2 & _ & _ & _ & X).
  exists a2, q2, x. do 3 (split; [assumption|]). split; [|exact X]. eapply Rle_trans; [exact B2|]. apply Rplus_le_compat_r. apply Rle_max_compat_r.
  replace (storage l1 - (storage head + precip - aet1)) with ((storage l1 - (storage head + precip - aet)) - (aet - aet1)) by ring.
  eapply Rle_trans; [apply Rabs_triang|]. rewrite Rabs_Ropp, (Rabs_pos_eq (aet - aet1)) by lra. lra.
Qed.
End Motion.
