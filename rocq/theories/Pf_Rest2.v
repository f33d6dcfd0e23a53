(** A sub-step without rain in a column with one resting front per layer, all at one head. *)

From Coq Require Import Reals Lra ZArith List Bool Lia.
From RecordUpdate Require Import RecordSet.
From Verif Require Import Outcome Dbl Exact Types ListOps Soil Fronts Infil Move State Update Lib Spec_Common Spec_List Spec_Soil Spec_Update Spec_Profile Spec_Column Spec_Storage Spec_Velocity Spec_Balance Spec_Advance Spec_Shares
  Spec_Physical Spec_Meet Spec_Motion Spec_Upright Spec_Geff Spec_Layered Spec_Rest
  Pf_Dbl Pf_Pow Pf_Soil Pf_List Pf_Update Pf_Profile Pf_Structure Pf_SafeMove Pf_Storage Pf_Single Pf_Aet Pf_Shares Pf_Books Pf_Physical Pf_Physical2 Pf_Motion Pf_Layered Pf_Layered2 Pf_Rest.
Import ListNotations RecordSetNotations.
Open Scope R_scope.
Local Existing Instance exact.

Section Step.
Context {cfg : Cfg}.
Variables (e : env) (M : R) (qs : list part).
Hypothesis HL : layers M qs e.
Let HE := la_env _ _ _ HL.
Let HV := la_soils _ _ _ HL.
Let HQ := la_strata _ _ _ HL.

(** ** The demand *)
Lemma demand_rest : forall wilting fc h l pet dt, hydrostatic qs h l -> rooting wilting fc -> 0 <= dt ->
  exists D, (if (Fin pet >? Fin 0)%d then calc_aet e (Fin pet) (Fin dt) wilting fc l else Ok (Fin 0)) = Ok (Fin D) /\ 0 <= D <= Rmax pet 0 * dt /\ (pet <= 0 -> D = 0).
Proof.
  intros wilting fc h l pet dt H (wp & fh & -> & -> & Hw & Hf & Hs) Hdt. unfold dgtb. destruct (Rle_dec pet 0) as [P|P].
  - rewrite ltb_f by assumption. exists 0. split; [reflexivity|]. rewrite Rmax_right by assumption. split; [lra|auto].
  - rewrite ltb_t by lra. assert (HH := H). apply (hs_iff qs) in HH as (H0 & LQ & HF). destruct l as [|c r]; [exfalso; exact (hs_nonempty e qs HQ h [] H eq_refl)|].
    destruct (HF 0%nat c eq_refl) as (q & Eq & Lc & _ & _ & _ & Pc & _). destruct (soil_at e qs HQ 1 q ltac:(lia) Eq) as (s & ks & Es & V). pose proof V as V'. destruct V'.
    destruct (half_head (pt_r q) (pt_e q) (pt_a q) (pt_n q) (pt_m q) fh wp ltac:(lra) ltac:(lra) ltac:(lra) ltac:(lra) Hf Hw Hs) as (h5 & H5 & E5).
    assert (Es' : soil_of e (f_layer c) = Ok s) by (rewrite Lc; exact Es).
    rewrite (aet_is e s _ _ _ _ _ ks c r pet dt wp fh h h5 Es' V Pc H0 Hw Hf ltac:(lra) Hdt H5 E5).
    eexists. split; [reflexivity|]. rewrite Rmax_left by lra. split; [|intro; lra].
    unfold reduced_demand. assert (0 <= pet * dt) by (apply Rmult_le_pos; lra).
    assert (Q : 0 <= h / h5) by (apply Rmult_le_pos; [assumption|left; apply Rinv_0_lt_compat; assumption]).
    pose proof (pow_le (h / h5) 3 Q). set (z := 1 + (h / h5) ^ 3). assert (Hz : 1 <= z) by (unfold z; lra).
    assert (0 < / z) by (apply Rinv_0_lt_compat; lra). assert (/ z <= 1) by (rewrite <- Rinv_1; apply Rinv_le_contravar; lra). split; [apply Rmult_le_pos; [assumption|lra]|].
    rewrite <- (Rmult_1_r (pet * dt)) at 2. apply Rmult_le_compat_l; assumption.
Qed.

(** ** Velocities *)
Lemma dzdt_rest : forall closed nint hp h l, hydrostatic qs h l -> Forall (phys e M) l -> lgar_dzdt_calc e closed nint hp l = Ok l.
Proof.
  intros closed nint hp h l H P. assert (NE := hs_nonempty e qs HQ h l H). apply (hs_iff qs) in H as (_ & _ & HF).
  assert (G : forall l k, (forall i f, nth_error l i = Some f -> hs_front qs h (k + i) f) -> Forall (phys e M) l -> dzdt_loop e closed nint hp l = Ok l).
  { clear l P NE HF. induction l as [|c r IH]; intros k HF P; [reflexivity|]. apply Forall_cons_iff in P as [(R & _ & _ & K & EK & HK) P]. cbn [dzdt_loop].
    destruct (HF 0%nat c eq_refl) as (q & Eq & Lc & Bc & Vc & _). rewrite EK, ltb_f by lra. destruct (env_soil e _ HE R) as (s & Es). destruct (env_frozen e _ HE R) as (ff & Ef). rewrite Es, Ef. cbn [bind].
    destruct r as [|n r]; [reflexivity|]. rewrite Bc. cbn [bind]. rewrite (IH (S k)); [|intros i f E; replace (S k + i)%nat with (k + S i)%nat by lia; exact (HF (S i) f E)|exact P]. cbn [bind].
    replace (set_dzdt c (Fin 0)) with c by (rewrite <- Vc; destruct c; reflexivity). reflexivity. }
  unfold lgar_dzdt_calc. destruct l; [contradiction|]. exact (G _ 0%nat HF P).
Qed.

Lemma rest_seated : forall h l, hydrostatic qs h l -> Forall (seated e) l.
Proof.
  intros h l H. assert (HH := H). apply (hs_iff qs) in HH as (_ & LQ & HF). apply Forall_forall. intros f Hf. apply In_nth_error in Hf as [i Hi]. assert (i < length l)%nat by (apply nth_error_Some; congruence).
  destruct (HF i f Hi) as (q & Eq & L & _ & _ & D & P & _). split; [exists h; exact P|]. exists (top_of qs (Z.of_nat (S i))). split; [rewrite L; apply (strata_cum e qs HQ); rewrite (strata_n e qs HQ); lia|].
  rewrite D. cbn [val]. pose proof (strata_pos e qs HQ _ _ Eq). lra.
Qed.

(** ** The water movements *)
Section Hydro.
Variables (u : upar) (pp vo prate petr pc w : dbl) (h old D dt pm : R) (l : list front).
Hypothesis Eu : u_env u = e.
Hypothesis Edt : u_dt u = Fin dt.
Hypothesis Epm : u_pmax u = Fin pm.
Hypothesis Hpm : 0 <= pm.
Hypothesis HH : hydrostatic qs h l.
Hypothesis HS : Str e l.
Hypothesis Epc : pc = Fin 0.
Hypothesis Ew : w = Fin 0.
Hypothesis ED : (if (petr >? Fin 0)%d then calc_aet e petr (Fin dt) (u_wilting u) (u_fc u) l else Ok (Fin 0)) = Ok (Fin D).
Hypothesis HD : 0 <= D.

Lemma no_create : create_decision e l pp pc vo = Ok false.
Proof.
  subst pc. unfold create_decision. assert (HH' := HH). apply (hs_iff qs) in HH' as (_ & _ & HF). destruct l as [|c r]; [exfalso; exact (hs_nonempty e qs HQ h [] HH eq_refl)|]. cbn [lget nth_error bind].
  destruct (HF 0%nat c eq_refl) as (q & Eq & Lc & _). destruct (soil_at e qs HQ 1 q ltac:(lia) Eq) as (s & ks & Es & V). rewrite Lc. change (Z.of_nat 1) with 1%Z. rewrite Es. cbn [bind]. cbv zeta.
  unfold dgtb at 2. rewrite ltb_f by lra. rewrite andb_false_r. destruct (_ || _)%bool; reflexivity.
Qed.
Let start := mkSub l l (Fin D) w (Fin 0) (Fin 0) (Fin 0) (Fin 0).
Lemma no_water : sub_no_insert u start = mkSub l l (Fin D) (Fin 0) (Fin 0) (Fin 0) (Fin 0) (Fin 0).
Proof.
  unfold start, sub_no_insert. rewrite Ew, Epm. cbn [b_ponded b_head b_prev b_aet b_volin b_rech]. destruct (Rlt_dec 0 pm) as [P|P]; [rewrite ltb_t by assumption; reflexivity|]. rewrite ltb_f by lra.
  assert (Z : pm = 0) by lra. rewrite Z. cbn [dsub rnd exact]. replace (0 - 0) with 0 by ring. reflexivity.
Qed.
Let body : (if (w >? Fin 0)%d then sub_insert u (wetting_front_free_drainage l) prate start else Ok (sub_no_insert u start)) = Ok (mkSub l l (Fin D) (Fin 0) (Fin 0) (Fin 0) (Fin 0) (Fin 0)).
Proof. rewrite Ew. unfold dgtb. rewrite ltb_f by lra. rewrite no_water. reflexivity. Qed.

Lemma hydro_is : Forall (phys e M) l -> conducts_at_most M e -> frozen_in_range e ->
  let run := lgar_move_wetting_fronts e (Fin dt) (Fin 0) (listLength l) (Fin old) (Fin D) l l in
  sub_hydro u pp prate petr pc vo w (Fin old) l l =
  ('(l', a', q) <- run ;; l'' <- lgar_dzdt_calc e (u_closed u) (u_nint u) (Fin 0) l' ;; Ok (mkSub l'' l a' (Fin 0) (Fin 0) (Fin 0) (Fin 0) q)).
Proof.
  intros P HM HF run. unfold sub_hydro. rewrite Eu, Edt, ED. cbn [bind]. cbv zeta. rewrite no_create. cbn [bind b_ponded negb]. rewrite andb_true_r. fold start. rewrite body. cbn [bind].
  unfold sub_move. cbn [b_head b_prev b_aet b_volin b_ponded b_runoff b_on b_rech]. rewrite Eu, Edt, (hs_wfd e qs HQ h l HH). fold run. destruct run as [[[l' a'] q]|r]; [|reflexivity]. cbn [bind b_head b_prev b_aet b_volin b_ponded b_runoff b_on b_rech]. reflexivity.
Qed.

Lemma motion_is : forall vin aet, hydro_motion u pp prate petr pc vo w l l vin aet -> vin = Fin 0 /\ aet = Fin D.
Proof.
  intros vin aet (a0 & cr & E1 & E2 & E3). rewrite Eu in E1, E2. rewrite Edt, ED in E1. apply Ok_inj in E1. subst a0. rewrite no_create in E2. apply Ok_inj in E2. subst cr.
  destruct E3 as (b & Eb & -> & ->). fold start in Eb. rewrite body in Eb. apply Ok_inj in Eb. subst b. split; reflexivity.
Qed.
Lemma motion_here : hydro_motion u pp prate petr pc vo w l l (Fin 0) (Fin D).
Proof.
  exists (Fin D), false. rewrite Eu, Edt. split; [exact ED|]. split; [exact no_create|]. fold start. rewrite body. eexists. split; [reflexivity|]. split; reflexivity.
Qed.
Lemma no_tie : ~ hydro_tie u pp prate petr pc vo w (Fin old) l l.
Proof.
  intros (a0 & cr & E1 & E2 & E3). rewrite Eu in E1, E2. rewrite Edt, ED in E1. apply Ok_inj in E1. subst a0. rewrite no_create in E2. apply Ok_inj in E2. subst cr.
  destruct E3 as (b & Eb & T). fold start in Eb. rewrite body in Eb. apply Ok_inj in Eb. subst b. cbn [b_volin b_aet] in T. rewrite Eu, Edt, (hs_wfd e qs HQ h l HH) in T.
  exact (proj1 (proj2 (move_rest e qs HQ (Fin dt) old h l D ltac:(eexists; reflexivity) HH HS (top_1 qs) HD)) T).
Qed.
Lemma all_upright : hydro_upright u pp prate petr pc vo w (Fin old) l l.
Proof.
  split.
  - intros vin aet HM. destruct (motion_is vin aet HM) as [-> ->]. rewrite Eu, Edt, (hs_wfd e qs HQ h l HH).
    exact (proj1 (proj2 (proj2 (move_rest e qs HQ (Fin dt) old h l D ltac:(eexists; reflexivity) HH HS (top_1 qs) HD)))).
  - intros aet l0 a0 pd dry d hh s ff _ E. rewrite Eu, no_create in E. discriminate.
Qed.
End Hydro.

(** ** The sub-step *)
Section Sub.
Variables (u : upar) (s : state) (a : acc) (p dt pm pet h : R).
Hypothesis PL : placed e M u s a p 0 dt pm.
Hypothesis Hp : p <= 0.
Hypothesis Epet : st_pet s = Fin pet.
Hypothesis HR : rooting (u_wilting u) (u_fc u).
Hypothesis HH : hydrostatic qs h (st_head s).

Theorem rest_substep :
  match substep u s a with
  | Ok (s', a') => exists h' B, rest_step qs h h' u (mkStep s a s' a') B /\ undisturbed u (mkStep s a s' a') /\ off_by u s a B /\ st_pet s' = Fin (Rmax pet 0)
  | Stop why => why = OutOfFuel \/ why = Abort \/ why = AssertFail /\ column_water qs h <= 0
  end /\
  (pet <= 0 -> 0 < column_water qs h -> exists s' a', substep u s a = Ok (s', a') /\ hydrostatic qs h (st_head s') /\
     a_aet a' = (a_aet a + Fin 0)%d /\ a_rech a' = (a_rech a + Fin 0)%d /\ a_in a' = (a_in a + Fin 0)%d /\ a_runoff a' = (a_runoff a + Fin 0)%d /\ a_on a' = Fin 0 /\
     a_end a' = a_end a /\ residual (mkStep s a s' a') = Fin 0).
Proof.
  pose proof PL as (Eu & Es & Epm & Hpm & Edt & Hdt & HG & O & Ep & Eon & _ & Eend). set (l := st_head s) in *.
  pose proof (orderly_str e M qs HL l O) as HS. pose proof (orderly_phys e M qs HL l O) as P. pose proof (orderly_measured e M qs HL l O) as ME.
  pose proof (hs_storage qs h l HH) as EW.
  assert (C0 := top_zero e M qs HL).
  assert (C : p_cum (st_p s) = e_cum e) by (rewrite <- Es; reflexivity).
  assert (Epr : (dfmax (st_precip s) (Fin 0) * mm_to_cm)%d = Fin 0). { rewrite Ep, fmax_fin, Rmax_right by assumption. change mm_to_cm with (Fin (1 / 10)). cbn. f_equal. field. }
  assert (Epe : (dfmax (st_pet s) (Fin 0) * mm_to_cm)%d = Fin (Rmax pet 0 / 10)). { rewrite Epet, fmax_fin. change mm_to_cm with (Fin (1 / 10)). cbn. f_equal. field. }
  assert (Epc : (Fin 0 * u_dt u)%d = Fin 0) by (rewrite Edt; cbn; f_equal; ring).
  assert (Ew : (Fin 0 * u_dt u + a_on a)%d = Fin 0) by (rewrite Epc, Eon; cbn; f_equal; ring).
  assert (Ev : clean_volon (a_on a) = Fin 0). { rewrite Eon. unfold clean_volon. rewrite fmax_fin, Rmax_left by lra. destruct (_ >? _)%d; reflexivity. }
  destruct (demand_rest (u_wilting u) (u_fc u) h l (Rmax pet 0 / 10) dt HH HR ltac:(lra)) as (D & ED & [D0 D1] & DZ).
  assert (ND : pet <= 0 -> D = 0). { intro Hpet. apply DZ. rewrite Rmax_right by assumption. lra. }
  assert (D2 : 0 <= D <= Rmax pet 0 / 10 * dt). { split; [exact D0|]. pose proof (Rmax_r pet 0). rewrite Rmax_left in D1 by lra. exact D1. }
  pose proof (hydro_is u (p_precip_prev (st_p s)) (Fin 0) (Fin 0) (Fin (Rmax pet 0 / 10)) (Fin 0) (Fin 0) h (storage l) D dt pm l Eu Edt Epm Hpm HH HS eq_refl eq_refl ED P (la_most _ _ _ HL) (la_frozen _ _ _ HL)) as HI. cbv zeta in HI.
  destruct (move_rest e qs HQ (Fin dt) (storage l) h l D ltac:(eexists; reflexivity) HH HS (top_1 qs) D0) as (MR & MT & _ & MZ). cbv zeta in MR, MZ.
  assert (AT : forall (A : Type) (Q : upar -> dbl -> dbl -> dbl -> dbl -> dbl -> dbl -> dbl -> list front -> list front -> A), at_step Q u s a = Q u (p_precip_prev (st_p s)) (Fin 0) (Fin (Rmax pet 0 / 10)) (Fin 0) (Fin 0) (Fin 0) (Fin (storage l)) l l).
  { intros A Q. unfold at_step. cbv zeta. rewrite Epr, Epe, Epc, Ev, Eend. replace (Fin 0 + a_on a)%d with (Fin 0) by (rewrite Eon; cbn; f_equal; ring). reflexivity. }
  assert (NT : ~ step_tie u s a).
  { change (~ at_step hydro_tie u s a). rewrite AT. exact (no_tie u _ (Fin 0) (Fin 0) (Fin (Rmax pet 0 / 10)) (Fin 0) (Fin 0) h (storage l) D dt pm l Eu Edt Epm Hpm HH HS eq_refl eq_refl ED D0). }
  assert (UP : step_upright u s a).
  { unfold step_upright. rewrite AT. exact (all_upright u _ (Fin 0) (Fin 0) (Fin (Rmax pet 0 / 10)) (Fin 0) (Fin 0) h (storage l) D dt pm l Eu Edt Epm Hpm HH HS eq_refl eq_refl ED D0). }
  assert (AS : at_step sub_hydro u s a = sub_hydro u (p_precip_prev (st_p s)) (Fin 0) (Fin (Rmax pet 0 / 10)) (Fin 0) (Fin 0) (Fin 0) (Fin (storage l)) l l) by apply AT.
  (* the body of the sub-step after the water movements *)
  assert (BODY : match at_step sub_hydro u s a with
     | Ok b => forall v h0, lgar_calc_mass_bal (e_cum e) (b_head b) = Ok v -> lget (b_head b) 0 = Ok h0 -> (f_depth h0 >? Fin 0)%d = true ->
         if (dabs (local_balance (Fin (storage l)) (Fin 0) (Fin 0) (b_runoff b) (b_aet b) (b_on b) (b_rech b) v) >? lit (1 / 10000))%d then substep u s a = Stop Abort
         else exists x, substep u s a = Ok x
     | Stop r => substep u s a = Stop r end).
  { unfold substep. match goal with |- context [p_cum ?q] => change (p_cum q) with (p_cum (st_p s)); change (p_precip_prev q) with (p_precip_prev (st_p s)) end. cbv zeta. fold l.
    rewrite C, (mass_of e HE C0 _ HS ME), Epr, Epe, Epc, Ev, Eend. unfold listCopy. replace (Fin 0 + a_on a)%d with (Fin 0) by (rewrite Eon; cbn; f_equal; ring). cbn [bind]. rewrite AS.
    destruct (sub_hydro _ _ _ _ _ _ _ _ _ _) as [b|r]; [|reflexivity]. intros v h0 EV Eh Hh. cbn [bind]. rewrite EV. cbn [bind]. destruct (_ >? lit _)%d; [reflexivity|].
    rewrite Eh. cbn [bind]. unfold cassert. rewrite Hh. cbn [bind]. eexists. reflexivity. }
  assert (VEL : forall h' l', hydrostatic qs h' l' -> Forall (phys e M) l' -> lgar_dzdt_calc e (u_closed u) (u_nint u) (Fin 0) l' = Ok l') by (intros h' l'; apply dzdt_rest).
  assert (PHY : forall l' a' q, lgar_move_wetting_fronts e (Fin dt) (Fin 0) (listLength l) (Fin (storage l)) (Fin D) l l = Ok (l', a', q) -> Forall (phys e M) l').
  { intros l' a' q E. exact (move_phys e M HV (la_most _ _ _ HL) (la_frozen _ _ _ HL) HE (Fin dt) (Fin 0) _ _ _ l l l' a' q HS (st_num _ _ HS) eq_refl ltac:(eexists; reflexivity) MT P E). }
  assert (TOP : forall h' l', hydrostatic qs h' l' -> exists h0, lget l' 0 = Ok h0 /\ (f_depth h0 >? Fin 0)%d = true).
  { intros h' l' H'. assert (NE := hs_nonempty e qs HQ h' l' H'). apply (hs_iff qs) in H' as (_ & _ & HF'). destruct l' as [|c r]; [contradiction|]. exists c. split; [reflexivity|].
    destruct (HF' 0%nat c eq_refl) as (q & Eq & _ & _ & _ & D' & _). rewrite D'. unfold dgtb. apply ltb_t. change (Z.of_nat 1) with 1%Z. rewrite (top_1 qs). pose proof (strata_pos e qs HQ _ _ Eq). lra. }
  rewrite HI in AS. rewrite AS in BODY. clear HI.
  split.
  - destruct (lgar_move_wetting_fronts _ _ _ _ _ _ _ _) as [[[l' a'] q]|r] eqn:EM.
    + destruct MR as (h' & l1 & av & a2 & q2 & ML & H1 & Hh & DR & -> & -> & H2 & S2 & _). cbn [bind] in AS, BODY. rewrite (VEL h' l' H2 (PHY _ _ _ eq_refl)) in AS, BODY. cbn [bind b_head b_runoff b_aet b_on b_rech] in AS, BODY.
      destruct (TOP h' l' H2) as (h0 & T1 & T2). specialize (BODY _ h0 (mass_of e HE C0 _ S2 (hs_measured qs h' l' H2)) T1 T2). destruct (_ >? lit _)%d in BODY; [rewrite BODY; right; left; reflexivity|].
      destruct (substep u s a) as [[s' a']|why] eqn:ES.
      * destruct (substep_inv _ _ _ _ _ ES) as (vs & b & ve & mbl & precip & pe & prate & petr & K1 & K2 & K3 & K4 & K5 & Eh & K6 & K7 & _ & E1 & E2).
        assert (Eb : at_step sub_hydro u s a = Ok b) by (unfold at_step; cbv zeta; rewrite <- K1, <- K2, <- K3; exact Eh). rewrite AS in Eb. apply Ok_inj in Eb. subst b. cbn [b_head b_prev b_aet b_volin b_ponded b_runoff b_on b_rech] in *.
        assert (Hs' : st_head s' = l') by (rewrite E1; reflexivity).
        set (r := column_water qs h' - (storage l + 0 - av)).
        assert (GAP : step_gap u s a r).
        { unfold step_gap. rewrite AT. exists 0, (Fin D), l1, av. split; [exact (motion_here u _ (Fin 0) (Fin 0) (Fin (Rmax pet 0 / 10)) (Fin 0) (Fin 0) h D dt pm l Eu Edt Epm Hpm HH HS eq_refl eq_refl ED)|].
          rewrite Eu, Edt, (hs_wfd e qs HQ h l HH). split; [exact ML|]. cbn [val]. rewrite (hs_storage qs h' l1 H1). reflexivity. }
        assert (MET : step_met u s a 0 D av).
        { unfold step_met. rewrite AT. split; [exact (motion_here u _ (Fin 0) (Fin 0) (Fin (Rmax pet 0 / 10)) (Fin 0) (Fin 0) h D dt pm l Eu Edt Epm Hpm HH HS eq_refl eq_refl ED)|]. exists l1. rewrite Eu, Edt, (hs_wfd e qs HQ h l HH). exact ML. }
        exists h', (Rmax (Rabs r) (2 / 10000000000)). split; [|split; [|split]].
        -- constructor; cbn [x_s x_a x_s' x_a']; [exact HH|rewrite Hs'; exact H2|exact Hh|rewrite E2; reflexivity|rewrite E2; reflexivity|rewrite E2; reflexivity|].
           exists pet, dt, D, av, r. split; [exact Epet|]. split; [exact Edt|]. split; [exact MET|]. split; [exact GAP|]. split; [reflexivity|]. split; [exact D2|].
           assert (T0 : 0 <= tol) by (unfold tol; lra). unfold r. rewrite EW. unfold dry_result in DR. destruct DR as [[X ->]|[X ->]].
           ++ split; [lra|]. replace (column_water qs h' - (column_water qs h + 0 - D)) with (column_water qs h' - (column_water qs h - D)) by ring. lra.
           ++ split; [lra|]. set (x := column_water qs h' - (column_water qs h - D)) in *.
              replace (column_water qs h' - (column_water qs h + 0 - (D - (Rabs x - tol)))) with (x - (Rabs x - tol)) by (unfold x; ring).
              unfold Rabs in *. destruct (Rcase_abs x), (Rcase_abs (x - _)); lra.
        -- unfold undisturbed. cbn [x_s x_a x_s' x_a']. rewrite Hs', Eu. split; [exact NT|]. split; [exact UP|]. exact (rest_seated h' l' H2).
        -- apply off_gap. exact GAP.
        -- rewrite E1. cbn. rewrite Epet, fmax_fin. reflexivity.
      * destruct BODY as [x X]. discriminate X.
    + cbn [bind] in BODY. rewrite BODY. destruct MR as [->|[-> X]]; [left; reflexivity|right; right]. split; [reflexivity|]. rewrite <- EW. exact X.
  - intros Hpet HW. specialize (ND Hpet). destruct (MZ ND EW) as (l' & EM & H2 & S2); [rewrite EW; exact HW|].
    rewrite ND in *. rewrite EM in AS, BODY. cbn [bind] in AS, BODY. rewrite (VEL h l' H2 (PHY _ _ _ EM)) in AS, BODY. cbn [bind b_head b_runoff b_aet b_on b_rech] in AS, BODY.
    destruct (TOP h l' H2) as (h0 & T1 & T2). specialize (BODY _ h0 (mass_of e HE C0 _ S2 (hs_measured qs h l' H2)) T1 T2).
    assert (LB : local_balance (Fin (storage l)) (Fin 0) (Fin 0) (Fin 0) (Fin 0) (Fin 0) (Fin 0) (Fin (storage l')) = Fin 0). { rewrite (hs_storage qs h l' H2), EW. cbn. f_equal. ring. }
    rewrite LB in BODY. change (dabs (Fin 0)) with (Fin (Rabs 0)) in BODY. rewrite Rabs_R0 in BODY. unfold dgtb in BODY. change (lit (1 / 10000)) with (Fin (1 / 10000)) in BODY. rewrite ltb_f in BODY by lra.
    destruct BODY as [[s' a'] ES]. exists s', a'. split; [exact ES|].
    destruct (substep_inv _ _ _ _ _ ES) as (vs & b & ve & mbl & precip & pe & prate & petr & K1 & K2 & K3 & K4 & K5 & Eh & K6 & K7 & _ & E1 & E2).
    assert (Eb : at_step sub_hydro u s a = Ok b) by (unfold at_step; cbv zeta; rewrite <- K1, <- K2, <- K3; exact Eh). rewrite AS in Eb. apply Ok_inj in Eb. subst b. cbn [b_head b_prev b_aet b_volin b_ponded b_runoff b_on b_rech] in *.
    rewrite C in K5, K6. fold l in K5. rewrite (mass_of e HE C0 _ HS ME) in K5. rewrite (mass_of e HE C0 _ S2 (hs_measured qs h l' H2)) in K6. apply Ok_inj in K5, K6. subst vs ve.
    rewrite K3, K1, Epr, Epc, Ev, LB in K7. rewrite E2. cbn [a_aet a_rech a_in a_runoff a_on a_end]. split; [rewrite E1; exact H2|]. do 5 (split; [reflexivity|]).
    split; [rewrite Eend, (hs_storage qs h l' H2), EW; reflexivity|]. unfold residual. cbn [x_s']. rewrite E1, K7. reflexivity.
Qed.
End Sub.
End Step.
