(** Motions and sub-steps whose pass leaves the fronts drier downwards (exact arithmetic). *)

From Coq Require Import Reals Lra ZArith List Bool Lia.
From Verif Require Import Outcome Dbl Exact Types ListOps Soil Fronts Infil Move State Update Lib Spec_Common Spec_Soil Spec_List Spec_Update Spec_Profile Spec_Storage Spec_Advance
  Spec_Physical Spec_Meet Spec_Motion Spec_Upright Pf_Dbl Pf_Pow Pf_Soil Pf_List Pf_Update Pf_Profile Pf_Structure Pf_Storage Pf_Merge Pf_Cross Pf_Repair Pf_SafeMove Pf_SafeUpdate Pf_Single Pf_SingleMerge Pf_Advance Pf_Physical Pf_Physical2
  Pf_Level Pf_Level2 Pf_Motion Pf_Motion2 Pf_Drier.
Import ListNotations.
Open Scope R_scope.

Section Drier.
Local Existing Instance exact.
Context {cfg : Cfg}.
Variables (e : env) (M : R).
Hypothesis HV : vg_column e.
Hypothesis HM : conducts_at_most M e.
Hypothesis HF : frozen_in_range e.
Hypothesis HE : sound_env e.
Hypothesis H0 : aget (e_cum e) 0 = Ok (Fin 0).
Notation phys := (phys e M).
Notation upright_profile := (upright_profile e M).

Lemma pass_profile : forall dt vin wfd aet head prev l1 a1, Str e head -> Forall phys head -> Forall moving head -> numbered prev -> length prev = length head -> finite dt ->
  move_loop (length head) e dt vin wfd prev (listLength head) head aet = Ok (l1, a1) -> ~ inverted l1 -> upright_profile l1.
Proof.
  intros dt vin wfd aet head prev l1 a1 HS P N HN HL Hdt Q NI.
  pose proof (ends_Ok _ _ _ _ _ (move_loop_ok e dt vin wfd prev HE HN Hdt (length head) head aet HS HL (le_n _)) Q) as [S1 _]. cbn [fst] in S1.
  assert (P1 : Forall phys l1) by exact (move_loop_phys e M HV _ _ _ _ _ _ _ _ _ _ P Q).
  assert (M1 : measured l1) by exact (pass_measured e M HV HE _ _ _ _ _ _ _ _ HS P N HN HL Hdt Q).
  destruct (profile_of e HE head HS) as [HP HR]. destruct (loop_advances e dt vin wfd prev head aet l1 a1 HE HP HR HN HL Hdt Q) as [_ G].
  split; [assumption|]. split; [assumption|]. split; [assumption|]. split; [apply (level_meet e M); assumption|apply (upright l1 M1); assumption].
Qed.

(** ** The stages of the motion *)

Theorem stages_calm : forall dt vin wfd old aet head prev (g : stages e dt vin wfd old aet head prev), Str e head -> Forall phys head -> Forall moving head -> numbered prev -> length prev = length head -> finite dt ->
  ~ move_tie e dt vin wfd old aet head prev -> ~ inverted (sg_pass _ _ _ _ _ _ _ _ g) ->
  ~ stages_degenerate _ _ _ _ _ _ _ _ g /\ ~ stages_inverted _ _ _ _ _ _ _ _ g /\ upright_profile (sg_left _ _ _ _ _ _ _ _ g).
Proof.
  intros dt vin wfd old aet head prev [l1 a1 l2 a2 q2 k1 mc1 k2 k3 k4 mc4 k5 D k6 q6 G1 G2 G3 G4 G5 G6 G7 G8 G9] HS P N HN HL Hdt HT NI. cbn [sg_pass sg_left] in *.
  pose proof (pass_profile _ _ _ _ _ _ _ _ HS P N HN HL Hdt G1 NI) as U1.
  assert (T1 : ~ cross_tie e l1) by (intro T; apply HT; exists l1, a1; split; [exact G1|left; exact T]).
  pose proof (closure_upright e M HV HM HF HE _ _ _ _ _ _ _ U1 T1 G2) as U2. pose proof (fix_upright e M _ _ _ _ U2 G3) as ->.
  pose proof (merge_upright e M HV HM HF HE _ _ U2 G4) as U3.
  assert (T2 : ~ cross_tie e k2). { intro T. apply HT. exists l1, a1. split; [exact G1|]. right. exists l2, a2, q2, l2, mc1, k2. auto. }
  pose proof (cross_upright e M HV HM HF HE _ _ U3 T2 G5) as U4. pose proof (fix_upright e M _ _ _ _ U4 G6) as ->.
  pose proof (merge_upright e M HV HM HF HE _ _ U4 G7) as U5.
  destruct (env_cum e (e_nlayers e) HE) as (d & Ed & _); [destruct HE; lia|]. pose proof G8 as G8'. rewrite Ed in G8'. apply Ok_inj in G8'. subst D.
  pose proof (domain_upright e M HV HM HF HE _ _ _ _ Ed U5 G9) as U6.
  split; [|split; [|exact U6]].
  - unfold stages_degenerate. cbn [sg_pass sg_closed sg_merged sg_merged2]. pose proof (cross_free e M HV HM HF HE l1 U1 T1). pose proof (cross_free e M HV HM HF HE k2 U3 T2).
    destruct U2 as (_ & _ & M2 & _). destruct U3 as (_ & _ & M3 & _). destruct U5 as (_ & _ & M5 & _). tauto.
  - unfold stages_inverted. cbn [sg_closed sg_crossed sg_left].
    assert (X : forall l, upright_profile l -> ~ inverted l) by (intros l (_ & _ & ML & _ & DL); apply (upright l ML); exact DL).
    pose proof (X _ U2). pose proof (X _ U4). pose proof (X _ U6). tauto.
Qed.

Lemma move_calm : forall dt vin wfd old aet head prev, Str e head -> Forall phys head -> Forall moving head -> numbered prev -> length prev = length head -> finite dt ->
  ~ move_tie e dt vin wfd old aet head prev -> pass_upright e dt vin wfd aet head prev ->
  ~ move_degenerate e dt vin wfd old aet head prev /\ ~ move_inverted e dt vin wfd old aet head prev.
Proof.
  intros dt vin wfd old aet head prev HS P N HN HL Hdt HT PU.
  split; intros (g & X); destruct (stages_calm dt vin wfd old aet head prev g HS P N HN HL Hdt HT) as (A & B & _); try tauto; destruct g as [l1 a1 ? ? ? ? ? ? ? ? ? ? ? ? ? G1]; cbn; exact (PU l1 a1 G1).
Qed.

Lemma move_upright : forall dt vin wfd old aet head prev l' a' q, Str e head -> Forall phys head -> Forall moving head -> numbered prev -> length prev = length head -> finite dt ->
  ~ move_tie e dt vin wfd old aet head prev -> pass_upright e dt vin wfd aet head prev ->
  lgar_move_wetting_fronts e dt vin wfd old aet head prev = Ok (l', a', q) -> upright_profile l'.
Proof.
  intros dt vin wfd old aet head prev l' a' q HS P N HN HL Hdt HT PU E. unfold lgar_move_wetting_fronts in E. bind_inv E z Ez. cbv zeta in E.
  bind_inv E x1 Q1. destruct x1 as [l1 a1]. bind_inv E x2 Q2. destruct x2 as [[l2 a2] fl2]. bind_inv E x3 Q3. destruct x3 as [[l3 fl3] mc]. bind_inv E l4 Q4. bind_inv E l5 Q5.
  apply Ok_inj in E. injection E as E1 E2 E3. subst l5.
  assert (Hne : head <> []) by (eapply Str_nonempty; eauto using se_n).
  assert (Q2' : closure e old vin l1 a1 = Ok (l2, a2, fl2)) by (destruct head; [contradiction|exact Q2]). clear Q2. rename Q2' into Q2.
  unfold merge_phases in Q3. bind_inv Q3 y1 G1. destruct y1 as [k1 mc1]. bind_inv Q3 k2 G2. bind_inv Q3 k3 G3.
  bind_inv Q3 y4 G4. destruct y4 as [k4 mc4]. bind_inv Q3 k5 G5. bind_inv Q3 D ED. bind_inv Q3 y6 G6. destruct y6 as [fl6 k6]. bind_inv Q3 y7 G7. destruct y7 as [k7 mc7].
  apply Ok_inj in Q3. injection Q3 as F1 F2 F3. subst l3 fl3 mc.
  pose (g := Build_stages e dt vin wfd old aet head prev l1 a1 l2 a2 fl2 k1 mc1 k2 k3 k4 mc4 k5 D k6 fl6 Q1 Q2 G1 G2 G3 G4 G5 ED G6).
  destruct (stages_calm dt vin wfd old aet head prev g HS P N HN HL Hdt HT (PU l1 a1 Q1)) as (_ & _ & U6). cbn [g sg_left] in U6. clear g.
  pose proof (fix_upright e M _ _ _ _ U6 G7) as ->. destruct U6 as (S6 & P6 & M6 & L6 & D6).
  pose proof (refresh_refreshed e k6 l4 Q4) as RF. assert (SL4 : Str e l4). { apply (Str_alike e k6); [|exact S6]. clear - RF. induction RF; constructor; auto using refreshed_alike. }
  pose proof (fix_single_idle e HE l4 l' SL4 Q5) as ->.
  split; [exact SL4|]. split; [exact (refresh_phys e M HV HM HF k6 l4 P6 Q4)|].
  split. { revert M6. apply refreshed_Forall; [|assumption]. intros f h (A1 & A2 & _) [C1 C2]. rewrite A1, A2. split; assumption. }
  split; [exact (level_sim _ _ (refresh_sim e M HV k6 l4 P6 Q4) L6)|].
  refine (dn_alike k6 l4 _ D6). clear - RF. induction RF as [|f h l l' (A1 & A2 & A3 & _) RF IH]; constructor; [|assumption]. split; assumption.
Qed.

Theorem upright_motion : forall dt vin wfd old aet head prev l1 a1 l' a' q, Str e head -> Forall phys head -> Forall moving head -> numbered prev -> length prev = length head -> finite dt ->
  ~ move_tie e dt (Fin vin) wfd (Fin old) aet head prev -> move_loop (length head) e dt (Fin vin) wfd prev (listLength head) head aet = Ok (l1, Fin a1) -> ~ inverted l1 ->
  lgar_move_wetting_fronts e dt (Fin vin) wfd (Fin old) aet head prev = Ok (l', a', q) ->
  exists s2 a2 q2 q3, balance_closed (old + vin - a1) (storage l1) a1 s2 a2 q2 /\ q = Fin (q2 + q3) /\ a' = Fin a2 /\ storage l' = s2 - q3 /\ upright_profile l'.
Proof.
  intros dt vin wfd old aet head prev l1 a1 l' a' q HS P N HN HL Hdt HT Q1 NI E.
  assert (PU : pass_upright e dt (Fin vin) wfd aet head prev) by (intros l a Q; rewrite Q1 in Q; apply Ok_inj in Q; apply pair_equal_spec in Q as [<- _]; exact NI).
  destruct (move_calm dt (Fin vin) wfd (Fin old) aet head prev HS P N HN HL Hdt HT PU) as [HD HI].
  assert (M1 : measured l1) by exact (pass_measured e M HV HE _ _ _ _ _ _ _ _ HS P N HN HL Hdt Q1).
  destruct (motion_ledger e M HV HM HF HE H0 _ _ _ _ _ _ _ _ _ _ _ _ HS P HN HL Hdt HT HD Q1 M1 E) as (s2 & a2 & q2 & q3 & x & A & B & C & D & F & G & _ & I & J & _).
  specialize (J HI). subst x. exists s2, a2, q2, q3. split; [exact A|]. split; [exact C|]. split; [rewrite D; destruct (Rlt_dec _ _); [lra|reflexivity]|].
  split; [|exact (move_upright _ _ _ _ _ _ _ _ _ _ HS P N HN HL Hdt HT PU E)].
  pose proof (Rabs_pos (storage l' - (s2 - q3))). assert (Z : Rabs (storage l' - (s2 - q3)) = 0) by lra. destruct (Req_EM_T (storage l' - (s2 - q3)) 0) as [|Ne]; [lra|]. apply Rabs_no_R0 in Ne. contradiction.
Qed.

(** ** The creation of a front *)

Lemma create_list_upright : forall s ff pond dry h r, upright_profile (h :: r) -> f_layer h = 1%Z -> not_negative pond -> finite dry ->
  soil_of e 1 = Ok s -> aget (e_frozen e) 1 = Ok ff -> val (f_theta h) < val (f_theta (surficial s ff pond dry (f_theta h))) -> upright_profile (surficial s ff pond dry (f_theta h) :: bump 1 (h :: r)).
Proof.
  intros s ff pond dry h r (HS & P & ML & L & D) Lh Np [dv Edv] Es Ef HW. inversion P as [|x0 y0 Ph Pr]; subst x0 y0. set (f := surficial s ff pond dry (f_theta h)) in *.
  assert (Pf : phys f).
  { apply (surficial_phys e M HV HM HF HE); try assumption. destruct (phys_within e M HV h s Ph) as (rr & te & a & n & m & k & t1 & V & Et & B); [rewrite Lh; exact Es|]. exists t1. destruct V. rewrite vg_r, vg_e. auto. }
  split; [apply insert_str; auto|]. split; [constructor; [exact Pf|unfold bump; apply Forall_map; eapply Forall_impl; [|exact P]; intros g Hg; apply phys_num; exact Hg]|].
  split; [constructor; [split; [exists dv; exact Edv|exact (phys_theta_finite e M HV HE f Pf)]|apply measured_bump; assumption]|].
  split.
  - intros [|i] c n Ec En B; [injection Ec as <-; discriminate|]. change (nth_error (bump 1 (h :: r)) i = Some c) in Ec. change (nth_error (bump 1 (h :: r)) (S i) = Some n) in En. rewrite nth_error_bump in Ec, En.
    destruct (nth_error (h :: r) i) as [c0|] eqn:E1; [|discriminate]. destruct (nth_error (h :: r) (S i)) as [n0|] eqn:E2; [|discriminate]. injection Ec as <-. injection En as <-. exact (L i c0 n0 E1 E2 B).
  - intros [|i] c n Ec En B.
    + injection Ec as <-. change (nth_error (bump 1 (h :: r)) 0 = Some n) in En. rewrite nth_error_bump in En. injection En as <-. exact HW.
    + change (nth_error (bump 1 (h :: r)) i = Some c) in Ec. change (nth_error (bump 1 (h :: r)) (S i) = Some n) in En. rewrite nth_error_bump in Ec, En.
      destruct (nth_error (h :: r) i) as [c0|] eqn:E1; [|discriminate]. destruct (nth_error (h :: r) (S i)) as [n0|] eqn:E2; [|discriminate]. injection Ec as <-. injection En as <-. exact (D i c0 n0 E1 E2 B).
Qed.

Lemma create_calm : forall pond dry h r, upright_profile (h :: r) -> f_layer h = 1%Z -> not_negative pond -> finite dry ->
  (forall s ff, soil_of e 1 = Ok s -> aget (e_frozen e) 1 = Ok ff -> val (f_theta h) < val (f_theta (surficial s ff pond dry (f_theta h)))) ->
  ~ create_tie e pond dry (f_theta h) (h :: r) -> ~ create_degenerate e pond dry (f_theta h) (h :: r).
Proof.
  intros pond dry h r U Lh Np Fd HW HT (s & ff & n & r0 & l1 & Es & Ef & EH & C & Q & D). injection EH as <- <-.
  pose proof (create_list_upright s ff pond dry h r U Lh Np Fd Es Ef (HW s ff Es Ef)) as U0. pose proof (merge_upright e M HV HM HF HE _ _ U0 Q) as U1.
  destruct D as [D|D]; [destruct U1 as (_ & _ & M1 & _); contradiction|]. apply (cross_free e M HV HM HF HE l1 U1); [|exact D].
  intro T. apply HT. exists s, ff, h, r, l1. auto 10.
Qed.

Lemma create_upright : forall pond dry h r l' w v, upright_profile (h :: r) -> f_layer h = 1%Z -> not_negative pond -> finite dry ->
  (forall s ff, soil_of e 1 = Ok s -> aget (e_frozen e) 1 = Ok ff -> val (f_theta h) < val (f_theta (surficial s ff pond dry (f_theta h)))) ->
  ~ create_tie e pond dry (f_theta h) (h :: r) -> lgar_create_surficial_front e pond dry (f_theta h) (h :: r) = Ok (l', w, v) -> upright_profile l'.
Proof.
  intros pond dry h r l' w v U Lh Np Fd HW HT E. unfold lgar_create_surficial_front in E. bind_inv E s Es. cbv zeta in E. bind_inv E z Ez. bind_inv E ff Ef.
  unfold listInsertFirst in E. bind_inv E l1 Q1. apply Ok_inj in E. apply pair_equal_spec in E as [E _]. apply pair_equal_spec in E as [<- _].
  pose proof (create_list_upright s ff pond dry h r U Lh Np Fd Es Ef (HW s ff Es Ef)) as U0. set (f := surficial s ff pond dry (f_theta h)) in *.
  change (set_dzdt _ _) with f in Q1. cbn [bump map] in Q1. change (f :: set_num h (f_num h + 1) :: map _ r) with (f :: bump 1 (h :: r)) in Q1.
  destruct (f_depth f >? _)%d eqn:C; [|apply Ok_inj in Q1; subst l1; exact U0]. bind_inv Q1 l2 Q2. pose proof (merge_upright e M HV HM HF HE _ _ U0 Q2) as U1.
  apply (cross_upright e M HV HM HF HE l2 l1 U1); [|exact Q1]. intro T. apply HT. exists s, ff, h, r, l2. auto 10.
Qed.

(** ** The sub-step *)

Lemma dzdt_upright : forall closed nint h l l', upright_profile l -> lgar_dzdt_calc e closed nint h l = Ok l' -> drier_downwards l' /\ level l'.
Proof.
  intros closed nint h l l' (HS & _ & _ & L & D) E. split; [|exact (dzdt_level e HE closed nint h l l' L HS E)]. apply dn_iff.
  unfold lgar_dzdt_calc in E. destruct l as [|c r]; [discriminate|].
  assert (R : forall f, In f (c :: r) -> (1 <= f_layer f <= e_nlayers e)%Z) by (intros f Hf; apply In_nth_error in Hf as [i Ei]; eapply Str_range; eassumption).
  pose proof (ends_Ok _ _ _ _ _ (dzdt_loop_ok e closed nint h (c :: r) HE R) E) as [F _]. refine (dn_alike _ _ _ D).
  clear - F. induction F as [|f g l l' B F IH]; constructor; [|assumption]. rewrite B. split; reflexivity.
Qed.

Theorem hydro_calm : forall u pp pr pe pc vo w old l, u_env u = e -> Str e l -> Forall phys l -> Forall moving l -> finite (u_dt u) -> not_negative (u_dt u) -> not_negative w ->
  ~ hydro_tie u pp pr pe pc vo w old l l -> hydro_upright u pp pr pe pc vo w old l l ->
  ~ hydro_degenerate u pp pr pe pc vo w old l l /\ ~ hydro_inverted u pp pr pe pc vo w old l l.
Proof.
  intros u pp pr pe pc vo w old l Eu HS P N Hdt Ndt Hw HT [HU1 HU2]. cbv zeta in HU1, HU2. rewrite Eu in HU1, HU2. set (wfd := wetting_front_free_drainage l) in *.
  assert (MT : forall vin aet, hydro_motion u pp pr pe pc vo w l l vin aet -> ~ move_tie e (u_dt u) vin wfd old aet l l).
  { intros vin aet HM0 T. apply HT. unfold hydro_tie. cbv zeta. destruct HM0 as (aet0 & create & Ea & Ec & HB). rewrite Eu in *. exists aet0, create. split; [exact Ea|]. split; [exact Ec|]. destruct create.
    - destruct HB as [-> ->]. left. exact T.
    - destruct HB as (b & Qb & -> & ->). exists b. split; [exact Qb|exact T]. }
  assert (MC : forall vin aet, hydro_motion u pp pr pe pc vo w l l vin aet -> ~ move_degenerate e (u_dt u) vin wfd old aet l l /\ ~ move_inverted e (u_dt u) vin wfd old aet l l).
  { intros vin aet HM0. exact (move_calm (u_dt u) vin wfd old aet l l HS P N (st_num _ _ HS) eq_refl Hdt (MT _ _ HM0) (HU1 _ _ HM0)). }
  split.
  - intros [(vin & aet & HM0 & D)|(aet & l2 & aet' & pd & dry & d & h & Ea & Ec & Q5 & Q6 & Q7 & D)]; rewrite Eu in *.
    + exact (proj1 (MC _ _ HM0) D).
    + assert (HM0 : hydro_motion u pp pr pe pc vo w l l (Fin 0) aet) by (exists aet, true; rewrite Eu; auto).
      pose proof (move_upright (u_dt u) (Fin 0) wfd old aet l l l2 aet' pd HS P N (st_num _ _ HS) eq_refl Hdt (MT _ _ HM0) (HU1 _ _ HM0) Q5) as U2. pose proof U2 as (S2 & P2 & _).
      destruct (Str_head e l2 HE S2) as (h' & r' & -> & Hh). pose proof Q7 as Q7'. cbn in Q7'. apply Ok_inj in Q7'. subst h'.
      pose proof (dry_finite e M HV HF HE _ _ _ _ _ _ S2 P2 Ndt Q6) as Fd.
      apply (create_calm w dry h r' U2 Hh Hw Fd); [|  |exact D].
      * intros s ff Es Ef. exact (HU2 aet (h :: r') aet' pd dry d h s ff Ea Ec Q5 Q6 Q7 Es Ef).
      * intro T. apply HT. unfold hydro_tie. rewrite Eu. exists aet, true. split; [exact Ea|]. split; [exact Ec|]. right. exists (h :: r'), aet', pd, dry, d, h. auto.
  - intros (vin & aet & HM0 & D). rewrite Eu in D. exact (proj2 (MC _ _ HM0) D).
Qed.

Theorem hydro_stays : forall u pp pr pe pc vo w old l b, u_env u = e -> Str e l -> Forall phys l -> Forall moving l -> finite (u_dt u) -> not_negative (u_dt u) -> not_negative w ->
  ~ hydro_tie u pp pr pe pc vo w old l l -> hydro_upright u pp pr pe pc vo w old l l -> sub_hydro u pp pr pe pc vo w old l l = Ok b ->
  drier_downwards (b_head b) /\ level (b_head b).
Proof.
  intros u pp pr pe pc vo w old l b Eu HS P N Hdt Ndt Hw HT [HU1 HU2] E. cbv zeta in HU1, HU2. rewrite Eu in HU1, HU2. set (wfd := wetting_front_free_drainage l) in *.
  unfold sub_hydro in E. cbv zeta in E. rewrite Eu in E.
  bind_inv E aet0 Ea. bind_inv E create Ec. bind_inv E b1 Q1. bind_inv E b2 Q2. bind_inv E b3 Q3. bind_inv E l4 Q4. apply Ok_inj in E. subst b. cbn [b_head].
  destruct create.
  - rewrite andb_false_r in Q2. apply Ok_inj in Q2, Q3. subst b2 b3.
    unfold sub_create in Q1. cbv zeta in Q1. rewrite Eu in Q1. bind_inv Q1 x2 Q5. destruct x2 as [[l2 a2] pd]. bind_inv Q1 x3 Q6. destruct x3 as [dry d]. bind_inv Q1 h Q7.
    bind_inv Q1 x4 Q8. destruct x4 as [[l3 w3] v3]. apply Ok_inj in Q1. subst b1.
    assert (HM0 : hydro_motion u pp pr pe pc vo w l l (Fin 0) aet0) by (exists aet0, true; rewrite Eu; auto).
    assert (T1 : ~ move_tie e (u_dt u) (Fin 0) wfd old aet0 l l).
    { intro T. apply HT. unfold hydro_tie. rewrite Eu. exists aet0, true. split; [exact Ea|]. split; [exact Ec|]. left. exact T. }
    pose proof (move_upright (u_dt u) (Fin 0) wfd old aet0 l l l2 a2 pd HS P N (st_num _ _ HS) eq_refl Hdt T1 (HU1 _ _ HM0) Q5) as U2. pose proof U2 as (S2 & P2 & _).
    destruct (Str_head e l2 HE S2) as (h' & r' & -> & Hh). pose proof Q7 as Q7'. cbn in Q7'. apply Ok_inj in Q7'. subst h'.
    pose proof (dry_finite e M HV HF HE _ _ _ _ _ _ S2 P2 Ndt Q6) as Fd.
    assert (T2 : ~ create_tie e w dry (f_theta h) (h :: r')).
    { intro T. apply HT. unfold hydro_tie. rewrite Eu. exists aet0, true. split; [exact Ea|]. split; [exact Ec|]. right. exists (h :: r'), a2, pd, dry, d, h. auto. }
    assert (U3 : upright_profile l3).
    { refine (create_upright w dry h r' l3 w3 v3 U2 Hh Hw Fd _ T2 Q8). intros s ff Es Ef. exact (HU2 aet0 (h :: r') a2 pd dry d h s ff Ea Ec Q5 Q6 Q7 Es Ef). }
    refine (dzdt_upright _ _ _ _ _ U3 _). match type of Q4 with context [sub_no_insert u ?bb] => assert (X : b_head (sub_no_insert u bb) = l3) by (unfold sub_no_insert; destruct (_ <? _)%d; reflexivity); rewrite X in Q4 end. exact Q4.
  - apply Ok_inj in Q1. subst b1. rewrite andb_true_r in Q2. cbn [b_ponded] in Q2.
    assert (G : b_head b2 = l /\ b_prev b2 = l).
    { destruct (w >? Fin 0)%d.
      - unfold sub_insert in Q2. cbn [b_aet b_ponded b_volin b_head b_prev b_rech] in Q2. bind_inv Q2 x Qx. destruct x as [[ro po] vv]. destruct (ro <? Fin 0)%d; [discriminate|]. apply Ok_inj in Q2. subst b2. auto.
      - apply Ok_inj in Q2. subst b2. unfold sub_no_insert. destruct (_ <? _)%d; auto. }
    destruct G as (B1 & B2). unfold sub_move in Q3. rewrite B1, B2, Eu in Q3. bind_inv Q3 x Q5. destruct x as [[l2 a2] re]. apply Ok_inj in Q3. subst b3. cbn [b_head] in *.
    assert (HM0 : hydro_motion u pp pr pe pc vo w l l (b_volin b2) (b_aet b2)) by (exists aet0, false; rewrite Eu; split; [exact Ea|]; split; [exact Ec|]; exists b2; auto).
    assert (T1 : ~ move_tie e (u_dt u) (b_volin b2) wfd old (b_aet b2) l l).
    { intro T. apply HT. unfold hydro_tie. rewrite Eu. exists aet0, false. split; [exact Ea|]. split; [exact Ec|]. exists b2. split; [exact Q2|exact T]. }
    pose proof (move_upright (u_dt u) (b_volin b2) wfd old (b_aet b2) l l l2 a2 re HS P N (st_num _ _ HS) eq_refl Hdt T1 (HU1 _ _ HM0) Q5) as U2.
    exact (dzdt_upright _ _ _ _ _ U2 Q4).
Qed.

(** The front created at the surface of an unsaturated column is wetter than the front below it. *)
Lemma surficial_wetter : forall s ff pond dry t te, s_theta_e s = Fin te -> t < te -> 0 < pond -> 0 < dry -> val (f_theta (surficial s ff (Fin pond) (Fin dry) (Fin t))) > t.
Proof.
  intros s ff pond dry t te Ee Ht Hp Hd. unfold surficial. cbv zeta. cbn [f_theta]. rewrite Ee. cbn [dsub dmul rnd exact]. destruct (_ >? _)%d; [|exact Ht].
  rewrite div_fin by lra. cbn [dadd rnd exact]. assert (0 < pond / dry) by (apply Rdiv_lt_0_compat; lra). cbn. unfold Rltb. repeat destruct (Rlt_dec _ _); cbn [val]; lra.
Qed.
End Drier.

Section SubStep.
Local Existing Instance exact.
Context {cfg : Cfg}.
Variables (e : env) (M : R).
Hypothesis HV : vg_column e.
Hypothesis HM : conducts_at_most M e.
Hypothesis HF : frozen_in_range e.
Hypothesis HE : sound_env e.

(** [steady] with the fronts drier downwards after the pass in place of the absence of divisions by zero. *)
Definition calm (u : upar) (s : state) (a : acc) (p on dt r : R) : Prop :=
  u_env u = e /\ env_of s = e /\ finite (u_pmax u) /\ u_dt u = Fin dt /\ 0 <= dt /\ Str e (st_head s) /\ Forall (phys e M) (st_head s) /\ Forall moving (st_head s) /\
  st_precip s = Fin p /\ a_on a = Fin on /\ 0 <= on /\ a_end a = Fin (storage (st_head s)) /\ ~ step_tie u s a /\ step_upright u s a /\ step_gap u s a r.

Lemma ponded_finite : forall u s a p on dt, u_dt u = Fin dt -> 0 <= dt -> st_precip s = Fin p -> a_on a = Fin on -> 0 <= on ->
  exists w, 0 <= w /\ (dfmax (st_precip s) (Fin 0) * mm_to_cm * u_dt u + a_on a)%d = Fin w.
Proof.
  intros u s a p on dt Edt Hdt Ep Eon Hon. exists (Rmax p 0 / 10 * dt + on). split.
  - pose proof (Rmax_r p 0). assert (0 <= Rmax p 0 / 10 * dt) by (apply Rmult_le_pos; lra). lra.
  - rewrite Ep, Edt, Eon, fmax_fin. change mm_to_cm with (Fin (1 / 10)). cbn. f_equal. field.
Qed.

Lemma calm_steady : forall u s a p on dt r, calm u s a p on dt r -> steady e M u s a p on dt r /\ ~ step_inverted u s a.
Proof.
  intros u s a p on dt r (Eu & Es & Fp & Edt & Hdt & HS & P & N & Ep & Eon & Hon & Eend & HT & HU & HG).
  destruct (ponded_finite u s a p on dt Edt Hdt Ep Eon Hon) as (w & Hw & Ew).
  assert (Fdt : finite (u_dt u)) by (exists dt; assumption). assert (Ndt : not_negative (u_dt u)) by (rewrite Edt; apply ltb_f; lra).
  assert (X : ~ step_degenerate u s a /\ ~ step_inverted u s a).
  { unfold step_tie in HT. unfold step_upright, at_step in HU. unfold step_degenerate, step_inverted, at_step. cbv zeta in *. rewrite Ew in *.
    apply (hydro_calm e M HV HM HF HE u); try assumption. apply ltb_f; lra. }
  destruct X as [X1 X2]. split; [|exact X2]. repeat (split; [assumption|]). exact HG.
Qed.

Lemma calm_stays : forall u s a p on dt r b, calm u s a p on dt r -> at_step sub_hydro u s a = Ok b -> drier_downwards (b_head b) /\ heads_meet e (b_head b).
Proof.
  intros u s a p on dt r b (Eu & Es & Fp & Edt & Hdt & HS & P & N & Ep & Eon & Hon & Eend & HT & HU & HG) E.
  destruct (ponded_finite u s a p on dt Edt Hdt Ep Eon Hon) as (w & Hw & Ew).
  assert (Fdt : finite (u_dt u)) by (exists dt; assumption). assert (Ndt : not_negative (u_dt u)) by (rewrite Edt; apply ltb_f; lra).
  unfold step_tie in HT. unfold step_upright, at_step in HU. unfold at_step in E. cbv zeta in *. rewrite Ew in *.
  assert (Nw : not_negative (Fin w)) by (apply ltb_f; lra).
  destruct (hydro_stays e M HV HM HF HE u _ _ _ _ _ _ _ _ b Eu HS P N Fdt Ndt Nw HT HU E) as [A B]. split; [exact A|]. apply (level_meet e M); [|exact B].
  exact (hydro_phys e M HV HM HF HE u _ _ _ _ _ _ _ _ b Eu HS Fdt Nw HT P E).
Qed.
End SubStep.
