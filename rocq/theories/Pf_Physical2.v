(** Sub-steps, Updates and histories keep the fronts physical (exact arithmetic). *)

From Coq Require Import Reals Lra ZArith List Bool Lia.
From RecordUpdate Require Import RecordSet.
From Verif Require Import Outcome Dbl Exact Types ListOps Soil Giuh Fronts Infil Move State Update Lib Spec_Common Spec_Soil Spec_List Spec_Update Spec_Profile Spec_Storage
  Spec_Physical Pf_Dbl Pf_Pow Pf_Soil Pf_Structure Pf_Cross Pf_Repair Pf_SingleMerge Pf_SafeMove Pf_SafeUpdate Pf_Update Pf_Surface Pf_SurfaceAny Pf_Signs Pf_Frozen Pf_Physical.
Import ListNotations.
Import RecordSetNotations.
Open Scope R_scope.

Section Steps.
Local Existing Instance exact.
Context {cfg : Cfg}.
Variables (e : env) (M : R).
Hypothesis HV : vg_column e.
Hypothesis HM : conducts_at_most M e.
Hypothesis HF : frozen_in_range e.
Hypothesis HE : sound_env e.
Notation phys := (phys e M).

Lemma move_phys : forall dt volin wfd old aet head prev l' aet' fl, Str e head -> numbered prev -> length prev = length head -> finite dt ->
  ~ move_tie e dt volin wfd old aet head prev -> Forall phys head ->
  lgar_move_wetting_fronts e dt volin wfd old aet head prev = Ok (l', aet', fl) -> Forall phys l'.
Proof.
  intros dt volin wfd old aet head prev l' aet' fl HS HN HL Hdt HT H E. unfold lgar_move_wetting_fronts in E. bind_inv E z Ez. cbv zeta in E.
  bind_inv E x1 Q1. destruct x1 as [l1 a1]. bind_inv E x2 Q2. destruct x2 as [[l2 a2] fl2]. bind_inv E x3 Q3. destruct x3 as [[l3 fl3] mc]. bind_inv E l4 Q4. bind_inv E l5 Q5.
  apply Ok_inj in E. injection E as <- _ _.
  assert (Hne : head <> []) by (eapply Str_nonempty; eauto using se_n).
  pose proof (ends_Ok _ _ _ _ _ (move_loop_ok e dt volin wfd prev HE HN Hdt (length head) head aet HS HL (le_n _)) Q1) as [S1 _]. cbn [fst] in S1.
  destruct head as [|c r]; [contradiction|].
  assert (P1 : Forall phys l1) by (eapply move_loop_phys; eassumption). assert (P2 : Forall phys l2) by (eapply closure_phys; eassumption).
  assert (T1 : ~ cross_tie e l1) by (intro T; apply HT; exists l1, a1; split; [exact Q1|left; exact T]).
  pose proof (ends_Ok _ _ _ _ _ (closure_ok e old volin l1 a1 HE S1 T1) Q2) as S2. cbn [fst] in S2.
  assert (P3 : Forall phys l3).
  { eapply merge_phases_phys; try eassumption. intros (y2 & mc2 & y3 & A & B & T). apply HT. exists l1, a1. split; [exact Q1|]. right.
    exists l2, a2, fl2, y2, mc2, y3. auto. }
  eapply fix_single_phys; [|exact Q5]. eapply refresh_phys; eassumption.
Qed.

(** The new front: its water content lies between that of the surface and saturation. *)
Lemma fits_range : forall dry te t1 ponded r, r <= t1 <= te -> not_negative ponded -> dgtb (dry * (Fin te - Fin t1)) ponded = true ->
  exists t, dfmin (Fin t1 + ponded / dry)%d (Fin te) = Fin t /\ r <= t <= te.
Proof.
  intros dry te t1 ponded r B N G. change (Fin te - Fin t1)%d with (Fin (te - t1)) in G. unfold not_negative in N.
  destruct dry as [d| | |], ponded as [w| | |]; cbn in G, N; unfold dgtb, dltb, Rltb in *; try discriminate.
  - destruct (Rlt_dec w (d * (te - t1))); [|discriminate]. destruct (Rlt_dec w 0) as [|Nw]; [discriminate|]. assert (0 < d) by nra.
    cbn. destruct (Req_EM_T d 0); [lra|]. assert (0 <= w / d) by (apply Rmult_le_pos; [lra|left; apply Rinv_0_lt_compat; lra]). cbn. unfold dfmin. cbn. unfold Rltb.
    repeat destruct (Rlt_dec _ _); eexists; (split; [reflexivity|lra]).
  - exists t1. cbn. unfold dfmin. cbn. rewrite Rplus_0_r. unfold Rltb. repeat destruct (Rlt_dec _ _); (split; [try reflexivity; f_equal; lra|lra]).
  - destruct (inf_sign _); discriminate.
  - unfold inf_sign, Rltb in G. destruct (Rlt_dec 0 (te - t1)); [discriminate|]. destruct (Rlt_dec (te - t1) 0); [lra|discriminate].
  - destruct (dopp _); discriminate.
Qed.

Lemma create_phys : forall ponded dry h r l' w v, phys h -> f_layer h = 1%Z -> Forall phys (h :: r) -> not_negative ponded ->
  lgar_create_surficial_front e ponded dry (f_theta h) (h :: r) = Ok (l', w, v) -> Forall phys l'.
Proof.
  intros ponded dry h r l' w v Ph Hl H Np E. unfold lgar_create_surficial_front in E. bind_inv E s Es. cbv zeta in E. bind_inv E z Ez. bind_inv E ff Ef.
  unfold listInsertFirst in E. bind_inv E l1 Q1. apply Ok_inj in E. injection E as <- _ _.
  destruct (phys_within e M HV h s Ph) as (rr & te & a & n & m & k & t1 & V & Et & B); [rewrite Hl; exact Es|].
  set (th := if (_ >? _)%d then _ else _) in Q1.
  assert (Bt : exists t, th = Fin t /\ rr <= t <= te).
  { unfold th. rewrite Et. pose proof V as V'. destruct V'. rewrite vg_e. destruct (dry * (Fin te - Fin t1) >? ponded)%d eqn:C; [|exists te; split; [reflexivity|lra]].
    eapply fits_range; [exact B|exact Np|exact C]. }
  destruct Bt as (t & Ht & Bt). rewrite Ht in Q1. clearbody th.
  assert (R1 : (1 <= 1 <= e_nlayers e)%Z) by (destruct HE; lia).
  destruct (frozen_get e HF 1%Z ff R1 Ef) as (x & -> & Bx).
  destruct (conduct_from e M HM s rr te a n m k t x 1%Z V Bt R1 Es Bx) as [(K & EK & BK) _].
  destruct (head_from s rr te a n m k t V Bt) as [A C].
  match type of Q1 with context [?x0 :: bump 1 (h :: r)] => set (f := x0) in Q1 end.
  assert (Pf : phys f).
  { unfold f. split; [exact R1|]. split; [exact A|]. split; [exists s; split; [exact Es|exact C]|]. cbn [f_K set_dzdt set_K]. rewrite EK.
    exists (K * x). split; [reflexivity|]. split; [nra|]. nra. }
  assert (PB : Forall phys (f :: bump 1 (h :: r))).
  { constructor; [exact Pf|]. unfold bump. apply Forall_map. eapply Forall_impl; [|exact H]. intros g Hg. apply phys_num. exact Hg. }
  cbn [bump map] in Q1, PB. clear Ez. destruct (f_depth f >? _)%d; [|apply Ok_inj in Q1; subst l1; exact PB].
  bind_inv Q1 l2 Q2. eapply cross_phys; [exact HV|exact HM|exact HF| |exact Q1]. eapply merge_phys; [exact HV|exact HM|exact HF|exact PB|exact Q2].
Qed.

Lemma dzdt_phys : forall closed nint h l l', Forall phys l -> Str e l -> lgar_dzdt_calc e closed nint h l = Ok l' -> Forall phys l'.
Proof.
  intros closed nint h l l' H HS E. unfold lgar_dzdt_calc in E. destruct l as [|c r]; [congruence|].
  assert (R : forall f, In f (c :: r) -> (1 <= f_layer f <= e_nlayers e)%Z) by (intros f Hf; apply In_nth_error in Hf as [i Ei]; eapply Str_range; eassumption).
  pose proof (ends_Ok _ _ _ _ _ (dzdt_loop_ok e closed nint h (c :: r) HE R) E) as [F _].
  clear - F H. induction F as [|f g l l' B F IH]; [constructor|]. inversion H; subst. constructor; [|auto]. rewrite B. apply (phys_but e M f); auto.
Qed.

Lemma insert_head : forall u wfd rate b b', sub_insert u wfd rate b = Ok b' -> b_head b' = b_head b /\ b_prev b' = b_prev b.
Proof. intros u wfd rate b b' E. unfold sub_insert in E. bind_inv E x Ex. destruct x as [[ro po] vo]. destruct (_ <? _)%d; [discriminate|]. apply Ok_inj in E. subst b'. auto. Qed.
Lemma no_insert_head : forall u b, b_head (sub_no_insert u b) = b_head b /\ b_prev (sub_no_insert u b) = b_prev b.
Proof. intros u b. unfold sub_no_insert. destruct (_ <? _)%d; auto. Qed.

Lemma hydro_phys : forall u pp pr pe pc vo po ve l b, u_env u = e -> Str e l -> finite (u_dt u) -> not_negative po -> ~ hydro_tie u pp pr pe pc vo po ve l l ->
  Forall phys l -> sub_hydro u pp pr pe pc vo po ve l l = Ok b -> Forall phys (b_head b).
Proof.
  intros u pp pr pe pc vo po ve l b Eu HS Hdt Npo HT H E. assert (E0 := E). unfold sub_hydro in E. cbv zeta in E. rewrite Eu in E.
  bind_inv E aet Ea. bind_inv E create Ec. bind_inv E b1 Q1. bind_inv E b2 Q2. bind_inv E b3 Q3. bind_inv E l4 Q4. apply Ok_inj in E. subst b. cbn [b_head].
  assert (G : Forall phys (b_head b3) /\ Str e (b_head b3)); [|destruct G as [G1 G2]; eapply dzdt_phys; eassumption].
  destruct create.
  - rewrite andb_false_r in Q2. apply Ok_inj in Q2, Q3. subst b2 b3. destruct (no_insert_head u b1) as [-> _].
    unfold sub_create in Q1. cbv zeta in Q1. rewrite Eu in Q1. bind_inv Q1 x2 Q5. destruct x2 as [[l1 a1] pd]. bind_inv Q1 x3 Q6. destruct x3 as [dry d]. bind_inv Q1 h Q7.
    bind_inv Q1 x4 Q8. destruct x4 as [[l2 w] v]. apply Ok_inj in Q1. subst b1. cbn [b_head].
    assert (T1 : ~ move_tie e (u_dt u) (Fin 0) (wetting_front_free_drainage l) ve aet l l).
    { intro T. apply HT. unfold hydro_tie. rewrite Eu. exists aet, true. split; [exact Ea|]. split; [exact Ec|]. left. exact T. }
    assert (P1 : Forall phys l1) by (eapply move_phys; try eassumption; [apply HS|reflexivity]).
    pose proof (ends_Ok _ _ _ _ _ (move_ok e (u_dt u) (Fin 0) (wetting_front_free_drainage l) ve aet l l HE HS (st_num _ _ HS) eq_refl Hdt T1) Q5) as S1. cbn [fst] in S1.
    destruct (Str_head e l1 HE S1) as (h' & r & -> & Hh). cbn in Q7. apply Ok_inj in Q7. subst h'.
    assert (T2 : ~ create_tie e po dry (f_theta h) (h :: r)).
    { intro T. apply HT. unfold hydro_tie. rewrite Eu. exists aet, true. split; [exact Ea|]. split; [exact Ec|]. right. exists (h :: r), a1, pd, dry, d, h. auto. }
    split.
    + eapply (create_phys po dry h r); try eassumption. inversion P1; assumption.
    + exact (ends_Ok _ _ _ _ _ (create_ok e po dry (f_theta h) (h :: r) HE S1 T2) Q8).
  - apply Ok_inj in Q1. subst b1. rewrite andb_true_r in Q2. cbn [b_ponded] in Q2.
    assert (B : b_head b2 = l /\ b_prev b2 = l).
    { destruct (po >? Fin 0)%d; [apply insert_head in Q2; exact Q2|]. apply Ok_inj in Q2. subst b2. apply no_insert_head. }
    destruct B as [B1 B2]. unfold sub_move in Q3. rewrite B1, B2, Eu in Q3. bind_inv Q3 x Q5. destruct x as [[l1 a1] re]. apply Ok_inj in Q3. subst b3. cbn [b_head].
    assert (T1 : ~ move_tie e (u_dt u) (b_volin b2) (wetting_front_free_drainage l) ve (b_aet b2) l l).
    { intro T. apply HT. unfold hydro_tie. rewrite Eu. exists aet, false. split; [exact Ea|]. split; [exact Ec|]. exists b2. split; [exact Q2|exact T]. }
    split; [eapply move_phys; try eassumption; [apply HS|reflexivity]|].
    exact (ends_Ok _ _ _ _ _ (move_ok e (u_dt u) (b_volin b2) (wetting_front_free_drainage l) ve (b_aet b2) l l HE HS (st_num _ _ HS) eq_refl Hdt T1) Q5).
Qed.

Lemma substep_phys : forall u s a s' a', u_env u = e -> env_of s = e -> Str e (st_head s) -> finite (u_dt u) -> not_negative (u_dt u) -> not_negative (a_on a) ->
  ~ step_tie u s a -> Forall phys (st_head s) -> substep u s a = Ok (s', a') -> Forall phys (st_head s').
Proof.
  intros u s a s' a' Eu Es HS Hdt Ndt Na HT H E.
  destruct (substep_inv _ _ _ _ _ E) as (vs & b & ve & mbl & precip & pet & prate & petr & K1 & K2 & K3 & K4 & _ & Eh & _ & _ & _ & -> & _).
  cbn. eapply hydro_phys; try exact Eh; try assumption; unfold listCopy in *.
  - apply nn_add; [|assumption]. subst. apply nn_mul; [|assumption]. apply nn_mul; [apply nn_fmax0|apply nn_lit; lra].
  - intro T. apply HT. unfold step_tie. subst. exact T.
Qed.

Lemma runs_phys : forall u s a xs s' a', runs u s a xs s' a' -> u_env u = e -> finite (u_dt u) -> not_negative (u_dt u) -> not_negative (u_pmax u) ->
  Forall (fun x => ~ step_tie u (x_s x) (x_a x)) xs -> env_of s = e -> Str e (st_head s) -> acc_nn a -> Forall phys (st_head s) ->
  Forall phys (st_head s') /\ Forall (fun x => Forall phys (st_head (x_s' x))) xs.
Proof.
  intros u s a xs s' a' HR Eu Hdt Ndt Npm. induction HR as [s a|s a s1 a1 xs s2 a2 HS HR IH]; intros HT EV H Na P; [auto|].
  inversion HT as [|x y T1 T2]; subst x y. cbn [x_s x_a] in T1. assert (HE' := HE). rewrite <- Eu in HE', H, EV.
  pose proof (ends_Ok _ _ _ _ _ (substep_ok u s a HE' EV H Hdt T1) HS) as (A & B & _). cbn [fst] in A, B. rewrite Eu in A, B, EV, H.
  assert (P1 : Forall phys (st_head s1)) by (eapply (substep_phys u s a); try eassumption; apply Na).
  destruct (IH T2 A B (substep_nn _ _ _ _ _ Ndt Npm HS Na) P1) as [I1 I2]. split; [exact I1|]. constructor; assumption.
Qed.
End Steps.
