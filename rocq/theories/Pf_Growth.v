(** No routine but the creation of a surficial front lengthens the list, and an Update creates at most one. *)

From Coq Require Import Reals Lra ZArith List Bool Lia.
From Verif Require Import Outcome Dbl Types ListOps Soil Fronts Infil Move State Update Lib Pf_Dbl Pf_Pow Pf_List Spec_Common Spec_List Spec_Update Spec_Growth Pf_Update.
Import ListNotations.
Open Scope dbl_scope.

Section Growth.
Context {fp : Fp} {cfg : Cfg}.

Lemma delete_length : forall num l l' q, listDeleteFront num l = Ok (l', q) -> (S (length l') = length l)%nat.
Proof.
  intros num l l' q H. unfold listDeleteFront in H. destruct (pos_of num l) as [i|] eqn:E; [|discriminate]. cbv zeta in H. apply Ok_inj in H. apply pair_equal_spec in H as [<- _].
  assert (i < length l)%nat. { clear - E. revert i E. induction l as [|a l IH]; intros i E; cbn in E; [discriminate|]. destruct (_ =? _)%Z; [injection E as <-; cbn; lia|].
    destruct (pos_of num l) as [j|]; [|discriminate]. injection E as <-. specialize (IH j eq_refl). cbn. lia. }
  rewrite app_length, bump_length, firstn_length, skipn_length. lia.
Qed.

Lemma merge_step_length : forall e p l l', merge_step e p l = Ok l' -> (length l' <= length l)%nat.
Proof.
  intros e p l l' H. unfold merge_step in H. bind_inv H c Ec. bind_inv H n En. destruct (_ && _)%bool; [|apply Ok_inj in H; subst; lia].
  bind_inv H nn Enn. cbv zeta in H. bind_inv H x Ex. bind_inv H s Es. bind_inv H ff Ef. bind_inv H y Ey. destruct y as [l1 q]. apply Ok_inj in H. subst l1.
  apply delete_length in Ey. rewrite lset_length in Ey. lia.
Qed.

Lemma merge_length : forall e l l', lgar_merge_wetting_fronts e l = Ok l' -> (length l' <= length l)%nat.
Proof.
  intros e l l' H. unfold lgar_merge_wetting_fronts in H. revert H. generalize (S (length l)) as k, 0%nat as p. intro k. revert l.
  induction k as [|k IH]; intros l p H; [discriminate|]. cbn [merge_loop] in H. destruct (_ =? _)%Z; [apply Ok_inj in H; subst; lia|].
  bind_inv H l1 E. apply merge_step_length in E. apply IH in H. lia.
Qed.

Lemma cross_step_length : forall e p l l', cross_step e p l = Ok l' -> length l' = length l.
Proof.
  intros e p l l' H. unfold cross_step in H. bind_inv H c Ec. bind_inv H s Es. bind_inv H ff Ef. bind_inv H n En. bind_inv H ck Ek.
  destruct (_ && _)%bool; [|apply Ok_inj in H; subst; reflexivity]. cbv zeta in H. bind_inv H s2 Es2. bind_inv H nn Enn. bind_inv H k1 Ek1. apply Ok_inj in H. subst.
  rewrite !lset_length. reflexivity.
Qed.

Lemma cross_length : forall e l l', lgar_wetting_fronts_cross_layer_boundary e l = Ok l' -> length l' = length l.
Proof.
  intros e l l' H. unfold lgar_wetting_fronts_cross_layer_boundary in H. revert H. generalize (S (length l)) as k, 0%nat as p. intro k. revert l.
  induction k as [|k IH]; intros l p H; [discriminate|]. cbn [cross_loop] in H. destruct (_ =? _)%Z; [apply Ok_inj in H; subst; reflexivity|].
  bind_inv H l1 E. apply cross_step_length in E. apply IH in H. congruence.
Qed.

Lemma domain_length : forall e d l fl l', lgar_wetting_front_cross_domain_boundary e d l = Ok (fl, l') -> (length l' <= length l)%nat.
Proof.
  intros e d l fl l' H. destruct l as [|f r]; [apply Ok_inj in H; injection H as _ <-; reflexivity|]. cbn [lgar_wetting_front_cross_domain_boundary] in H.
  revert H. generalize (f :: r) as l. intro l. generalize (length l - 1)%nat as k. generalize 0%nat as p. intros p k. revert p. induction k as [|k IH]; intros p H; cbn [domain_loop] in H.
  - apply Ok_inj in H. injection H as _ <-. reflexivity.
  - destruct (_ >=? _)%Z; [apply Ok_inj in H; injection H as _ <-; reflexivity|]. bind_inv H c Ec. bind_inv H t Et. bind_inv H n En.
    destruct (nth_error l (S (S p))); [exact (IH _ H)|]. destruct (_ >=? _); [|exact (IH _ H)]. cbv zeta in H. bind_inv H s Es. bind_inv H ff Ef. bind_inv H y Ey. destruct y as [l1 q].
    apply Ok_inj in H. injection H as _ <-. apply delete_length in Ey. rewrite lset_length in Ey. lia.
Qed.

Lemma fix_above_length : forall e k psi l l', fix_above e k psi l = Ok l' -> length l' = length l.
Proof.
  intros e k psi l. induction l as [|c r IH]; intros l' H; cbn [fix_above] in H; [discriminate|]. destruct (_ <? _)%Z; [|apply Ok_inj in H; subst; reflexivity].
  bind_inv H s Es. bind_inv H r' Er. apply Ok_inj in H. subst. cbn [length]. f_equal. auto.
Qed.

Lemma fix_pair_length : forall e c l l' q dm, fix_pair e c l = Ok (l', q, dm) -> (length l' <= length l)%nat.
Proof.
  intros e c l l' q dm H. unfold fix_pair in H. cbv zeta in H. bind_inv H b Eb. bind_inv H y Ey. destruct y as [l1 [q1|]]; [|discriminate]. apply delete_length in Ey.
  bind_inv H l2 Q2. bind_inv H a Ea. apply Ok_inj in H. injection H as <- _ _. destruct (_ >? _)%Z in Q2; [|apply Ok_inj in Q2; subst; lia].
  bind_inv Q2 cur Ecur. bind_inv Q2 s Es. apply fix_above_length in Q2. rewrite lset_length in Q2. lia.
Qed.

Lemma fix_length : forall e mc l l' mc', lgar_fix_dry_over_wet_wetting_fronts e mc l = Ok (l', mc') -> (length l' <= length l)%nat.
Proof.
  intros e mc l l' mc' H. destruct l as [|f r]; [discriminate|]. cbn [lgar_fix_dry_over_wet_wetting_fronts] in H. revert H. generalize (f :: r) as l. intro l.
  generalize (S (length l)) as k, 1%Z as i, 0%nat as p. intro k. revert l mc. induction k as [|k IH]; intros l mc i p H; [discriminate|]. cbn [fix_loop] in H.
  destruct (_ <=? _)%Z; [|apply Ok_inj in H; injection H as <- _; lia].
  destruct (nth_error l p); [|apply Ok_inj in H; injection H as <- _; lia]. destruct (nth_error l (S p)); [|apply Ok_inj in H; injection H as <- _; lia].
  destruct (dry_over_wet _ _); [|exact (IH _ _ _ _ H)]. bind_inv H y Ey. destruct y as [[l1 q] dm]. apply fix_pair_length in Ey. apply IH in H. lia.
Qed.

Lemma check_fix_length : forall e l mc l' mc', check_and_fix e l mc = Ok (l', mc') -> (length l' <= length l)%nat.
Proof.
  intros e l mc l' mc' H. unfold check_and_fix in H. bind_inv H b Eb. destruct b; [exact (fix_length _ _ _ _ _ H)|apply Ok_inj in H; injection H as <- _; lia].
Qed.

Lemma phases_length : forall e l l' fl mc, merge_phases e l = Ok (l', fl, mc) -> (length l' <= length l)%nat.
Proof.
  intros e l l' fl mc H. unfold merge_phases in H. bind_inv H y1 Q1. destruct y1 as [l1 m1]. bind_inv H l2 Q2. bind_inv H l3 Q3. bind_inv H y4 Q4. destruct y4 as [l4 m4].
  bind_inv H l5 Q5. bind_inv H col Ec. bind_inv H y6 Q6. destruct y6 as [f6 l6]. bind_inv H y7 Q7. destruct y7 as [l7 m7]. apply Ok_inj in H. injection H as <- _ _.
  apply check_fix_length in Q1, Q4, Q7. apply merge_length in Q2, Q5. apply cross_length in Q3. apply domain_length in Q6. lia.
Qed.

Lemma move_one_length : forall e dt pr wfd prev nf wf l aet l' aet', move_one e dt pr wfd prev nf wf l aet = Ok (l', aet') -> length l' = length l.
Proof.
  intros e dt pr wfd prev nf wf l aet l' aet' H. unfold move_one in H. cbv zeta in H. destruct (findFrontOld wf l prev) as [lo po]. destruct (findFrontOld (wf + 1) l prev) as [lno pno].
  destruct (findFront wf l) as [p|]; [|discriminate]. bind_inv H c Ec. bind_inv H s Es. bind_inv H x Ex. bind_inv H below Eb.
  destruct (_ && negb _)%bool. { bind_inv H n En. apply Ok_inj in H. injection H as <- _. apply lset_length. }
  destruct (_ && negb _ && _)%bool.
  { bind_inv H o Eo. bind_inv H base Eba. bind_inv H y Ey. destruct y as [th a]. apply Ok_inj in H. injection H as <- _. apply lset_length. }
  destruct (_ && _)%bool; [|apply Ok_inj in H; injection H as <- _; reflexivity].
  bind_inv H n En. bind_inv H o Eo. destruct (f_layer c =? 1)%Z.
  - bind_inv H no Eno. bind_inv H col Ecol. destruct (_ && negb _)%bool; [apply Ok_inj in H; injection H as <- _; apply lset_length|].
    destruct (_ <? _); [|apply Ok_inj in H; injection H as <- _; apply lset_length]. bind_inv H z1 Q1. bind_inv H z2 Q2. destruct z2. bind_inv H z3 Q3. discriminate.
  - bind_inv H no' Eno'. bind_inv H no Eno. bind_inv H base Eba. bind_inv H y Ey. destruct y as [th a]. apply Ok_inj in H. injection H as <- _. apply lset_length.
Qed.

Lemma move_loop_length : forall k e dt pr wfd prev nf l aet l' aet', move_loop k e dt pr wfd prev nf l aet = Ok (l', aet') -> length l' = length l.
Proof.
  induction k as [|k IH]; intros e dt pr wfd prev nf l aet l' aet' H; cbn [move_loop] in H; [apply Ok_inj in H; injection H as <- _; reflexivity|].
  bind_inv H y Ey. destruct y as [l1 a1]. apply move_one_length in Ey. apply IH in H. congruence.
Qed.

Lemma closure_loop_length : forall k e p target l mass err factor dn sw aug iter l' err' g,
  closure_loop k e p target l mass err factor dn sw aug iter = Ok (l', err', g) -> length l' = length l.
Proof.
  induction k as [|k IH]; intros e p target l mass err factor dn sw aug iter l' err' g H; cbn [closure_loop] in H;
    (destruct (_ >? _) in H; [|apply Ok_inj in H; injection H as <- _ _; reflexivity]).
  - apply Ok_inj in H. injection H as <- _ _. reflexivity.
  - cbv zeta in H. destruct (if mass <? target then _ else _) as [[d1 s1] f1] in H. bind_inv H fr Efr. bind_inv H dn2 Edn. bind_inv H m Em. apply IH in H. rewrite lset_length in H. exact H.
Qed.

Lemma closure_length : forall e om pr l aet l' aet' b, closure e om pr l aet = Ok (l', aet', b) -> length l' = length l.
Proof.
  intros e om pr l aet l' aet' b H. unfold closure in H. bind_inv H l1 Q1. apply cross_length in Q1. cbv zeta in H. bind_inv H s Es. bind_inv H x Ex.
  destruct (findFront _ l1) as [p|]; [|discriminate]. bind_inv H fr Efr. destruct (_ <? _); [|apply Ok_inj in H; injection H as <- _ _; exact Q1].
  bind_inv H m Em. bind_inv H y Ey. destruct y as [[l2 err] g]. apply closure_loop_length in Ey. destruct g.
  - bind_inv H m2 Em2. apply Ok_inj in H. injection H as <- _ _. congruence.
  - apply Ok_inj in H. injection H as <- _ _. congruence.
Qed.

Lemma refresh_length : forall e l l', refresh_psi e l = Ok l' -> length l' = length l.
Proof.
  intros e l. induction l as [|c [|n r] IH]; intros l' H; [discriminate|apply Ok_inj in H; subst; reflexivity|]. cbn [refresh_psi] in H.
  bind_inv H c' Ec. bind_inv H r' Er. apply Ok_inj in H. subst. cbn [length]. f_equal. apply IH. exact Er.
Qed.

Lemma move_length : forall e dt volin wfd om aet head prev l' aet' b,
  lgar_move_wetting_fronts e dt volin wfd om aet head prev = Ok (l', aet', b) -> (length l' <= length head)%nat.
Proof.
  intros e dt volin wfd om aet head prev l' aet' b H. unfold lgar_move_wetting_fronts in H. bind_inv H x Ex. cbv zeta in H. bind_inv H y1 Q1. destruct y1 as [l1 a1].
  bind_inv H y2 Q2. destruct y2 as [[l2 a2] b2]. bind_inv H y3 Q3. destruct y3 as [[l3 f3] m3]. bind_inv H l4 Q4. bind_inv H l5 Q5. apply Ok_inj in H. injection H as <- _ _.
  apply move_loop_length in Q1. apply phases_length in Q3. apply refresh_length in Q4.
  assert (length l2 = length l1). { destruct head; [apply Ok_inj in Q2; injection Q2 as <- _ _; reflexivity|exact (closure_length _ _ _ _ _ _ _ _ Q2)]. }
  assert (length l5 = length l4). { unfold fix_single in Q5. destruct l4 as [|c [|? ?]]; try (apply Ok_inj in Q5; subst; reflexivity). bind_inv Q5 d Ed. apply Ok_inj in Q5. subst. reflexivity. }
  lia.
Qed.

Lemma create_length : forall e ponded dry th head l' pd v, lgar_create_surficial_front e ponded dry th head = Ok (l', pd, v) -> (length l' <= S (length head))%nat.
Proof.
  intros e ponded dry th head l' pd v H. unfold lgar_create_surficial_front in H. cbv zeta in H. bind_inv H s Es. bind_inv H x Ex. bind_inv H ff Ef. bind_inv H l E.
  apply Ok_inj in H. injection H as <- _ _. unfold listInsertFirst in E. assert (L : length (bump 1 head) = length head) by apply bump_length.
  destruct (bump 1 head) as [|n r]; [apply Ok_inj in E; subst; cbn [length] in *; lia|]. destruct (_ >? _) in E; [|apply Ok_inj in E; subst; cbn [length] in *; lia].
  bind_inv E l1 Q1. apply merge_length in Q1. apply cross_length in E. cbn [length] in *. lia.
Qed.

Lemma dzdt_length : forall e cl ni h l l', lgar_dzdt_calc e cl ni h l = Ok l' -> length l' = length l.
Proof.
  intros e cl ni h l l' H. unfold lgar_dzdt_calc in H. destruct l as [|f r]; [discriminate|]. revert l' H. generalize (f :: r) as l. induction l as [|c rest IH]; intros l' H; cbn [dzdt_loop] in H.
  - apply Ok_inj in H. subst. reflexivity.
  - destruct (_ <? _); [discriminate|]. bind_inv H x1 Q1. bind_inv H x2 Q2. destruct rest as [|n r']; [apply Ok_inj in H; subst; reflexivity|].
    bind_inv H v Ev. bind_inv H rest' Er. apply Ok_inj in H. subst. cbn [length]. f_equal. apply IH. exact Er.
Qed.

(** Whether rain has just begun. *)
Definition onset (prev precip : dbl) : bool := (prev =? Fin 0) && (precip >? Fin 0).

Lemma hydro_length : forall u pp prate petr precip volon ponded volend head prev b,
  sub_hydro u pp prate petr precip volon ponded volend head prev = Ok b ->
  (length (b_head b) <= length head + (if onset pp precip then 1 else 0))%nat.
Proof.
  intros u pp prate petr precip volon ponded volend head prev b H. unfold sub_hydro in H. cbv zeta in H. bind_inv H aet Ea. bind_inv H create Ec.
  assert (C : create = true -> onset pp precip = true).
  { intros ->. unfold create_decision in Ec. bind_inv Ec h Eh. bind_inv Ec s Es. cbv zeta in Ec. apply Ok_inj in Ec. destruct (_ || _)%bool; [discriminate|exact Ec]. }
  bind_inv H b1 Q1. bind_inv H b2 Q2. bind_inv H b3 Q3. bind_inv H l El. apply Ok_inj in H. subst b. cbn [b_head]. apply dzdt_length in El.
  assert (B2 : b_head b2 = b_head b1).
  { destruct (_ && _)%bool in Q2.
    - unfold sub_insert in Q2. bind_inv Q2 y Ey. destruct y as [[r0 p0] v0]. destruct (_ <? _) in Q2; [discriminate|]. apply Ok_inj in Q2. subst. reflexivity.
    - apply Ok_inj in Q2. subst. unfold sub_no_insert. destruct (_ <? _); reflexivity. }
  destruct create.
  - rewrite C by reflexivity. apply Ok_inj in Q3. subst b3. unfold sub_create in Q1. cbv zeta in Q1. bind_inv Q1 y Ey. destruct y as [[l1 a1] p1]. bind_inv Q1 z Ez. destruct z as [dry del].
    bind_inv Q1 h Eh. bind_inv Q1 w Ew. destruct w as [[l2 p2] v2]. apply Ok_inj in Q1. subst b1. cbn [b_head] in *. apply move_length in Ey. apply create_length in Ew. rewrite B2 in El. lia.
  - apply Ok_inj in Q1. subst b1. cbn [b_head] in *. unfold sub_move in Q3. bind_inv Q3 y Ey. destruct y as [[l1 a1] r1]. apply Ok_inj in Q3. subst b3. cbn [b_head] in *. apply move_length in Ey. rewrite B2 in Ey. lia.
Qed.

(** The rain of a sub-step. *)
Definition fall (u : upar) (s : state) : dbl := dfmax (st_precip s) (Fin 0) * mm_to_cm * u_dt u.

Lemma dfmax_twice : forall x, dfmax (dfmax x (Fin 0)) (Fin 0) = dfmax x (Fin 0).
Proof.
  assert (Z : dltb (Fin 0) (Fin 0) = false) by (apply ltb_f; lra). intro x. destruct x as [r| | |]; cbn [dfmax]; try (rewrite Z; reflexivity); try reflexivity.
  - destruct (dltb (Fin r) (Fin 0)) eqn:E; cbn [dfmax]; [rewrite Z|rewrite E]; reflexivity.
  - destruct (dltb NInf (Fin 0)) eqn:E; cbn [dfmax]; [rewrite Z|rewrite E]; reflexivity.
Qed.

Lemma substep_length : forall u s a s' a', substep u s a = Ok (s', a') ->
  (length (st_head s') <= length (st_head s) + (if onset (p_precip_prev (st_p s)) (fall u s) then 1 else 0))%nat /\
  p_precip_prev (st_p s') = fall u s /\ fall u s' = fall u s.
Proof.
  intros u s a s' a' H. apply substep_inv in H. destruct H as (vs & b & ve & mbl & precip & pet & prate & petr & -> & -> & -> & -> & _ & Hh & _ & _ & _ & -> & _).
  apply hydro_length in Hh. split; [exact Hh|]. split; [reflexivity|]. unfold fall. change (dfmax (dfmax (st_precip s) (Fin 0)) (Fin 0) * mm_to_cm * u_dt u = dfmax (st_precip s) (Fin 0) * mm_to_cm * u_dt u). rewrite dfmax_twice. reflexivity.
Qed.

Lemma onset_same : forall x, onset x x = false.
Proof.
  intros x. destruct x as [r| | |]; try reflexivity. unfold onset. destruct (Req_dec r 0) as [->|N]; [unfold dgtb; rewrite ltb_f by lra; apply andb_false_r|].
  rewrite eqb_f by exact N. reflexivity.
Qed.

Lemma zero_times : forall x, Fin 0 * x = Fin 0 \/ Fin 0 * x = NaN.
Proof.
  intros x. destruct x as [r| | |]; cbn; [left; rewrite Rmult_0_l; apply rnd_zero| | |auto]; unfold inf_sign; right; unfold Rltb, Reqb; repeat (destruct (Rlt_dec _ _); try lra); reflexivity.
Qed.

Lemma substep_onset : forall u s a s' a', substep u s a = Ok (s', a') ->
  (length (st_head s') <= S (length (st_head s)))%nat /\
  (p_precip_prev (st_p s) <> Fin 0 \/ (exists p, st_precip s = Fin p /\ (p <= 0)%R) -> (length (st_head s') <= length (st_head s))%nat).
Proof.
  intros u s a s' a' H. apply substep_length in H. destruct H as (L & _ & _). split; [destruct (onset _ _) in L; lia|].
  intro N. assert (O : onset (p_precip_prev (st_p s)) (fall u s) = false); [|rewrite O in L; lia]. unfold onset. destruct N as [N|N].
  - destruct (p_precip_prev (st_p s)) as [r| | |]; try reflexivity. rewrite eqb_f; [reflexivity|]. intros ->. apply N. reflexivity.
  - destruct N as (p & N & Hp). unfold fall. rewrite N. assert (dfmax (Fin p) (Fin 0) = Fin 0) as ->.
    { unfold dfmax. destruct (Rlt_dec p 0); [rewrite ltb_t by assumption; reflexivity|rewrite ltb_f by lra; f_equal; lra]. }
    destruct (zero_times mm_to_cm) as [-> | ->]; [destruct (zero_times (u_dt u)) as [-> | ->]|destruct (u_dt u)];
      first [replace (_ >? _) with false by (symmetry; apply ltb_f; lra); apply andb_false_r|apply andb_false_r].
Qed.

Lemma loop_length : forall k u s a s' a', subcycle_loop k u s a = Ok (s', a') ->
  (length (st_head s') <= length (st_head s) + (if onset (p_precip_prev (st_p s)) (fall u s) then 1 else 0))%nat.
Proof.
  induction k as [|k IH]; intros u s a s' a' H; cbn [subcycle_loop] in H; [apply Ok_inj in H; injection H as <- _; lia|].
  bind_inv H y Ey. destruct y as [s1 a1]. apply substep_length in Ey. destruct Ey as (L & P & F).
  destruct (_ && _)%bool; [apply Ok_inj in H; injection H as <- _; exact L|]. apply IH in H. rewrite P, F, onset_same in H. lia.
Qed.

Lemma calib_length : forall k stype cal done rest soils l' soils', calib_loop k stype cal done rest soils = Ok (l', soils') ->
  length l' = (length done + length rest)%nat.
Proof.
  induction k as [|k IH]; intros stype cal done rest soils l' soils' H; cbn [calib_loop] in H; [apply Ok_inj in H; injection H as <- _; apply app_length|].
  destruct rest as [|c r]; [discriminate|]. cbv zeta in H. bind_inv H t Et. bind_inv H x1 Q1. bind_inv H x2 Q2. bind_inv H x3 Q3. bind_inv H x4 Q4. bind_inv H x5 Q5. bind_inv H x6 Q6. bind_inv H x7 Q7.
  apply IH in H. rewrite H, app_length. cbn [length]. lia.
Qed.

Lemma prologue_length : forall s s1 vcal, update_prologue s = Ok (s1, vcal) -> length (st_head s1) = length (st_head s).
Proof.
  intros s s1 vcal H. unfold update_prologue in H. cbv zeta in H. bind_inv H p Ep. destruct (p_calib p); [|apply Ok_inj in H; injection H as <- _; reflexivity].
  bind_inv H y Ey. destruct y as [s2 v]. apply Ok_inj in H. injection H as <- _. unfold update_calibratable_parameters in Ey. cbv zeta in Ey. bind_inv Ey b Eb. bind_inv Ey z Ez. destruct z as [l soils].
  bind_inv Ey af Eaf. apply Ok_inj in Ey. injection Ey as <- _. apply calib_length in Ez. exact Ez.
Qed.

Lemma update_length : forall s s', Update s = Ok s' -> (length (st_head s') <= S (length (st_head s)))%nat.
Proof.
  intros s s' H. destruct (p_invalid (st_p s)) eqn:I.
  - unfold Update in H. rewrite I in H. apply Ok_inj in H. subst s'. change (st_head (update_invalid s)) with (st_head s). lia.
  - apply Update_inv in H; [|exact I]. destruct H as (s1 & vcal & volend & s2 & dt & n & s3 & a & H1 & _ & _ & _ & H2 & H3 & H4).
    apply prologue_length in H1. apply steps_inv in H2. destruct H2 as (_ & _ & ->). apply loop_length in H3.
    apply finish_inv in H4. destruct H4 as (g & q & m & _ & _ & ->).
    match goal with |- (length (st_head ?x) <= _)%nat => change (st_head x) with (st_head s3) end.
    match type of H3 with (_ <= length (st_head ?x) + _)%nat => change (st_head x) with (st_head s1) in H3 end. destruct (onset _ _) in H3; lia.
Qed.

Lemma after_length : forall s0 m s, after s0 m s -> (length (st_head s) <= length (st_head s0) + m)%nat.
Proof.
  intros s0 m s H. induction H as [|m s s' H IH E|m s s' H IH E]; [lia| |apply update_length in E; lia].
  destruct E as (pr & pet & T & cal & out & nf & tw & dw & ->). exact IH.
Qed.

Lemma counters_fit : forall s0 m s, after s0 m s -> (listLength (st_head s0) + Z.of_nat m <= 2147483647)%Z ->
  (listLength (st_head s) <= 2147483647)%Z /\ (numbered (st_head s) -> forall f, In f (st_head s) -> (1 <= f_num f <= 2147483647)%Z).
Proof.
  intros s0 m s H B. apply after_length in H. unfold listLength in *. split; [lia|]. intros N f Hf. apply In_nth_error in Hf as [i Ei].
  assert (i < length (st_head s))%nat by (apply nth_error_Some; congruence). rewrite (N _ _ Ei). lia.
Qed.
End Growth.
