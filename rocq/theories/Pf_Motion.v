(** The water ledger of one motion of the fronts in a column of several layers (exact arithmetic). *)

From Coq Require Import Reals Lra ZArith List Bool Lia.
From Verif Require Import Outcome Dbl Exact Types ListOps Soil Fronts Infil Move State Lib Spec_Common Spec_Soil Spec_List Spec_Update Spec_Profile Spec_Storage Spec_Advance
  Spec_Physical Spec_Motion Pf_Dbl Pf_Pow Pf_Soil Pf_List Pf_Profile Pf_Structure Pf_Storage Pf_Merge Pf_Cross Pf_Repair Pf_SafeMove Pf_Single Pf_SingleMerge Pf_Advance Pf_Physical.
Import ListNotations.
Open Scope R_scope.

Section Motion.
Local Existing Instance exact.
Context {cfg : Cfg}.
Variables (e : env) (M : R).
Hypothesis HV : vg_column e.
Hypothesis HM : conducts_at_most M e.
Hypothesis HF : frozen_in_range e.
Hypothesis HE : sound_env e.
Hypothesis H0 : aget (e_cum e) 0 = Ok (Fin 0).

Let phys := phys e M.

Lemma phys_soils : forall l, Forall phys l -> within_soils e l.
Proof.
  intros l H. eapply Forall_impl; [|exact H]. intros f Hf. pose proof Hf as (R & _). destruct (env_soil e _ HE R) as [s Es].
  destruct (phys_within e M HV f s Hf Es) as (r & te & a & n & m & k & t & V & Et & B). exists s, r, te, t. destruct V. auto.
Qed.
Lemma profile_of : forall l, Str e l -> profile (e_nlayers e) (e_cum e) l /\ deepest_rests l.
Proof. intros l H. apply (Str_iff e l); [apply HE|assumption]. Qed.
Lemma mass_of : forall l, Str e l -> measured l -> lgar_calc_mass_bal (e_cum e) l = Ok (Fin (storage l)).
Proof. intros l H ML. apply (mass_is_storage (e_nlayers e)); [apply HE|apply profile_of; assumption|assumption|assumption]. Qed.

Lemma finite_dec : forall d : dbl, finite d \/ ~ finite d.
Proof. intros [x| | |]; [left; exists x; reflexivity|right..]; intros [y E]; discriminate. Qed.
Lemma measured_not : forall l, ~ ~ measured l -> measured l.
Proof.
  intros l N. induction l as [|f l IH]; [constructor|]. assert (D : measured l). { apply IH. intro X. apply N. intro Y. inversion Y. contradiction. }
  destruct (finite_dec (f_depth f)) as [A|A]; [destruct (finite_dec (f_theta f)) as [B|B]; [constructor; auto|]|]; exfalso; apply N; intro Y; inversion Y; tauto.
Qed.

(** ** Merging *)

Definition lost (p : nat) (l : list front) : Prop := exists c, nth_error l p = Some c /\ ~ finite (f_depth c).
Lemma lost_measured : forall p l, lost p l -> ~ measured l.
Proof. intros p l (c & E & N) ML. unfold measured in ML. rewrite Forall_forall in ML. apply N. apply ML. eapply nth_error_In. eassumption. Qed.

Lemma merge_step_ledger : forall p l l', Str e l -> measured l -> merge_step e p l = Ok l' ->
  (measured l' /\ storage l' = storage l) \/ lost p l'.
Proof.
  intros p l l' H ML E. unfold merge_step in E. bind_inv E c Ec0. bind_inv E n En0.
  pose proof (proj1 (lget_Ok _ _ _) Ec0) as Ec. pose proof (proj1 (lget_Ok _ _ _) En0) as En.
  destruct (_ && _ && negb (f_bottom n))%bool eqn:C; [|apply Ok_inj in E; subst l'; left; auto].
  apply andb_prop in C as [C C3]. apply andb_prop in C as [C1 C2]. apply Z.eqb_eq in C2. apply negb_true_iff in C3.
  bind_inv E nn Enn0. pose proof (proj1 (lget_Ok _ _ _) Enn0) as Enn. cbv zeta in E.
  bind_inv E u Eu. bind_inv E s Es. bind_inv E ff Ef. bind_inv E y Ey. destruct y as [l1 o]. apply Ok_inj in E. subst l1.
  destruct (nth_three _ _ _ _ _ Ec En Enn) as (a & b & EL & Ha).
  pose proof ML as ML0. rewrite EL in ML0. apply measured_app in ML0 as [Ma M0].
  inversion M0 as [|x z [[dc Edc] [tc Etc]] M']; subst x z. inversion M' as [|x z [[dn Edn] [tn Etn]] M2]; subst x z.
  inversion M2 as [|x z [[dd Edd] [tnn Etnn]] M3]; subst x z.
  assert (Hc : f_bottom c = false) by (eapply Str_above; eauto).
  match type of Ey with context [lset l p ?x] => set (c' := x) in * end.
  assert (HS : Str e (lset l p c')).
  { eapply Str_lset; [exact Ec| |assumption]. split; [|split; reflexivity]. split; [reflexivity|]. split; [reflexivity|]. rewrite Hc. discriminate. }
  assert (En2 : nth_error (lset l p c') (Datatypes.S p) = Some n) by (rewrite nth_error_lset_neq; [assumption|lia]).
  destruct (delete_str _ _ _ _ HS En2 C3) as (l2 & E1 & E2 & E3 & E4). rewrite E1 in Ey. apply Ok_inj in Ey. apply pair_equal_spec in Ey as [Ey _]. subst l2.
  assert (EQ : l' = a ++ c' :: bump (-1) (nn :: b)).
  { rewrite E4, EL, <- Ha, lset_app. replace (a ++ c' :: n :: nn :: b) with ((a ++ [c']) ++ n :: nn :: b) by (rewrite <- app_assoc; reflexivity).
    replace (Datatypes.S (length a)) with (length (a ++ [c'])) by (rewrite app_length; cbn; lia).
    rewrite firstn_app, Nat.sub_diag, firstn_all, firstn_O, app_nil_r, <- app_assoc.
    f_equal. cbn [app]. f_equal. f_equal. rewrite skipn_app, skipn_all2 by (rewrite app_length; cbn; lia).
    rewrite app_length. cbn [length]. replace (Datatypes.S (length a + 1) - (length a + 1))%nat with 1%nat by lia. reflexivity. }
  assert (ED : f_depth c' = ((f_depth c * (f_theta c - f_theta n) + f_depth n * (f_theta n - f_theta nn)) / (f_theta c - f_theta nn))%d) by reflexivity.
  rewrite Edc, Etc, Etn, Edn, Etnn in ED. cbn [dmul dsub dadd ddiv rnd exact] in ED.
  destruct (Req_EM_T (tc - tnn) 0) as [Z|Z].
  - right. exists c'. split; [rewrite EQ, nth_error_app2, Ha, Nat.sub_diag by lia; reflexivity|]. intros (x & Ex).
    rewrite Ex in ED. unfold inf_sign in ED. repeat match type of ED with context [if ?t then _ else _] => destruct t end; try discriminate; contradiction.
  - left. assert (ED' : f_depth c' = Fin ((dc * (tc - tn) + dn * (tn - tnn)) / (tc - tnn))). { exact ED. }
    rewrite EQ, EL. split.
    + apply measured_app. split; [assumption|]. constructor; [split; [rewrite ED'; eexists; reflexivity|exists tc; assumption]|apply measured_bump; assumption].
    + unfold storage. rewrite !slabs_app. f_equal. change (c' :: bump (-1) (nn :: b)) with ([c'] ++ bump (-1) (nn :: b)).
      rewrite slabs_app, slabs_bump. cbn [slabs lastd app]. rewrite ED'. change (f_theta c') with (f_theta c). rewrite Edc, Etc, Edn, Etn, Etnn, Edd. cbn [val]. field. lra.
Qed.

Lemma merge_step_upper : forall q l l' p c, (p < q)%nat -> Str e l -> merge_step e q l = Ok l' -> nth_error l p = Some c -> nth_error l' p = Some c.
Proof.
  intros q l l' p c Hp H E Ecp. unfold merge_step in E. bind_inv E c0 Ec0. bind_inv E n En0.
  pose proof (proj1 (lget_Ok _ _ _) Ec0) as Ec. pose proof (proj1 (lget_Ok _ _ _) En0) as En.
  destruct (_ && _ && negb (f_bottom n))%bool eqn:C; [|apply Ok_inj in E; subst l'; assumption].
  apply andb_prop in C as [C C3]. apply andb_prop in C as [C1 C2]. apply Z.eqb_eq in C2. apply negb_true_iff in C3.
  bind_inv E nn Enn0. cbv zeta in E. bind_inv E u Eu. bind_inv E s Es. bind_inv E ff Ef. bind_inv E y Ey. destruct y as [l1 o]. apply Ok_inj in E. subst l1.
  assert (Hc : f_bottom c0 = false) by (eapply Str_above; eauto).
  match type of Ey with context [lset l q ?x] => set (c' := x) in * end.
  assert (HS : Str e (lset l q c')).
  { eapply Str_lset; [exact Ec| |assumption]. split; [|split; reflexivity]. split; [reflexivity|]. split; [reflexivity|]. rewrite Hc. discriminate. }
  assert (En2 : nth_error (lset l q c') (Datatypes.S q) = Some n) by (rewrite nth_error_lset_neq; [assumption|lia]).
  destruct (delete_str _ _ _ _ HS En2 C3) as (l2 & E1 & E2 & E3 & E4). rewrite E1 in Ey. apply Ok_inj in Ey. apply pair_equal_spec in Ey as [Ey _]. subst l2.
  rewrite E4. assert (Hq := length_S _ _ _ _ En2).
  rewrite nth_error_app1 by (rewrite firstn_length_le; lia).
  assert (G : nth_error (lset l q c') p = Some c) by (rewrite nth_error_lset_neq; [assumption|lia]).
  rewrite <- (firstn_skipn (S q) (lset l q c')) in G. rewrite nth_error_app1 in G by (rewrite firstn_length_le; lia). exact G.
Qed.

Lemma merge_loop_upper : forall k p l l' q, Str e l -> (p < length l)%nat -> (q < p)%nat -> merge_loop k e p l = Ok l' -> lost q l -> lost q l'.
Proof.
  induction k as [|k IH]; intros p l l' q H Hp Hq E L; cbn [merge_loop] in E; [discriminate|]. unfold listLength in E.
  destruct (Z.eqb_spec (Z.of_nat (S p)) (Z.of_nat (length l))) as [|Hne]; [apply Ok_inj in E; subst l'; assumption|]. bind_inv E l1 Q1.
  destruct (ends_Ok _ _ _ _ _ (merge_step_ok e p l HE H ltac:(lia)) Q1) as (A & B & C).
  apply (IH (S p) l1 l' q A B); [lia|assumption|]. destruct L as (c & Ec & N). exists c. split; [|assumption]. exact (merge_step_upper p l l1 q c Hq H Q1 Ec).
Qed.
Lemma merge_loop_ledger : forall k p l l', Str e l -> (p < length l)%nat -> measured l -> merge_loop k e p l = Ok l' -> measured l' -> storage l' = storage l.
Proof.
  induction k as [|k IH]; intros p l l' H Hp ML E ML'; cbn [merge_loop] in E; [discriminate|]. unfold listLength in E.
  destruct (Z.eqb_spec (Z.of_nat (S p)) (Z.of_nat (length l))) as [|Hne]; [apply Ok_inj in E; subst l'; reflexivity|]. bind_inv E l1 Q1.
  destruct (ends_Ok _ _ _ _ _ (merge_step_ok e p l HE H ltac:(lia)) Q1) as (A & B & C).
  destruct (merge_step_ledger p l l1 H ML Q1) as [[M1 S1]|L].
  - rewrite <- S1. apply (IH (S p) l1 l' A B M1 E ML').
  - exfalso. eapply lost_measured; [|exact ML']. eapply (merge_loop_upper k (S p) l1 l' p A B); [lia|exact E|exact L].
Qed.
Lemma merge_ledger : forall l l', Str e l -> measured l -> lgar_merge_wetting_fronts e l = Ok l' -> measured l' -> storage l' = storage l.
Proof.
  intros l l' H ML E ML'. assert (l <> []) by (eapply Str_nonempty; eauto using se_n). eapply merge_loop_ledger; try eassumption. destruct l; [contradiction|cbn; lia].
Qed.

(** ** Repairs *)

Lemma repaired_near : forall l l' x, repaired e l l' x -> 0 <= x /\ Rabs (storage l' - storage l) <= x.
Proof.
  intros l l' x H. induction H as [|l1 l2 x R [IH1 IH2] HL HP]; [rewrite Rminus_eq_0, Rabs_R0; lra|].
  pose proof (Rabs_pos (storage l2 - storage l1)). split; [lra|].
  replace (storage l2 - storage l) with ((storage l2 - storage l1) + (storage l1 - storage l)) by ring. eapply Rle_trans; [apply Rabs_triang|]. lra.
Qed.
Lemma fix_ledger : forall l mc l' mc', Str e l -> measured l -> Forall phys l -> check_and_fix e l (Fin mc) = Ok (l', mc') ->
  exists x, mc' = Fin (mc + x) /\ 0 <= x /\ Rabs (storage l' - storage l) <= x /\ measured l' /\ Str e l' /\ Forall phys l' /\ (~ inverted l -> l' = l /\ x = 0).
Proof.
  intros l mc l' mc' H ML P E.
  destruct (check_and_fix_ok e l (Fin mc) HE H) as (y & z & F1 & S1). rewrite E in F1. apply Ok_inj in F1. apply pair_equal_spec in F1 as [<- _].
  assert (P' : Forall phys l') by exact (check_and_fix_phys e M HV l (Fin mc) l' mc' P E).
  assert (Hne : l <> []) by (eapply Str_nonempty; eauto using se_n). destruct (profile_of l H) as [HP HR].
  unfold check_and_fix, lgar_check_dry_over_wet_wetting_fronts in E. destruct l as [|c r]; [contradiction|]. cbn [bind] in E.
  destruct (check_dry (c :: r)) eqn:C.
  - destruct (repair_spec e mc (c :: r) HE HV H0 HP HR ML (phys_soils _ P)) as (l2 & x & F2 & R & _ & M2 & _). rewrite F2 in E. apply Ok_inj in E. apply pair_equal_spec in E as [<- <-].
    destruct (repaired_near _ _ _ R) as [R1 R2]. exists x. repeat (split; [assumption || reflexivity|]). intro N. exfalso. apply N. apply check_dry_iff. exact C.
  - apply Ok_inj in E. apply pair_equal_spec in E as [<- <-]. exists 0. split; [f_equal; lra|]. split; [lra|]. split; [rewrite Rminus_eq_0, Rabs_R0; lra|]. auto.
Qed.

(** ** Closing the balance *)

Lemma closure_loop_ledger : forall k p T l mass err fa dn sw aug iter l' err' g, closure_loop k e p (Fin T) l mass err fa dn sw aug iter = Ok (l', err', g) ->
  lgar_calc_mass_bal (e_cum e) l = Ok mass -> err = dabs (mass - Fin T)%d ->
  (dabs (err' - closure_tol) >? lit (1 / 10000000000))%d = g /\ exists mass', lgar_calc_mass_bal (e_cum e) l' = Ok mass' /\ err' = dabs (mass' - Fin T)%d.
Proof.
  induction k as [|k IH]; intros p T l mass err fa dn sw aug iter l' err' g E Em Ee; rewrite closure_loop_eq in E; destruct (_ >? _)%d eqn:C.
  - apply Ok_inj in E. injection E as E1 E2 E3. subst l' err' g. split; [exact C|exists mass; auto].
  - apply Ok_inj in E. injection E as E1 E2 E3. subst l' err' g. split; [exact C|exists mass; auto].
  - cbv zeta in E. match type of E with match ?t with _ => _ end = _ => destruct t as [[dn' sw'] fa'] end.
    bind_inv E g0 Ef. bind_inv E d0 Ed. bind_inv E m0 Em'. eapply IH; [exact E|exact Em'|reflexivity].
  - apply Ok_inj in E. injection E as E1 E2 E3. subst l' err' g. split; [exact C|exists mass; auto].
Qed.

Lemma closure_ledger : forall old vin l a l' a' q, Str e l -> measured l -> Forall phys l -> ~ cross_tie e l -> ~ cross_blocked e l ->
  closure e (Fin old) (Fin vin) l (Fin a) = Ok (l', a', q) -> measured l' ->
  exists a2 q2, a' = Fin a2 /\ q = Fin q2 /\ balance_closed (old + vin - a) (storage l) a (storage l') a2 q2.
Proof.
  intros old vin l a l' a' q H ML P HT HK E ML'.
  pose proof (ends_Ok _ _ _ _ _ (closure_ok e (Fin old) (Fin vin) l (Fin a) HE H HT) E) as S2. cbn [fst] in S2.
  destruct (profile_of l H) as [HP HR]. unfold closure in E.
  destruct (cross_spec e l HE HV HP HR ML (phys_soils _ P) HT HK) as (l1 & E1 & ES & P1 & M1 & W1 & L1). 
  destruct (cross_ok e l HE H HT) as (l1' & E1' & S1 & _). rewrite E1 in E1'. apply Ok_inj in E1'. subst l1'.
  rewrite E1 in E. cbn [bind] in E. cbv zeta in E. bind_inv E s Es. bind_inv E u Eu. destruct (findFront _ l1) as [p|]; [|discriminate]. bind_inv E g0 Ef.
  destruct (_ <? _)%d.
  2:{ apply Ok_inj in E. injection E as E3 E4 E5. subst l' a' q. exists a, 0. split; [reflexivity|]. split; [reflexivity|]. left. auto. }
  rewrite (mass_of l1 S1 M1) in E. cbn [bind] in E. bind_inv E x Ex. destruct x as [[l2 err] g].
  replace (Fin old + Fin vin - (Fin a + Fin 0))%d with (Fin (old + vin - a)) in Ex by (cbn; f_equal; lra).
  destruct (closure_loop_ledger _ _ _ _ _ _ _ _ _ _ _ _ _ _ Ex (mass_of l1 S1 M1) eq_refl) as (G & mass' & Em & Ee).
  assert (l' = l2). { destruct g; [bind_inv E m2 Em2|]; apply Ok_inj in E; injection E as E3 _ _; congruence. } subst l2.
  rewrite (mass_of l' S2 ML') in Em. apply Ok_inj in Em. subst mass'. cbn [dsub rnd exact dabs] in Ee.
  destruct g.
  - bind_inv E m2 Em2. rewrite (mass_of l' S2 ML') in Em2. apply Ok_inj in Em2. subst m2. apply Ok_inj in E. injection E as E3 E4. subst a' q err.
    exists (a + Rabs (storage l' - (old + vin - a))), (old + vin - a - Rabs (storage l' - (old + vin - a)) - storage l').
    split; [reflexivity|]. split; [cbn; f_equal; lra|]. right. right. auto.
  - apply Ok_inj in E. injection E as E3 E4. subst a' q err. exists a, 0. split; [reflexivity|]. split; [reflexivity|]. right. left. split; [apply tight_test; exact G|auto].
Qed.

(** ** The end of the motion *)

Lemma refresh_refreshed : forall l l', refresh_psi e l = Ok l' -> Forall2 refreshed l l'.
Proof.
  induction l as [|c r IH]; intros l' E; cbn [refresh_psi] in E; [discriminate|]. destruct r as [|n r]; [apply Ok_inj in E; subst; constructor; [apply refreshed_refl|constructor]|].
  bind_inv E c' Ec. bind_inv E r' Er. apply Ok_inj in E. subst l'. constructor; [|eauto].
  destruct (_ >? _)%d; [|apply Ok_inj in Ec; subst; apply refreshed_refl]. bind_inv Ec s Es. bind_inv Ec ff Ef. cbv zeta in Ec. apply Ok_inj in Ec. subst c'. repeat split.
Qed.
Lemma fix_single_idle : forall l l', Str e l -> fix_single e l = Ok l' -> l' = l.
Proof.
  intros l l' H E. destruct l as [|c [|n r]]; try (apply Ok_inj in E; congruence). unfold fix_single in E. bind_inv E d Ed. apply Ok_inj in E. subst l'.
  assert (B : f_bottom c = true). { destruct (f_bottom c) eqn:B; [reflexivity|]. destruct (Str_next _ _ 0%nat c H eq_refl B) as (n & En & _). discriminate. }
  destruct (Str_bottom _ _ 0%nat c H eq_refl B) as [D1 _].
  destruct (fd_ok e [c] HE H) as (i & f & W & Ei & Hi & Hl & _). destruct i as [|[|i]]; try discriminate. injection Ei as <-. change (Z.of_nat 1) with 1%Z in Hl. rewrite Hl, Ed in D1. apply Ok_inj in D1.
  destruct (env_cum e 1 HE) as (z & Ez & _); [destruct HE; lia|]. rewrite Ed in Ez. apply Ok_inj in Ez.
  assert (X : (f_depth c <>? d)%d = false). { rewrite <- D1, Ez. unfold dneb, deqb, Reqb. destruct (Req_EM_T z z); [reflexivity|contradiction]. }
  rewrite X. reflexivity.
Qed.

(** ** The motion *)

Theorem motion_ledger : forall dt vin wfd old aet head prev l1 a1 l' a' q, Str e head -> Forall phys head -> numbered prev -> length prev = length head -> finite dt ->
  ~ move_tie e dt (Fin vin) wfd (Fin old) aet head prev -> ~ move_degenerate e dt (Fin vin) wfd (Fin old) aet head prev ->
  move_loop (length head) e dt (Fin vin) wfd prev (listLength head) head aet = Ok (l1, Fin a1) -> measured l1 ->
  lgar_move_wetting_fronts e dt (Fin vin) wfd (Fin old) aet head prev = Ok (l', a', q) ->
  exists s2 a2 q2 q3 x, balance_closed (old + vin - a1) (storage l1) a1 s2 a2 q2 /\ 0 <= x /\ q = Fin (q2 + q3) /\
    a' = Fin (if Rlt_dec (1 / 10000000) x then a2 - x else a2) /\ Rabs (storage l' - (s2 - q3)) <= x /\ measured l' /\ Str e l' /\ Forall phys l' /\
    (~ move_inverted e dt (Fin vin) wfd (Fin old) aet head prev -> x = 0) /\
    exists l2, closure e (Fin old) (Fin vin) l1 (Fin a1) = Ok (l2, Fin a2, Fin q2) /\ measured l2 /\ s2 = storage l2 /\ Str e l1 /\ Forall phys l1 /\ ~ cross_tie e l1 /\ ~ cross_blocked e l1.
Proof.
  intros dt vin wfd old aet head prev l1 a1 l' a' q HS P HN HL Hdt HT HD Q1 M1 E. unfold lgar_move_wetting_fronts in E. bind_inv E z Ez. cbv zeta in E.
  rewrite Q1 in E. cbn [bind] in E. bind_inv E x2 Q2. destruct x2 as [[l2 a2] fl2]. bind_inv E x3 Q3. destruct x3 as [[l3 fl3] mc]. bind_inv E l4 Q4. bind_inv E l5 Q5.
  apply Ok_inj in E. injection E as E1 E2 E3. subst l5.
  assert (Hne : head <> []) by (eapply Str_nonempty; eauto using se_n).
  pose proof (ends_Ok _ _ _ _ _ (move_loop_ok e dt (Fin vin) wfd prev HE HN Hdt (length head) head aet HS HL (le_n _)) Q1) as [S1 _]. cbn [fst] in S1.
  assert (P1 : Forall phys l1) by exact (move_loop_phys e M HV _ _ _ _ _ _ _ _ _ _ P Q1).
  assert (Q2' : closure e (Fin old) (Fin vin) l1 (Fin a1) = Ok (l2, a2, fl2)) by (destruct head; [contradiction|exact Q2]). clear Q2. rename Q2' into Q2.
  assert (T1 : ~ cross_tie e l1) by (intro T; apply HT; exists l1, (Fin a1); split; [exact Q1|left; exact T]).
  pose proof (ends_Ok _ _ _ _ _ (closure_ok e (Fin old) (Fin vin) l1 (Fin a1) HE S1 T1) Q2) as S2. cbn [fst] in S2.
  assert (P2 : Forall phys l2) by exact (closure_phys e M HV HM HF _ _ _ _ _ _ _ P1 Q2).
  unfold merge_phases in Q3. bind_inv Q3 y1 G1. destruct y1 as [k1 mc1]. bind_inv Q3 k2 G2. bind_inv Q3 k3 G3.
  bind_inv Q3 y4 G4. destruct y4 as [k4 mc4]. bind_inv Q3 k5 G5. bind_inv Q3 D ED. bind_inv Q3 y6 G6. destruct y6 as [fl6 k6]. bind_inv Q3 y7 G7. destruct y7 as [k7 mc7].
  apply Ok_inj in Q3. injection Q3 as F1 F2 F3. subst l3 fl3 mc.
  pose (g := Build_stages e dt (Fin vin) wfd (Fin old) aet head prev l1 (Fin a1) l2 a2 fl2 k1 mc1 k2 k3 k4 mc4 k5 D k6 fl6 Q1 Q2 G1 G2 G3 G4 G5 ED G6).
  assert (ND : ~ stages_degenerate _ _ _ _ _ _ _ _ g) by (intro X; apply HD; exists g; exact X).
  unfold stages_degenerate in ND. cbn [g sg_pass sg_closed sg_merged sg_merged2] in ND.
  assert (NI : ~ move_inverted e dt (Fin vin) wfd (Fin old) aet head prev -> ~ inverted l2 /\ ~ inverted k3 /\ ~ inverted k6).
  { intro X. assert (Y : ~ stages_inverted _ _ _ _ _ _ _ _ g) by (intro Y; apply X; exists g; exact Y). unfold stages_inverted in Y. cbn [g sg_closed sg_crossed sg_left] in Y. tauto. }
  clear g.
  assert (B1 : ~ cross_blocked e l1) by tauto. assert (M2 : measured l2) by (apply measured_not; tauto).
  assert (MK2 : measured k2) by (apply measured_not; tauto). assert (B2 : ~ cross_blocked e k2) by tauto. assert (MK5 : measured k5) by (apply measured_not; tauto).
  destruct (closure_ledger old vin l1 a1 l2 a2 fl2 S1 M1 P1 T1 B1 Q2 M2) as (b2 & q2 & -> & -> & CL).
  destruct (fix_ledger l2 0 k1 mc1 S2 M2 P2 G1) as (x1 & X1 & X2 & X3 & MK1 & SK1 & PK1 & X4). subst mc1. rewrite Rplus_0_l in G4.
  pose proof (ends_Ok _ _ _ _ _ (merge_ok e k1 HE SK1) G2) as SK2. cbn beta in SK2.
  assert (PK2 : Forall phys k2) by exact (merge_phys e M HV HM HF _ _ PK1 G2).
  pose proof (merge_ledger k1 k2 SK1 MK1 G2 MK2) as E12.
  assert (T2 : ~ cross_tie e k2). { intro T. apply HT. exists l1, (Fin a1). split; [exact Q1|]. right. exists l2, (Fin b2), (Fin q2), k1, (Fin (0 + x1)), k2. auto. }
  destruct (profile_of k2 SK2) as [HP2 HR2].
  destruct (cross_spec e k2 HE HV HP2 HR2 MK2 (phys_soils _ PK2) T2 B2) as (y3 & F3 & E23 & _ & MK3 & _ & _). rewrite G3 in F3. apply Ok_inj in F3. subst y3.
  destruct (cross_ok e k2 HE SK2 T2) as (y3 & F3 & SK3 & _). rewrite G3 in F3. apply Ok_inj in F3. subst y3.
  assert (PK3 : Forall phys k3) by exact (cross_phys e M HV HM HF _ _ PK2 G3).
  destruct (fix_ledger k3 x1 k4 mc4 SK3 MK3 PK3 G4) as (x2 & Y1 & Y2 & Y3 & MK4 & SK4 & PK4 & Y4). subst mc4.
  pose proof (ends_Ok _ _ _ _ _ (merge_ok e k4 HE SK4) G5) as SK5. cbn beta in SK5.
  assert (PK5 : Forall phys k5) by exact (merge_phys e M HV HM HF _ _ PK4 G5).
  pose proof (merge_ledger k4 k5 SK4 MK4 G5 MK5) as E45.
  destruct (env_cum e (e_nlayers e) HE) as (d & Ed & _); [destruct HE; lia|]. pose proof ED as ED'. rewrite Ed in ED'. apply Ok_inj in ED'. subst D.
  destruct (profile_of k5 SK5) as [HP5 HR5].
  destruct (domain_spec e d k5 HE Ed HP5 HR5 MK5) as (q3 & y6 & F6 & E56 & _ & MK6 & _). rewrite G6 in F6. apply Ok_inj in F6. apply pair_equal_spec in F6 as [F6 F6']. subst fl6 y6.
  destruct (domain_ok e (Fin d) k5 HE Ed SK5) as (f6 & y6 & F6 & SK6). rewrite G6 in F6. apply Ok_inj in F6. apply pair_equal_spec in F6 as [_ F6']. subst y6.
  assert (PK6 : Forall phys k6) by exact (domain_phys e M HV HM HF HE (Fin d) k5 _ k6 Ed SK5 PK5 G6).
  destruct (fix_ledger k6 (x1 + x2) k7 mc7 SK6 MK6 PK6 G7) as (x3 & Z1 & Z2 & Z3 & MK7 & SK7 & PK7 & Z4). subst mc7.
  pose proof (refresh_refreshed k7 l4 Q4) as RF. assert (SL4 : Str e l4). { apply (Str_alike e k7); [|exact SK7]. clear - RF. induction RF; constructor; auto using refreshed_alike. }
  pose proof (fix_single_idle l4 l' SL4 Q5) as ->.
  exists (storage l2), b2, q2, q3, (x1 + x2 + x3). split; [exact CL|]. split; [lra|]. split; [subst q; reflexivity|]. split.
  { subst a'. change (lit (1 / 10000000)) with (Fin (1 / 10000000)). unfold dgtb. cbn [dabs dltb dsub rnd exact]. rewrite Rabs_right by lra. unfold Rltb. destruct (Rlt_dec _ _); reflexivity. }
  split. { replace (storage l4) with (storage k7) by (symmetry; unfold storage; apply refreshed_slabs; exact RF).
    replace (storage k7 - (storage l2 - q3)) with ((storage k7 - storage k6) + ((storage k4 - storage k3) + (storage k1 - storage l2))) by (rewrite E23, E12 in *; lra).
    eapply Rle_trans; [apply Rabs_triang|]. pose proof (Rabs_triang (storage k4 - storage k3) (storage k1 - storage l2)). lra. }
  split. { revert MK7. apply refreshed_Forall; [|assumption]. intros f h (A1 & A2 & _) [C1 C2]. rewrite A1, A2. split; assumption. }
  split; [exact SL4|]. split; [exact (refresh_phys e M HV HM HF k7 l4 PK7 Q4)|]. split; [|exists l2; auto 10].
  intro X. destruct (NI X) as (NI1 & NI2 & NI3).
  destruct (X4 NI1) as [_ ->]. destruct (Y4 NI2) as [_ ->]. destruct (Z4 NI3) as [_ ->]. lra.
Qed.
End Motion.
