(** Heads stay equal on both sides of a layer boundary (exact arithmetic). *)

From Coq Require Import Reals Lra ZArith List Bool Lia.
From Verif Require Import Outcome Dbl Exact Types ListOps Soil Fronts Infil Move State Update Lib Spec_Common Spec_Soil Spec_List Spec_Update Spec_Profile Spec_Storage Spec_Advance
  Spec_Physical Spec_Meet Pf_Dbl Pf_Pow Pf_Soil Pf_List Pf_Profile Pf_Structure Pf_Cross Pf_Repair Pf_Geff Pf_SafeMove Pf_Advance Pf_Physical.
Import ListNotations.
Open Scope R_scope.

Definition level (l : list front) : Prop :=
  forall i c n, nth_error l i = Some c -> nth_error l (S i) = Some n -> f_bottom c = true -> f_psi c = f_psi n.
Definition sim (f g : front) : Prop := f_psi g = f_psi f /\ f_bottom g = f_bottom f.

Lemma level_sim : forall l l', Forall2 sim l l' -> level l -> level l'.
Proof.
  intros l l' H L i c n Ec En B. destruct (Forall2_nth _ _ _ _ H _ _ Ec) as (c0 & Ec0 & A1 & A2). destruct (Forall2_nth _ _ _ _ H _ _ En) as (n0 & En0 & B1 & B2).
  rewrite A1, B1. apply (L i); congruence.
Qed.
Lemma sim_refl : forall l, Forall2 sim l l.
Proof. induction l; constructor; [split; reflexivity|assumption]. Qed.
Lemma sim_lset : forall l p c c', nth_error l p = Some c -> sim c c' -> Forall2 sim l (lset l p c').
Proof.
  induction l as [|f l IH]; intros [|p] c c' H Hs; try discriminate; cbn in *.
  - injection H as ->. constructor; [assumption|apply sim_refl].
  - constructor; [split; reflexivity|eauto].
Qed.

Lemma nth_deleted : forall (l : list front) p i, (p < length l)%nat -> nth_error (firstn p l ++ bump (-1) (skipn (S p) l)) i =
  if (i <? p)%nat then nth_error l i else option_map (fun f => set_num f (f_num f + -1)%Z) (nth_error l (S i)).
Proof.
  intros l p i Hp. destruct (Nat.ltb_spec i p) as [H|H].
  - rewrite nth_error_app1 by (rewrite firstn_length_le; lia). rewrite <- (firstn_skipn p l) at 2. rewrite nth_error_app1 by (rewrite firstn_length_le; lia). reflexivity.
  - rewrite nth_error_app2 by (rewrite firstn_length_le; lia). rewrite firstn_length_le by lia. rewrite nth_error_bump.
    rewrite <- (firstn_skipn (S p) l) at 2. rewrite nth_error_app2 by (rewrite firstn_length_le; lia). rewrite firstn_length_le by lia. try (do 2 f_equal; lia).
Qed.

Lemma level_delete : forall l p c n, level l -> nth_error l p = Some c -> nth_error l (S p) = Some n ->
  (forall q b, p = S q -> nth_error l q = Some b -> f_bottom b = true -> f_psi n = f_psi c) -> level (firstn p l ++ bump (-1) (skipn (S p) l)).
Proof.
  intros l p c n L Ec En H i x y Ex Ey B. assert (Hp := length_S _ _ _ _ Ec). rewrite nth_deleted in Ex, Ey by assumption.
  destruct (Nat.ltb_spec i p) as [D|D]; destruct (Nat.ltb_spec (S i) p) as [D'|D']; try lia.
  - apply (L i); assumption.
  - assert (p = S i) by lia. subst p. rewrite En in Ey. injection Ey as <-. cbn. rewrite (H i x eq_refl Ex B). apply (L i); assumption.
  - destruct (nth_error l (S i)) as [x0|] eqn:E1; [|discriminate]. destruct (nth_error l (S (S i))) as [y0|] eqn:E2; [|discriminate]. injection Ex as <-. injection Ey as <-. cbn in *. apply (L (S i)); assumption.
Qed.

Section Level.
Local Existing Instance exact.
Context {cfg : Cfg}.
Variables (e : env) (M : R).
Hypothesis HV : vg_column e.
Hypothesis HM : conducts_at_most M e.
Hypothesis HF : frozen_in_range e.
Hypothesis HE : sound_env e.
Notation phys := (phys e M).

(** The head computed from the water content of a physical front is its head. *)
Lemma head_back : forall f s, phys f -> soil_of e (f_layer f) = Ok s -> h_of_Se s (Se_of_theta s (f_theta f)) = f_psi f.
Proof.
  intros f s (R1 & Hp & (s' & Es' & Et) & _) Es. rewrite Es in Es'. apply Ok_inj in Es'. subst s'. destruct (HV _ _ R1 Es) as (r & te & a & n & m & k & V).
  rewrite Et. destruct Hp as [->|(x & -> & Hx)]; [|eapply h_inverse; eassumption].
  rewrite (theta_infinite s r te a n m k V). eapply h_residual. exact V.
Qed.

Lemma level_meet : forall l, Forall phys l -> (heads_meet e l <-> level l).
Proof.
  intros l P. split; intros H.
  - intros i c n Ec En B. assert (Pc : phys c) by (rewrite Forall_forall in P; apply P; eapply nth_error_In; eassumption).
    destruct Pc as (_ & _ & (s & Es & _) & _). apply (H i c n s); assumption.
  - intros i c n s Ec En B Es. specialize (H i c n Ec En B). split; [assumption|]. assert (Pc : phys c) by (rewrite Forall_forall in P; apply P; eapply nth_error_In; eassumption).
    destruct Pc as (_ & _ & (s' & Es' & Et) & _). rewrite Es in Es'. apply Ok_inj in Es'. subst s'. congruence.
Qed.

(** ** Merging *)

Lemma merge_step_level : forall p l l', Str e l -> Forall phys l -> level l -> merge_step e p l = Ok l' -> level l'.
Proof.
  intros p l l' HS H L E. unfold merge_step in E. bind_inv E c Ec. bind_inv E n En. destruct (_ && _ && _)%bool eqn:C; [|apply Ok_inj in E; subst; assumption].
  apply andb_prop in C as [C1 C3]. apply andb_prop in C1 as [_ C2]. apply Z.eqb_eq in C2. apply negb_true_iff in C3.
  bind_inv E nn Enn. cbv zeta in E. bind_inv E u Eu. bind_inv E s Es. bind_inv E ff Ef. bind_inv E x Ex. destruct x as [l1 q]. apply Ok_inj in E. subst l1.
  assert (Pc : phys c) by (eapply Forall_get; eassumption). apply lget_Ok in Ec, En, Enn.
  match type of Ex with listDeleteFront _ (lset l p ?x) = _ => set (c' := x) in * end.
  assert (S1 : Forall2 sim l (lset l p c')) by (eapply sim_lset; [exact Ec|]; split; [cbn; apply head_back; assumption|reflexivity]).
  assert (Bc : f_bottom c = false) by (eapply Str_above; eassumption).
  assert (HS1 : Str e (lset l p c')).
  { eapply Str_lset; [exact Ec| |assumption]. split; [|split; reflexivity]. split; [reflexivity|]. split; [reflexivity|]. rewrite Bc. discriminate. }
  assert (En1 : nth_error (lset l p c') (S p) = Some n) by (rewrite nth_error_lset_neq by lia; assumption).
  assert (Enn1 : nth_error (lset l p c') (S (S p)) = Some nn) by (rewrite nth_error_lset_neq by lia; assumption).
  destruct (delete_str _ _ _ _ HS1 En1 C3) as (l2 & D1 & _ & _ & D4). rewrite D1 in Ex. apply Ok_inj in Ex. injection Ex as <- _. rewrite D4.
  eapply level_delete; [eapply level_sim; eassumption|exact En1|exact Enn1|].
  intros q0 b Hq Eb Bb. injection Hq as <-. exfalso. rewrite nth_error_lset_eq in Eb by (eapply length_S; eassumption). injection Eb as <-. cbn in Bb. congruence.
Qed.

Lemma merge_loop_level : forall k p l l', Str e l -> (p < length l)%nat -> Forall phys l -> level l -> merge_loop k e p l = Ok l' -> level l'.
Proof.
  induction k as [|k IH]; intros p l l' HS Hp H L E; cbn [merge_loop] in E; [discriminate|]. destruct (Z.eqb_spec (Z.of_nat (S p)) (listLength l)) as [D|D]; [apply Ok_inj in E; subst; assumption|].
  unfold listLength in D. assert (Hp' : (S p < length l)%nat) by lia. bind_inv E l1 Q1. pose proof (ends_Ok _ _ _ _ _ (merge_step_ok e p l HE HS Hp') Q1) as [S1 S2].
  apply (IH (S p) l1); [exact S1|apply S2|eapply merge_step_phys; eassumption|exact (merge_step_level p l l1 HS H L Q1)|exact E].
Qed.
Lemma merge_level : forall l l', Str e l -> Forall phys l -> level l -> lgar_merge_wetting_fronts e l = Ok l' -> level l'.
Proof.
  intros l l' HS. apply merge_loop_level; [assumption|]. assert (l <> []) by (eapply Str_nonempty; eauto using se_n). destruct l; [contradiction|cbn; lia].
Qed.

(** ** Crossing *)

Lemma cross_step_level : forall p l l', Forall phys l -> level l -> cross_step e p l = Ok l' -> level l'.
Proof.
  intros p l l' H L E. unfold cross_step in E. bind_inv E c Ec. bind_inv E s Es. bind_inv E ff Ef. cbv zeta in E. bind_inv E n En. bind_inv E ck Eck.
  destruct (_ && _ && _)%bool; [|apply Ok_inj in E; subst; assumption].
  bind_inv E s2 Es2. bind_inv E nn Enn. bind_inv E ck1 Eck1. apply Ok_inj in E. subst l'.
  assert (Pc : phys c) by (eapply Forall_get; eassumption). pose proof (head_back c s Pc Es) as HB. apply lget_Ok in Ec, En.
  assert (L1 := length_S _ _ _ _ Ec). assert (L2 := length_S _ _ _ _ En).
  intros i x y Ex Ey B. destruct (Nat.eq_dec i (S p)) as [->|D1].
  { rewrite nth_error_lset_eq in Ex by (rewrite lset_length; assumption). injection Ex as <-. discriminate. }
  destruct (Nat.eq_dec i p) as [->|D2].
  { rewrite nth_error_lset_eq in Ey by (rewrite lset_length; assumption). rewrite nth_error_lset_neq, nth_error_lset_eq in Ex by (assumption || lia). injection Ex as <-. injection Ey as <-. reflexivity. }
  rewrite nth_error_lset_neq, nth_error_lset_neq in Ex by lia. destruct (Nat.eq_dec (S i) p) as [D3|D3].
  - subst p. rewrite nth_error_lset_neq, nth_error_lset_eq in Ey by (assumption || lia). injection Ey as <-. cbn. rewrite HB. apply (L i); assumption.
  - rewrite nth_error_lset_neq, nth_error_lset_neq in Ey by lia. apply (L i); assumption.
Qed.

Lemma cross_loop_level : forall k p l l', Forall phys l -> level l -> cross_loop k e p l = Ok l' -> level l'.
Proof.
  induction k as [|k IH]; intros p l l' H L E; cbn [cross_loop] in E; [discriminate|]. destruct (_ =? _)%Z; [apply Ok_inj in E; subst; assumption|].
  bind_inv E l1 Q1. eapply IH; [| |exact E]; [eapply cross_step_phys; eassumption|eapply cross_step_level; eassumption].
Qed.
Lemma cross_level : forall l l', Forall phys l -> level l -> lgar_wetting_fronts_cross_layer_boundary e l = Ok l' -> level l'.
Proof. intros l l'. apply cross_loop_level. Qed.

(** ** The bottom of the column *)

Lemma domain_loop_level : forall D, aget (e_cum e) (e_nlayers e) = Ok D -> forall k p l fl l', Str e l -> Forall phys l -> level l ->
  domain_loop k e D p l = Ok (fl, l') -> level l'.
Proof.
  intros D ED. induction k as [|k IH]; intros p l fl l' HS H L E; cbn [domain_loop] in E; [apply Ok_inj in E; apply pair_equal_spec in E as [_ <-]; exact L|].
  destruct (_ >=? _)%Z; [apply Ok_inj in E; apply pair_equal_spec in E as [_ <-]; exact L|]. bind_inv E c Ec. bind_inv E t Et. bind_inv E n En.
  destruct (nth_error l (S (S p))) as [nn|] eqn:Enn; [eapply IH; eassumption|].
  destruct (f_depth c >=? D)%d eqn:C; [|eapply IH; eassumption].
  cbv zeta in E. bind_inv E s Es. bind_inv E ff Ef. bind_inv E x Ex. destruct x as [l1 q]. apply Ok_inj in E. apply pair_equal_spec in E as [_ <-].
  assert (Pc : phys c) by (eapply Forall_get; eassumption). apply lget_Ok in En, Ec.
  assert (Bc : f_bottom c = false).
  { destruct (f_bottom c) eqn:B; [|reflexivity].
    exfalso. destruct (Str_bottom _ _ _ _ HS Ec B) as [B1 B2]. rewrite En in B2. pose proof (Str_range _ _ _ _ HS En) as Rn. pose proof (Str_range _ _ _ _ HS Ec) as Rc.
    destruct (env_cum e (e_nlayers e) HE ltac:(lia)) as (z & Ez & _). destruct (env_cum e (f_layer c) HE ltac:(lia)) as (z' & Ez' & _).
    pose proof (cum_mono e HE (f_layer c) (e_nlayers e) z' z ltac:(lia) ltac:(lia) Ez' Ez) as L0.
    rewrite Ez in ED. apply Ok_inj in ED. subst D. rewrite B1 in Ez'. apply Ok_inj in Ez'. rewrite Ez' in C.
    unfold dgeb, dleb, Rleb in C. destruct (Rle_dec z z'); [lra|discriminate]. }
  assert (Es' : soil_of e (f_layer c) = Ok s) by (unfold soil_of; rewrite Et; exact Es). pose proof (head_back c s Pc Es') as HB.
  match type of Ex with listDeleteFront _ (lset l _ ?x) = _ => set (n' := x) in * end.
  assert (HS1 : Str e (lset l (S p) n')) by (eapply Str_lset; [exact En|repeat split|assumption]).
  assert (Ec1 : nth_error (lset l (S p) n') p = Some c) by (rewrite nth_error_lset_neq by lia; assumption).
  assert (En1 : nth_error (lset l (S p) n') (S p) = Some n') by (apply nth_error_lset_eq; eapply length_S; eassumption).
  destruct (delete_str _ _ _ _ HS1 Ec1 Bc) as (l2 & D1 & _ & _ & D4). rewrite D1 in Ex. apply Ok_inj in Ex. injection Ex as <- _. rewrite D4.
  eapply level_delete; [|exact Ec1|exact En1|intros; cbn; exact HB].
  intros i x y Ey Ez B. destruct (Nat.eq_dec i p) as [->|]; [rewrite Ec1 in Ey; injection Ey as <-; congruence|]. destruct (Nat.eq_dec i (S p)) as [->|].
  { rewrite nth_error_lset_neq in Ez by lia. congruence. }
  rewrite nth_error_lset_neq in Ey, Ez by lia. apply (L i); assumption.
Qed.
Lemma domain_level : forall D l fl l', aget (e_cum e) (e_nlayers e) = Ok D -> Str e l -> Forall phys l -> level l ->
  lgar_wetting_front_cross_domain_boundary e D l = Ok (fl, l') -> level l'.
Proof.
  intros D l fl l' ED HS H L E. unfold lgar_wetting_front_cross_domain_boundary in E. destruct l; [apply Ok_inj in E; apply pair_equal_spec in E as [_ <-]; exact L|]. eapply domain_loop_level; eassumption.
Qed.

(** ** The repair of dry over wet *)

(** Layers never go up along a profile. *)
Lemma layers_down : forall l, Str e l -> forall d i c n, nth_error l i = Some c -> nth_error l (i + d) = Some n -> (f_layer c <= f_layer n)%Z.
Proof.
  intros l HS. induction d as [|d IH]; intros i c n Ec En; [rewrite Nat.add_0_r in En; assert (c = n) by congruence; subst; lia|].
  destruct (nth_error l (i + d)) as [m|] eqn:Em; [|apply nth_error_None in Em; apply length_S in En; lia].
  specialize (IH i c m Ec Em). replace (i + S d)%nat with (S (i + d)) in En by lia. destruct (f_bottom m) eqn:B.
  - destruct (Str_bottom _ _ _ _ HS Em B) as [_ Q]. rewrite En in Q. lia.
  - destruct (Str_next _ _ _ _ HS Em B) as (x & Ex & Q). rewrite En in Ex. injection Ex as <-. lia.
Qed.

(** What the repair of the layers above does to a front. *)
Lemma fix_above_split : forall k psi l l', fix_above e k psi l = Ok l' -> exists a, (a < length l)%nat /\ length l' = length l /\
  (forall i f, (i < a)%nat -> nth_error l i = Some f -> (f_layer f < k)%Z /\ exists f', nth_error l' i = Some f' /\ f_psi f' = psi /\ f_layer f' = f_layer f) /\
  (forall i, (a <= i)%nat -> nth_error l' i = nth_error l i) /\ (forall f, nth_error l a = Some f -> (k <= f_layer f)%Z).
Proof.
  intros k psi. induction l as [|c r IH]; intros l' E; cbn [fix_above] in E; [discriminate|]. destruct (Z.ltb_spec (f_layer c) k) as [D|D].
  - bind_inv E s Es. bind_inv E r' Er. apply Ok_inj in E. subst l'. destruct (IH r' Er) as (a & A1 & A2 & A3 & A4 & A5). exists (S a). split; [cbn; lia|]. split; [cbn; lia|].
    split; [|split].
    + intros [|i] f Hi Ef; cbn in *; [injection Ef as <-|apply A3; [lia|assumption]]. split; [assumption|]. eexists. split; [reflexivity|]. split; reflexivity.
    + intros [|i] Hi; [lia|]. cbn. apply A4. lia.
    + intros f Ef. apply A5. exact Ef.
  - apply Ok_inj in E. subst l'. exists 0%nat. split; [cbn; lia|]. split; [reflexivity|]. split; [intros; lia|]. split; [reflexivity|]. intros f Ef. cbn in Ef. injection Ef as <-. assumption.
Qed.

(** No buried inversion from position [p] on. *)
Definition buried_at (l : list front) (i : nat) : Prop :=
  exists j b c n, (j < i)%nat /\ nth_error l j = Some b /\ nth_error l i = Some c /\ nth_error l (S i) = Some n /\
    f_layer b = f_layer c /\ f_layer c = f_layer n /\ (1 < f_layer c)%Z /\ val (f_theta c) <= val (f_theta n) /\ f_psi b <> f_psi n.
Definition unburied (p : nat) (l : list front) : Prop := forall i, (p <= i)%nat -> ~ buried_at l i.

Lemma unburied_all : forall l, ~ buried_inversion l -> unburied 0 l.
Proof. intros l H i _ (j & b & c & n & X). apply H. exists i, j, b, c, n. exact X. Qed.

Lemma deq_dec : forall x y : dbl, x = y \/ x <> y.
Proof. intros [x| | |] [y| | |]; try (left; reflexivity); try (right; discriminate). destruct (Req_EM_T x y); [left; congruence|right; congruence]. Qed.

(** Deleting a front from position [p] on brings no buried inversion in the list that remains below it. *)
Lemma unburied_delete : forall p c l l1 l2, Str e l -> unburied p l -> nth_error l p = Some c ->
  (forall i, nth_error l1 i = if (i <? p)%nat then nth_error l i else option_map (fun f => set_num f (f_num f + -1)%Z) (nth_error l (S i))) ->
  (forall j f, nth_error l2 j = Some f -> nth_error l1 j = Some f \/ (j < p)%nat /\ (f_layer f < f_layer c)%Z) -> unburied (S p) l2.
Proof.
  intros p c l l1 l2 HS U Ec N1 A i Hi (j & b & x & y & Hj & Eb & Ex & Ey & Q1 & Q2 & Q3 & Q4 & Q5).
  destruct (A _ _ Ex) as [Ex'|[? _]]; [|lia]. destruct (A _ _ Ey) as [Ey'|[? _]]; [|lia]. rewrite N1 in Ex', Ey'.
  destruct (Nat.ltb_spec i p); [lia|]. destruct (Nat.ltb_spec (S i) p); [lia|].
  destruct (nth_error l (S i)) as [x0|] eqn:E1; [|discriminate]. destruct (nth_error l (S (S i))) as [y0|] eqn:E2; [|discriminate]. injection Ex' as <-. injection Ey' as <-.
  cbn [f_layer f_theta f_psi set_num] in Q1, Q2, Q3, Q4, Q5. assert (G : (f_layer c <= f_layer x0)%Z) by (apply (layers_down l HS (S i - p) p c x0 Ec); replace (p + (S i - p))%nat with (S i) by lia; exact E1).
  destruct (A _ _ Eb) as [Eb'|[_ ?]]; [|lia]. rewrite N1 in Eb'. apply (U (S i) ltac:(lia)). destruct (Nat.ltb_spec j p).
  - exists j, b, x0, y0. repeat split; try assumption; lia.
  - destruct (nth_error l (S j)) as [b0|] eqn:E3; [|discriminate]. injection Eb' as <-. cbn [f_layer f_psi set_num] in Q1, Q5. exists (S j), b0, x0, y0. repeat split; try assumption; lia.
Qed.

Lemma fix_pair_level : forall p c n l l' q dm, Str e l -> Forall phys l -> level l -> unburied p l -> nth_error l p = Some c -> nth_error l (S p) = Some n ->
  f_layer c = f_layer n -> val (f_theta c) <= val (f_theta n) -> fix_pair e c l = Ok (l', q, dm) -> level l' /\ unburied (S p) l' /\ q = p.
Proof.
  intros p c n l l' q dm HS H L U Ec En EL ET E. unfold fix_pair in E. cbv zeta in E.
  assert (Bc : f_bottom c = false) by (eapply Str_above; eassumption).
  destruct (delete_str _ _ _ _ HS Ec Bc) as (l1 & D1 & D2 & D3 & D4). bind_inv E m Em. rewrite D1 in E. cbn [bind] in E.
  bind_inv E l2 Q2. bind_inv E m2 Em2. apply Ok_inj in E. injection E as QE <- _. subst l'.
  assert (Hp := length_S _ _ _ _ Ec). assert (Rc := Str_range _ _ _ _ HS Ec).
  assert (N1 : forall i, nth_error l1 i = if (i <? p)%nat then nth_error l i else option_map (fun f => set_num f (f_num f + -1)%Z) (nth_error l (S i)))
    by (intros i; rewrite D4; apply nth_deleted; assumption).
  assert (H1 : Forall phys l1) by (eapply phys_delete; eassumption).
  destruct (f_layer c >? 1)%Z eqn:K; rewrite Z.gtb_ltb in K; [apply Z.ltb_lt in K|apply Z.ltb_ge in K].
  - bind_inv Q2 cur Ecur. bind_inv Q2 s Es. assert (Pcur : phys cur) by (eapply Forall_get; eassumption). apply lget_Ok in Ecur.
    rewrite (head_back cur s Pcur Es) in Q2. rewrite lset_id in Q2 by (rewrite Ecur; destruct cur; reflexivity).
    rewrite N1 in Ecur. rewrite Nat.ltb_irrefl, En in Ecur. injection Ecur as <-. cbn [f_psi set_num] in Q2.
    destruct (fix_above_split _ _ _ _ Q2) as (a & A1 & A2 & A3 & A4 & A5).
    assert (Hap : (a <= p)%nat).
    { destruct (Nat.le_gt_cases a p) as [|G]; [assumption|]. destruct (A3 p (set_num n (f_num n + -1)%Z) G) as [X _]; [rewrite N1, Nat.ltb_irrefl, En; reflexivity|]. cbn in X. lia. }
    assert (Ha : forall f, nth_error l1 a = Some f -> f_psi f = f_psi n).
    { intros f Ef. pose proof (A5 _ Ef) as Q. rewrite N1 in Ef. destruct (Nat.ltb_spec a p) as [G|G].
      - pose proof (layers_down l HS (p - a) a f c Ef ltac:(replace (a + (p - a))%nat with p by lia; exact Ec)) as G1.
        destruct (deq_dec (f_psi f) (f_psi n)) as [|Ne]; [assumption|]. exfalso. apply (U p (le_n p)). exists a, f, c, n. repeat split; try assumption; lia.
      - assert (a = p) by lia. subst a. rewrite En in Ef. injection Ef as <-. reflexivity. }
    assert (LEN : length l2 = length l1) by exact A2.
    split; [|split; [|reflexivity]].
    + intros i x y Ex Ey B. destruct (Nat.lt_ge_cases (S i) a) as [G|G]; [|destruct (Nat.lt_ge_cases i a) as [G'|G']].
      * assert (I1 := length_S _ _ _ _ Ey). rewrite LEN in I1. destruct (nth_error l1 i) as [x0|] eqn:Ex0; [|apply nth_error_None in Ex0; lia].
        destruct (nth_error l1 (S i)) as [y0|] eqn:Ey0; [|apply nth_error_None in Ey0; lia].
        destruct (A3 i x0 ltac:(lia) Ex0) as (_ & x' & X1 & X2 & _). destruct (A3 (S i) y0 ltac:(lia) Ey0) as (_ & y' & Y1 & Y2 & _). congruence.
      * assert (a = S i) by lia. subst a. rewrite A4 in Ey by lia. pose proof (Ha _ Ey) as Y. assert (I1 := length_S _ _ _ _ Ex). rewrite LEN in I1.
        destruct (nth_error l1 i) as [x0|] eqn:Ex0; [|apply nth_error_None in Ex0; lia]. destruct (A3 i x0 ltac:(lia) Ex0) as (_ & x' & X1 & X2 & _). congruence.
      * rewrite A4 in Ex, Ey by lia. rewrite N1 in Ex, Ey. destruct (Nat.ltb_spec i p) as [P|P]; destruct (Nat.ltb_spec (S i) p) as [P'|P']; try lia.
        -- apply (L i); assumption.
        -- assert (p = S i) by lia. subst p. exfalso.
           destruct (Str_bottom _ _ _ _ HS Ex B) as [_ W]. rewrite Ec in W. assert (I0 := length_S _ _ _ _ Ex). destruct (nth_error l a) as [fa|] eqn:Efa; [|apply nth_error_None in Efa; lia].
           assert (Q : (f_layer c <= f_layer fa)%Z) by (apply A5; rewrite N1; destruct (Nat.ltb_spec a (S i)); [assumption|lia]).
           pose proof (layers_down l HS (i - a) a fa x Efa ltac:(replace (a + (i - a))%nat with i by lia; exact Ex)). lia.
        -- destruct (nth_error l (S i)) as [x0|] eqn:E1; [|discriminate]. destruct (nth_error l (S (S i))) as [y0|] eqn:E2; [|discriminate]. injection Ex as <-. injection Ey as <-. cbn in *. apply (L (S i)); assumption.
    + apply (unburied_delete p c l l1 l2 HS U Ec N1). intros j f Ef. destruct (Nat.lt_ge_cases j a) as [G|G]; [|left; rewrite <- A4; assumption].
      right. split; [lia|]. assert (I1 := length_S _ _ _ _ Ef). rewrite LEN in I1. destruct (nth_error l1 j) as [f0|] eqn:Ef0; [|apply nth_error_None in Ef0; lia].
      destruct (A3 j f0 G Ef0) as (X & f' & X1 & _ & X3). rewrite Ef in X1. injection X1 as <-. lia.
  - apply Ok_inj in Q2. subst l2. split; [|split; [|reflexivity]].
    + rewrite D4. eapply level_delete; [exact L|exact Ec|exact En|]. intros i b -> Eb Bb. exfalso. destruct (Str_bottom _ _ _ _ HS Eb Bb) as [_ W]. rewrite Ec in W.
      pose proof (Str_range _ _ _ _ HS Eb). lia.
    + apply (unburied_delete p c l l1 l1 HS U Ec N1). intros j f Ef. left. assumption.
Qed.

Lemma fix_loop_level : forall k i p l mc l' mc', Str e l -> Forall phys l -> level l -> unburied p l -> fix_loop k e i p l mc = Ok (l', mc') -> level l'.
Proof.
  induction k as [|k IH]; intros i p l mc l' mc' HS H L U E; cbn [fix_loop] in E; [discriminate|].
  destruct (_ <=? _)%Z; [|apply Ok_inj in E; apply pair_equal_spec in E as [<- _]; exact L].
  destruct (nth_error l p) as [c|] eqn:Ec; [|apply Ok_inj in E; apply pair_equal_spec in E as [<- _]; exact L].
  destruct (nth_error l (S p)) as [n|] eqn:En; [|apply Ok_inj in E; apply pair_equal_spec in E as [<- _]; exact L].
  destruct (dry_over_wet c n) eqn:C.
  - bind_inv E x Ex. destruct x as [[l1 q] dm]. apply andb_prop in C as [C1 C2]. apply Z.eqb_eq in C2.
    destruct (fix_pair_ok e p c n l HE HS Ec En C2) as (l1' & dm' & E' & S1 & _). rewrite Ex in E'. apply Ok_inj in E'. injection E' as <- -> <-.
    assert (T : val (f_theta c) <= val (f_theta n)).
    { assert (Pc : phys c) by (eapply Forall_get; [exact H|apply lget_Ok; exact Ec]). assert (Pn : phys n) by (eapply Forall_get; [exact H|apply lget_Ok; exact En]).
      pose proof Pc as (_ & _ & (s & Es & _) & _). destruct (phys_within e M HV c s Pc Es) as (? & ? & ? & ? & ? & ? & t & _ & Tc & _).
      rewrite C2 in Es. destruct (phys_within e M HV n s Pn Es) as (? & ? & ? & ? & ? & ? & t' & _ & Tn & _). rewrite Tc, Tn in *. destruct (Rle_dec t t') as [G|G]; [exact G|]. rewrite leb_f in C1 by lra. discriminate. }
    destruct (fix_pair_level p c n l l1 p dm HS H L U Ec En C2 T Ex) as (L1 & U1 & _).
    apply (IH (i + 1)%Z (S p) l1 (mc + dm)%d l' mc' S1); [eapply fix_pair_phys; eassumption|assumption|assumption|exact E].
  - apply (IH (i + 1)%Z (S p) l mc l' mc' HS H L); [|exact E]. intros j Hj. apply U. lia.
Qed.

Lemma check_and_fix_level : forall l mc l' mc', Str e l -> Forall phys l -> level l -> ~ buried_inversion l -> check_and_fix e l mc = Ok (l', mc') -> level l'.
Proof.
  intros l mc l' mc' HS H L B E. unfold check_and_fix in E. bind_inv E b Eb. destruct b; [|apply Ok_inj in E; apply pair_equal_spec in E as [<- _]; exact L].
  unfold lgar_fix_dry_over_wet_wetting_fronts in E. destruct l as [|c r]; [discriminate|].
  exact (fix_loop_level _ _ _ _ _ _ _ HS H L (unburied_all _ B) E).
Qed.

(** ** Motion *)

Lemma closure_loop_level : forall k p target l mass err factor dn sw aug iter l' err' g, level l ->
  closure_loop k e p target l mass err factor dn sw aug iter = Ok (l', err', g) -> level l'.
Proof.
  induction k as [|k IH]; intros p target l mass err factor dn sw aug iter l' err' g H E; cbn [closure_loop] in E;
    (destruct (_ >? _)%d; [|apply Ok_inj in E; injection E as <- _ _; exact H]); [apply Ok_inj in E; injection E as <- _ _; exact H|].
  cbv zeta in E. destruct (if (mass <? target)%d then _ else _) as [[dn1 sw1] fa1]. bind_inv E g0 Ef. bind_inv E d Ed. bind_inv E m Em.
  eapply IH; [|exact E]. apply lget_Ok in Ef. eapply level_sim; [eapply sim_lset; [exact Ef|split; reflexivity]|exact H].
Qed.
Lemma closure_level : forall old precip l aet l' aet' fl, Forall phys l -> level l -> closure e old precip l aet = Ok (l', aet', fl) -> level l'.
Proof.
  intros old precip l aet l' aet' fl H L E. unfold closure in E. bind_inv E l1 Q1. cbv zeta in E. bind_inv E s Es. bind_inv E u Eu.
  assert (L1 : level l1) by (eapply cross_level; eassumption). destruct (findFront _ l1) as [p|]; [|discriminate]. bind_inv E g0 Ef.
  destruct (_ <? _)%d; [|apply Ok_inj in E; injection E as <- _ _; exact L1]. bind_inv E m Em. bind_inv E x Ex. destruct x as [[l2 err] g].
  assert (L2 : level l2) by (eapply closure_loop_level; eassumption). destruct g; [bind_inv E m2 Em2|]; apply Ok_inj in E; injection E as <- _ _; exact L2.
Qed.

Lemma refresh_sim : forall l l', Forall phys l -> refresh_psi e l = Ok l' -> Forall2 sim l l'.
Proof.
  induction l as [|c r IH]; intros l' H E; cbn [refresh_psi] in E; [discriminate|]. destruct r as [|n r]; [apply Ok_inj in E; subst; apply sim_refl|].
  bind_inv E c' Ec. bind_inv E r' Er. apply Ok_inj in E. subst l'. inversion H as [|x y Hc Hr]; subst. constructor; [|eauto].
  destruct (_ >? _)%d; [|apply Ok_inj in Ec; subst; split; reflexivity]. bind_inv Ec s Es. bind_inv Ec ff Ef. cbv zeta in Ec. apply Ok_inj in Ec. subst c'.
  split; [|reflexivity]. cbn. apply head_back; assumption.
Qed.
Lemma fix_single_level : forall l l', level l -> fix_single e l = Ok l' -> level l'.
Proof.
  intros l l' L E. unfold fix_single in E. destruct l as [|c [|]]; [| |]; try (apply Ok_inj in E; subst; exact L). bind_inv E d Ed. apply Ok_inj in E. subst l'.
  intros i x y Ex Ey. destruct i as [|i]; discriminate.
Qed.

Lemma merge_phases_level : forall l l' fl mc, Str e l -> Forall phys l -> level l -> ~ (exists l2 mc2 l3, check_and_fix e l (Fin 0) = Ok (l2, mc2) /\
    lgar_merge_wetting_fronts e l2 = Ok l3 /\ cross_tie e l3) -> ~ phases_buried e l -> merge_phases e l = Ok (l', fl, mc) -> level l'.
Proof.
  intros l l' fl mc HS H L HT HB E. unfold merge_phases in E. bind_inv E x1 Q1. destruct x1 as [l1 mc1]. bind_inv E l2 Q2. bind_inv E l3 Q3.
  bind_inv E x4 Q4. destruct x4 as [l4 mc4]. bind_inv E l5 Q5. bind_inv E D ED. bind_inv E x6 Q6. destruct x6 as [fl6 l6]. bind_inv E x7 Q7. destruct x7 as [l7 mc7].
  apply Ok_inj in E. injection E as <- _ _.
  assert (P1 : Forall phys l1) by (eapply check_and_fix_phys; eassumption). assert (P2 : Forall phys l2) by (eapply merge_phys; eassumption).
  assert (P3 : Forall phys l3) by (eapply cross_phys; eassumption). assert (P4 : Forall phys l4) by (eapply check_and_fix_phys; eassumption).
  assert (P5 : Forall phys l5) by (eapply merge_phys; eassumption).
  destruct (check_and_fix_ok e l (Fin 0) HE HS) as (y1 & z1 & F1 & S1). rewrite Q1 in F1. apply Ok_inj in F1. apply pair_equal_spec in F1 as [<- _].
  pose proof (ends_Ok _ _ _ _ _ (merge_ok e l1 HE S1) Q2) as S2. cbn beta in S2.
  assert (T2 : ~ cross_tie e l2) by (intro T; apply HT; exists l1, mc1, l2; auto).
  destruct (cross_ok e l2 HE ltac:(tauto) T2) as (y3 & F3 & S3 & _). rewrite Q3 in F3. apply Ok_inj in F3. subst y3.
  destruct (check_and_fix_ok e l3 mc1 HE S3) as (y4 & z4 & F4 & S4). rewrite Q4 in F4. apply Ok_inj in F4. apply pair_equal_spec in F4 as [<- _].
  pose proof (ends_Ok _ _ _ _ _ (merge_ok e l4 HE S4) Q5) as S5. cbn beta in S5.
  assert (S5' : Str e l5) by tauto. assert (S2' : Str e l2) by tauto.
  assert (L1 : level l1). { apply (check_and_fix_level l (Fin 0) l1 mc1 HS H L); [|exact Q1]. intro B. apply HB. left. exact B. }
  assert (L3 : level l3). { apply (cross_level l2 l3 P2); [|exact Q3]. exact (merge_level l1 l2 S1 P1 L1 Q2). }
  assert (L4 : level l4). { apply (check_and_fix_level l3 mc1 l4 mc4 S3 P3 L3); [|exact Q4]. intro B. apply HB. right. exists l1, mc1, l2, l3. auto. }
  assert (L5 : level l5) by exact (merge_level l4 l5 S4 P4 L4 Q5).
  destruct (domain_ok e D l5 HE ED S5') as (f6 & y6 & F6 & S6). rewrite Q6 in F6. apply Ok_inj in F6. apply pair_equal_spec in F6 as [_ <-].
  apply (check_and_fix_level l6 mc4 l7 mc7 S6); [exact (domain_phys e M HV HM HF HE D l5 fl6 l6 ED S5' P5 Q6)|exact (domain_level D l5 fl6 l6 ED S5' P5 L5 Q6)| |exact Q7].
  intro B. apply HB. right. exists l1, mc1, l2, l3. split; [assumption|]. split; [assumption|]. split; [assumption|]. right. exists l4, mc4, l5, D, fl6, l6. auto.
Qed.

(** The motion leaves equal heads whatever they were before. *)
Lemma move_level : forall dt volin wfd old aet head prev l' aet' fl, Str e head -> numbered prev -> length prev = length head -> finite dt ->
  ~ move_tie e dt volin wfd old aet head prev -> ~ move_buried e dt volin wfd old aet head prev -> Forall phys head ->
  lgar_move_wetting_fronts e dt volin wfd old aet head prev = Ok (l', aet', fl) -> level l'.
Proof.
  intros dt volin wfd old aet head prev l' aet' fl HS HN HL Hdt HT HB H E. unfold lgar_move_wetting_fronts in E. bind_inv E z Ez. cbv zeta in E.
  bind_inv E x1 Q1. destruct x1 as [l1 a1]. bind_inv E x2 Q2. destruct x2 as [[l2 a2] fl2]. bind_inv E x3 Q3. destruct x3 as [[l3 fl3] mc]. bind_inv E l4 Q4. bind_inv E l5 Q5.
  apply Ok_inj in E. injection E as <- _ _.
  assert (Hne : head <> []) by (eapply Str_nonempty; eauto using se_n).
  pose proof (ends_Ok _ _ _ _ _ (move_loop_ok e dt volin wfd prev HE HN Hdt (length head) head aet HS HL (le_n _)) Q1) as [S1 _]. cbn [fst] in S1.
  assert (HP : profile (e_nlayers e) (e_cum e) head /\ deepest_rests head) by (apply (Str_iff e head); [destruct HE; lia|assumption]). destruct HP as [HP1 HP2].
  destruct (loop_advances e dt volin wfd prev head aet l1 a1 HE HP1 HP2 HN HL Hdt Q1) as [_ HM1].
  destruct head as [|c r]; [contradiction|].
  assert (P1 : Forall phys l1) by (eapply move_loop_phys; eassumption). assert (P2 : Forall phys l2) by (eapply closure_phys; eassumption).
  assert (L1 : level l1) by (apply level_meet; assumption). assert (L2 : level l2) by exact (closure_level old volin l1 a1 l2 a2 fl2 P1 L1 Q2).
  assert (T1 : ~ cross_tie e l1) by (intro T; apply HT; exists l1, a1; split; [exact Q1|left; exact T]).
  pose proof (ends_Ok _ _ _ _ _ (closure_ok e old volin l1 a1 HE S1 T1) Q2) as S2. cbn [fst] in S2.
  assert (HT2 : ~ (exists y2 mc2 y3, check_and_fix e l2 (Fin 0) = Ok (y2, mc2) /\ lgar_merge_wetting_fronts e y2 = Ok y3 /\ cross_tie e y3)).
  { intros (y2 & mc2 & y3 & A & B & T). apply HT. exists l1, a1. split; [exact Q1|]. right. exists l2, a2, fl2, y2, mc2, y3. auto. }
  assert (HB2 : ~ phases_buried e l2) by (intro B; apply HB; exists l1, a1, l2, a2, fl2; auto).
  assert (L3 : level l3) by exact (merge_phases_level l2 l3 fl3 mc S2 P2 L2 HT2 HB2 Q3). assert (P3 : Forall phys l3) by (eapply merge_phases_phys; eassumption).
  eapply fix_single_level; [|exact Q5]. eapply level_sim; [|exact L3]. apply refresh_sim; assumption.
Qed.
End Level.
