(** Merging, layer crossing and leaving the column, in exact arithmetic. *)

From Coq Require Import Reals Lra ZArith List Bool Lia.
From Verif Require Import Outcome Dbl Exact Types ListOps Soil Fronts Lib Spec_Common Spec_List Spec_Soil Spec_Update Spec_Profile Spec_Storage
  Pf_Dbl Pf_Pow Pf_Infil Pf_List Pf_Soil Pf_Profile Pf_Structure Pf_Storage.
Import ListNotations.
Open Scope R_scope.
Local Existing Instance exact.

(** ** Lists *)

Lemma nth_three : forall (l : list front) p c n nn, nth_error l p = Some c -> nth_error l (S p) = Some n -> nth_error l (S (S p)) = Some nn ->
  exists a b, l = a ++ c :: n :: nn :: b /\ length a = p.
Proof.
  intros l p c n nn Ec En Enn. destruct (split_nth _ _ _ _ Ec) as (a & r0 & -> & Ha).
  rewrite nth_error_app2 in En, Enn by lia. rewrite Ha in En, Enn.
  replace (S p - p)%nat with 1%nat in En by lia. replace (S (S p) - p)%nat with 2%nat in Enn by lia. cbn in En, Enn.
  destruct r0 as [|n0 [|nn0 r]]; try discriminate. cbn in En, Enn. injection En as ->. injection Enn as ->. eauto.
Qed.

Lemma nth_two : forall (l : list front) p c n, nth_error l p = Some c -> nth_error l (S p) = Some n -> exists a b, l = a ++ c :: n :: b /\ length a = p.
Proof.
  intros l p c n Ec En. destruct (split_nth _ _ _ _ Ec) as (a & r0 & -> & Ha).
  rewrite nth_error_app2 in En by lia. rewrite Ha in En. replace (S p - p)%nat with 1%nat in En by lia. cbn in En.
  destruct r0 as [|n0 r]; try discriminate. cbn in En. injection En as ->. eauto.
Qed.

Lemma drier_app : forall a x b, drier_downwards (a ++ x :: b) <-> drier_downwards (a ++ [x]) /\ drier_downwards (x :: b).
Proof.
  induction a as [|f a IH]; intros x b; cbn [app]; [cbn; tauto|].
  destruct a as [|g a]; cbn [app] in *.
  - cbn. tauto.
  - specialize (IH x b). change (drier_downwards (f :: g :: a ++ x :: b)) with ((f_layer f = f_layer g -> val (f_theta g) < val (f_theta f)) /\ drier_downwards (g :: a ++ x :: b)).
    change (drier_downwards (f :: g :: a ++ [x])) with ((f_layer f = f_layer g -> val (f_theta g) < val (f_theta f)) /\ drier_downwards (g :: a ++ [x])). tauto.
Qed.

Lemma drier_last : forall a x y, f_layer x = f_layer y -> f_theta x = f_theta y -> drier_downwards (a ++ [x]) -> drier_downwards (a ++ [y]).
Proof.
  induction a as [|f a IH]; intros x y HL HT H; cbn [app] in *; [exact I|].
  destruct a as [|g a]; cbn [app] in *.
  - cbn in *. rewrite <- HL, <- HT. exact H.
  - destruct H as [H1 H2]. split; [exact H1|]. apply (IH x); assumption.
Qed.

Lemma drier_bump : forall l d, drier_downwards l -> drier_downwards (bump d l).
Proof.
  induction l as [|f [|g r] IH]; intros d H; [exact I|exact I|]. destruct H as [H1 H2]. split; [exact H1|]. apply (IH d). exact H2.
Qed.

Lemma surface_app : forall a b, below_surface (a ++ b) <-> below_surface a /\ below_surface b.
Proof. intros. apply Forall_app. Qed.
Lemma surface_bump : forall l d, below_surface l -> below_surface (bump d l).
Proof. induction 1; constructor; auto. Qed.

Lemma bottoms_app : forall a b, bottom_fronts (a ++ b) = bottom_fronts a ++ bottom_fronts b.
Proof. intros. unfold bottom_fronts. rewrite filter_app, map_app. reflexivity. Qed.
Lemma bottoms_bump : forall l d, bottom_fronts (bump d l) = bottom_fronts l.
Proof. induction l as [|f l IH]; intro d; [reflexivity|]. specialize (IH d). unfold bottom_fronts in *.
  change (bump d (f :: l)) with (set_num f (f_num f + d) :: bump d l). cbn [filter]. change (f_bottom (set_num f (f_num f + d))) with (f_bottom f).
  destruct (f_bottom f); cbn [map]; rewrite IH; reflexivity. Qed.

Lemma in_layers_app : forall e a b, in_layers e (a ++ b) <-> in_layers e a /\ in_layers e b.
Proof. intros. apply Forall_app. Qed.
Lemma in_layers_bump : forall e l d, in_layers e l -> in_layers e (bump d l).
Proof. induction 1; constructor; auto. Qed.
Lemma within_app : forall e a b, within_soils e (a ++ b) <-> within_soils e a /\ within_soils e b.
Proof. intros. apply Forall_app. Qed.
Lemma within_bump : forall e l d, within_soils e l -> within_soils e (bump d l).
Proof. induction 1; constructor; auto. Qed.
Lemma surface_cons : forall a c r c' r', f_theta c = f_theta c' -> surface_theta (a ++ c :: r) = surface_theta (a ++ c' :: r').
Proof. intros [|x a] c r c' r' H; cbn; congruence. Qed.

(** ** Merging *)

(** What the merge leaves alone. *)
Record merge_keeps (e : env) (l l' : list front) : Prop := {
  mk_storage : storage l' = storage l;
  mk_bottoms : bottom_fronts l' = bottom_fronts l;
  mk_surface : surface_theta l' = surface_theta l;
  mk_layers : in_layers e l -> in_layers e l';
  mk_within : within_soils e l -> within_soils e l'
}.
Lemma merge_keeps_refl : forall e l, merge_keeps e l l.
Proof. intros. constructor; auto. Qed.
Lemma merge_keeps_trans : forall e l1 l2 l3, merge_keeps e l1 l2 -> merge_keeps e l2 l3 -> merge_keeps e l1 l3.
Proof. intros e l1 l2 l3 [A1 A2 A3 A4 A5] [B1 B2 B3 B4 B5]. constructor; auto; congruence. Qed.

(** What the merge needs and keeps. *)
Record mergeable (e : env) (l : list front) : Prop := {
  mg_str : Str e l;
  mg_measured : measured l;
  mg_drier : drier_downwards l;
  mg_surface : below_surface l
}.

Lemma merge_step_exact : forall e p l, sound_env e -> mergeable e l -> (S p < length l)%nat ->
  exists l', merge_step e p l = Ok l' /\ mergeable e l' /\ (S p < length l')%nat /\ (length l' <= length l)%nat /\ merge_keeps e l l'.
Proof.
  intros e p l HE HM Hp. assert (H := mg_str _ _ HM). unfold merge_step.
  destruct (nth_error l p) as [c|] eqn:Ec; [|apply nth_error_None in Ec; lia].
  destruct (nth_error l (S p)) as [n|] eqn:En; [|apply nth_error_None in En; lia].
  rewrite (proj2 (lget_Ok _ _ _) Ec), (proj2 (lget_Ok _ _ _) En). cbn [bind].
  destruct (_ && _ && negb (f_bottom n))%bool eqn:C.
  2:{ exists l. split; [reflexivity|]. split; [assumption|]. split; [lia|]. split; [lia|apply merge_keeps_refl]. }
  apply andb_prop in C as [C C3]. apply andb_prop in C as [C1 C2]. apply Z.eqb_eq in C2. apply negb_true_iff in C3.
  destruct (Str_next _ _ _ _ H En C3) as (nn & Enn & Hnn). rewrite (proj2 (lget_Ok _ _ _) Enn). cbn [bind].
  destruct (nth_three _ _ _ _ _ Ec En Enn) as (a & b & EL & Ha).
  destruct HM as [_ M D S]. rewrite EL in M, D, S. apply measured_app in M as [Ma M]. apply surface_app in S as [Sa S].
  pose proof (proj1 (drier_app _ _ _) D) as [D1 D2]. clear D. cbn [drier_downwards] in D2. destruct D2 as (D2 & D3 & D4).
  inversion M as [|x y [[dc Edc] [tc Etc]] M']; subst x y. inversion M' as [|x y [[dn Edn] [tn Etn]] M2]; subst x y.
  inversion M2 as [|x y [[dd Edd] [tnn Etnn]] M3]; subst x y.
  inversion S as [|x y Sc S1]; subst x y. inversion S1 as [|x y Sn S2]; subst x y.
  assert (H1 : tn < tc) by (specialize (D2 C2); rewrite Etc, Etn in D2; exact D2).
  assert (H2 : tnn < tn) by (specialize (D3 (eq_sym Hnn)); rewrite Etn, Etnn in D3; exact D3).
  rewrite Edc in Sc. rewrite Edn in Sn. cbn [val] in Sc, Sn.
  set (d' := (dc * (tc - tn) + dn * (tn - tnn)) / (tc - tnn)).
  assert (HD : d' * (tc - tnn) = dc * (tc - tn) + dn * (tn - tnn)) by (unfold d'; field; lra).
  assert (Hd' : 0 < d').
  { unfold d'. apply Rdiv_lt_0_compat; [|lra]. assert (0 < dc * (tc - tn)) by (apply Rmult_lt_0_compat; lra).
    assert (0 < dn * (tn - tnn)) by (apply Rmult_lt_0_compat; lra). lra. }
  assert (E' : ((f_depth c * (f_theta c - f_theta n) + f_depth n * (f_theta n - f_theta nn)) / (f_theta c - f_theta nn))%d = Fin d').
  { rewrite Edc, Etc, Etn, Edn, Etnn. unfold d'. cbn. destruct (Req_EM_T (tc - tnn) 0); [lra|reflexivity]. }
  cbv zeta. rewrite E'. assert (Eg : (Fin d' >? Fin 0)%d = true) by (apply ltb_t; lra). rewrite Eg. cbn [cassert bind].
  assert (Rc := Str_range _ _ _ _ H Ec).
  destruct (env_soil e _ HE Rc) as [s Es]. destruct (env_frozen e _ HE Rc) as [ff Ef]. rewrite Es, Ef. cbn [bind].
  assert (Hc : f_bottom c = false) by (eapply Str_above; eauto).
  match goal with |- context [lset l p ?x] => set (c' := x) end.
  assert (HS : Str e (lset l p c')).
  { eapply Str_lset; [exact Ec| |assumption]. split; [|split; reflexivity]. split; [reflexivity|]. split; [reflexivity|]. rewrite Hc. discriminate. }
  assert (En2 : nth_error (lset l p c') (Datatypes.S p) = Some n) by (rewrite nth_error_lset_neq; [assumption|lia]).
  destruct (delete_str _ _ _ _ HS En2 C3) as (l' & E1 & E2 & E3 & E4). rewrite E1. cbn [bind].
  assert (EQ : l' = a ++ c' :: bump (-1) (nn :: b)).
  { rewrite E4, EL, <- Ha, lset_app. replace (a ++ c' :: n :: nn :: b) with ((a ++ [c']) ++ n :: nn :: b) by (rewrite <- app_assoc; reflexivity).
    replace (Datatypes.S (length a)) with (length (a ++ [c'])) by (rewrite app_length; cbn; lia).
    rewrite firstn_app, Nat.sub_diag, firstn_all, firstn_O, app_nil_r, <- app_assoc.
    f_equal. cbn [app]. f_equal. f_equal. rewrite skipn_app, skipn_all2 by (rewrite app_length; cbn; lia).
    rewrite app_length. cbn [length]. replace (Datatypes.S (length a + 1) - (length a + 1))%nat with 1%nat by lia. reflexivity. }
  rewrite lset_length in E3. assert (Hl := length_S _ _ _ _ Enn).
  exists l'. split; [reflexivity|]. split; [|split; [lia|split; [lia|constructor]]].
  - constructor; [assumption| | |]; rewrite EQ.
    + apply measured_app. split; [assumption|]. constructor; [split; [exists d'|exists tc]; auto|]. apply measured_bump. assumption.
    + apply drier_app. split; [apply drier_last with c; auto|].
      change (drier_downwards (c' :: bump (-1) (nn :: b))) with ((f_layer c' = f_layer nn -> val (f_theta nn) < val (f_theta c')) /\ drier_downwards (bump (-1) (nn :: b))).
      split; [|apply drier_bump; exact D4]. intros _. cbn [c' set_K set_psi set_depth f_theta]. rewrite Etc, Etnn. cbn. lra.
    + apply surface_app. split; [assumption|]. constructor; [exact Hd'|]. apply surface_bump. assumption.
  - rewrite EQ, EL. unfold storage. rewrite !slabs_app. f_equal. change (c' :: bump (-1) (nn :: b)) with ([c'] ++ bump (-1) (nn :: b)).
    rewrite slabs_app, slabs_bump. cbn [slabs lastd app c' set_K set_psi set_depth f_theta f_depth]. rewrite Edc, Etc, Edn, Etn, Etnn, Edd. cbn [val]. lra.
  - rewrite EQ, EL, !bottoms_app. f_equal. change (c' :: bump (-1) (nn :: b)) with ([c'] ++ bump (-1) (nn :: b)).
    change (c :: n :: nn :: b) with ([c] ++ [n] ++ (nn :: b)). rewrite !bottoms_app, bottoms_bump. unfold bottom_fronts at 1 3 4. cbn [filter c' set_K set_psi set_depth f_bottom].
    rewrite Hc, C3. reflexivity.
  - rewrite EQ, EL. apply surface_cons. reflexivity.
  - intro L. rewrite EQ. rewrite EL in L. apply in_layers_app in L as [L1 L2]. apply in_layers_app. split; [assumption|].
    inversion L2 as [|x y (z & Z1 & Z2) L3]; subst x y. inversion L3 as [|x y (z' & Z3 & Z4) L4]; subst x y.
    constructor; [|apply in_layers_bump; assumption]. exists z. split; [exact Z1|]. rewrite <- C2, Z1 in Z3. injection Z3 as <-.
    rewrite Edc in Z2. rewrite Edn in Z4. cbn [c' set_K set_psi set_depth f_depth val] in *. apply Rmult_le_reg_r with (tc - tnn); [lra|]. rewrite HD. nra.
  - intro L. rewrite EQ. rewrite EL in L. apply within_app in L as [L1 L2]. apply within_app. split; [assumption|].
    inversion L2 as [|x y Z1 L3]; subst x y. inversion L3 as [|x y Z2 L4]; subst x y. constructor; [exact Z1|apply within_bump; assumption].
Qed.

Lemma merge_loop_exact : forall e, sound_env e -> forall k p l, mergeable e l -> (p < length l)%nat -> (length l - p <= k)%nat ->
  exists l', merge_loop k e p l = Ok l' /\ mergeable e l' /\ (length l' <= length l)%nat /\ merge_keeps e l l'.
Proof.
  intros e HE. induction k as [|k IH]; intros p l H Hp Hk; [lia|]. cbn [merge_loop]. unfold listLength.
  destruct (Z.eqb_spec (Z.of_nat (S p)) (Z.of_nat (length l))) as [|Hne]; [exists l; split; [reflexivity|]; split; [assumption|]; split; [lia|apply merge_keeps_refl]|].
  destruct (merge_step_exact e p l HE H ltac:(lia)) as (l1 & E1 & H1 & L1 & L2 & K1). rewrite E1. cbn [bind].
  destruct (IH (S p) l1 H1 L1 ltac:(lia)) as (l2 & E2 & H2 & L3 & K2). exists l2. split; [assumption|]. split; [assumption|].
  split; [lia|]. eapply merge_keeps_trans; eassumption.
Qed.

Theorem merge_conserves : forall e l, sound_env e -> mergeable e l ->
  exists l', lgar_merge_wetting_fronts e l = Ok l' /\ mergeable e l' /\ (length l' <= length l)%nat /\ merge_keeps e l l'.
Proof.
  intros e l HE H. assert (l <> []) by (eapply Str_nonempty; eauto using se_n, mg_str). destruct l as [|c r]; [contradiction|].
  apply merge_loop_exact; auto; cbn [length]; lia.
Qed.

Theorem merge_spec : forall e l, sound_env e -> profile (e_nlayers e) (e_cum e) l -> deepest_rests l -> measured l -> drier_downwards l -> below_surface l ->
  exists l', lgar_merge_wetting_fronts e l = Ok l' /\ storage l' = storage l /\ bottom_fronts l' = bottom_fronts l /\ (length l' <= length l)%nat /\
    profile (e_nlayers e) (e_cum e) l' /\ measured l' /\ drier_downwards l' /\ below_surface l'.
Proof.
  intros e l HE HP HR M D S. destruct (merge_conserves e l HE) as (l' & E1 & [H1 H2 H3 H4] & L1 & [S1 B1 _ _ _]).
  { constructor; auto. apply Str_iff; [apply HE|auto]. }
  exists l'. repeat (split; [assumption|]). split; [|auto]. apply Str_iff; [apply HE|assumption].
Qed.

(** ** Leaving the column at the bottom *)

Lemma domain_loop_exact : forall e D, sound_env e -> aget (e_cum e) (e_nlayers e) = Ok (Fin D) -> forall k p l, Str e l -> measured l -> (p < length l)%nat ->
  exists fl l', domain_loop k e (Fin D) p l = Ok (Fin fl, l') /\ Str e l' /\ measured l' /\ storage l = storage l' + fl /\
    (l' = l /\ fl = 0 \/
     exists a c n n', l = a ++ [c; n] /\ l' = a ++ [n'] /\ f_theta n' = f_theta c /\ f_depth n' = f_depth n /\ D <= val (f_depth c) /\
       f_layer c = e_nlayers e /\ fl = (val (f_theta c) - val (f_theta n)) * (val (f_depth c) - D)).
Proof.
  intros e D HE HD. induction k as [|k IH]; intros p l H M Hp; cbn [domain_loop].
  { exists 0, l. split; [reflexivity|]. split; [assumption|]. split; [assumption|]. split; [lra|auto]. }
  unfold listLength. destruct (Z.geb_spec (Z.of_nat (S p)) (Z.of_nat (length l))) as [|Hne].
  { exists 0, l. split; [reflexivity|]. split; [assumption|]. split; [assumption|]. split; [lra|auto]. }
  destruct (nth_error l p) as [c|] eqn:Ec; [|apply nth_error_None in Ec; lia].
  destruct (nth_error l (S p)) as [n|] eqn:En; [|apply nth_error_None in En; lia].
  rewrite (proj2 (lget_Ok _ _ _) Ec), (proj2 (lget_Ok _ _ _) En). cbn [bind].
  assert (Rc := Str_range _ _ _ _ H Ec).
  destruct (env_soil e _ HE Rc) as [s Es]. destruct (env_frozen e _ HE Rc) as [ff Ef].
  destruct (env_stype _ _ _ Es) as (t & Et & Est). rewrite Et. cbn [bind].
  destruct (nth_error l (S (S p))) as [nn|] eqn:Enn; [apply IH; [assumption|assumption|lia]|].
  destruct (f_depth c >=? Fin D)%d eqn:C; [|apply IH; [assumption|assumption|lia]].
  rewrite Est, Ef. cbn [bind].
  assert (Hc : f_bottom c = false).
  { destruct (f_bottom c) eqn:Hb; [|reflexivity]. exfalso. destruct (Str_bottom _ _ _ _ H Ec Hb) as [D1 D2]. rewrite En in D2.
    assert (Rn := Str_range _ _ _ _ H En).
    destruct (env_cum e (f_layer c) HE ltac:(lia)) as (z1 & Z1 & _).
    rewrite D1 in Z1. apply Ok_inj in Z1. rewrite Z1 in C.
    unfold dgeb, dleb in C. apply Rleb_true in C.
    assert (z1 < D); [|lra]. apply (cum_mono e HE (f_layer c) (e_nlayers e)); auto; [lia|lia|]. rewrite D1, Z1. reflexivity. }
  destruct (Str_next _ _ _ _ H Ec Hc) as (n0 & En0 & Ln). assert (n0 = n) by congruence. subst n0.
  assert (Hb : f_bottom n = true /\ f_layer n = e_nlayers e /\ f_depth n = Fin D).
  { destruct (f_bottom n) eqn:Hb.
    - destruct (Str_bottom _ _ _ _ H En Hb) as [D1 D2]. rewrite Enn in D2. split; [reflexivity|]. split; [assumption|]. rewrite D2, HD in D1. congruence.
    - destruct (Str_next _ _ _ _ H En Hb) as (q & Eq & _). congruence. }
  destruct Hb as (Hb & Lb & Eb).
  match goal with |- context [lset l (S p) ?x] => set (n' := x) end.
  assert (HS : Str e (lset l (S p) n')) by (eapply Str_lset; [exact En| |assumption]; repeat split).
  assert (Ec2 : nth_error (lset l (S p) n') p = Some c) by (rewrite nth_error_lset_neq; [assumption|lia]).
  destruct (delete_str _ _ _ _ HS Ec2 Hc) as (l' & D1 & D2 & D3 & D4). rewrite D1. cbn [bind].
  destruct (nth_two _ _ _ _ Ec En) as (a & b & EL & Ha).
  assert (b = []). { apply nth_error_None in Enn. rewrite EL, app_length in Enn. cbn in Enn. destruct b; [reflexivity|cbn in Enn; lia]. } subst b.
  assert (EQ : l' = a ++ [set_num n' (f_num n' + -1)]).
  { rewrite D4, EL. replace (a ++ [c; n]) with ((a ++ [c]) ++ [n]) by (rewrite <- app_assoc; reflexivity).
    replace (S p) with (length (a ++ [c])) by (rewrite app_length; cbn; lia). rewrite lset_app.
    rewrite skipn_app, skipn_all, Nat.sub_diag. cbn [skipn app bump map].
    rewrite <- app_assoc, firstn_app, <- Ha, firstn_all, Nat.sub_diag, firstn_O, app_nil_r. reflexivity. }
  assert (M0 := M). rewrite EL in M. apply measured_app in M as [Ma M]. inversion M as [|x y [[dc Edc] [tc Etc]] M']; subst x y.
  inversion M' as [|x y [[dn Edn] [tn Etn]] M2]; subst x y. rewrite Eb in Edn. injection Edn as <-.
  exists ((tc - tn) * (dc - D)), l'. split; [|split; [assumption|split]].
  - f_equal. f_equal. rewrite Etc, Etn, Edc, Eb. cbn. f_equal. lra.
  - rewrite EQ. apply measured_app. split; [assumption|]. constructor; [|constructor]. split; [exists D; exact Eb|exists tc; exact Etc].
  - split.
    + rewrite EL, EQ. unfold storage. rewrite !slabs_app. cbn [slabs n' set_num set_K set_psi set_theta f_theta f_depth]. rewrite Etc, Etn, Edc, Eb. cbn [val]. lra.
    + right. exists a, c, n, (set_num n' (f_num n' + -1)). split; [assumption|]. split; [assumption|]. split; [reflexivity|]. split; [reflexivity|].
      rewrite Edc, Etc, Etn. cbn [val]. split; [|split; [congruence|reflexivity]].
      rewrite Edc in C. unfold dgeb, dleb in C. apply Rleb_true in C. exact C.
Qed.

Theorem domain_spec : forall e D l, sound_env e -> aget (e_cum e) (e_nlayers e) = Ok (Fin D) -> profile (e_nlayers e) (e_cum e) l -> deepest_rests l -> measured l ->
  exists fl l', lgar_wetting_front_cross_domain_boundary e (Fin D) l = Ok (Fin fl, l') /\ storage l = storage l' + fl /\
    profile (e_nlayers e) (e_cum e) l' /\ measured l' /\
    (l' = l /\ fl = 0 \/
     exists a c n n', l = a ++ [c; n] /\ l' = a ++ [n'] /\ f_theta n' = f_theta c /\ f_depth n' = f_depth n /\ D <= val (f_depth c) /\
       f_layer c = e_nlayers e /\ fl = (val (f_theta c) - val (f_theta n)) * (val (f_depth c) - D)).
Proof.
  intros e D l HE HD HP HR M. assert (H : Str e l) by (apply Str_iff; [apply HE|auto]).
  assert (l <> []) by (eapply Str_nonempty; eauto using se_n). destruct l as [|c r]; [contradiction|].
  destruct (domain_loop_exact e D HE HD (length (c :: r) - 1) 0 (c :: r) H M ltac:(cbn; lia)) as (fl & l' & E & H1 & H2 & H3 & H4).
  exists fl, l'. split; [exact E|]. split; [exact H3|]. split; [apply Str_iff; [apply HE|assumption]|]. split; assumption.
Qed.
