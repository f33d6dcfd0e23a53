(** Layer crossing, repair of inverted fronts and creation of a front, in exact arithmetic. *)

From Coq Require Import Reals Lra ZArith List Bool Lia.
From Verif Require Import Outcome Dbl Exact Types ListOps Soil Fronts Infil Lib Spec_Common Spec_List Spec_Soil Spec_Update Spec_Profile Spec_Storage
  Pf_Dbl Pf_Pow Pf_Infil Pf_List Pf_Soil Pf_Geff Pf_Profile Pf_Structure Pf_Storage Pf_Merge.
Import ListNotations.
Open Scope R_scope.
Local Existing Instance exact.

(** ** Heads and water contents *)

Definition head_ok (h : dbl) : Prop := h = PInf \/ exists x, h = Fin x /\ 0 <= x.

Lemma theta_infinite : forall s r e a n m k, vg_soil s r e a n m k -> theta_of_h s PInf = Fin r.
Proof.
  intros s r e a n m k V. rewrite <- (h_residual s r e a n m k V). eapply theta_inverse; [exact V|]. destruct V. lra.
Qed.

Lemma head_of_water : forall s r e a n m k t, vg_soil s r e a n m k -> r <= t <= e -> head_ok (h_of_Se s (Se_of_theta s (Fin t))).
Proof.
  intros s r e a n m k t V Ht. rewrite (Se_of_theta_is s r e a n m k) by assumption. pose proof V as V'. destruct V'.
  destruct (Rlt_dec r t) as [P|P].
  - right. assert (HS : 0 < (t - r) / (e - r) <= 1).
    { split; [apply Rdiv_lt_0_compat; lra|]. apply Rmult_le_reg_r with (e - r); [lra|]. unfold Rdiv. rewrite Rmult_assoc, Rinv_l by lra. lra. }
    rewrite (h_of_Se_is s r e a n m k) by assumption.
    eexists. split; [reflexivity|]. apply Rmult_le_pos; [left; apply Rinv_0_lt_compat; assumption|apply pw_nonneg].
  - left. rewrite <- (Se_of_theta_is s r e a n m k) by assumption. replace t with r by lra. eapply h_residual; eassumption.
Qed.

Lemma water_of_head : forall s r e a n m k h, vg_soil s r e a n m k -> head_ok h -> exists t, theta_of_h s h = Fin t /\ r <= t <= e.
Proof.
  intros s r e a n m k h V [->|(x & -> & Hx)].
  - exists r. split; [eapply theta_infinite; eassumption|]. destruct V. lra.
  - destruct (retention_bounds s r e a n m k x V Hx) as (t & E & B & _). exists t. split; [assumption|lra].
Qed.

Lemma within_head : forall e f s, vg_column e -> (1 <= f_layer f <= e_nlayers e)%Z -> soil_of e (f_layer f) = Ok s -> within_soil e f ->
  head_ok (h_of_Se s (Se_of_theta s (f_theta f))).
Proof.
  intros e f s HV Hk Es (s' & r & es & t & E1 & E2 & E3 & E4 & E5). rewrite Es in E1. apply Ok_inj in E1. subst s'.
  destruct (HV _ _ Hk Es) as (r' & es' & a & n & m & ks & V). rewrite E4. apply (head_of_water s r' es' a n m ks); [assumption|].
  destruct V. rewrite vg_r in E2. rewrite vg_e in E3. injection E2 as <-. injection E3 as <-. assumption.
Qed.

Lemma head_within : forall e f s h, vg_column e -> (1 <= f_layer f <= e_nlayers e)%Z -> soil_of e (f_layer f) = Ok s -> head_ok h ->
  f_theta f = theta_of_h s h -> within_soil e f.
Proof.
  intros e f s h HV Hk Es Hh Ef. destruct (HV _ _ Hk Es) as (r & es & a & n & m & ks & V).
  destruct (water_of_head s r es a n m ks h V Hh) as (t & Et & Bt). exists s, r, es, t. destruct V. repeat (split; [assumption|]). split; [congruence|assumption].
Qed.

Lemma within_theta : forall e f, within_soil e f -> finite (f_theta f).
Proof. intros e f (s & r & es & t & _ & _ & _ & E & _). exists t. exact E. Qed.

(** ** Crossing a layer boundary *)

Lemma cross_step_exact : forall e p l, sound_env e -> vg_column e -> Str e l -> measured l -> within_soils e l -> (S p < length l)%nat ->
  ~ tie_at e p l -> ~ blocked_at e p l ->
  exists l', cross_step e p l = Ok l' /\ Str e l' /\ measured l' /\ within_soils e l' /\ length l' = length l /\ storage l' = storage l.
Proof.
  intros e p l HE HV H M W Hp HT HK.
  destruct (cross_step_ok e p l HE H Hp HT) as (l' & EX & H' & HL). exists l'. split; [exact EX|]. split; [assumption|].
  unfold cross_step in EX.
  destruct (nth_error l p) as [c|] eqn:Ec; [|apply nth_error_None in Ec; lia].
  destruct (nth_error l (S p)) as [n|] eqn:En; [|apply nth_error_None in En; lia].
  rewrite (proj2 (lget_Ok _ _ _) Ec), (proj2 (lget_Ok _ _ _) En) in EX. cbn [bind] in EX.
  assert (Rc := Str_range _ _ _ _ H Ec).
  destruct (env_soil e _ HE Rc) as [s Es]. destruct (env_frozen e _ HE Rc) as [ff Ef].
  destruct (env_cum e (f_layer c) HE ltac:(lia)) as (ck & Eck & _). rewrite Es, Ef in EX. cbn [bind] in EX. rewrite Eck in EX. cbn [bind] in EX.
  destruct (_ && _ && negb (f_layer c =? e_nlayers e)%Z)%bool eqn:C; [|apply Ok_inj in EX; subst l'; auto].
  apply andb_prop in C as [C C3]. apply andb_prop in C as [C1 C2]. apply negb_true_iff in C3. apply Z.eqb_neq in C3.
  assert (Hc : f_bottom c = false).
  { destruct (f_bottom c) eqn:Hb; [|reflexivity]. destruct (Str_bottom _ _ _ _ H Ec Hb) as [D _]. rewrite Eck in D.
    apply Ok_inj in D. rewrite <- D in C1. rewrite dgtb_irrefl in C1. discriminate. }
  destruct (Str_next _ _ _ _ H Ec Hc) as (n0 & En0 & Hn0). assert (n0 = n) by congruence. subst n0.
  assert (Hn : f_bottom n = true).
  { destruct (f_bottom n) eqn:Hb; [reflexivity|]. exfalso. apply HT. exists c, n, (Fin ck). repeat (split; [assumption|]). assumption. }
  destruct (Str_bottom _ _ _ _ H En Hn) as [Dn Hnn].
  destruct (nth_error l (S (S p))) as [nn|] eqn:Enn; [|lia].
  destruct (env_soil e (f_layer c + 1)%Z HE ltac:(lia)) as [s2 Es2].
  destruct (env_cum e (f_layer c + 1)%Z HE ltac:(lia)) as (ck1 & Eck1 & _).
  rewrite Es2, (proj2 (lget_Ok _ _ _) Enn) in EX. cbn [bind] in EX. rewrite Eck1 in EX. cbn [bind] in EX. cbv zeta in EX. apply Ok_inj in EX.
  set (psi := h_of_Se s (Se_of_theta s (f_theta c))) in *. set (K := K_of_Se s (Se_of_theta s (f_theta c)) (s_Ksat s * ff)%d) in *.
  destruct (nth_three _ _ _ _ _ Ec En Enn) as (a & b & EL & Ha).
  assert (M0 := M). assert (W0 := W). rewrite EL in M, W. apply measured_app in M as [Ma M]. apply within_app in W as [Wa W].
  inversion M as [|x y [[dc Edc] [tc Etc]] M']; subst x y. inversion M' as [|x y [[dn Edn] [tn Etn]] M2]; subst x y.
  inversion M2 as [|x y [[dd Edd] [tnn Etnn]] M3]; subst x y.
  inversion W as [|x y Wc W']; subst x y. inversion W' as [|x y Wn W2]; subst x y.
  rewrite Hn0, Eck in Dn. apply Ok_inj in Dn. rewrite Edn in Dn. injection Dn as <-.
  assert (Hh : head_ok psi) by (apply (within_head e c s); auto).
  assert (R1 : (1 <= f_layer c + 1 <= e_nlayers e)%Z) by lia.
  destruct (HV _ _ R1 Es2) as (r2 & es2 & a2 & n2 & m2 & ks2 & V2). destruct (water_of_head _ _ _ _ _ _ _ psi V2 Hh) as (tw & Etw & Btw).
  assert (Hne : tw <> tnn).
  { intro Q. apply HK. exists c, n, nn, (Fin ck), s, s2. repeat (split; [assumption|]). fold psi. rewrite Etw, Etnn, Q. reflexivity. }
  assert (Emin : dfmin (s_theta_e s) (f_theta c) = Fin tc).
  { destruct Wc as (s' & r & es & t & E1 & E2 & E3 & E4 & E5). rewrite Es in E1. apply Ok_inj in E1. subst s'. rewrite E3, E4. rewrite Etc in E4. injection E4 as <-.
    cbn. unfold Rltb. repeat destruct (Rlt_dec _ _); try reflexivity; f_equal; lra. }
  set (z := (dc - ck) * (tc - tn) / (tw - tnn)).
  rewrite Emin, Etw, Edc, Edn, Etn, Etnn in EX.
  assert (Ez : ((Fin dc - Fin ck) * (Fin tc - Fin tn) / (Fin tw - Fin tnn))%d = Fin z).
  { cbn. destruct (Req_EM_T (tw - tnn) 0); [lra|reflexivity]. }
  rewrite Ez in EX. cbn [disinf] in EX. change (Fin ck + Fin z)%d with (Fin (ck + z)) in EX.
  match type of EX with lset (lset l p ?x) _ ?y = _ => set (c' := x) in EX; set (n' := y) in EX end.
  assert (EQ : l' = a ++ c' :: n' :: nn :: b).
  { rewrite <- EX, EL, <- Ha, lset_app. replace (a ++ c' :: n :: nn :: b) with ((a ++ [c']) ++ n :: nn :: b) by (rewrite <- app_assoc; reflexivity).
    replace (S (length a)) with (length (a ++ [c'])) by (rewrite app_length; cbn; lia).
    rewrite lset_app, <- app_assoc. reflexivity. }
  split; [|split; [|split; [assumption|]]].
  - rewrite EQ. apply measured_app. split; [assumption|]. constructor; [split; [exists ck|exists tc]; auto|].
    constructor; [split; [exists (ck + z)|exists tw]; auto|]. assumption.
  - rewrite EQ. apply within_app. split; [assumption|]. constructor; [|constructor; [|assumption]].
    + exact Wc.
    + apply (head_within e n' s2 psi); auto.
  - rewrite EQ, EL. unfold storage. rewrite !slabs_app. cbn [slabs c' n' f_theta f_depth]. rewrite Edc, Etc, Edn, Etn, Etnn, Edd. cbn [val].
    assert (HZ : z * (tw - tnn) = (dc - ck) * (tc - tn)) by (unfold z; field; lra). lra.
Qed.

Lemma cross_loop_exact : forall e, sound_env e -> vg_column e -> forall l0, ~ cross_tie e l0 -> ~ cross_blocked e l0 -> forall k p l,
  cross_prefix e p l0 = Ok l -> length l = length l0 ->
  Str e l -> measured l -> within_soils e l -> (p < length l)%nat -> (length l - p <= k)%nat ->
  exists l', cross_loop k e p l = Ok l' /\ Str e l' /\ measured l' /\ within_soils e l' /\ length l' = length l /\ storage l' = storage l.
Proof.
  intros e HE HV l0 HT HK. induction k as [|k IH]; intros p l EP HL H M W Hp Hk; [lia|]. cbn [cross_loop]. unfold listLength.
  destruct (Z.eqb_spec (Z.of_nat (S p)) (Z.of_nat (length l))) as [|Hne]; [exists l; auto 10|].
  destruct (cross_step_exact e p l HE HV H M W ltac:(lia)) as (l' & E & H' & M' & W' & HL' & S').
  { intro T. apply HT. exists p, l. split; [lia|]. auto. }
  { intro T. apply HK. exists p, l. split; [lia|]. auto. }
  rewrite E. cbn [bind]. destruct (IH (S p) l') as (l2 & E2 & H2 & M2 & W2 & HL2 & S2); auto; try lia.
  - cbn [cross_prefix]. rewrite EP. exact E.
  - exists l2. split; [assumption|]. split; [assumption|]. split; [assumption|]. split; [assumption|]. split; [lia|congruence].
Qed.

Theorem cross_spec : forall e l, sound_env e -> vg_column e -> profile (e_nlayers e) (e_cum e) l -> deepest_rests l -> measured l -> within_soils e l ->
  ~ cross_tie e l -> ~ cross_blocked e l ->
  exists l', lgar_wetting_fronts_cross_layer_boundary e l = Ok l' /\ storage l' = storage l /\
    profile (e_nlayers e) (e_cum e) l' /\ measured l' /\ within_soils e l' /\ length l' = length l.
Proof.
  intros e l HE HV HP HR M W HT HK. assert (H : Str e l) by (apply Str_iff; [apply HE|auto]).
  assert (l <> []) by (eapply Str_nonempty; eauto using se_n). destruct l as [|c r]; [contradiction|].
  destruct (cross_loop_exact e HE HV (c :: r) HT HK (S (length (c :: r))) 0 (c :: r)) as (l' & E & H1 & H2 & H3 & H4 & H5); auto; cbn [length]; try lia.
  exists l'. split; [exact E|]. split; [assumption|]. split; [apply Str_iff; [apply HE|assumption]|]. auto.
Qed.

(** Fronts that stay inside their layers do not cross. *)
Lemma cross_step_idle : forall e p l, sound_env e -> Str e l -> measured l -> in_layers e l -> (S p < length l)%nat -> cross_step e p l = Ok l.
Proof.
  intros e p l HE H M L Hp. unfold cross_step.
  destruct (nth_error l p) as [c|] eqn:Ec; [|apply nth_error_None in Ec; lia].
  destruct (nth_error l (S p)) as [n|] eqn:En; [|apply nth_error_None in En; lia].
  rewrite (proj2 (lget_Ok _ _ _) Ec), (proj2 (lget_Ok _ _ _) En). cbn [bind].
  assert (Rc := Str_range _ _ _ _ H Ec).
  destruct (env_soil e _ HE Rc) as [s Es]. destruct (env_frozen e _ HE Rc) as [ff Ef]. rewrite Es, Ef. cbn [bind].
  destruct (proj1 (Forall_forall _ _) L c (nth_error_In _ _ Ec)) as (z & Ez & Bz). rewrite Ez. cbn [bind].
  destruct (proj1 (Forall_forall _ _) M c (nth_error_In _ _ Ec)) as [[dc Edc] _]. rewrite Edc in Bz |- *. cbn [val] in Bz.
  assert (E1 : (Fin dc >? Fin z)%d = false) by (apply ltb_f; assumption). rewrite E1. reflexivity.
Qed.

Lemma cross_idle : forall e l, sound_env e -> Str e l -> measured l -> in_layers e l -> lgar_wetting_fronts_cross_layer_boundary e l = Ok l.
Proof.
  intros e l HE H M L. unfold lgar_wetting_fronts_cross_layer_boundary.
  assert (G : forall k p, (p < length l)%nat -> (length l - p <= k)%nat -> cross_loop k e p l = Ok l).
  { induction k as [|k IH]; intros p Hp Hk; [lia|]. cbn [cross_loop]. unfold listLength.
    destruct (Z.eqb_spec (Z.of_nat (S p)) (Z.of_nat (length l))) as [|Hne]; [reflexivity|].
    rewrite cross_step_idle by (auto; lia). cbn [bind]. apply IH; lia. }
  assert (l <> []) by (eapply Str_nonempty; eauto using se_n). apply G; destruct l; cbn [length] in *; try lia; contradiction.
Qed.

(** ** Creation of a front at the surface *)

Theorem create_spec : forall e n r dry pond, sound_env e -> vg_column e -> profile (e_nlayers e) (e_cum e) (n :: r) -> deepest_rests (n :: r) ->
  measured (n :: r) -> within_soils e (n :: r) -> drier_downwards (n :: r) -> below_surface (n :: r) -> in_layers e (n :: r) ->
  forall s te z1, soil_of e 1 = Ok s -> s_theta_e s = Fin te -> val (f_theta n) < te -> aget (e_cum e) 1 = Ok (Fin z1) -> 0 < dry <= z1 -> 0 < pond ->
  exists l' pond' vin t, lgar_create_surficial_front e (Fin pond) (Fin dry) (f_theta n) (n :: r) = Ok (l', Fin pond', Fin vin) /\
    storage l' = storage (n :: r) + vin /\ pond = vin + pond' /\ 0 < vin /\ 0 <= pond' /\
    surface_theta l' = Some (Fin t) /\ val (f_theta n) < t <= te /\ (0 < pond' -> t = te) /\
    profile (e_nlayers e) (e_cum e) l'.
Proof.
  intros e n r dry pond HE HV HP HR M W D BS L s te z1 Es Ete Hlt Ez Hdry Hp.
  assert (H : Str e (n :: r)) by (apply Str_iff; [apply HE|auto]). assert (N1 := se_n _ HE).
  assert (Ln : f_layer n = 1%Z) by apply (st_pre _ _ H).
  inversion M as [|x y [[dn Edn] [t1 Et1]] M']; subst x y. rewrite Et1 in *. cbn [val] in *.
  unfold lgar_create_surficial_front. rewrite Es. cbn [bind]. rewrite Ete.
  destruct (env_frozen e 1 HE ltac:(lia)) as [ff Ef]. rewrite Ef, Ez.
  set (t := if Rlt_dec pond (dry * (te - t1)) then t1 + pond / dry else te).
  set (vin := if Rlt_dec pond (dry * (te - t1)) then pond else dry * (te - t1)).
  assert (Hpd : 0 < pond / dry) by (apply Rdiv_lt_0_compat; lra).
  assert (Ht : t1 < t <= te).
  { unfold t. destruct (Rlt_dec pond (dry * (te - t1))) as [Q|Q]; [|lra]. split; [lra|].
    assert (pond / dry < te - t1); [|lra]. apply Rmult_lt_reg_r with dry; [lra|]. unfold Rdiv. rewrite Rmult_assoc, Rinv_l by lra. lra. }
  assert (Hv : vin = dry * (t - t1)). { unfold vin, t. destruct (Rlt_dec pond (dry * (te - t1))); [field; lra|ring]. }
  assert (Hv2 : 0 < vin <= pond). { split; [rewrite Hv; apply Rmult_lt_0_compat; lra|]. unfold vin. destruct (Rlt_dec pond (dry * (te - t1))); lra. }
  assert (Hv3 : 0 < pond - vin -> t = te). { unfold vin, t. destruct (Rlt_dec pond (dry * (te - t1))); [lra|reflexivity]. }
  assert (E1 : (Fin dry * (Fin te - Fin t1) >? Fin pond)%d = if Rlt_dec pond (dry * (te - t1)) then true else false).
  { cbn. unfold Rltb. reflexivity. }
  assert (E2 : (if (Fin dry * (Fin te - Fin t1) >? Fin pond)%d then Fin pond else Fin dry * (Fin te - Fin t1))%d = Fin vin).
  { rewrite E1. unfold vin. destruct (Rlt_dec _ _); reflexivity. }
  assert (E3 : (if (Fin dry * (Fin te - Fin t1) >? Fin pond)%d then Fin 0 else Fin pond - Fin dry * (Fin te - Fin t1))%d = Fin (pond - vin)).
  { rewrite E1. unfold vin. destruct (Rlt_dec _ _); cbn; f_equal; lra. }
  assert (E4 : (if (Fin dry * (Fin te - Fin t1) >? Fin pond)%d then dfmin (Fin t1 + Fin pond / Fin dry) (Fin te) else Fin te)%d = Fin t).
  { rewrite E1. destruct (Rlt_dec pond (dry * (te - t1))) as [Q|Q].
    - rewrite div_fin by lra. assert (Et : t = t1 + pond / dry) by (unfold t; destruct (Rlt_dec pond (dry * (te - t1))); [reflexivity|lra]).
      change (Fin t1 + Fin (pond / dry))%d with (Fin (t1 + pond / dry)). rewrite <- Et. cbn. unfold Rltb. repeat destruct (Rlt_dec _ _); try reflexivity; f_equal; lra.
    - unfold t. destruct (Rlt_dec pond (dry * (te - t1))); [lra|reflexivity]. }
  cbv zeta. rewrite E2, E3, E4.
  replace (if (Fin dry * (Fin te - Fin t1) >? Fin pond)%d then Ok (Fin 0) else Ok (Fin z1)) with (Ok (if (Fin dry * (Fin te - Fin t1) >? Fin pond)%d then Fin 0 else Fin z1))
    by (destruct (_ >? _)%d; reflexivity).
  unfold listInsertFirst. cbn [bind]. change (bump 1 (n :: r)) with (set_num n (f_num n + 1) :: bump 1 r). cbv iota.
  match goal with |- context [set_dzdt ?x ?y] => set (c := set_dzdt x y) end.
  assert (Hc1 : f_depth c = Fin dry) by reflexivity. assert (Hc2 : f_theta c = Fin t) by reflexivity.
  change (set_num n (f_num n + 1) :: bump 1 r) with (bump 1 (n :: r)) in *. set (l1 := c :: bump 1 (n :: r)).
  assert (S1 : Str e l1).
  { constructor.
    - intros [|i] f E; [injection E as <-; reflexivity|]. cbn [l1 nth_error] in E. rewrite nth_error_bump in E.
      destruct (nth_error (n :: r) i) as [g|] eqn:Eg; [|discriminate]. cbn in E. injection E as <-. cbn [set_num f_num]. rewrite (st_num _ _ H _ _ Eg). lia.
    - cbn [l1 pre]. split; [reflexivity|]. split; [lia|]. cbn [c set_dzdt set_K set_psi f_bottom]. apply pre_bump. apply H.
    - intros f E. unfold l1 in E. cbn [length] in E. rewrite bump_length in E. cbn [length] in E. replace (S (S (length r)) - 1)%nat with (S (length r)) in E by lia.
      cbn [nth_error] in E. rewrite nth_error_bump in E. destruct (nth_error (n :: r) (length r)) as [g|] eqn:Eg; [|discriminate].
      cbn in E. injection E as <-. cbn [set_num f_dzdt]. apply HR. cbn [length]. replace (S (length r) - 1)%nat with (length r) by lia. exact Eg. }
  assert (St1 : storage l1 = storage (n :: r) + vin).
  { unfold l1, storage. change (c :: bump 1 (n :: r)) with ([c] ++ bump 1 (n :: r)). rewrite slabs_app, slabs_bump. cbn [slabs lastd]. rewrite Hc1, Hc2, Et1, Edn, Hv. cbn [val]. lra. }
  assert (M1 : measured l1) by (constructor; [split; [exists dry|exists t]; auto|apply measured_bump; assumption]).
  assert (L1 : in_layers e l1).
  { constructor; [|apply in_layers_bump; assumption]. exists z1. split; [exact Ez|]. rewrite Hc1. cbn. lra. }
  change (set_num n (f_num n + 1) :: bump 1 r) with (bump 1 (n :: r)).
  match goal with |- context [if ?b then _ else _] => destruct b eqn:C end.
  - fold l1. destruct (merge_conserves e l1 HE) as (l2 & EM & [H2 M2 D2 B2] & _ & [K1 K2 K3 K4 K5]).
    { constructor; auto.
      - unfold l1. change (bump 1 (n :: r)) with (set_num n (f_num n + 1) :: bump 1 r). split.
        + intros _. rewrite Hc2. cbn [set_num f_theta]. rewrite Et1. cbn. lra.
        + apply (drier_bump (n :: r) 1). assumption.
      - constructor; [rewrite Hc1; cbn; lra|]. apply surface_bump. assumption. }
    rewrite EM. cbn [bind]. rewrite (cross_idle e l2 HE H2 M2 (K4 L1)). cbn [bind].
    exists l2, (pond - vin), vin, t. split; [reflexivity|]. split; [rewrite K1; exact St1|]. split; [lra|]. split; [lra|]. split; [lra|].
    split; [rewrite K3; reflexivity|]. split; [assumption|]. split; [assumption|]. apply Str_iff; [apply HE|assumption].
  - fold l1. cbn [bind]. exists l1, (pond - vin), vin, t. split; [reflexivity|]. split; [exact St1|]. split; [lra|]. split; [lra|]. split; [lra|].
    split; [reflexivity|]. split; [assumption|]. split; [assumption|]. apply Str_iff; [apply HE|assumption].
Qed.
