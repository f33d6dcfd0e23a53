(** The routines that restructure the profile keep its structure and touch only what exists. *)

From Coq Require Import Reals Lra ZArith List Bool Lia.
From Verif Require Import Outcome Dbl Types ListOps Soil Fronts Infil Move Lib Spec_Common Spec_List Spec_Update Spec_Profile Pf_List Pf_Profile.
Import ListNotations.
Open Scope R_scope.

Section Any.
Context {fp : Fp} {cfg : Cfg}.

(** ** Outcomes *)

Lemma ends_bind : forall A B R (P : A -> Prop) (Q : B -> Prop) (m : outcome A) (k : A -> outcome B),
  ends R P m -> (forall a, m = Ok a -> P a -> ends R Q (k a)) -> ends R Q (bind m k).
Proof. intros A B R P Q [a|r] k H1 H2; cbn in *; auto. Qed.

Lemma ends_mono : forall A (R R' : reason -> Prop) (P P' : A -> Prop) m,
  (forall r, R r -> R' r) -> (forall a, P a -> P' a) -> ends R P m -> ends R' P' m.
Proof. intros A R R' P P' [a|r]; cbn; auto. Qed.

Lemma ends_ok : forall A (R : reason -> Prop) (P : A -> Prop) a, P a -> ends R P (Ok a).
Proof. intros. exact H. Qed.

Lemma ends_Ok : forall A R (P : A -> Prop) m a, ends R P m -> m = Ok a -> P a.
Proof. intros A R P m a H ->. exact H. Qed.

Definition never (r : reason) : Prop := False.

Lemma ends_never : forall A (P : A -> Prop) m, ends never P m -> exists a, m = Ok a /\ P a.
Proof. intros A P [a|r] H; cbn in H; [eauto|contradiction]. Qed.

Lemma ends_total : forall A R (P : A -> Prop) m, (exists a, m = Ok a /\ P a) -> ends R P m.
Proof. intros A R P m (a & -> & H). exact H. Qed.

Lemma zfor_inv : forall S (I : Z -> S -> Prop) body n i s,
  (forall j st, (i <= j < i + Z.of_nat n)%Z -> I j st -> exists st', body j st = Ok st' /\ I (j + 1)%Z st') ->
  I i s -> exists s', zfor i n body s = Ok s' /\ I (i + Z.of_nat n)%Z s'.
Proof.
  intros S I body n. induction n as [|n IH]; intros i s HB HI; cbn [zfor].
  - exists s. split; [reflexivity|]. replace (i + Z.of_nat 0)%Z with i by lia. assumption.
  - destruct (HB i s ltac:(lia) HI) as (s' & E & HI'). rewrite E. cbn [bind].
    destruct (IH (i + 1)%Z s') as (s2 & E2 & H2).
    + intros j st Hj Hst. apply HB; [lia|assumption].
    + assumption.
    + exists s2. split; [assumption|]. replace (i + Z.of_nat (Datatypes.S n))%Z with (i + 1 + Z.of_nat n)%Z by lia. assumption.
Qed.

(** ** Structured lists *)

Record Str (e : env) (l : list front) : Prop := {
  st_num : numbered l;
  st_pre : pre (e_cum e) (e_nlayers e) 1 l (e_nlayers e + 1);
  st_rest : deepest_rests l
}.

Lemma Str_iff : forall e l, (1 <= e_nlayers e)%Z -> Str e l <-> profile (e_nlayers e) (e_cum e) l /\ deepest_rests l.
Proof.
  intros e l Hn. split.
  - intros [H1 H2 H3]. split; [apply profile_scan; auto|assumption].
  - intros [H1 H2]. apply profile_scan in H1 as [H3 H4]; auto. constructor; auto.
Qed.

(** Fronts that may replace each other. *)
Definition alike (f g : front) : Prop := same_shape f g /\ f_num f = f_num g /\ f_dzdt f = f_dzdt g.

Lemma alike_refl : forall f, alike f f.
Proof. intro f. split; [apply same_shape_refl|auto]. Qed.

Lemma Forall2_length : forall A B (P : A -> B -> Prop) l l', Forall2 P l l' -> length l = length l'.
Proof. induction 1; cbn; auto. Qed.

Lemma Forall2_nth : forall A (P : A -> A -> Prop) l l', Forall2 P l l' -> forall i x, nth_error l' i = Some x ->
  exists y, nth_error l i = Some y /\ P y x.
Proof. induction 1; intros [|i] z E; cbn in *; try discriminate; [injection E as <-; eauto|eauto]. Qed.

Lemma Str_alike : forall e l l', Forall2 alike l l' -> Str e l -> Str e l'.
Proof.
  intros e l l' H [H1 H2 H3]. assert (HL : length l = length l') by (eapply Forall2_length; eassumption). constructor.
  - intros i f E. destruct (Forall2_nth _ _ _ _ H _ _ E) as (y & Ey & _ & Hn & _). rewrite <- Hn. auto.
  - eapply pre_shape; [|eassumption]. clear - H. induction H; constructor; auto. apply H.
  - intros f E. rewrite <- HL in E. destruct (Forall2_nth _ _ _ _ H _ _ E) as (y & Ey & _ & _ & Hd). rewrite <- Hd. auto.
Qed.

Lemma alike_list : forall l, Forall2 alike l l.
Proof. induction l; constructor; auto using alike_refl. Qed.

Lemma alike_lset : forall l p c c', nth_error l p = Some c -> alike c c' -> Forall2 alike l (lset l p c').
Proof.
  induction l as [|f l IH]; intros [|p] c c' H Hs; try discriminate; cbn in *.
  - injection H as ->. constructor; [assumption|apply alike_list].
  - constructor; [apply alike_refl|eauto].
Qed.

Lemma Str_lset : forall e l p c c', nth_error l p = Some c -> alike c c' -> Str e l -> Str e (lset l p c').
Proof. intros. eapply Str_alike; [eapply alike_lset; eassumption|assumption]. Qed.

Lemma Str_nonempty : forall e l, (1 <= e_nlayers e)%Z -> Str e l -> l <> [].
Proof. intros e l Hn [_ H _] ->. cbn in H. lia. Qed.

Lemma Str_range : forall e l p c, Str e l -> nth_error l p = Some c -> (1 <= f_layer c <= e_nlayers e)%Z.
Proof. intros e l p c H E. apply (pre_nth _ _ _ _ _ _ (st_pre _ _ H)) in E. lia. Qed.

Lemma Str_next : forall e l p c, Str e l -> nth_error l p = Some c -> f_bottom c = false ->
  exists n, nth_error l (S p) = Some n /\ f_layer n = f_layer c.
Proof. intros e l p c H E Hb. apply (pre_nth _ _ _ _ _ _ (st_pre _ _ H)) in E. destruct E as (_ & _ & _ & E). auto. Qed.

Lemma Str_bottom : forall e l p c, Str e l -> nth_error l p = Some c -> f_bottom c = true ->
  aget (e_cum e) (f_layer c) = Ok (f_depth c) /\
  match nth_error l (S p) with Some n => f_layer n = (f_layer c + 1)%Z | None => f_layer c = e_nlayers e end.
Proof. intros e l p c H E Hb. apply (pre_nth _ _ _ _ _ _ (st_pre _ _ H)) in E. destruct E as (_ & _ & E & _). auto. Qed.

(** The front above another one of the same layer is no bottom front. *)
Lemma Str_above : forall e l p c n, Str e l -> nth_error l p = Some c -> nth_error l (S p) = Some n -> f_layer c = f_layer n ->
  f_bottom c = false.
Proof.
  intros e l p c n H E1 E2 HL. destruct (f_bottom c) eqn:Hb; [|reflexivity].
  destruct (Str_bottom _ _ _ _ H E1 Hb) as [_ H2]. rewrite E2 in H2. lia.
Qed.

Lemma Str_find : forall e l p c, Str e l -> nth_error l p = Some c -> pos_of (f_num c) l = Some p.
Proof.
  intros e l p c H E. rewrite (st_num _ _ H _ _ E). apply pos_of_numbered; [apply H|]. apply nth_error_Some. congruence.
Qed.

Lemma length_S : forall A (l : list A) p c, nth_error l p = Some c -> (p < length l)%nat.
Proof. intros. apply nth_error_Some. congruence. Qed.

Lemma skipn_nth : forall A (l : list A) p c, nth_error l p = Some c -> skipn p l = c :: skipn (S p) l.
Proof. induction l as [|x l IH]; intros [|p] c E; try discriminate; cbn in *; [congruence|]. apply IH. assumption. Qed.

Lemma delete_str : forall e l p c, Str e l -> nth_error l p = Some c -> f_bottom c = false ->
  exists l', listDeleteFront (f_num c) l = Ok (l', Some p) /\ Str e l' /\ S (length l') = length l /\
    l' = firstn p l ++ bump (-1) (skipn (S p) l).
Proof.
  intros e l p c H E Hb.
  destruct (Str_next _ _ _ _ H E Hb) as (n & En & Hn).
  assert (Hp := length_S _ _ _ _ E). assert (Hp1 := length_S _ _ _ _ En).
  assert (Hnum := st_num _ _ H _ _ E).
  destruct (numbered_delete l (f_num c) (st_num _ _ H) ltac:(lia)) as (l' & D1 & D2 & D3).
  rewrite Hnum in D1.
  destruct (Z.eqb_spec (Z.of_nat (S p)) (Z.of_nat (length l))) as [|Hne]; [lia|].
  replace (Z.to_nat (Z.of_nat (S p) - 1)) with p in D1 by lia.
  assert (Hl' : l' = firstn p l ++ bump (-1) (skipn (S p) l)).
  { unfold listDeleteFront in D1. rewrite <- Hnum, (Str_find _ _ _ _ H E) in D1. congruence. }
  exists l'. split; [rewrite Hnum; assumption|]. split; [|split; [|assumption]].
  - constructor; [assumption| |].
    + rewrite Hl'. pose proof (st_pre _ _ H) as HP. rewrite <- (firstn_skipn p l) in HP. apply pre_app in HP as (j & P1 & P2).
      apply pre_app. exists j. split; [assumption|]. apply pre_bump. rewrite (skipn_nth _ _ _ _ E) in P2. cbn [pre] in P2. rewrite Hb in P2. apply P2.
    + intros f Ef. rewrite Hl' in Ef. rewrite app_length, bump_length, firstn_length_le, skipn_length in Ef by lia.
      rewrite nth_error_app2 in Ef by (rewrite firstn_length_le; lia). rewrite firstn_length_le in Ef by lia.
      rewrite nth_error_bump in Ef.
      destruct (nth_error (skipn (S p) l) (p + (length l - S p) - 1 - p)) as [g|] eqn:Eg; [|discriminate].
      cbn in Ef. injection Ef as <-. cbn. apply (st_rest _ _ H).
      rewrite <- (firstn_skipn (S p) l) at 1. rewrite nth_error_app2 by (rewrite firstn_length_le; lia).
      rewrite firstn_length_le by lia. rewrite <- Eg. f_equal. lia.
  - rewrite Hl', app_length, bump_length, firstn_length_le, skipn_length by lia. lia.
Qed.

(** ** Environment *)

Lemma env_soil : forall e k, sound_env e -> (1 <= k <= e_nlayers e)%Z -> exists s, soil_of e k = Ok s.
Proof. intros e k H. apply (se_soil _ H). Qed.
Lemma env_cum : forall e k, sound_env e -> (0 <= k <= e_nlayers e)%Z -> exists z, aget (e_cum e) k = Ok (Fin z) /\ rnd z = Fin z.
Proof. intros e k H. apply (se_cum _ H). Qed.
Lemma env_frozen : forall e k, sound_env e -> (1 <= k <= e_nlayers e)%Z -> exists x, aget (e_frozen e) k = Ok x.
Proof. intros e k H. apply (se_frozen _ H). Qed.
Lemma env_stype : forall e k s, soil_of e k = Ok s -> exists t, uget (e_stype e) k = Ok t /\ uget (e_soils e) t = Ok s.
Proof. intros e k s H. unfold soil_of in H. bind_inv H t Et. eauto. Qed.

Lemma cum_mono : forall e, sound_env e -> forall i j z z', (0 <= i)%Z -> (i < j <= e_nlayers e)%Z ->
  aget (e_cum e) i = Ok (Fin z) -> aget (e_cum e) j = Ok (Fin z') -> z < z'.
Proof.
  intros e H i j z z' Hi Hj Ei Ej.
  assert (G : forall m : nat, forall z', (i + 1 + Z.of_nat m <= e_nlayers e)%Z -> aget (e_cum e) (i + 1 + Z.of_nat m) = Ok (Fin z') -> z < z').
  { induction m as [|m IH]; intros z2 Hm Em.
    - replace (i + 1 + Z.of_nat 0)%Z with (i + 1)%Z in Em by lia. apply (se_incr _ H i); auto. lia.
    - destruct (se_cum _ H (i + 1 + Z.of_nat m)%Z ltac:(lia)) as (z1 & E1 & _).
      apply Rlt_trans with z1; [apply IH; auto; lia|]. apply (se_incr _ H (i + 1 + Z.of_nat m)%Z); auto; [lia|].
      rewrite <- Em. f_equal. lia. }
  apply (G (Z.to_nat (j - i - 1))); [lia|]. rewrite <- Ej. f_equal. lia.
Qed.

(** ** Storage *)

Lemma mass_ok : forall cum nl l sum, (forall k, (0 <= k <= nl)%Z -> exists z, aget cum k = Ok z) ->
  (forall f, In f l -> (1 <= f_layer f <= nl)%Z) -> exists m, mass_loop cum l sum = Ok m.
Proof.
  intros cum nl l sum HC. revert sum. induction l as [|c r IH]; intros sum HL; cbn [mass_loop]; [eauto|].
  destruct (HC (f_layer c - 1)%Z) as [z Ez]. { specialize (HL c (or_introl eq_refl)). lia. }
  rewrite Ez. cbn [bind]. destruct r as [|n r]; [eauto|]. apply IH. intros f Hf. apply HL. right. assumption.
Qed.

Lemma Str_mass : forall e l, sound_env e -> Str e l -> exists m, lgar_calc_mass_bal (e_cum e) l = Ok m.
Proof.
  intros e l HE H. apply mass_ok with (e_nlayers e).
  - intros k Hk. destruct (se_cum _ HE k Hk) as (z & Ez & _). eauto.
  - intros f Hf. apply In_nth_error in Hf as [i Ei]. eapply Str_range; eassumption.
Qed.

(** ** Merging *)

Lemma merge_step_ok : forall e p l, sound_env e -> Str e l -> (S p < length l)%nat ->
  ends (fun r => r = AssertFail) (fun l' => Str e l' /\ (S p < length l')%nat /\ (length l' <= length l)%nat) (merge_step e p l).
Proof.
  intros e p l HE H Hp. unfold merge_step.
  destruct (nth_error l p) as [c|] eqn:Ec; [|apply nth_error_None in Ec; lia].
  destruct (nth_error l (S p)) as [n|] eqn:En; [|apply nth_error_None in En; lia].
  assert (Ec' := proj2 (lget_Ok _ _ _) Ec). assert (En' := proj2 (lget_Ok _ _ _) En). rewrite Ec', En'. cbn [bind].
  destruct (_ && _ && negb (f_bottom n))%bool eqn:C; [|split; [assumption|]; split; lia].
  apply andb_prop in C as [C C3]. apply andb_prop in C as [C1 C2]. apply Z.eqb_eq in C2. apply negb_true_iff in C3.
  destruct (Str_next _ _ _ _ H En C3) as (nn & Enn & Hnn). assert (Enn' := proj2 (lget_Ok _ _ _) Enn). rewrite Enn'. cbn [bind].
  match goal with |- ends _ _ (bind (cassert ?b) _) => destruct b end; [|reflexivity]. cbn [cassert bind].
  assert (Rc := Str_range _ _ _ _ H Ec).
  destruct (env_soil e _ HE Rc) as [s Es]. destruct (env_frozen e _ HE Rc) as [ff Ef]. rewrite Es, Ef. cbn [bind].
  assert (Hc : f_bottom c = false) by (eapply Str_above; eauto).
  match goal with |- context [lset l p ?x] => set (c' := x) end.
  assert (HS : Str e (lset l p c')).
  { eapply Str_lset; [exact Ec| |assumption]. split; [|split; reflexivity]. split; [reflexivity|]. split; [reflexivity|]. rewrite Hc. discriminate. }
  assert (En2 : nth_error (lset l p c') (S p) = Some n) by (rewrite nth_error_lset_neq; [assumption|lia]).
  destruct (delete_str _ _ _ _ HS En2 C3) as (l' & D1 & D2 & D3 & _). rewrite D1. cbn [bind ends]. rewrite lset_length in D3.
  assert (Hl := length_S _ _ _ _ Enn). split; [assumption|]. split; lia.
Qed.

Lemma merge_loop_ok : forall e, sound_env e -> forall k p l, Str e l -> (p < length l)%nat -> (length l - p <= k)%nat ->
  ends (fun r => r = AssertFail) (fun l' => Str e l' /\ (length l' <= length l)%nat) (merge_loop k e p l).
Proof.
  intros e HE. induction k as [|k IH]; intros p l H Hp Hk; [lia|]. cbn [merge_loop]. unfold listLength.
  destruct (Z.eqb_spec (Z.of_nat (S p)) (Z.of_nat (length l))) as [|Hne]; [split; [assumption|lia]|].
  eapply ends_bind; [apply merge_step_ok; auto; lia|]. intros l' _ (A & B & C).
  eapply ends_mono; [intros r Hr; exact Hr| |apply IH; auto; lia]. intros l2 [Q1 Q2]. split; [assumption|lia].
Qed.

Lemma merge_ok : forall e l, sound_env e -> Str e l ->
  ends (fun r => r = AssertFail) (Str e) (lgar_merge_wetting_fronts e l).
Proof.
  intros e l HE H. unfold lgar_merge_wetting_fronts.
  assert (l <> []) by (eapply Str_nonempty; eauto using se_n). destruct l as [|c r]; [contradiction|].
  eapply ends_mono; [intros x Hx; exact Hx| |apply merge_loop_ok; auto; cbn [length]; lia]. intros l2 [Q1 Q2]. assumption.
Qed.

(** ** Layer crossing *)

Lemma dgtb_irrefl : forall x, dgtb x x = false.
Proof. intros [x| | |]; cbn; auto. apply Rltb_false. lra. Qed.

Lemma cross_step_ok : forall e p l, sound_env e -> Str e l -> (S p < length l)%nat -> ~ tie_at e p l ->
  exists l', cross_step e p l = Ok l' /\ Str e l' /\ length l' = length l.
Proof.
  intros e p l HE H Hp HT. unfold cross_step.
  destruct (nth_error l p) as [c|] eqn:Ec; [|apply nth_error_None in Ec; lia].
  destruct (nth_error l (S p)) as [n|] eqn:En; [|apply nth_error_None in En; lia].
  assert (Ec' := proj2 (lget_Ok _ _ _) Ec). assert (En' := proj2 (lget_Ok _ _ _) En). rewrite Ec'. cbn [bind].
  assert (Rc := Str_range _ _ _ _ H Ec).
  destruct (env_soil e _ HE Rc) as [s Es]. destruct (env_frozen e _ HE Rc) as [ff Ef].
  destruct (env_cum e (f_layer c) HE ltac:(lia)) as (ck & Eck & _). rewrite Es, Ef, En'. cbn [bind]. rewrite Eck. cbn [bind].
  destruct (_ && _ && negb (f_layer c =? e_nlayers e)%Z)%bool eqn:C; [|eauto].
  apply andb_prop in C as [C C3]. apply andb_prop in C as [C1 C2]. apply negb_true_iff in C3. apply Z.eqb_neq in C3.
  assert (Hc : f_bottom c = false).
  { destruct (f_bottom c) eqn:Hb; [|reflexivity]. destruct (Str_bottom _ _ _ _ H Ec Hb) as [D _]. rewrite Eck in D.
    apply Ok_inj in D. rewrite <- D in C1. rewrite dgtb_irrefl in C1. discriminate. }
  destruct (Str_next _ _ _ _ H Ec Hc) as (n0 & En0 & Hn0). assert (n0 = n) by congruence. subst n0.
  assert (Hn : f_bottom n = true).
  { destruct (f_bottom n) eqn:Hb; [reflexivity|]. exfalso. apply HT. exists c, n, (Fin ck). repeat (split; [assumption|]). assumption. }
  destruct (Str_bottom _ _ _ _ H En Hn) as [Dn Hnn].
  destruct (nth_error l (S (S p))) as [nn|] eqn:Enn; [|lia].
  assert (Enn' := proj2 (lget_Ok _ _ _) Enn).
  destruct (env_soil e (f_layer c + 1)%Z HE ltac:(lia)) as [s2 Es2].
  destruct (env_cum e (f_layer c + 1)%Z HE ltac:(lia)) as (ck1 & Eck1 & _).
  rewrite Es2. cbn [bind]. rewrite Enn'. cbn [bind]. rewrite Eck1. cbn [bind]. cbv zeta.
  eexists. split; [reflexivity|]. split; [|rewrite !lset_length; reflexivity].
  match goal with |- Str e (lset (lset l p ?x) _ ?y) => set (c' := x); set (n' := y) end.
  destruct (split_nth _ _ _ _ Ec) as (a & r0 & -> & Ha).
  rewrite nth_error_app2 in En, Enn by lia. rewrite Ha in En, Enn.
  replace (S p - p)%nat with 1%nat in En by lia. replace (S (S p) - p)%nat with 2%nat in Enn by lia. cbn in En, Enn.
  destruct r0 as [|n0 [|nn0 r]]; try discriminate. cbn in En, Enn. injection En as ->. injection Enn as ->.
  assert (EQ : lset (lset (a ++ c :: n :: nn :: r) p c') (S p) n' = a ++ c' :: n' :: nn :: r).
  { rewrite <- Ha, lset_app. replace (a ++ c' :: n :: nn :: r) with ((a ++ [c']) ++ n :: nn :: r) by (rewrite <- app_assoc; reflexivity).
    replace (S (length a)) with (length (a ++ [c'])) by (rewrite app_length; cbn; lia).
    rewrite lset_app, <- app_assoc. reflexivity. }
  rewrite EQ. destruct H as [N P D]. constructor.
  - apply numbered_app in N as [N1 N2]. apply numbered_app. split; [assumption|]. intros [|[|i]] f E; cbn in E.
    + injection E as <-. cbn. apply (N2 0%nat c). reflexivity.
    + injection E as <-. cbn. apply (N2 1%nat n). reflexivity.
    + apply (N2 (S (S i))). exact E.
  - apply pre_app in P as (j & P1 & P2). apply pre_app. exists j. split; [assumption|].
    cbn [pre] in P2 |- *. rewrite Hc, Hn in P2. unfold c', n'. cbn [f_layer f_bottom f_depth].
    destruct P2 as (A1 & A2 & B1 & B2 & B3 & B4 & B5 & B6). rewrite A1 in *.
    split; [reflexivity|]. split; [assumption|]. split; [assumption|]. split; [reflexivity|]. split; [assumption|]. split; [assumption|]. split; assumption.
  - intros f E. rewrite app_length in E. cbn [length] in E. rewrite nth_error_app2 in E by lia.
    assert (Q := D f). rewrite app_length in Q. cbn [length] in Q. rewrite nth_error_app2 in Q by lia.
    replace (length a + S (S (S (length r))) - 1 - length a)%nat with (S (S (length r))) in * by lia. apply Q. exact E.
Qed.

Lemma cross_loop_ok : forall e, sound_env e -> forall l0, ~ cross_tie e l0 -> forall k p l, cross_prefix e p l0 = Ok l -> length l = length l0 ->
  Str e l -> (p < length l)%nat -> (length l - p <= k)%nat ->
  exists l', cross_loop k e p l = Ok l' /\ Str e l' /\ length l' = length l.
Proof.
  intros e HE l0 HT. induction k as [|k IH]; intros p l EP HL H Hp Hk; [lia|]. cbn [cross_loop]. unfold listLength.
  destruct (Z.eqb_spec (Z.of_nat (S p)) (Z.of_nat (length l))) as [|Hne]; [eauto|].
  destruct (cross_step_ok e p l HE H ltac:(lia)) as (l' & E & H' & HL').
  { intro T. apply HT. exists p, l. split; [lia|]. auto. }
  rewrite E. cbn [bind]. destruct (IH (S p) l') as (l2 & E2 & H2 & HL2); auto; try lia.
  - cbn [cross_prefix]. rewrite EP. exact E.
  - exists l2. split; [assumption|]. split; [assumption|lia].
Qed.

Lemma cross_ok : forall e l, sound_env e -> Str e l -> ~ cross_tie e l ->
  exists l', lgar_wetting_fronts_cross_layer_boundary e l = Ok l' /\ Str e l' /\ length l' = length l.
Proof.
  intros e l HE H HT. assert (l <> []) by (eapply Str_nonempty; eauto using se_n). destruct l as [|c r]; [contradiction|].
  unfold lgar_wetting_fronts_cross_layer_boundary.
  apply cross_loop_ok with (c :: r); auto; cbn [length]; lia.
Qed.

(** ** Bottom boundary *)

Lemma domain_loop_ok : forall e D, sound_env e -> aget (e_cum e) (e_nlayers e) = Ok D -> forall k p l, Str e l -> (p < length l)%nat ->
  exists fl l', domain_loop k e D p l = Ok (fl, l') /\ Str e l'.
Proof.
  intros e D HE HD. induction k as [|k IH]; intros p l H Hp; cbn [domain_loop]; [eauto|]. unfold listLength.
  destruct (Z.geb_spec (Z.of_nat (S p)) (Z.of_nat (length l))) as [|Hne]; [eauto|].
  destruct (nth_error l p) as [c|] eqn:Ec; [|apply nth_error_None in Ec; lia].
  destruct (nth_error l (S p)) as [n|] eqn:En; [|apply nth_error_None in En; lia].
  rewrite (proj2 (lget_Ok _ _ _) Ec), (proj2 (lget_Ok _ _ _) En). cbn [bind].
  assert (Rc := Str_range _ _ _ _ H Ec).
  destruct (env_soil e _ HE Rc) as [s Es]. destruct (env_frozen e _ HE Rc) as [ff Ef].
  destruct (env_stype _ _ _ Es) as (t & Et & Est). rewrite Et. cbn [bind].
  destruct (nth_error l (S (S p))) as [nn|] eqn:Enn; [apply IH; [assumption|lia]|].
  destruct (f_depth c >=? D)%d eqn:C; [|apply IH; [assumption|lia]].
  rewrite Est, Ef. cbn [bind].
  assert (Hc : f_bottom c = false).
  { destruct (f_bottom c) eqn:Hb; [|reflexivity]. exfalso. destruct (Str_bottom _ _ _ _ H Ec Hb) as [D1 D2]. rewrite En in D2.
    assert (Rn := Str_range _ _ _ _ H En).
    destruct (env_cum e (f_layer c) HE ltac:(lia)) as (z1 & Z1 & _). destruct (env_cum e (e_nlayers e) HE ltac:(lia)) as (z2 & Z2 & _).
    rewrite D1 in Z1. rewrite HD in Z2. apply Ok_inj in Z1. apply Ok_inj in Z2. subst D. rewrite Z1 in C.
    unfold dgeb, dleb in C. apply Rleb_true in C.
    assert (z1 < z2); [|lra]. apply (cum_mono e HE (f_layer c) (e_nlayers e)); auto; [lia|lia|]. rewrite D1, Z1. reflexivity. }
  match goal with |- context [lset l (S p) ?x] => set (n' := x) end.
  assert (HS : Str e (lset l (S p) n')) by (eapply Str_lset; [exact En| |assumption]; repeat split).
  assert (Ec2 : nth_error (lset l (S p) n') p = Some c) by (rewrite nth_error_lset_neq; [assumption|lia]).
  destruct (delete_str _ _ _ _ HS Ec2 Hc) as (l' & D1 & D2 & D3 & _). rewrite D1. cbn [bind]. eauto.
Qed.

Lemma domain_ok : forall e D l, sound_env e -> aget (e_cum e) (e_nlayers e) = Ok D -> Str e l ->
  exists fl l', lgar_wetting_front_cross_domain_boundary e D l = Ok (fl, l') /\ Str e l'.
Proof.
  intros e D l HE HD H. assert (l <> []) by (eapply Str_nonempty; eauto using se_n). destruct l as [|c r]; [contradiction|].
  unfold lgar_wetting_front_cross_domain_boundary. apply domain_loop_ok; auto. cbn; lia.
Qed.

(** ** Dry over wet *)

Lemma fix_above_ok : forall e k psi l, sound_env e -> (forall f, In f l -> (1 <= f_layer f <= e_nlayers e)%Z) -> (exists f, In f l /\ f_layer f = k) ->
  exists l', fix_above e k psi l = Ok l' /\ Forall2 alike l l'.
Proof.
  intros e k psi l HE. induction l as [|c r IH]; intros HL (f & Hf & Hk); [contradiction|]. cbn [fix_above].
  destruct (Z.ltb_spec (f_layer c) k) as [Hlt|]; [|exists (c :: r); split; [reflexivity|apply alike_list]].
  destruct (env_soil e (f_layer c) HE) as [s Es]. { apply HL. left. reflexivity. }
  rewrite Es. cbn [bind]. destruct IH as (l' & E & HF).
  - intros g Hg. apply HL. right. assumption.
  - destruct Hf as [<-|Hf]; [lia|eauto].
  - rewrite E. cbn [bind]. eexists. split; [reflexivity|]. constructor; [repeat split|assumption].
Qed.

Lemma fix_pair_ok : forall e p c n l, sound_env e -> Str e l -> nth_error l p = Some c -> nth_error l (S p) = Some n -> f_layer c = f_layer n ->
  exists l' dm, fix_pair e c l = Ok (l', p, dm) /\ Str e l' /\ S (length l') = length l.
Proof.
  intros e p c n l HE H Ec En HL. unfold fix_pair.
  destruct (Str_mass e l HE H) as [m1 M1]. rewrite M1. cbn [bind].
  assert (Hc : f_bottom c = false) by (eapply Str_above; eauto).
  destruct (delete_str _ _ _ _ H Ec Hc) as (l1 & D1 & D2 & D3 & D4). rewrite D1. cbn [bind].
  assert (G : exists l2, (if (f_layer c >? 1)%Z then
      cur <- lget l1 p;; s <- soil_of e (f_layer cur);; fix_above e (f_layer c) (h_of_Se s (Se_of_theta s (f_theta cur)))
        (lset l1 p (set_psi cur (h_of_Se s (Se_of_theta s (f_theta cur))))) else Ok l1) = Ok l2 /\ Str e l2 /\ length l2 = length l1).
  { destruct (f_layer c >? 1)%Z; [|eauto].
    assert (Ep : exists cur, nth_error l1 p = Some cur /\ f_layer cur = f_layer c).
    { rewrite D4. assert (Hp := length_S _ _ _ _ Ec). rewrite nth_error_app2 by (rewrite firstn_length_le; lia). rewrite firstn_length_le by lia.
      rewrite Nat.sub_diag, nth_error_bump, (skipn_nth _ _ _ _ En). eexists. split; [reflexivity|]. cbn. congruence. }
    destruct Ep as (cur & Ep & Hcur). rewrite (proj2 (lget_Ok _ _ _) Ep). cbn [bind].
    destruct (env_soil e (f_layer cur) HE) as [s Es]. { eapply Str_range; eauto. }
    rewrite Es. cbn [bind].
    match goal with |- context [lset l1 p ?x] => set (c' := x) end.
    assert (HS : Str e (lset l1 p c')) by (eapply Str_lset; [exact Ep| |assumption]; repeat split).
    destruct (fix_above_ok e (f_layer c) (h_of_Se s (Se_of_theta s (f_theta cur))) (lset l1 p c') HE) as (l2 & E2 & F2).
    - intros f Hf. apply In_nth_error in Hf as [i Ei]. eapply Str_range; [exact HS|exact Ei].
    - exists c'. split; [|exact Hcur]. eapply nth_error_In. apply nth_error_lset_eq. eapply length_S. eassumption.
    - exists l2. split; [exact E2|]. split; [eapply Str_alike; eassumption|]. apply Forall2_length in F2. rewrite lset_length in F2. auto. }
  destruct G as (l2 & G1 & G2 & G3). rewrite G1. cbn [bind].
  destruct (Str_mass e l2 HE G2) as [m2 M2]. rewrite M2. cbn [bind]. eexists _, _. split; [reflexivity|]. split; [assumption|lia].
Qed.

Lemma fix_loop_ok : forall e, sound_env e -> forall k i p l mc, Str e l -> (0 < i)%Z -> (listLength l + 2 - i <= Z.of_nat k)%Z -> (0 < k)%nat ->
  exists l' mc', fix_loop k e i p l mc = Ok (l', mc') /\ Str e l' /\ (length l' <= length l)%nat.
Proof.
  intros e HE. unfold listLength. induction k as [|k IH]; intros i p l mc H Hi Hk H0; [lia|]. cbn [fix_loop]. unfold listLength.
  destruct (Z.leb_spec i (Z.of_nat (length l))) as [Hle|]; [|eauto].
  destruct (nth_error l p) as [c|] eqn:Ec; [|eauto]. destruct (nth_error l (S p)) as [n|] eqn:En; [|eauto].
  destruct (dry_over_wet c n) eqn:C.
  - apply andb_prop in C as [_ C]. apply Z.eqb_eq in C.
    destruct (fix_pair_ok e p c n l HE H Ec En C) as (l1 & dm & E & H1 & HL). rewrite E. cbn [bind].
    destruct (IH (i + 1)%Z (S p) l1 (mc + dm)%d) as (l2 & mc2 & E2 & H2 & HL2); auto; try lia.
    exists l2, mc2. split; [assumption|]. split; [assumption|lia].
  - apply IH; auto; lia.
Qed.

Lemma check_and_fix_ok : forall e l mc, sound_env e -> Str e l -> exists l' mc', check_and_fix e l mc = Ok (l', mc') /\ Str e l'.
Proof.
  intros e l mc HE H. unfold check_and_fix, lgar_check_dry_over_wet_wetting_fronts, lgar_fix_dry_over_wet_wetting_fronts.
  assert (l <> []) by (eapply Str_nonempty; eauto using se_n). destruct l as [|c r]; [contradiction|]. cbn [bind].
  destruct (check_dry (c :: r)); [|eauto].
  destruct (fix_loop_ok e HE (S (length (c :: r))) 1 0 (c :: r) mc H) as (l' & mc' & E & H' & _); unfold listLength; eauto; lia.
Qed.

Lemma merge_phases_ok : forall e l, sound_env e -> Str e l ->
  (forall l2 mc l3, check_and_fix e l (Fin 0) = Ok (l2, mc) -> lgar_merge_wetting_fronts e l2 = Ok l3 -> ~ cross_tie e l3) ->
  ends (fun r => r = AssertFail) (fun x => Str e (fst (fst x))) (merge_phases e l).
Proof.
  intros e l HE H HT. unfold merge_phases.
  destruct (check_and_fix_ok e l (Fin 0) HE H) as (l1 & mc1 & E1 & H1). rewrite E1. cbn [bind].
  eapply ends_bind; [apply merge_ok; assumption|]. intros l2 E2 H2.
  destruct (cross_ok e l2 HE H2 (HT _ _ _ E1 E2)) as (l3 & E3 & H3 & _). rewrite E3. cbn [bind].
  destruct (check_and_fix_ok e l3 mc1 HE H3) as (l4 & mc4 & E4 & H4). rewrite E4. cbn [bind].
  eapply ends_bind; [apply merge_ok; assumption|]. intros l5 E5 H5.
  destruct (env_cum e (e_nlayers e) HE) as (z & Ez & _). { destruct HE. lia. } rewrite Ez. cbn [bind].
  destruct (domain_ok e (Fin z) l5 HE Ez H5) as (fl & l6 & E6 & H6). rewrite E6. cbn [bind].
  destruct (check_and_fix_ok e l6 mc4 HE H6) as (l7 & mc7 & E7 & H7). rewrite E7. cbn [bind]. exact H7.
Qed.

(** ** Free drainage *)

Lemma fd_layers : forall e l i, Str e l -> (forall j f g, (j < i)%nat -> nth_error l j = Some f -> nth_error l (S j) = Some g -> f_layer f <> f_layer g) ->
  forall j f, (j <= i)%nat -> nth_error l j = Some f -> f_layer f = Z.of_nat (S j).
Proof.
  intros e l i H HD. induction j as [|j IH]; intros f Hj Ef.
  - pose proof (st_pre _ _ H) as P. destruct l as [|c r]; [discriminate|]. cbn in Ef. injection Ef as <-. cbn [pre] in P. destruct P as (P & _). exact P.
  - destruct (nth_error l j) as [g|] eqn:Eg; [|apply nth_error_None in Eg; apply length_S in Ef; lia].
    assert (Hg : f_layer g = Z.of_nat (S j)) by (apply IH; auto; lia).
    destruct (f_bottom g) eqn:Hb.
    + destruct (Str_bottom _ _ _ _ H Eg Hb) as [_ HB]. rewrite Ef in HB. lia.
    + destruct (Str_next _ _ _ _ H Eg Hb) as (n & En & Hn). assert (n = f) by congruence. subst n. exfalso. apply (HD j g f); auto.
Qed.

(** For a structured profile the free-drainage front exists, its index does not exceed the number of layers, the fronts down to it lie in the layers
    1, 2, ...; it is not a bottom front unless there is exactly one front per layer. *)
Lemma fd_ok : forall e l, sound_env e -> Str e l -> exists i f, wetting_front_free_drainage l = Z.of_nat (S i) /\ nth_error l i = Some f /\
  (Z.of_nat (S i) <= e_nlayers e)%Z /\ f_layer f = Z.of_nat (S i) /\
  (forall j g, (j <= i)%nat -> nth_error l j = Some g -> f_layer g = Z.of_nat (S j)) /\
  ((f_bottom f = false /\ exists n, nth_error l (S i) = Some n) \/ (f_bottom f = true /\ f_layer f = e_nlayers e /\ length l = S i)).
Proof.
  intros e l HE H. assert (Hne : l <> []) by (eapply Str_nonempty; eauto using se_n).
  destruct (free_drainage_index l Hne) as [(i & [(f & g & E1 & E2 & E3) HD] & E)|[HN E]].
  - pose proof (fd_layers e l i H HD) as HF. exists i, f. assert (HR := Str_range _ _ _ _ H E1). rewrite (HF i f ltac:(lia) E1) in HR.
    split; [assumption|]. split; [assumption|]. split; [lia|]. split; [apply HF; auto|]. split; [assumption|].
    left. split; [|eauto]. eapply Str_above; eauto.
  - assert (HD : forall j f g, nth_error l j = Some f -> nth_error l (S j) = Some g -> f_layer f <> f_layer g).
    { intro j. induction j as [j IH] using (well_founded_induction lt_wf). intros f g Ef Eg Heq. apply (HN j). split; [eauto|]. intros j' f' g' Hj' Ef' Eg'. eapply IH; eauto. }
    set (i := (length l - 1)%nat). assert (HL : length l = S i) by (destruct l; [contradiction|cbn in *; lia]).
    destruct (nth_error l i) as [f|] eqn:Ef; [|apply nth_error_None in Ef; lia].
    pose proof (fd_layers e l i H (fun j f g _ => HD j f g)) as HF.
    assert (HR := Str_range _ _ _ _ H Ef). assert (Hf := HF i f ltac:(lia) Ef). rewrite Hf in HR.
    exists i, f. split; [rewrite E, HL; reflexivity|]. split; [assumption|]. split; [lia|]. split; [assumption|]. split; [assumption|].
    right. destruct (f_bottom f) eqn:Hb.
    + destruct (Str_bottom _ _ _ _ H Ef Hb) as [_ HB]. rewrite (proj2 (nth_error_None l (S i)) ltac:(lia)) in HB. auto.
    + destruct (Str_next _ _ _ _ H Ef Hb) as (n & En & _). apply length_S in En. lia.
Qed.

(** The deepest front: bottom of the last layer. *)
Lemma deepest_is : forall e l f, Str e l -> nth_error l (length l - 1) = Some f ->
  f_bottom f = true /\ f_layer f = e_nlayers e /\ aget (e_cum e) (e_nlayers e) = Ok (f_depth f) /\ f_dzdt f = Fin 0.
Proof.
  intros e l f H E. assert (Hp := length_S _ _ _ _ E).
  assert (En : nth_error l (S (length l - 1)) = None) by (apply nth_error_None; lia).
  destruct (f_bottom f) eqn:Hb.
  - destruct (Str_bottom _ _ _ _ H E Hb) as [B1 B2]. rewrite En in B2. rewrite B2 in B1. split; [reflexivity|]. split; [assumption|]. split; [assumption|].
    apply (st_rest _ _ H). assumption.
  - destruct (Str_next _ _ _ _ H E Hb) as (n & En' & _). congruence.
Qed.
End Any.
