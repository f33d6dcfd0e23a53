(** Lemmas: the routines that only read the list, on the heap and on lists. *)

From Coq Require Import Reals ZArith List Bool Arith Lia.
From Verif Require Import Outcome Dbl Types ListOps HeapList Soil Fronts Infil Move HeapFronts HeapUpdate Update State Spec_Refine Pf_Lay Pf_Lay2.
Import ListNotations.
Open Scope dbl_scope.

(** ** follows *)
Section Follows.
Context {X X' Z Z' : Type}.
Lemma follows_bind : forall (R : X -> X' -> Prop) (R' : Z -> Z' -> Prop) (m : outcome X) (hm : outcome X') (k : X -> outcome Z) (hk : X' -> outcome Z'),
  follows R m hm -> (forall x y, m = Ok x -> R x y -> follows R' (k x) (hk y)) -> follows R' (bind m k) (bind hm hk).
Proof.
  intros R R' m hm k hk H1 H2. destruct m as [x|r]; cbn [follows] in H1.
  - destruct H1 as (y & -> & Hy). cbn [bind]. apply H2; auto.
  - rewrite H1. reflexivity.
Qed.
Lemma follows_same : forall (R' : Z -> Z' -> Prop) (m : outcome X) (k : X -> outcome Z) (hk : X -> outcome Z'),
  (forall x, m = Ok x -> follows R' (k x) (hk x)) -> follows R' (bind m k) (bind m hk).
Proof. intros R' m k hk H. destruct m as [x|r]; [apply H; reflexivity|reflexivity]. Qed.
Lemma follows_ok : forall (R' : Z -> Z' -> Prop) z z', R' z z' -> follows R' (Ok z) (Ok z').
Proof. intros R' z z' H. exists z'. auto. Qed.
Lemma follows_imp : forall (R R' : Z -> Z' -> Prop) m hm, follows R m hm -> (forall z z', m = Ok z -> R z z' -> R' z z') -> follows R' m hm.
Proof. intros R R' m hm H1 H2. destruct m as [z|r]; [|exact H1]. destruct H1 as (y & E & Hy). exists y. auto. Qed.
End Follows.
Lemma follows_eq : forall (Z : Type) (m : outcome Z), follows eq m m.
Proof. intros Z m. destruct m; [exists a; auto|reflexivity]. Qed.

Lemma lget_some : forall l i f, lget l i = Ok f -> nth_error l i = Some f.
Proof. intros l i f H. unfold lget in H. destruct (nth_error l i); [injection H as ->; reflexivity|discriminate H]. Qed.
Lemma some_lget : forall l i f, nth_error l i = Some f -> lget l i = Ok f.
Proof. intros l i f H. unfold lget. rewrite H. reflexivity. Qed.

Lemma skipn_cons : forall (T : Type) (l : list T) i c r, skipn i l = c :: r -> nth_error l i = Some c /\ skipn (S i) l = r.
Proof. induction l as [|x l IH]; intros i c r H; destruct i as [|i]; simpl in *; try discriminate; [injection H as -> ->; auto|apply IH; exact H]. Qed.
Lemma skipn_nil_nth : forall (T : Type) (l : list T) i, skipn i l = [] -> nth_error l i = None.
Proof. induction l as [|x l IH]; intros i H; destruct i as [|i]; simpl in *; try discriminate; auto. Qed.

Section Readers.
Context {fp : Fp} {cfg : Cfg}.
Variables (h : heap) (p po : ptr) (A B : list nat) (l lo : list front).
Hypothesis Y : lay h p po A B l lo.

Lemma mass_follows_loop : forall cum k i c r sum, skipn i l = c :: r -> (length r < k)%nat ->
  h_mass_loop k cum h (nth_error A i) sum = mass_loop cum (c :: r) sum.
Proof.
  intros cum. induction k as [|k IH]; intros i c r sum E Hk; [lia|].
  destruct (skipn_cons _ _ _ _ _ E) as [N1 E1]. cbn [h_mass_loop mass_loop].
  rewrite (lay_get _ _ _ _ _ _ _ Y), (some_lget _ _ _ N1). cbn [bind].
  destruct (aget cum (f_layer c - 1)) as [base|rr]; [|reflexivity]. cbn [bind].
  rewrite (lay_next _ _ _ _ _ _ _ Y), (some_lget _ _ _ N1). cbn [bind].
  rewrite (lay_null _ _ _ _ _ _ _ Y (S i)).
  destruct r as [|n r].
  - rewrite (skipn_nil_nth _ _ _ E1). reflexivity.
  - destruct (skipn_cons _ _ _ _ _ E1) as [N2 E2]. rewrite N2. cbn [negb].
    rewrite (lay_get _ _ _ _ _ _ _ Y), (some_lget _ _ _ N2). cbn [bind].
    rewrite (IH (S i) n r _ E1) by (simpl in Hk; lia). reflexivity.
Qed.

Lemma mass_eq : forall cum, h_mass cum h p = lgar_calc_mass_bal cum l.
Proof.
  intros cum. unfold h_mass, lgar_calc_mass_bal. pose proof (lay_room _ _ _ _ _ _ _ Y) as R. rewrite (lay_head _ _ _ _ _ _ _ Y), (lay_null _ _ _ _ _ _ _ Y 0).
  destruct (skipn 0 l) as [|c r] eqn:El; cbn [skipn] in El.
  - rewrite El. reflexivity.
  - rewrite (proj1 (skipn_cons _ l 0 c r El)). rewrite El in R |- *. apply (mass_follows_loop cum _ 0); [exact El|]. simpl in R. lia.
Qed.

Lemma free_drainage_eq_loop : forall k i w, (length (skipn i l) < k)%nat ->
  h_free_drainage_loop k h (nth_error A i) w = Ok (free_drainage_loop (skipn i l) w).
Proof.
  induction k as [|k IH]; intros i w Hk; [lia|]. cbn [h_free_drainage_loop]. rewrite (lay_null _ _ _ _ _ _ _ Y i).
  destruct (skipn i l) as [|c r] eqn:E.
  - rewrite (skipn_nil_nth _ _ _ E). reflexivity.
  - destruct (skipn_cons _ _ _ _ _ E) as [N1 E1]. rewrite N1. rewrite (lay_next _ _ _ _ _ _ _ Y), (some_lget _ _ _ N1). cbn [bind].
    rewrite (lay_null _ _ _ _ _ _ _ Y (S i)). destruct r as [|n r].
    + rewrite (skipn_nil_nth _ _ _ E1). cbn [negb]. rewrite IH by (rewrite E1; simpl in *; lia). rewrite E1. reflexivity.
    + destruct (skipn_cons _ _ _ _ _ E1) as [N2 E2]. rewrite N2. cbn [negb].
      rewrite !(lay_get _ _ _ _ _ _ _ Y), (some_lget _ _ _ N1), (some_lget _ _ _ N2). cbn [bind].
      rewrite IH by (rewrite E1; simpl in *; lia). rewrite E1. cbn [free_drainage_loop]. destruct (f_layer c =? f_layer n)%Z; reflexivity.
Qed.

Lemma free_drainage_eq : h_free_drainage h p = Ok (wetting_front_free_drainage l).
Proof.
  unfold h_free_drainage. rewrite (lay_length _ _ _ _ _ _ _ Y). cbn [bind]. rewrite (lay_head _ _ _ _ _ _ _ Y).
  rewrite free_drainage_eq_loop by (pose proof (lay_room _ _ _ _ _ _ _ Y); simpl; lia). reflexivity.
Qed.

Lemma check_eq_loop : forall k i c r, skipn i l = c :: r -> (length r <= k)%nat ->
  h_check_loop k h (nth_error A i) (nth_error A (S i)) = Ok (check_dry (c :: r)).
Proof.
  induction k as [|k IH]; intros i c r E Hk.
  - destruct r; [|simpl in Hk; lia]. reflexivity.
  - destruct (skipn_cons _ _ _ _ _ E) as [N1 E1]. cbn [h_check_loop]. rewrite (lay_null _ _ _ _ _ _ _ Y (S i)).
    destruct r as [|n r].
    + rewrite (skipn_nil_nth _ _ _ E1). clear - Y E E1 Hk. cbn [check_dry]. clear Hk.
      assert (NN : nth_error A (S i) = None).
      { pose proof (lay_null _ _ _ _ _ _ _ Y (S i)) as Q. rewrite (skipn_nil_nth _ _ _ E1) in Q. destruct (nth_error A (S i)); [discriminate Q|reflexivity]. }
      rewrite NN. induction k as [|k IH]; [reflexivity|]. exact IH.
    + destruct (skipn_cons _ _ _ _ _ E1) as [N2 E2]. rewrite N2.
      rewrite !(lay_get _ _ _ _ _ _ _ Y), (some_lget _ _ _ N1), (some_lget _ _ _ N2). cbn [bind]. cbn [check_dry]. unfold dry_over_wet.
      destruct ((f_theta c <=? f_theta n) && (f_layer c =? f_layer n)%Z); [reflexivity|].
      rewrite (lay_next _ _ _ _ _ _ _ Y), (some_lget _ _ _ N1). cbn [bind]. rewrite (lay_null _ _ _ _ _ _ _ Y (S i)), N2.
      rewrite (lay_next _ _ _ _ _ _ _ Y), (some_lget _ _ _ N2). cbn [bind]. apply (IH (S i) n r E1). simpl in Hk. lia.
Qed.

Lemma check_eq : h_check h p = lgar_check_dry_over_wet_wetting_fronts l.
Proof.
  unfold h_check, lgar_check_dry_over_wet_wetting_fronts. rewrite (lay_length _ _ _ _ _ _ _ Y). rewrite (lay_head _ _ _ _ _ _ _ Y).
  rewrite (lay_next _ _ _ _ _ _ _ Y). unfold lget. destruct (skipn 0 l) as [|c r] eqn:El; cbn [skipn] in El.
  - rewrite El. reflexivity.
  - rewrite (proj1 (skipn_cons _ l 0 c r El)). cbn [bind]. rewrite (check_eq_loop _ 0 c r El); [rewrite El; reflexivity|]. rewrite El. simpl. lia.
Qed.

Lemma aet_eq : forall e pet dt w fc, h_aet e pet dt w fc h p = calc_aet e pet dt w fc l.
Proof. intros. unfold h_aet, calc_aet. rewrite (lay_head _ _ _ _ _ _ _ Y), (lay_get _ _ _ _ _ _ _ Y). reflexivity. Qed.

Lemma dry_depth_eq : forall e closed nint dt, h_dry_depth e closed nint dt h p = lgar_calc_dry_depth e closed nint dt l.
Proof. intros. unfold h_dry_depth, lgar_calc_dry_depth. rewrite (lay_head _ _ _ _ _ _ _ Y), (lay_get _ _ _ _ _ _ _ Y). reflexivity. Qed.

Lemma decision_eq : forall e a b c, h_create_decision e h p a b c = create_decision e l a b c.
Proof. intros. unfold h_create_decision, create_decision. rewrite (lay_head _ _ _ _ _ _ _ Y), (lay_get _ _ _ _ _ _ _ Y). reflexivity. Qed.

Lemma get_into : forall q, h_get h (into A q) = pget l q.
Proof. intros [i|]; [apply (lay_get _ _ _ _ _ _ _ Y)|reflexivity]. Qed.
Lemma get_into_old : forall q, h_get h (into B q) = pget lo q.
Proof. intros [i|]; [apply (lay_get_old _ _ _ _ _ _ _ Y)|reflexivity]. Qed.

Lemma capacity_eq : forall e closed nint dt aet ponded precip wfd,
  h_infiltration_capacity e closed nint dt aet ponded precip wfd h p = infiltration_capacity e closed nint dt aet ponded precip wfd l.
Proof.
  intros. unfold h_infiltration_capacity, infiltration_capacity.
  rewrite !(lay_find _ _ _ _ _ _ _ Y), (lay_length _ _ _ _ _ _ _ Y). cbn [bind]. rewrite !get_into.
  replace (h_get h p) with (lget l 0) by (rewrite (lay_head _ _ _ _ _ _ _ Y), (lay_get _ _ _ _ _ _ _ Y); reflexivity).
  rewrite mass_eq. reflexivity.
Qed.

Lemma insert_water_eq : forall e closed nint dt aet ponded volin precip wfd pm,
  h_insert_water e closed nint dt aet ponded volin precip wfd pm h p = lgar_insert_water e closed nint dt aet ponded volin precip wfd pm l.
Proof. intros. unfold h_insert_water, lgar_insert_water. rewrite capacity_eq. reflexivity. Qed.

End Readers.
