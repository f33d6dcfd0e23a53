(** The structure of a profile as a scan from top to bottom. *)

From Coq Require Import Reals Lra ZArith List Bool Lia.
From Verif Require Import Outcome Dbl Types ListOps Soil Fronts Infil Move Lib Spec_Common Spec_List Spec_Update Spec_Profile Pf_List.
Import ListNotations.
Open Scope R_scope.

(** Scanning [l] from layer [k] on leaves the scan in layer [k']. *)
Fixpoint pre (cum : list dbl) (nl k : Z) (l : list front) (k' : Z) : Prop :=
  match l with
  | [] => k = k'
  | c :: r => f_layer c = k /\ (1 <= k <= nl)%Z /\
      if f_bottom c then aget cum k = Ok (f_depth c) /\ pre cum nl (k + 1) r k' else pre cum nl k r k'
  end.

Lemma pre_app : forall cum nl a b k k', pre cum nl k (a ++ b) k' <-> exists j, pre cum nl k a j /\ pre cum nl j b k'.
Proof.
  induction a as [|c a IH]; intros b k k'; cbn [app pre].
  - split; [intro H; exists k; auto|intros (j & -> & H); exact H].
  - destruct (f_bottom c).
    + rewrite IH. split.
      * intros (H1 & H2 & H3 & j & H4 & H5). exists j. auto.
      * intros (j & (H1 & H2 & H3 & H4) & H5). eauto 10.
    + rewrite IH. split.
      * intros (H1 & H2 & j & H4 & H5). exists j. auto.
      * intros (j & (H1 & H2 & H4) & H5). eauto 10.
Qed.

Lemma pre_mono : forall cum nl l k k', pre cum nl k l k' -> (k <= k')%Z.
Proof.
  induction l as [|c r IH]; intros k k' H; cbn in H; [lia|].
  destruct H as (_ & _ & H). destruct (f_bottom c); [destruct H as [_ H]|]; apply IH in H; lia.
Qed.

Lemma pre_layers : forall cum nl l k k', pre cum nl k l k' -> forall f, In f l -> (k <= f_layer f <= nl)%Z /\ (1 <= f_layer f)%Z.
Proof.
  induction l as [|c r IH]; intros k k' H f Hf; [contradiction|]. cbn in H. destruct H as (H1 & H2 & H3).
  destruct Hf as [<-|Hf]; [lia|].
  destruct (f_bottom c); [destruct H3 as [_ H3]|]; apply (IH _ _ H3) in Hf; lia.
Qed.

(** Fronts that agree in what the structure looks at. *)
Definition same_shape (f g : front) : Prop :=
  f_layer f = f_layer g /\ f_bottom f = f_bottom g /\ (f_bottom f = true -> f_depth f = f_depth g).

Lemma pre_shape : forall cum nl l l' k k', Forall2 same_shape l l' -> pre cum nl k l k' -> pre cum nl k l' k'.
Proof.
  intros cum nl l l' k k' H. revert k k'. induction H as [|f g l l' (H1 & H2 & H3) HF IH]; intros k k' H; [exact H|].
  cbn in H |- *. rewrite <- H1, <- H2. destruct H as (A & B & C). split; [assumption|]. split; [assumption|].
  destruct (f_bottom f); [|auto]. destruct C as [C D]. rewrite <- H3 by reflexivity. auto.
Qed.

Lemma same_shape_refl : forall f, same_shape f f.
Proof. intro f. repeat split. Qed.

Lemma shape_refl : forall l, Forall2 same_shape l l.
Proof. induction l; constructor; auto using same_shape_refl. Qed.

Lemma shape_bump : forall d l, Forall2 same_shape l (bump d l).
Proof. induction l; constructor; [repeat split|assumption]. Qed.

Lemma pre_bump : forall cum nl d l k k', pre cum nl k l k' -> pre cum nl k (bump d l) k'.
Proof. intros. eapply pre_shape; [apply shape_bump|assumption]. Qed.

Lemma shape_lset : forall l p c c', nth_error l p = Some c -> same_shape c c' -> Forall2 same_shape l (lset l p c').
Proof.
  induction l as [|f l IH]; intros [|p] c c' H Hs; try discriminate; cbn in *.
  - injection H as ->. constructor; [assumption|apply shape_refl].
  - constructor; [apply same_shape_refl|eauto].
Qed.

Lemma pre_lset : forall cum nl l p c c' k k', nth_error l p = Some c -> same_shape c c' -> pre cum nl k l k' -> pre cum nl k (lset l p c') k'.
Proof. intros. eapply pre_shape; [eapply shape_lset; eassumption|assumption]. Qed.

(** ** The scan is equivalent to the structure *)

Lemma pre_nth : forall cum nl l k i f, pre cum nl k l (nl + 1) -> nth_error l i = Some f ->
  (k <= f_layer f <= nl)%Z /\ (1 <= f_layer f)%Z /\
  (f_bottom f = true -> aget cum (f_layer f) = Ok (f_depth f) /\
     match nth_error l (S i) with Some n => f_layer n = (f_layer f + 1)%Z | None => f_layer f = nl end) /\
  (f_bottom f = false -> exists n, nth_error l (S i) = Some n /\ f_layer n = f_layer f).
Proof.
  induction l as [|c r IH]; intros k i f H E; [destruct i; discriminate|]. cbn in H. destruct H as (H1 & H2 & H3).
  destruct i as [|i].
  - injection E as <-. split; [lia|]. split; [lia|]. split; intro Hb; rewrite Hb in H3; cbn [nth_error].
    + destruct H3 as [H3 H4]. rewrite H1. split; [assumption|]. destruct r as [|n r]; cbn in H4 |- *; [lia|]. destruct H4; lia.
    + destruct r as [|n r]; cbn in H3 |- *; [lia|]. exists n. split; [reflexivity|]. destruct H3; lia.
  - cbn in E. destruct (f_bottom c).
    + destruct H3 as [_ H3]. destruct (IH _ _ _ H3 E) as (A & B & C & D). split; [lia|]. auto.
    + destruct (IH _ _ _ H3 E) as (A & B & C & D). auto.
Qed.

Lemma pre_sorted : forall cum nl l k k', pre cum nl k l k' -> forall i j f g, (i <= j)%nat ->
  nth_error l i = Some f -> nth_error l j = Some g -> (f_layer f <= f_layer g)%Z.
Proof.
  induction l as [|c r IH]; intros k k' H i j f g Hij Ei Ej; [destruct i; discriminate|].
  destruct i as [|i], j as [|j]; cbn in Ei, Ej.
  - assert (f = g) by congruence. subst. lia.
  - injection Ei as <-. pose proof (pre_layers _ _ _ _ _ H) as HL. cbn in H. destruct H as (H1 & _).
    assert (Hg : In g (c :: r)) by (right; eapply nth_error_In; eassumption). apply HL in Hg. lia.
  - lia.
  - cbn in H. destruct H as (_ & _ & H3). destruct (f_bottom c); [destruct H3 as [_ H3]|];
      apply (IH _ _ H3 i j f g); auto; lia.
Qed.

Lemma pre_bottom : forall cum nl l k, (1 <= k)%Z -> pre cum nl k l (nl + 1) ->
  forall y, (k <= y <= nl)%Z -> exists i f, nth_error l i = Some f /\ f_layer f = y /\ f_bottom f = true /\
    aget cum y = Ok (f_depth f) /\
    (forall j g, nth_error l j = Some g -> f_layer g = y -> (j <= i)%nat /\ (f_bottom g = true -> j = i)).
Proof.
  induction l as [|c r IH]; intros k Hk H y Hy; cbn in H; [lia|]. destruct H as (H1 & H2 & H3).
  destruct (f_bottom c) eqn:Hb.
  - destruct H3 as [H3 H4]. destruct (Z.eq_dec y k) as [->|Hne].
    + exists 0%nat, c. split; [reflexivity|]. split; [assumption|]. split; [assumption|]. split; [assumption|].
      intros [|j] g E Hg; [auto|]. cbn in E. apply nth_error_In in E. apply (pre_layers _ _ _ _ _ H4) in E. lia.
    + destruct (IH (k + 1)%Z ltac:(lia) H4 y ltac:(lia)) as (i & f & A & B & C & D & F).
      exists (S i), f. split; [assumption|]. split; [assumption|]. split; [assumption|]. split; [assumption|].
      intros [|j] g E Hg; cbn in E.
      * injection E as <-. lia.
      * destruct (F _ _ E Hg) as [F1 F2]. split; [lia|]. intro Q. f_equal. auto.
  - destruct (IH k Hk H3 y ltac:(lia)) as (i & f & A & B & C & D & F).
    exists (S i), f. split; [assumption|]. split; [assumption|]. split; [assumption|]. split; [assumption|].
    intros [|j] g E Hg; cbn in E.
    + injection E as <-. split; [lia|]. congruence.
    + destruct (F _ _ E Hg) as [F1 F2]. split; [lia|]. intro Q. f_equal. auto.
Qed.

Lemma pre_of_profile : forall cum nl l k, (1 <= k <= nl + 1)%Z ->
  (forall i f, nth_error l i = Some f -> (k <= f_layer f <= nl)%Z) ->
  (forall i j f g, (i <= j)%nat -> nth_error l i = Some f -> nth_error l j = Some g -> (f_layer f <= f_layer g)%Z) ->
  (forall y, (k <= y <= nl)%Z -> exists i f, nth_error l i = Some f /\ f_layer f = y /\ f_bottom f = true /\
    aget cum y = Ok (f_depth f) /\
    (forall j g, nth_error l j = Some g -> f_layer g = y -> (j <= i)%nat /\ (f_bottom g = true -> j = i))) ->
  pre cum nl k l (nl + 1).
Proof.
  induction l as [|c r IH]; intros k Hk HR HS HB; cbn [pre].
  - destruct (Z.eq_dec k (nl + 1)) as [|Hne]; [assumption|]. destruct (HB k ltac:(lia)) as (i & f & E & _). destruct i; discriminate.
  - assert (Hc := HR 0%nat c eq_refl).
    assert (Hck : f_layer c = k).
    { destruct (HB k ltac:(lia)) as (i & f & E & B & _). assert (f_layer c <= f_layer f)%Z by (apply (HS 0%nat i); auto; lia). lia. }
    split; [assumption|]. split; [lia|].
    assert (HS' : forall i j f g, (i <= j)%nat -> nth_error r i = Some f -> nth_error r j = Some g -> (f_layer f <= f_layer g)%Z).
    { intros i j f g Hij Ei Ej. apply (HS (S i) (S j)); auto. lia. }
    destruct (f_bottom c) eqn:Hb.
    + destruct (HB k ltac:(lia)) as (i0 & f0 & A0 & B0 & C0 & D0 & F0).
      destruct (F0 0%nat c eq_refl Hck) as [_ Hi]. specialize (Hi Hb). subst i0. cbn in A0. injection A0 as <-.
      split; [assumption|]. apply IH; auto; [lia| |].
      * intros i f E. assert (H := HR (S i) f E). destruct (Z.eq_dec (f_layer f) k) as [He|]; [|lia].
        destruct (F0 (S i) f E He). lia.
      * intros y Hy. destruct (HB y ltac:(lia)) as (i & f & A & B & C & D & F). destruct i as [|i].
        -- cbn in A. injection A as <-. lia.
        -- exists i, f. split; [assumption|]. split; [assumption|]. split; [assumption|]. split; [assumption|].
           intros j g E Hg. destruct (F (S j) g E Hg) as [F1 F2]. split; [lia|]. intro Q. specialize (F2 Q). lia.
    + apply IH; auto.
      * intros i f E. exact (HR (S i) f E).
      * intros y Hy. destruct (HB y ltac:(lia)) as (i & f & A & B & C & D & F). destruct i as [|i].
        -- cbn in A. injection A as <-. congruence.
        -- exists i, f. split; [assumption|]. split; [assumption|]. split; [assumption|]. split; [assumption|].
           intros j g E Hg. destruct (F (S j) g E Hg) as [F1 F2]. split; [lia|]. intro Q. specialize (F2 Q). lia.
Qed.

Lemma profile_scan : forall cum nl l, (1 <= nl)%Z -> profile nl cum l <-> numbered l /\ pre cum nl 1 l (nl + 1).
Proof.
  intros cum nl l Hn. split.
  - intros [H1 H2 H3 H4]. split; [assumption|]. apply pre_of_profile; auto. lia.
  - intros [H1 H2]. constructor; [assumption| | |].
    + intros i f E. apply (pre_nth _ _ _ _ _ _ H2) in E. lia.
    + intros. eapply pre_sorted; eassumption.
    + apply pre_bottom; [lia|assumption].
Qed.
