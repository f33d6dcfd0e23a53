(** Proofs about the list routines. *)

From Coq Require Import Reals Lra ZArith List Bool Lia.
From Verif Require Import Outcome Dbl Types ListOps Soil Fronts Lib Spec_List.
Import ListNotations.

Lemma content_bump : forall d l, contents (bump d l) = contents l.
Proof. intros. unfold contents, bump. rewrite map_map. apply map_ext. intros []; reflexivity. Qed.

Lemma bump_length : forall d l, length (bump d l) = length l.
Proof. intros. apply map_length. Qed.

Lemma nth_error_bump : forall d l i, nth_error (bump d l) i = option_map (fun f => set_num f (f_num f + d)) (nth_error l i).
Proof. intros. unfold bump. apply nth_error_map. Qed.

Lemma numbered_nil : numbered [].
Proof. intros [|i] f H; discriminate. Qed.

Lemma numbered_insert_first : forall gp gK d t lay b l,
  numbered l -> numbered (listInsertFirst gp gK d t 1 lay b l).
Proof.
  intros gp gK d t lay b l H [|i] f E; simpl in E.
  - injection E as <-. reflexivity.
  - rewrite nth_error_bump in E. destruct (nth_error l i) eqn:E'; simpl in E; [|discriminate].
    injection E as <-. simpl. rewrite (H _ _ E'). lia.
Qed.

Lemma pos_of_Some : forall key l i, pos_of key l = Some i ->
  exists f, nth_error l i = Some f /\ f_num f = key /\
  forall j g, (j < i)%nat -> nth_error l j = Some g -> f_num g <> key.
Proof.
  induction l as [|f l IH]; intros i H; simpl in H; [discriminate|].
  destruct (Z.eqb_spec (f_num f) key).
  - injection H as <-. exists f. repeat split; auto. intros j g Hj. lia.
  - destruct (pos_of key l) eqn:E; [|discriminate]. injection H as <-.
    destruct (IH _ eq_refl) as (g & G1 & G2 & G3).
    exists g. repeat split; auto. intros [|j] h Hj Hh; simpl in Hh.
    + injection Hh as <-. assumption.
    + apply (G3 j); [lia|assumption].
Qed.

Lemma pos_of_None : forall key l, pos_of key l = None <-> (forall f, In f l -> f_num f <> key).
Proof.
  induction l as [|f l IH]; simpl.
  - split; [intros _ f []|reflexivity].
  - destruct (Z.eqb_spec (f_num f) key).
    + split; [discriminate|]. intro H. exfalso. apply (H f); auto.
    + destruct (pos_of key l).
      * split; [discriminate|]. intro H. exfalso. destruct IH as [_ IH].
        assert (Some n0 = None) by (apply IH; intros g Hg; apply H; auto). discriminate.
      * split; [|reflexivity]. intros _ g [<-|Hg]; [assumption|]. apply IH; auto.
Qed.

Lemma pos_of_numbered : forall l, numbered l -> forall i, (i < length l)%nat -> pos_of (Z.of_nat (S i)) l = Some i.
Proof.
  intros l H i Hi.
  destruct (pos_of (Z.of_nat (S i)) l) as [j|] eqn:E.
  - apply pos_of_Some in E. destruct E as (f & E1 & E2 & _). f_equal.
    apply H in E1. lia.
  - exfalso. rewrite pos_of_None in E. destruct (nth_error l i) eqn:E'.
    + apply (E f); [eapply nth_error_In; eassumption|]. apply H; assumption.
    + apply nth_error_None in E'. lia.
Qed.

Lemma pos_of_numbered_None : forall l, numbered l -> forall k, (k < 1 \/ Z.of_nat (length l) < k)%Z -> pos_of k l = None.
Proof.
  intros l H k Hk. apply pos_of_None. intros f Hf. apply In_nth_error in Hf. destruct Hf as [i Hi].
  rewrite (H _ _ Hi). assert (i < length l)%nat by (apply nth_error_Some; congruence). lia.
Qed.

Lemma numbered_app : forall l r, numbered (l ++ r) <->
  numbered l /\ (forall i f, nth_error r i = Some f -> f_num f = Z.of_nat (S (length l + i))).
Proof.
  intros l r. split.
  - intro H. split; intros i f E.
    + apply H. rewrite nth_error_app1; [assumption|]. apply nth_error_Some. congruence.
    + apply H. rewrite nth_error_app2 by lia. rewrite <- E. f_equal. lia.
  - intros [H1 H2] i f E. destruct (Nat.lt_ge_cases i (length l)).
    + rewrite nth_error_app1 in E by assumption. auto.
    + rewrite nth_error_app2 in E by assumption. apply H2 in E. rewrite E. f_equal. lia.
Qed.

Lemma numbered_delete : forall l k, numbered l -> (1 <= k <= Z.of_nat (length l))%Z ->
  exists l', listDeleteFront k l = Ok (l', if (k =? Z.of_nat (length l))%Z then None else Some (Z.to_nat (k - 1)))
    /\ numbered l' /\ contents l' = without (Z.to_nat (k - 1)) (contents l).
Proof.
  intros l k H Hk. unfold listDeleteFront.
  set (i := Z.to_nat (k - 1)).
  assert (E : pos_of k l = Some i).
  { replace k with (Z.of_nat (S i)) by lia. apply pos_of_numbered; [assumption|lia]. }
  rewrite E.
  assert (Hi : (i < length l)%nat) by lia.
  exists (firstn i l ++ bump (-1) (skipn (S i) l)). split; [|split].
  - f_equal. f_equal. rewrite app_length, bump_length, firstn_length_le, skipn_length by lia.
    destruct (Nat.ltb_spec i (i + (length l - S i))); destruct (Z.eqb_spec k (Z.of_nat (length l))); auto; lia.
  - rewrite <- (firstn_skipn i l) in H. rewrite numbered_app in H. destruct H as [H1 H2].
    apply numbered_app. split; [assumption|].
    intros j f Ej. rewrite nth_error_bump in Ej.
    rewrite firstn_length_le in * by lia.
    destruct (nth_error (skipn (S i) l) j) as [g|] eqn:Eg; [|discriminate]. simpl in Ej. injection Ej as <-. simpl.
    assert (A : nth_error (skipn i l) (S j) = Some g).
    { clear - Eg. revert l Eg. induction i; intros l Eg.
      - destruct l; simpl in *; [destruct j; discriminate|assumption].
      - destruct l; [destruct j; discriminate|]. simpl. apply IHi. assumption. }
    apply H2 in A. lia.
  - unfold without, contents. rewrite map_app. f_equal; [symmetry; apply firstn_map|].
    fold (contents (bump (-1) (skipn (S i) l))). rewrite content_bump. unfold contents. rewrite skipn_map. reflexivity.
Qed.

Lemma delete_absent : forall l k, (forall f, In f l -> f_num f <> k) -> listDeleteFront k l = Stop Abort.
Proof. intros l k H. unfold listDeleteFront. apply pos_of_None in H. rewrite H. reflexivity. Qed.

Lemma append_front : forall gp gK d t lay b l, numbered l ->
  exists l' p, listInsertFront gp gK d t (Z.of_nat (S (length l))) lay b l = Ok (l', Some p)
    /\ p = length l /\ numbered l'
    /\ contents l' = contents l ++ [(d, t, gp, gK, lay, b, Fin 0)].
Proof.
  intros gp gK d t lay b l H.
  set (nf := mkF d t gp gK lay (Z.of_nat (S (length l))) b (Fin 0)).
  assert (N : numbered (l ++ [nf])).
  { apply numbered_app. split; [assumption|]. intros [|i] f E; simpl in E.
    - injection E as <-. simpl. f_equal. lia.
    - destruct i; discriminate. }
  destruct l as [|f l].
  - eexists _, 0%nat. split; [reflexivity|]. auto.
  - exists ((f :: l) ++ [nf]), (length (f :: l)). split; [|split; [reflexivity|split; [assumption|]]].
    + unfold listInsertFront.
      assert (E : pos_of (Z.of_nat (S (length (f :: l))) - 1) (f :: l) = Some (length l)).
      { replace (Z.of_nat (S (length (f :: l))) - 1)%Z with (Z.of_nat (S (length l))) by (simpl length; lia).
        apply pos_of_numbered; [assumption|simpl; lia]. }
      rewrite E. rewrite skipn_all2 by (simpl; lia). reflexivity.
    + unfold contents. rewrite map_app. reflexivity.
Qed.

(** ** Free-drainage front *)

Lemma free_drainage_spec : forall l w,
  (exists i, first_companion l i /\ free_drainage_loop l w = (w + Z.of_nat i)%Z) \/
  ((forall i, ~ first_companion l i) /\ free_drainage_loop l w = (w + Z.of_nat (length l) - 1)%Z) \/ l = [].
Proof.
  induction l as [|c l IH]; intro w; [auto|].
  destruct l as [|n l].
  - right. left. split; [|simpl; lia]. intros i [(f & g & E1 & E2 & _) _]. destruct i as [|[|]]; discriminate.
  - change (free_drainage_loop (c :: n :: l) w)
      with (if (f_layer c =? f_layer n)%Z then w else free_drainage_loop (n :: l) (w + 1)%Z).
    destruct (Z.eqb_spec (f_layer c) (f_layer n)) as [E|E].
    + left. exists 0%nat. split; [|lia]. split; [exists c, n; auto|]. intros; lia.
    + destruct (IH (w + 1)%Z) as [[i [[(f & g & F1 & F2 & F3) F4] G]]|[[H1 H2]|H]]; [| |discriminate].
      * left. exists (S i). split; [|rewrite G; lia]. split; [exists f, g; auto|].
        intros [|j] f' g' Hj E1 E2; simpl in E1, E2.
        -- injection E1 as <-. injection E2 as <-. assumption.
        -- apply (F4 j); auto. lia.
      * right. left. split; [|rewrite H2; simpl length; lia].
        intros [|i] [(f & g & F1 & F2 & F3) F4].
        -- simpl in F1, F2. injection F1 as <-. injection F2 as <-. contradiction.
        -- apply (H1 i). split; [exists f, g; auto|].
           intros j f' g' Hj E1 E2. apply (F4 (S j)); auto. lia.
Qed.

Lemma free_drainage_index : forall l, l <> [] ->
  (exists i, first_companion l i /\ wetting_front_free_drainage l = Z.of_nat (S i)) \/
  ((forall i, ~ first_companion l i) /\ wetting_front_free_drainage l = Z.of_nat (length l)).
Proof.
  intros l Hl. unfold wetting_front_free_drainage, listLength.
  destruct (free_drainage_spec l 1) as [[i [H E]]|[[H E]|H]]; [| |contradiction].
  - left. exists i. split; [assumption|]. rewrite E.
    destruct H as [(f & g & E1 & E2 & _) _].
    assert (S i < length l)%nat by (apply nth_error_Some; congruence).
    destruct (Z.gtb_spec (1 + Z.of_nat i) (Z.of_nat (length l))); lia.
  - right. split; [assumption|]. rewrite E.
    destruct (Z.gtb_spec (1 + Z.of_nat (length l) - 1) (Z.of_nat (length l))); lia.
Qed.

(** ** Histories *)
From Verif Require Import Spec_ListRun.

Lemma run_op_ok : forall gp gK op l, numbered l ->
  match run_op gp gK op l with
  | Ok l' => numbered l' /\ contents l' = expected gp gK op (contents l)
  | Stop r => r = Abort /\ exists k, op = OpDelete k /\ (k < 1 \/ Z.of_nat (length l) < k)%Z
  end.
Proof.
  intros gp gK [d t lay b|d t lay b|k] l H; unfold run_op.
  - split; [apply numbered_insert_first; assumption|]. simpl. f_equal. apply content_bump.
  - unfold listLength. replace (Z.of_nat (length l) + 1)%Z with (Z.of_nat (S (length l))) by lia.
    destruct (append_front gp gK d t lay b l H) as (l' & p & E & _ & N & C). rewrite E. cbn [bind]. auto.
  - destruct (Z_lt_dec k 1) as [Hk|Hk]; [|destruct (Z_lt_dec (Z.of_nat (length l)) k) as [Hk2|Hk2]].
    + unfold listDeleteFront. rewrite pos_of_numbered_None by auto. cbn [bind]. split; [reflexivity|]. exists k. auto.
    + unfold listDeleteFront. rewrite pos_of_numbered_None by auto. cbn [bind]. split; [reflexivity|]. exists k. auto.
    + destruct (numbered_delete l k H) as (l' & E & N & C); [lia|]. rewrite E. cbn [bind]. auto.
Qed.

Lemma run_ops_ok : forall gp gK ops l, numbered l ->
  match run_ops gp gK ops l with
  | Ok l' => numbered l' /\ contents l' = fold_left (fun c op => expected gp gK op c) ops (contents l)
  | Stop r => r = Abort
  end.
Proof.
  induction ops as [|op ops IH]; intros l H; [cbn; auto|].
  cbn [run_ops]. pose proof (run_op_ok gp gK op l H) as R.
  destruct (run_op gp gK op l) as [l'|r]; cbn [bind].
  - destruct R as [R1 R2]. specialize (IH l' R1). destruct (run_ops gp gK ops l'); [|assumption].
    cbn [fold_left]. rewrite <- R2. assumption.
  - apply R.
Qed.
