(** General lemmas and tactics. *)

From Coq Require Import Reals Lra ZArith List Bool Lia.
From Verif Require Import Outcome Dbl Types ListOps.
Import ListNotations.

(** ** Outcomes *)

Lemma bind_Ok : forall A B (m : outcome A) (k : A -> outcome B) b,
  bind m k = Ok b -> exists a, m = Ok a /\ k a = Ok b.
Proof. intros A B [a|r] k b H; simpl in H; [exists a; auto|discriminate]. Qed.

Lemma Ok_inj : forall A (a b : A), Ok a = Ok b -> a = b.
Proof. intros A a b H. congruence. Qed.

Lemma cassert_Ok : forall b u, cassert b = Ok u -> b = true.
Proof. intros [|] u H; [reflexivity|discriminate]. Qed.

(** [H : bind e k = Ok v] is split in the run of [e] and the run of the rest. *)
Ltac bind_inv H x E := apply bind_Ok in H; destruct H as [x [E H]].

(** ** Arrays *)

Lemma aget_app : forall A (l1 l2 : list A) x i, i = Z.of_nat (length l1) -> aget (l1 ++ x :: l2) i = Ok x.
Proof.
  intros A l1 l2 x i ->. unfold aget.
  destruct (Z.ltb_spec (Z.of_nat (length l1)) 0); [lia|].
  rewrite Nat2Z.id, nth_error_app2, Nat.sub_diag by lia. reflexivity.
Qed.

Lemma lset_app : forall A (l1 l2 : list A) x y, lset (l1 ++ x :: l2) (length l1) y = l1 ++ y :: l2.
Proof. induction l1; intros; simpl; [reflexivity|rewrite IHl1; reflexivity]. Qed.

Lemma aset_app : forall A (l1 l2 : list A) x y i, i = Z.of_nat (length l1) -> aset (l1 ++ x :: l2) i y = Ok (l1 ++ y :: l2).
Proof.
  intros A l1 l2 x y i ->. unfold aset.
  destruct (Z.ltb_spec (Z.of_nat (length l1)) 0); [lia|].
  rewrite Nat2Z.id, lset_app.
  destruct (Nat.ltb_spec (length l1) (length (l1 ++ x :: l2))) as [|Hn]; [reflexivity|].
  rewrite app_length in Hn. simpl in Hn. lia.
Qed.

Lemma aget_Ok : forall A (l : list A) i x,
  aget l i = Ok x <-> (0 <= i)%Z /\ nth_error l (Z.to_nat i) = Some x.
Proof.
  intros A l i x. unfold aget. destruct (Z.ltb_spec i 0).
  - split; [discriminate|lia].
  - destruct (nth_error l (Z.to_nat i)); split; intro H0.
    + injection H0 as ->. split; [lia|reflexivity].
    + destruct H0 as [_ H0]. congruence.
    + discriminate.
    + destruct H0; discriminate.
Qed.

Lemma aget_in_range : forall A (l : list A) i,
  (0 <= i < Z.of_nat (length l))%Z -> exists x, aget l i = Ok x.
Proof.
  intros A l i H. destruct (nth_error l (Z.to_nat i)) eqn:E.
  - exists a. apply aget_Ok. split; [lia|assumption].
  - apply nth_error_None in E. lia.
Qed.

Lemma lset_length : forall A (l : list A) i x, length (lset l i x) = length l.
Proof. induction l; intros [|i] x; simpl; auto. Qed.

Lemma nth_error_lset_eq : forall A (l : list A) i x, (i < length l)%nat -> nth_error (lset l i x) i = Some x.
Proof. induction l; intros [|i] x H; simpl in *; try lia; auto. apply IHl. lia. Qed.

Lemma nth_error_lset_neq : forall A (l : list A) i j x, i <> j -> nth_error (lset l i x) j = nth_error l j.
Proof. induction l; intros [|i] [|j] x H; simpl in *; try congruence; auto. Qed.

Lemma aset_Ok : forall A (l : list A) i x l',
  aset l i x = Ok l' <-> (0 <= i < Z.of_nat (length l))%Z /\ l' = lset l (Z.to_nat i) x.
Proof.
  intros. unfold aset. destruct (Z.ltb_spec i 0).
  - split; [discriminate|lia].
  - destruct (Nat.ltb_spec (Z.to_nat i) (length l)); split; intro H1.
    + injection H1 as <-. split; [lia|reflexivity].
    + destruct H1 as [_ ->]. reflexivity.
    + discriminate.
    + lia.
Qed.

Lemma lget_Ok : forall l i f, lget l i = Ok f <-> nth_error l i = Some f.
Proof. intros. unfold lget. destruct (nth_error l i); split; congruence. Qed.

Lemma split_nth : forall A (l : list A) p x, nth_error l p = Some x -> exists l1 l2, l = l1 ++ x :: l2 /\ length l1 = p.
Proof. intros. apply nth_error_split. assumption. Qed.

(** ** Comparisons *)

Lemma Rltb_true : forall x y, Rltb x y = true <-> (x < y)%R.
Proof. intros. unfold Rltb. destruct (Rlt_dec x y); split; auto; discriminate. Qed.
Lemma Rltb_false : forall x y, Rltb x y = false <-> (y <= x)%R.
Proof. intros. unfold Rltb. destruct (Rlt_dec x y); split; auto; try discriminate; intros; lra. Qed.
Lemma Rleb_true : forall x y, Rleb x y = true <-> (x <= y)%R.
Proof. intros. unfold Rleb. destruct (Rle_dec x y); split; auto; discriminate. Qed.
Lemma Rleb_false : forall x y, Rleb x y = false <-> (y < x)%R.
Proof. intros. unfold Rleb. destruct (Rle_dec x y); split; auto; try discriminate; intros; lra. Qed.
Lemma Reqb_true : forall x y, Reqb x y = true <-> x = y.
Proof. intros. unfold Reqb. destruct (Req_EM_T x y); split; auto; discriminate. Qed.
Lemma Reqb_false : forall x y, Reqb x y = false <-> x <> y.
Proof. intros. unfold Reqb. destruct (Req_EM_T x y); split; auto; try discriminate. contradiction. Qed.

(** Equality of concrete outcomes: descend through the constructors, finish with real arithmetic. *)
Ltac feq :=
  repeat match goal with
  | |- _ = ?e => is_evar e; reflexivity
  | |- Ok _ = Ok _ => apply f_equal
  | |- (_, _) = (_, _) => apply f_equal2
  | |- (_ :: _) = (_ :: _) => apply f_equal2
  | |- Fin _ = Fin _ => apply f_equal; first [reflexivity | lra]
  | |- ?x = ?x => reflexivity
  end.

(** Run a concrete term, leaving the operations on reals alone. *)
Ltac reval := cbv - [IZR Rplus Rmult Rminus Rdiv Rinv Ropp Rlt_dec Rle_dec Req_EM_T Rpower exp ln sqrt Rabs up].
