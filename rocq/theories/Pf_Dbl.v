(** Lemmas on the arithmetic of [double]. *)

From Coq Require Import Reals Lra ZArith List Bool Lia.
From Verif Require Import Outcome Dbl Exact Lib Spec_Common.
Open Scope R_scope.

(** Case analysis on every comparison of reals in sight. *)
Ltac rcases :=
  repeat match goal with
  | |- context [Rlt_dec ?a ?b] => destruct (Rlt_dec a b)
  | |- context [Rle_dec ?a ?b] => destruct (Rle_dec a b)
  | |- context [Req_EM_T ?a ?b] => destruct (Req_EM_T a b)
  | H : context [Rlt_dec ?a ?b] |- _ => destruct (Rlt_dec a b)
  | H : context [Rle_dec ?a ?b] |- _ => destruct (Rle_dec a b)
  | H : context [Req_EM_T ?a ?b] |- _ => destruct (Req_EM_T a b)
  end.
Ltac dunfold := unfold not_negative, dgtb, dgeb, dneb, dfmin, dfmax, lit, dofZ, dsqrt, dopp, inf_sign, Rltb, Rleb, Reqb in *.

Section Any.
Context {fp : Fp}.

Lemma rnd_nonneg : forall x, 0 <= x -> dltb (rnd x) (Fin 0) = false.
Proof.
  intros x H. pose proof (rnd_mono 0 x H) as M. rewrite rnd_zero in M.
  destruct (rnd x) as [y| | |]; simpl in *; try reflexivity; try discriminate.
  unfold Rleb in M. unfold Rltb. rcases; auto; try discriminate; lra.
Qed.

Lemma rnd_nonpos : forall x, x <= 0 -> dltb (Fin 0) (rnd x) = false.
Proof.
  intros x H. pose proof (rnd_mono x 0 H) as M. rewrite rnd_zero in M.
  destruct (rnd x) as [y| | |]; simpl in *; try reflexivity; try discriminate.
  unfold Rleb in M. unfold Rltb. rcases; auto; try discriminate; lra.
Qed.

(** A rounding result re-rounds to itself. *)
Lemma rnd_rnd : forall x, match rnd x with Fin y => rnd y = Fin y | _ => True end.
Proof. intro x. destruct (rnd x) eqn:E; auto. eapply rnd_idem; eassumption. Qed.

Lemma rnd_mono_fin : forall x y a b, x <= y -> rnd x = Fin a -> rnd y = Fin b -> a <= b.
Proof.
  intros x y a b H E1 E2. pose proof (rnd_mono x y H) as M. rewrite E1, E2 in M. simpl in M.
  unfold Rleb in M. rcases; [assumption|discriminate].
Qed.

Lemma nn_Fin : forall x, 0 <= x -> not_negative (Fin x).
Proof. intros. dunfold. simpl. unfold Rltb. rcases; auto; lra. Qed.
Lemma nn_Fin_inv : forall x, not_negative (Fin x) -> 0 <= x.
Proof. intros x H. dunfold. simpl in H. unfold Rltb in H. rcases; [discriminate|lra]. Qed.
Lemma nn_zero : not_negative (Fin 0).
Proof. apply nn_Fin. lra. Qed.
Lemma nn_NaN : not_negative NaN. Proof. reflexivity. Qed.
Lemma nn_PInf : not_negative PInf. Proof. reflexivity. Qed.
Lemma nn_lit : forall x, 0 <= x -> not_negative (lit x).
Proof. intros. apply rnd_nonneg. assumption. Qed.

Lemma nn_add : forall a b, not_negative a -> not_negative b -> not_negative (dadd a b).
Proof.
  intros [x| | |] [y| | |] Ha Hb; try reflexivity; try discriminate.
  apply nn_Fin_inv in Ha. apply nn_Fin_inv in Hb. apply rnd_nonneg. lra.
Qed.

Lemma nn_mul : forall a b, not_negative a -> not_negative b -> not_negative (dmul a b).
Proof.
  intros [x| | |] [y| | |] Ha Hb; try reflexivity; try discriminate.
  - apply nn_Fin_inv in Ha. apply nn_Fin_inv in Hb. apply rnd_nonneg. nra.
  - apply nn_Fin_inv in Ha. unfold dmul, inf_sign. rcases; try reflexivity; exfalso; lra.
  - apply nn_Fin_inv in Hb. unfold dmul, inf_sign. rcases; try reflexivity; exfalso; lra.
Qed.

Lemma nn_div : forall a b, not_negative a -> not_negative b -> not_negative (ddiv a b).
Proof.
  intros [x| | |] [y| | |] Ha Hb; try reflexivity; try discriminate; try (apply nn_zero).
  - apply nn_Fin_inv in Ha. apply nn_Fin_inv in Hb. unfold ddiv, inf_sign. rcases; try reflexivity; try (exfalso; lra).
    all: apply rnd_nonneg; apply Rmult_le_pos; [assumption|]; left; apply Rinv_0_lt_compat; lra.
  - apply nn_Fin_inv in Hb. unfold ddiv. rcases; try reflexivity; exfalso; lra.
Qed.

(** [a - b] is not negative when [a < b] is false. *)
Lemma nn_sub : forall a b, dltb a b = false -> not_negative (dsub a b).
Proof.
  intros [x| | |] [y| | |] H; try reflexivity; try discriminate.
  simpl in H. unfold Rltb in H. apply rnd_nonneg. rcases; [discriminate|lra].
Qed.

Lemma nn_fmax0 : forall a, not_negative (dfmax a (Fin 0)).
Proof. intros [x| | |]; dunfold; simpl; unfold Rltb; rcases; simpl; unfold Rltb; rcases; auto; lra. Qed.

Lemma nn_fmin : forall a b, not_negative a -> not_negative b -> not_negative (dfmin a b).
Proof. intros a b Ha Hb. unfold dfmin. destruct a, b; auto; destruct (dltb _ _); auto. Qed.

Lemma nn_fmax : forall a b, not_negative a -> not_negative b -> not_negative (dfmax a b).
Proof. intros a b Ha Hb. unfold dfmax. destruct a, b; auto; destruct (dltb _ _); auto. Qed.

Lemma dltb_irrefl : forall a, dltb a a = false.
Proof. intros [x| | |]; auto. simpl. unfold Rltb. rcases; auto; lra. Qed.

(** [fmin a b] is never above either argument. *)
Lemma fmin_le_l : forall a b, dltb a (dfmin a b) = false.
Proof.
  intros [x| | |] [y| | |]; dunfold; simpl; unfold Rltb; auto; rcases; simpl; unfold Rltb; rcases; auto; lra.
Qed.
Lemma fmin_le_r : forall a b, dltb b (dfmin a b) = false.
Proof.
  intros [x| | |] [y| | |]; dunfold; simpl; unfold Rltb; auto; rcases; simpl; unfold Rltb; rcases; auto; lra.
Qed.

Lemma dabs_nn : forall a, not_negative (dabs a).
Proof. intros [x| | |]; try reflexivity. apply nn_Fin. apply Rabs_pos. Qed.

Lemma lit_zero : lit 0 = Fin 0. Proof. apply rnd_zero. Qed.
Lemma lit_one : lit 1 = Fin 1. Proof. apply rnd_one. Qed.
End Any.

(** Brute force over the special values for statements about the exact instance. *)
Ltac dinv :=
  repeat match goal with
  | H : Fin _ = Fin _ |- _ => injection H as H
  | H : (_, _) = (_, _) |- _ => injection H as H
  | H : true = false |- _ => discriminate H
  | H : false = true |- _ => discriminate H
  | H : Fin _ = PInf |- _ => discriminate H
  | H : Fin _ = NInf |- _ => discriminate H
  | H : Fin _ = NaN |- _ => discriminate H
  | H : PInf = Fin _ |- _ => discriminate H
  | H : NInf = Fin _ |- _ => discriminate H
  | H : NaN = Fin _ |- _ => discriminate H
  end.
Ltac dsimp := cbv beta iota zeta delta [dgtb dgeb dneb negb andb orb lit dofZ inf_sign Rltb Rleb Reqb dabs disinf disnan not_negative dadd dsub dmul ddiv dltb dleb deqb dfmin dfmax dopp rnd exact fst snd] in *.
Ltac dcrush :=
  dunfold; dsimp;
  repeat (match goal with
  | |- context [Rlt_dec ?a ?b] => destruct (Rlt_dec a b); dsimp
  | |- context [Rle_dec ?a ?b] => destruct (Rle_dec a b); dsimp
  | |- context [Req_EM_T ?a ?b] => destruct (Req_EM_T a b); dsimp
  | H : context [Rlt_dec ?a ?b] |- _ => destruct (Rlt_dec a b); dsimp
  | H : context [Rle_dec ?a ?b] |- _ => destruct (Rle_dec a b); dsimp
  | H : context [Req_EM_T ?a ?b] |- _ => destruct (Req_EM_T a b); dsimp
  end; dinv; try (exfalso; lra)).

(** ** The exact instance *)
Lemma exact_lit : forall x, @lit exact x = Fin x. Proof. reflexivity. Qed.

Lemma fin_add : forall a b r, @dadd exact a b = Fin r -> exists x y, a = Fin x /\ b = Fin y /\ r = x + y.
Proof. intros [x| | |] [y| | |] r H; try discriminate. injection H as <-. eauto. Qed.
Lemma fin_sub : forall a b r, @dsub exact a b = Fin r -> exists x y, a = Fin x /\ b = Fin y /\ r = x - y.
Proof. intros [x| | |] [y| | |] r H; try discriminate. injection H as <-. eauto. Qed.
Lemma fin_mul : forall a b r, @dmul exact a b = Fin r -> exists x y, a = Fin x /\ b = Fin y /\ r = x * y.
Proof.
  intros [x| | |] [y| | |] r H; cbn in H; unfold dopp, inf_sign in H; rcases; try discriminate. injection H as <-. eauto.
Qed.
