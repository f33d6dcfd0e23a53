(** Lemmas on pow and on the comparisons, exact instance. *)

From Coq Require Import Reals Lra ZArith Bool.
From Verif Require Import Outcome Dbl Exact Lib Pf_Dbl.
Open Scope R_scope.

Section Pow.
Local Existing Instance exact.

Lemma pow_pos : forall x y, 0 < x -> dpow (Fin x) (Fin y) = Fin (Rpower x y).
Proof.
  intros x y H. unfold dpow. cbn [deqb]. unfold Reqb. destruct (Req_EM_T y 0) as [->|].
  - rewrite Rpower_O by assumption. reflexivity.
  - destruct (Req_EM_T x 1) as [->|].
    + unfold Rpower. rewrite ln_1, Rmult_0_r, exp_0. reflexivity.
    + destruct (Rlt_dec 0 x); [reflexivity|contradiction].
Qed.
Lemma pow_one : forall b, dpow (Fin 1) b = Fin 1.
Proof.
  intros b. unfold dpow. destruct (deqb b (Fin 0)); [reflexivity|]. cbn [deqb]. unfold Reqb.
  destruct (Req_EM_T 1 1); [reflexivity|lra].
Qed.
Lemma pow_zero : forall y, 0 < y -> dpow (Fin 0) (Fin y) = Fin 0.
Proof.
  intros y H. unfold dpow. cbn [deqb]. unfold Reqb.
  destruct (Req_EM_T y 0); [lra|]. destruct (Req_EM_T 0 1); [lra|]. destruct (Rlt_dec 0 0); [lra|].
  destruct (Req_EM_T 0 0); [|lra]. destruct (Rlt_dec 0 y); [reflexivity|lra].
Qed.
Lemma pow_zero_neg : forall y, y < 0 -> dpow (Fin 0) (Fin y) = PInf.
Proof.
  intros y H. unfold dpow. cbn [deqb]. unfold Reqb.
  destruct (Req_EM_T y 0); [lra|]. destruct (Req_EM_T 0 1); [lra|]. destruct (Rlt_dec 0 0); [lra|].
  destruct (Req_EM_T 0 0); [|lra]. destruct (Rlt_dec 0 y); [lra|reflexivity].
Qed.

Lemma Rpower_2 : forall x, 0 < x -> Rpower x 2 = x * x.
Proof.
  intros x H. pose proof (Rpower_pow 2 x H) as E. simpl in E. replace (1 + 1) with 2 in E by lra. rewrite E. ring.
Qed.
Lemma Rpower_m2 : forall x, 0 < x -> Rpower x (-2) = / (x * x).
Proof. intros x H. replace (-2) with (- (2)) by lra. rewrite Rpower_Ropp, Rpower_2 by assumption. reflexivity. Qed.
Lemma Rpower_half : forall x, 0 < x -> Rpower (x * x) (1 / 2) = x.
Proof.
  intros x H. replace (1 / 2) with (/ 2) by lra. rewrite Rpower_sqrt by nra. apply sqrt_square. lra.
Qed.

Lemma div_fin : forall a b, b <> 0 -> (Fin a / Fin b)%d = Fin (a / b).
Proof. intros a b H. cbn. destruct (Req_EM_T b 0); [contradiction|reflexivity]. Qed.
End Pow.

Lemma ltb_t : forall a b, a < b -> dltb (Fin a) (Fin b) = true.
Proof. intros. cbn. apply Rltb_true. assumption. Qed.
Lemma ltb_f : forall a b, b <= a -> dltb (Fin a) (Fin b) = false.
Proof. intros. cbn. apply Rltb_false. assumption. Qed.
Lemma leb_t : forall a b, a <= b -> dleb (Fin a) (Fin b) = true.
Proof. intros. cbn. apply Rleb_true. assumption. Qed.
Lemma leb_f : forall a b, b < a -> dleb (Fin a) (Fin b) = false.
Proof. intros. cbn. apply Rleb_false. assumption. Qed.
Lemma eqb_t : forall a b, a = b -> deqb (Fin a) (Fin b) = true.
Proof. intros. cbn. apply Reqb_true. assumption. Qed.
Lemma eqb_f : forall a b, a <> b -> deqb (Fin a) (Fin b) = false.
Proof. intros. cbn. apply Reqb_false. assumption. Qed.
