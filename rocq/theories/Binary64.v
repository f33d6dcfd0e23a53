(** The binary64 instance of the arithmetic: round to nearest, ties to even, with gradual underflow, and overflow to infinity. *)

From Coq Require Import Reals Lra ZArith Lia.
From Flocq Require Import Core.
From Verif Require Import Outcome Dbl.
Open Scope R_scope.

(** Exponents of binary64: 53 bits, smallest subnormal 2^-1074. *)
Definition b64_exp : Z -> Z := FLT_exp (-1074) 53.
(** The nearest number with 53 bits and unbounded exponent upwards (IEEE-754 4.3.1). *)
Definition b64_near (x : R) : R := round radix2 b64_exp ZnearestE x.
(** IEEE-754 7.4: a result whose rounding reaches 2^1024 becomes infinite. *)
Definition b64_rnd (x : R) : dbl :=
  if Rlt_dec (b64_near x) (bpow radix2 1024) then if Rlt_dec (- bpow radix2 1024) (b64_near x) then Fin (b64_near x) else NInf else PInf.

Local Instance b64_valid : Valid_exp b64_exp.
Proof. apply FLT_exp_valid. unfold Prec_gt_0. lia. Qed.

Lemma near_opp : forall x, b64_near (- x) = - b64_near x.
Proof. intro x. unfold b64_near. apply round_NE_opp. Qed.

Lemma near_mono : forall x y, x <= y -> b64_near x <= b64_near y.
Proof. intros x y H. apply round_le; [apply b64_valid|apply valid_rnd_N|exact H]. Qed.

Lemma near_idem : forall x, b64_near (b64_near x) = b64_near x.
Proof. intro x. apply round_generic; [apply valid_rnd_N|]. apply generic_format_round; [apply b64_valid|apply valid_rnd_N]. Qed.

Lemma near_zero : b64_near 0 = 0.
Proof. apply round_0. apply valid_rnd_N. Qed.

Lemma near_one : b64_near 1 = 1.
Proof.
  apply round_generic; [apply valid_rnd_N|]. change 1 with (bpow radix2 0). apply generic_format_bpow. unfold b64_exp, FLT_exp. simpl. lia.
Qed.

Lemma huge : 1 < bpow radix2 1024.
Proof. change 1 with (bpow radix2 0). apply bpow_lt. lia. Qed.

Definition binary64 : Fp.
Proof.
  refine {| rnd := b64_rnd |}.
  - unfold b64_rnd. rewrite near_zero. pose proof huge. destruct (Rlt_dec 0 (bpow radix2 1024)); [|lra]. destruct (Rlt_dec (- bpow radix2 1024) 0); [reflexivity|lra].
  - unfold b64_rnd. rewrite near_one. pose proof huge. destruct (Rlt_dec 1 (bpow radix2 1024)); [|lra]. destruct (Rlt_dec (- bpow radix2 1024) 1); [reflexivity|lra].
  - intro x. unfold b64_rnd. rewrite near_opp. pose proof huge. set (B := bpow radix2 1024) in *. clearbody B.
    destruct (Rlt_dec (- b64_near x) B), (Rlt_dec (b64_near x) B); try destruct (Rlt_dec (- B) (- b64_near x)); try destruct (Rlt_dec (- B) (b64_near x)); try reflexivity; exfalso; lra.
  - intro x. unfold b64_rnd. destruct (Rlt_dec _ _); [destruct (Rlt_dec _ _)|]; discriminate.
  - intros x y H. apply near_mono in H. unfold b64_rnd. pose proof huge. set (B := bpow radix2 1024) in *. clearbody B.
    destruct (Rlt_dec (b64_near x) B), (Rlt_dec (b64_near y) B); try destruct (Rlt_dec (- B) (b64_near x)); try destruct (Rlt_dec (- B) (b64_near y));
      try reflexivity; try (exfalso; lra); simpl; unfold Rleb; destruct (Rle_dec _ _); [reflexivity|contradiction].
  - intros x r H. unfold b64_rnd in *. destruct (Rlt_dec (b64_near x) _) as [L|]; [|discriminate]. destruct (Rlt_dec _ (b64_near x)) as [L'|]; [|discriminate].
    injection H as <-. rewrite near_idem. destruct (Rlt_dec (b64_near x) _); [|contradiction]. destruct (Rlt_dec _ (b64_near x)); [reflexivity|contradiction].
Defined.
