(** The exact instance of the arithmetic: no rounding, no overflow. *)

From Coq Require Import Reals Lra.
From Verif Require Import Outcome Dbl.
Open Scope R_scope.

Lemma exact_mono : forall x y, x <= y -> dleb (Fin x) (Fin y) = true.
Proof. intros x y H. simpl. unfold Rleb. destruct (Rle_dec x y); [reflexivity|contradiction]. Qed.

Definition exact : Fp.
Proof.
  refine {| rnd := Fin |}.
  - reflexivity.
  - reflexivity.
  - reflexivity.
  - discriminate.
  - exact exact_mono.
  - intros x r H. reflexivity.
Defined.
