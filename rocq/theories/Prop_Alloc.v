(** C94: the allocators. *)

From Coq Require Import ZArith List.
From Verif Require Import Outcome Alloc Spec_Alloc Pf_Alloc.
Import ListNotations.
Open Scope Z_scope.

(** C94, for int, float and double: d_alloc, i_alloc and f_alloc give a null pointer if malloc does, and otherwise a new block that is an array of zeros with the indices 0 to [n]; no other block changes. *)
Theorem C94_arrays : forall (grants : nat -> Z -> bool) elem n m, element elem -> 0 <= n <= 2147483646 -> exists m' p, vec_alloc grants elem n m = Ok (m', p) /\ extends m m' /\
  ((grants (me_calls m) ((n + 1) * elem) = false /\ p = None /\ me_blocks m' = me_blocks m) \/
   (grants (me_calls m) ((n + 1) * elem) = true /\ exists a, p = Some a /\ new a m /\ zero_array a n m')).
Proof. exact vec_ok. Qed.
Print Assumptions C94_arrays.

(** C94: itwo_alloc and dtwo_alloc give a null pointer if the first malloc does, and otherwise a matrix of zeros of which the rows 0 to [k] - 1 exist, each in a block of its own; [k] is the row of the first malloc
    that fails, and the rows from there on are null pointers. *)
Theorem C94_matrices : forall (grants : nat -> Z -> bool) elem rows cols m, element elem -> 1 <= rows <= 2147483646 -> 1 <= cols <= 2147483646 -> exists m' p, mat_alloc grants elem rows cols m = Ok (m', p) /\ extends m m' /\
  ((grants (me_calls m) ((rows + 1) * 8) = false /\ p = None /\ me_blocks m' = me_blocks m) \/
   (grants (me_calls m) ((rows + 1) * 8) = true /\ exists a k, p = Some a /\ new a m /\ 0 <= k <= rows + 1 /\ zero_matrix a rows cols k m m' /\
     (forall i, 0 <= i < k -> grants (S (me_calls m) + Z.to_nat i)%nat ((cols + 1) * elem) = true) /\ (k <= rows -> grants (S (me_calls m) + Z.to_nat k)%nat ((cols + 1) * elem) = false))).
Proof. exact mat_ok. Qed.
Print Assumptions C94_matrices.

(** C94: a matrix without rows or columns ends the program, with the exit status of success. *)
Theorem C94_empty_matrix : forall (grants : nat -> Z -> bool) elem rows cols m, rows = 0 \/ cols = 0 -> mat_alloc grants elem rows cols m = Stop (ExitCode 0).
Proof. exact mat_empty. Qed.
Print Assumptions C94_empty_matrix.

(** An array of two doubles, counted from one, has 24 bytes; a matrix of two by three ints has three row pointers and three rows of 16 bytes. *)
Example C94_array_concrete : exists m', vec_alloc all_granted 8 2 no_mem = Ok (m', Some 0%nat) /\ map bk_bytes (me_blocks m') = [24].
Proof. exact vec_two. Qed.
Example C94_matrix_concrete : exists m', mat_alloc all_granted 4 2 3 no_mem = Ok (m', Some 0%nat) /\ map bk_bytes (me_blocks m') = [24; 16; 16; 16].
Proof. exact mat_two. Qed.

(** C94, that a pointer that is not null is a complete matrix, is false: if the second row is not granted the function returns, and the first and second row of the caller are null pointers. *)
Theorem C94_complete_refuted : exists grants m', mat_alloc grants 4 2 3 no_mem = Ok (m', Some 0%nat) /\ load (Some 0%nat) 0 m' = Ok (Addr 1) /\ load (Some 0%nat) 1 m' = Ok Zeros /\ load (Some 0%nat) 2 m' = Ok Zeros /\
  map bk_bytes (me_blocks m') = [24; 16].
Proof. exists all_but_third. exact mat_short. Qed.
Print Assumptions C94_complete_refuted.
(** A negative size is not refused: the array has no element. *)
Theorem C94_negative_size_refuted : exists grants m', vec_alloc grants 8 (-1) no_mem = Ok (m', Some 0%nat) /\ load (Some 0%nat) 0 m' = Stop (UB OutOfBounds).
Proof. exists all_granted. exact vec_negative. Qed.
Print Assumptions C94_negative_size_refuted.
