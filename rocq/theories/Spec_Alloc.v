(** What a caller expects of the allocators. *)

From Coq Require Import ZArith List.
From Verif Require Import Outcome Alloc.
Import ListNotations.
Open Scope Z_scope.

(** A type of the code: int, float, double. *)
Definition element (elem : Z) : Prop := elem = 4 \/ elem = 8.
(** Memory [m'] has all blocks of [m], unchanged. *)
Definition extends (m m' : mem) : Prop := forall a b, nth_error (me_blocks m) a = Some b -> nth_error (me_blocks m') a = Some b.
(** [a] was not an address in [m]. *)
Definition new (a : nat) (m : mem) : Prop := nth_error (me_blocks m) a = None.
(** An array of zeros with the indices 0 to [n], and no others. *)
Definition zero_array (a : nat) (n : Z) (m : mem) : Prop :=
  (forall i, 0 <= i <= n -> load (Some a) i m = Ok Zeros) /\ (forall i, i < 0 \/ n < i -> load (Some a) i m = Stop (UB OutOfBounds)).
(** A matrix of which the rows below [k] exist, each in a block of its own with the columns 0 to [cols]; the others, up to [rows], are null. *)
Definition zero_matrix (a : nat) (rows cols : Z) (k : Z) (m m' : mem) : Prop :=
  (forall i, i < 0 \/ rows < i -> load (Some a) i m' = Stop (UB OutOfBounds)) /\
  exists row : Z -> nat,
    (forall i, 0 <= i < k -> load (Some a) i m' = Ok (Addr (row i)) /\ new (row i) m /\ row i <> a /\ zero_array (row i) cols m') /\
    (forall i j, 0 <= i < k -> 0 <= j < k -> row i = row j -> i = j) /\
    (forall i, k <= i <= rows -> load (Some a) i m' = Ok Zeros).
