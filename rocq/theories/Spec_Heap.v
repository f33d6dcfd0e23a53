(** Well-formed chains of heap nodes. *)

From Coq Require Import Reals ZArith List.
From Verif Require Import Outcome Dbl Types HeapList.
Import ListNotations.

(** From [p], the cells of [L] (address and data) are linked one after the other and the last one points to [q]. *)
Fixpoint seg (h : heap) (p : ptr) (L : list (nat * front)) (q : ptr) : Prop :=
  match L with
  | [] => p = q
  | (a, v) :: L' => p = Some a /\ exists nx, h_cell h a = Live (mkN v nx) /\ seg h nx L' q
  end.

(** A null-terminated chain of distinct live nodes. *)
Definition chain (h : heap) (p : ptr) (L : list (nat * front)) : Prop := seg h p L None /\ NoDup (map fst L).

(** Only addresses below the top were ever handed out. *)
Definition heap_ok (h : heap) : Prop := forall a, (h_top h <= a)%nat -> h_cell h a = Unalloc.

(** Cells outside of [A] are the same in both heaps. *)
Definition same_outside (A : list nat) (h h' : heap) : Prop := forall a, ~ In a A -> h_cell h' a = h_cell h a.

(** Pointer to the [i]-th node. *)
Definition ptr_at (L : list (nat * front)) (i : nat) : ptr := option_map fst (nth_error L i).

Definition addrs (L : list (nat * front)) : list nat := map fst L.
Definition vals (L : list (nat * front)) : list front := map snd L.
