(** C22, C23: the pointer level of the list routines. *)

From Coq Require Import Reals Lra ZArith List Lia.
From Verif Require Import Outcome Dbl Types ListOps HeapList Lib Spec_List Spec_Heap Pf_List Pf_Heap.
Import ListNotations.

(** [k] is the step budget: every routine ends within (length + 2) steps without undefined behaviour. *)

(** Copy: a new chain with equal data in fresh cells; no old cell changes. *)
Theorem C22_copy_is_disjoint_and_equal :
  forall L k h p, heap_ok h -> seg h p L None -> (length L < k)%nat ->
    exists h' p' L', h_listCopy k h p = Ok (h', p') /\ heap_ok h'
      /\ seg h' p' L' None /\ NoDup (addrs L') /\ vals L' = vals L
      /\ (forall a, In a (addrs L') <-> (h_top h <= a < h_top h')%nat)
      /\ (forall a, (a < h_top h)%nat -> h_cell h' a = h_cell h a)
      /\ h_top h' = (h_top h + length L)%nat.
Proof. exact h_listCopy_ok. Qed.
Print Assumptions C22_copy_is_disjoint_and_equal.

(** Destroying a list releases each of its nodes and nothing else. *)
Theorem C22_delete_list_releases_all :
  forall L k h p, seg h p L None -> NoDup (addrs L) -> (length L < k)%nat ->
    exists h', h_listDelete k h p = Ok h' /\ h_top h' = h_top h /\ same_outside (addrs L) h h'
      /\ (forall a, In a (addrs L) -> h_cell h' a = Freed).
Proof. exact h_listDelete_ok. Qed.
Print Assumptions C22_delete_list_releases_all.

(** Deletion of one front refines the list operation, releases exactly the cell of that front, and returns the pointer to the front below. *)
Theorem C22_delete_front_refines :
  forall num L k h p i,
    heap_ok h -> seg h p L None -> NoDup (addrs L) -> (length L < k)%nat -> pos_of num (vals L) = Some i ->
    exists h' p' L' a,
      h_listDeleteFront k num h p = Ok (h', p', ptr_at L' i)
      /\ heap_ok h' /\ seg h' p' L' None /\ NoDup (addrs L')
      /\ nth_error (addrs L) i = Some a /\ addrs L' = without i (addrs L)
      /\ listDeleteFront num (vals L) = Ok (vals L', if (i <? length (vals L'))%nat then Some i else None)
      /\ h_cell h' a = Freed /\ same_outside (addrs L) h h' /\ h_top h' = h_top h.
Proof. exact h_deleteFront_ok. Qed.
Print Assumptions C22_delete_front_refines.

Theorem C22_delete_front_absent_aborts :
  forall num L k h p, seg h p L None -> (length L < k)%nat -> (forall f, In f (vals L) -> f_num f <> num) ->
    h_listDeleteFront k num h p = Stop Abort.
Proof. exact h_deleteFront_absent. Qed.
Print Assumptions C22_delete_front_absent_aborts.

(** Insertion at the top refines the list operation and takes one fresh cell. *)
Theorem C22_insert_first_refines :
  forall L k gp gK d t num lay b h p,
    heap_ok h -> seg h p L None -> NoDup (addrs L) -> (length L < k)%nat ->
    exists h' L', h_listInsertFirst k gp gK d t num lay b h p = Ok (h', Some (h_top h)) /\ heap_ok h'
      /\ seg h' (Some (h_top h)) L' None /\ addrs L' = h_top h :: addrs L /\ NoDup (addrs L')
      /\ vals L' = listInsertFirst gp gK d t num lay b (vals L)
      /\ same_outside (h_top h :: addrs L) h h'.
Proof. exact h_insertFirst_ok. Qed.
Print Assumptions C22_insert_first_refines.

(** Search returns the first node with the number, in the old list when one is given. *)
Theorem C22_find_front_refines :
  forall key L Lo k h p po, seg h p L None -> seg h po Lo None -> (length L < k)%nat -> (length Lo < k)%nat ->
    h_listFindFront k key h p po =
      Ok (match L with
          | [] => None
          | _ => let T := match Lo with [] => L | _ => Lo end in
                 match pos_of key (vals T) with Some i => ptr_at T i | None => None end
          end).
Proof. exact h_findFront_ok. Qed.
Print Assumptions C22_find_front_refines.

Theorem C22_length_counts :
  forall L k h p n, seg h p L None -> (length L < k)%nat -> h_listLength k h p n = Ok (n + Z.of_nat (length L))%Z.
Proof. exact h_listLength_ok. Qed.
Print Assumptions C22_length_counts.

(** Reversal relinks the same cells in the opposite order. *)
Theorem C22_reverse_relinks :
  forall L k h p, seg h p L None -> NoDup (addrs L) -> (length L < k)%nat ->
    exists h' p', h_listReverseOrder k h p = Ok (h', p') /\ h_top h' = h_top h /\ seg h' p' (rev L) None
      /\ same_outside (addrs L) h h'.
Proof. exact h_reverse_whole. Qed.
Print Assumptions C22_reverse_relinks.

(** C23, what works: appending. *)
Theorem C23_insert_at_end_returns :
  forall L k gp gK d t lay b h p,
    heap_ok h -> seg h p L None -> NoDup (addrs L) -> numbered (vals L) -> (S (length L) < k)%nat ->
    exists h' p' L', h_listInsertFront k gp gK d t (Z.of_nat (S (length L))) lay b h p = Ok (h', p', Some (h_top h))
      /\ heap_ok h' /\ seg h' p' L' None /\ addrs L' = addrs L ++ [h_top h] /\ NoDup (addrs L')
      /\ vals L' = vals L ++ [mkF d t gp gK lay (Z.of_nat (S (length L))) b (Fin 0)]
      /\ (forall a, a <> h_top h -> ~ In a (addrs L) -> h_cell h' a = h_cell h a).
Proof. exact h_insertFront_append. Qed.
Print Assumptions C23_insert_at_end_returns.

(** C23 refuted: every insertion between two fronts runs for ever (no budget suffices). *)
Theorem C23_interior_insert_never_returns_refuted :
  forall L k gp gK d t m lay b h p,
    heap_ok h -> seg h p L None -> NoDup (addrs L) -> numbered (vals L) -> (2 <= m <= Z.of_nat (length L))%Z ->
    h_listInsertFront k gp gK d t m lay b h p = Stop OutOfFuel.
Proof. exact h_insertFront_interior. Qed.
Print Assumptions C23_interior_insert_never_returns_refuted.

(** C23 refuted: a number without predecessor dereferences NULL (in particular number 1 on a list that is not empty). *)
Theorem C23_insert_without_predecessor_refuted :
  forall L k gp gK d t m lay b h p,
    L <> [] -> seg h p L None -> (forall f, In f (vals L) -> f_num f <> (m - 1)%Z) -> (length L < k)%nat ->
    h_listInsertFront k gp gK d t m lay b h p = Stop (UB NullDeref).
Proof. exact h_insertFront_missing. Qed.
Print Assumptions C23_insert_without_predecessor_refuted.

(** Non-vacuity: two nodes in cells 0 and 1, numbered 1 and 2. *)
Definition two_nodes : heap :=
  let f n := mkF (Fin 1) (Fin 0) (Fin 0) (Fin 0) 1 n false (Fin 0) in
  mkH 2 (fun a => match a with O => Live (mkN (f 1%Z) (Some 1%nat)) | 1%nat => Live (mkN (f 2%Z) None) | _ => Unalloc end).
Example C22_concrete :
  let f n := mkF (Fin 1) (Fin 0) (Fin 0) (Fin 0) 1 n false (Fin 0) in
  let L := [(0%nat, f 1%Z); (1%nat, f 2%Z)] in
  heap_ok two_nodes /\ seg two_nodes (Some 0%nat) L None /\ NoDup (addrs L) /\ numbered (vals L) /\ pos_of 2 (vals L) = Some 1%nat.
Proof.
  cbv zeta. split; [|split; [|split; [|split]]].
  - intros [|[|a]] H; simpl in H; try lia. reflexivity.
  - simpl. split; [reflexivity|]. eexists. split; [reflexivity|]. split; [reflexivity|]. eexists. split; reflexivity.
  - repeat constructor; simpl; intuition discriminate.
  - intros [|[|i]] f E; simpl in E; try (injection E as <-; reflexivity). destruct i; discriminate.
  - reflexivity.
Qed.
