(** C59, C60: the list routines that work by depth. *)

From Coq Require Import Reals Lra ZArith List Lia Bool Permutation.
From Verif Require Import Outcome Dbl Types ListOps HeapList DepthList Lib Spec_List Spec_Heap Spec_Depth Pf_List Pf_Heap Pf_Depth Pf_DepthHeap Pf_DepthInsert.
Import ListNotations.

(** ** C59 *)

(** The pointer code sorts the nodes in place and refines the list function. *)
Theorem C59_sort_refines :
  forall L k h p, seg h p L None -> NoDup (addrs L) -> (length L < k)%nat ->
    exists h' L', h_listSortFrontsByDepth k h p = Ok h' /\ seg h' p L' None /\ addrs L' = addrs L
      /\ vals L' = listSortFrontsByDepth (vals L) /\ same_outside (addrs L) h h' /\ h_top h' = h_top h.
Proof. exact h_sort_ok. Qed.
Print Assumptions C59_sort_refines.

(** Sorted by depth; depth, water content, layer and number of every front are still there, together. *)
Theorem C59_sort_orders :
  forall l, depths_ordered l ->
    by_depth (listSortFrontsByDepth l) /\ Permutation (map place_of (listSortFrontsByDepth l)) (map place_of l)
    /\ map rest_of (listSortFrontsByDepth l) = map rest_of l.
Proof. exact sort_spec. Qed.
Print Assumptions C59_sort_orders.

(** Refuted: head, conductivity, to_bottom and velocity do not move with the front. *)
Theorem C59_sort_separates_refuted :
  forall c n, dgtb (f_depth c) (f_depth n) = true -> f_psi c <> f_psi n ->
    ~ Permutation (contents (listSortFrontsByDepth [c; n])) (contents [c; n]).
Proof. exact sort_separates. Qed.
Print Assumptions C59_sort_separates_refuted.

(** Refuted: whenever there was anything to sort, the fronts are not numbered from top to bottom afterwards. *)
Theorem C59_sort_numbers_refuted :
  forall l, depths_ordered l -> numbered l -> ~ by_depth l -> ~ numbered (listSortFrontsByDepth l).
Proof. intros l H N B N'. exact (B (sort_numbers l H N N')). Qed.
Print Assumptions C59_sort_numbers_refuted.

(** Three fronts out of order. *)
Definition deep (d p : R) (n : Z) : front := mkF (Fin d) (Fin (1 / 2)) (Fin p) (Fin 0) 1 n false (Fin 0).
Example C59_concrete :
  let l := [deep 30 7 1; deep 10 8 2; deep 20 9 3] in
  depths_ordered l /\ numbered l /\ ~ by_depth l
  /\ map f_depth (listSortFrontsByDepth l) = [Fin 10; Fin 20; Fin 30] /\ map f_psi (listSortFrontsByDepth l) = [Fin 7; Fin 8; Fin 9]
  /\ map f_num (listSortFrontsByDepth l) = [2; 3; 1]%Z.
Proof.
  assert (A : forall x y p q n m, (y < x)%R -> dgtb (f_depth (deep x p n)) (f_depth (deep y q m)) = true).
  { intros. unfold dgtb. simpl. apply Rltb_true. assumption. }
  assert (B : forall x y, (x <= y)%R -> dgtb (Fin x) (Fin y) = false).
  { intros. unfold dgtb. simpl. apply Rltb_false. assumption. }
  assert (C : forall x y, (y < x)%R -> dgtb (Fin x) (Fin y) = true).
  { intros. unfold dgtb. simpl. apply Rltb_true. assumption. }
  cbv zeta. split; [|split; [|split]].
  - intros f [<-|[<-|[<-|[]]]]; discriminate.
  - intros [|[|[|i]]] f E; simpl in E; try (injection E as <-; reflexivity). destruct i; discriminate.
  - intro S. specialize (S 0 1 _ _ (Nat.lt_succ_diag_r 0) eq_refl eq_refl)%nat. simpl in S. apply Rleb_true in S. lra.
  - unfold listSortFrontsByDepth. cbn [length Nat.sub sort_outer sort_pass deep f_depth].
    rewrite C by lra. cbn [sort_swap f_depth deep]. rewrite C by lra. cbn [sort_swap f_depth deep]. rewrite B by lra.
    repeat split.
Qed.

(** ** C60 *)
Section C60.
Context {fp : Fp}.

(** The layer found is the one that contains the depth; 0 and an unchanged flag if there is none. *)
Theorem C60_layer_of_depth :
  forall cum d flag nl, boundaries cum nl ->
    exists r b, listFindLayer nl cum (Fin d) flag = Ok (r, b)
      /\ ((r = 0%Z /\ b = flag /\ forall j, (j <= nl)%Z -> ~ layer_contains cum d j)
          \/ (1 <= r <= nl)%Z /\ layer_contains cum d r /\ exists hi, nth_error cum (Z.to_nat r) = Some (Fin hi)
             /\ b = (dltb (dabs (dsub (Fin d) (Fin hi))) (lit (1 / 100000)) || flag)%bool).
Proof. exact find_layer_ok. Qed.

(** A new front between two fronts: linked in between, with the layer that contains it, and the numbers stay consecutive. *)
Theorem C60_insert_between :
  forall L i v w k g gn cum nl d th lay h p,
    heap_ok h -> seg h p L None -> NoDup (addrs L) -> (length L < k)%nat -> boundaries cum nl -> (lay <= nl)%Z -> layer_contains cum d lay ->
    by_depth (vals L) -> nth_error (vals L) i = Some v -> nth_error (vals L) (S i) = Some w -> dltb (f_depth v) (Fin d) = true -> dleb (Fin d) (f_depth w) = true ->
    exists h' L' new, h_listInsertFrontAtDepth k g gn nl cum (Fin d) th h p = Ok (h', Some (h_top h)) /\ heap_ok h'
      /\ seg h' p L' None /\ addrs L' = firstn (S i) (addrs L) ++ h_top h :: skipn (S i) (addrs L)
      /\ contents (vals L') = firstn (S i) (contents (vals L)) ++ content new :: skipn (S i) (contents (vals L))
      /\ f_depth new = Fin d /\ f_theta new = th /\ f_layer new = lay
      /\ (numbered (vals L) -> numbered (vals L')) /\ by_depth (vals L').
Proof. exact insert_between_user. Qed.

(** Below the last front: nothing happens, NULL is returned. *)
Theorem C60_insert_below_last :
  forall L k g gn cum nl d th h p, (2 <= length L)%nat -> seg h p L None -> (length L < k)%nat ->
    (forall u, In u (vals L) -> dltb (f_depth u) d = true) ->
    h_listInsertFrontAtDepth k g gn nl cum d th h p = Ok (h, None).
Proof. exact insert_below. Qed.

(** Refuted: with one front in the list, any depth not above it dereferences NULL. *)
Theorem C60_insert_single_refuted :
  forall a v k g gn cum nl d th h, (0 < k)%nat -> seg h (Some a) [(a, v)] None -> dltb d (f_depth v) = false ->
    h_listInsertFrontAtDepth k g gn nl cum d th h (Some a) = Stop (UB NullDeref).
Proof. exact insert_single. Qed.

(** Refuted: a front above the first is not in the caller's list, and the list that starts at the returned node is not numbered. *)
Theorem C60_insert_above_refuted :
  forall a v T k g gn cum nl d th lay h, heap_ok h -> seg h (Some a) ((a, v) :: T) None -> numbered (v :: vals T) ->
    boundaries cum nl -> (lay <= nl)%Z -> layer_contains cum d lay -> dltb (Fin d) (f_depth v) = true ->
    exists h' new, h_listInsertFrontAtDepth k g gn nl cum (Fin d) th h (Some a) = Ok (h', Some (h_top h))
      /\ seg h' (Some a) ((a, v) :: T) None
      /\ seg h' (Some (h_top h)) ((h_top h, new) :: (a, v) :: T) None
      /\ f_num new = f_num g /\ ~ numbered (new :: v :: vals T).
Proof. exact insert_above_user. Qed.

(** Refuted: a depth outside of the soil leaks the new node. *)
Theorem C60_insert_outside_leaks_refuted :
  forall a v T k g gn cum nl d th h, heap_ok h -> seg h (Some a) ((a, v) :: T) None ->
    boundaries cum nl -> (forall j, (j <= nl)%Z -> ~ layer_contains cum d j) -> dltb (Fin d) (f_depth v) = true ->
    exists h' n, h_listInsertFrontAtDepth k g gn nl cum (Fin d) th h (Some a) = Ok (h', None) /\ seg h' (Some a) ((a, v) :: T) None
      /\ h_cell h' (h_top h) = Live n /\ ~ In (h_top h) (a :: addrs T).
Proof. exact insert_leak. Qed.

End C60.
Print Assumptions C60_layer_of_depth.
Print Assumptions C60_insert_between.
Print Assumptions C60_insert_below_last.
Print Assumptions C60_insert_single_refuted.
Print Assumptions C60_insert_above_refuted.
Print Assumptions C60_insert_outside_leaks_refuted.

(** Two layers of 10 and 20 cm, fronts at 10 and 30 cm, a new front at 15 cm. *)
Example C60_concrete :
  let cum := [Fin 0; Fin 10; Fin 30] in
  let L := [(0%nat, deep 10 7 1); (1%nat, deep 30 8 2)] in
  let h := mkH 2 (fun a => match a with O => Live (mkN (deep 10 7 1) (Some 1%nat)) | 1%nat => Live (mkN (deep 30 8 2) None) | _ => Unalloc end) in
  heap_ok h /\ seg h (Some 0%nat) L None /\ NoDup (addrs L) /\ boundaries cum 2 /\ layer_contains cum 15 2 /\ by_depth (vals L)
  /\ numbered (vals L) /\ dltb (f_depth (deep 10 7 1)) (Fin 15) = true /\ dleb (Fin 15) (f_depth (deep 30 8 2)) = true
  /\ (forall j, (j <= 2)%Z -> ~ layer_contains cum (-5) j) /\ dltb (Fin (-5)) (f_depth (deep 10 7 1)) = true.
Proof.
  cbv zeta. repeat split.
  - intros [|[|a]] H; simpl in H; try lia. reflexivity.
  - eexists. split; [reflexivity|]. split; [reflexivity|]. eexists. split; reflexivity.
  - repeat constructor; simpl; intuition discriminate.
  - lia.
  - intros [|[|[|i]]] d E; simpl in E; try (injection E as <-; eauto). destruct i; discriminate.
  - intros [|[|[|i]]] x y Ex Ey; simpl in Ex, Ey; try discriminate.
    + injection Ex as <-. injection Ey as <-. lra.
    + injection Ex as <-. injection Ey as <-. lra.
  - exists 10%R, 30%R. repeat split; try lia; lra.
  - intros [|[|i]] [|[|j]] f g Hij Ef Eg; try lia; simpl in Ef, Eg; try (destruct j; discriminate); try (destruct i; discriminate).
    injection Ef as <-. injection Eg as <-. simpl. apply Rleb_true. lra.
  - intros [|[|i]] f E; simpl in E; try (injection E as <-; reflexivity). destruct i; discriminate.
  - simpl. apply Rltb_true. lra.
  - simpl. apply Rleb_true. lra.
  - intros j Hj (lo & hi & H1 & E0 & E1 & H2).
    assert (j = 1 \/ j = 2)%Z as [-> | ->] by lia; simpl in E0; injection E0 as <-; lra.
  - simpl. apply Rltb_true. lra.
Qed.
