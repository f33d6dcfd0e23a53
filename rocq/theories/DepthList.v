(** The list routines of src/linked_list.cxx that work by depth, at the level of heap cells and pointers.  No part of the program calls them; they are
    declared in include/all.hxx:240-244. *)

From Coq Require Import Reals ZArith List Bool Arith.
From Verif Require Import Outcome Dbl Types ListOps HeapList.
Import ListNotations.

(** The inner loop of listSortFrontsByDepth, linked_list.cxx:502-523: [k] comparisons, one exchange each at most (sort_swap). *)
Fixpoint h_sort_pass (k : nat) (h : heap) (current next : ptr) : outcome heap :=
  match k with
  | O => Ok h
  | S k' =>
      c <- h_load h current ;;
      n <- h_load h next ;;
      h' <- (if dgtb (f_depth (n_val c)) (f_depth (n_val n)) then
               h1 <- h_store h current (mkN (fst (sort_swap (n_val c) (n_val n))) (n_next c)) ;;
               h_store h1 next (mkN (snd (sort_swap (n_val c) (n_val n))) (n_next n))
             else Ok h) ;;
      c' <- h_load h' current ;;
      n' <- h_load h' next ;;
      h_sort_pass k' h' (n_next c') (n_next n')
  end.
(** The outer loop, :498-524: passes of size-1, size-2, ..., 1 comparisons, each from the head. *)
Fixpoint h_sort_outer (k : nat) (h : heap) (head : ptr) : outcome heap :=
  match k with
  | O => Ok h
  | S k' =>
      n <- h_load h head ;;
      h' <- h_sort_pass k h head (n_next n) ;;
      h_sort_outer k' h' head
  end.
(** listSortFrontsByDepth, linked_list.cxx:487-525 *)
Definition h_listSortFrontsByDepth (k : nat) (h : heap) (head : ptr) : outcome heap :=
  size <- h_listLength k h head 0 ;;
  h_sort_outer (Z.to_nat (size - 1)) h head.

Section Depth.
Context {fp : Fp}.

(** malloc and the first assignments of listInsertFrontAtDepth (:358-362, :383-387, :414-418); the other members of the node are
    indeterminate: [g] and [g_next] stand for their content. *)
Definition h_new_link (g : front) (g_next : ptr) (depth theta : dbl) (h : heap) : heap * ptr :=
  h_malloc h (mkN (mkF depth theta (f_psi g) (f_K g) (f_layer g) (f_num g) false (f_dzdt g)) g_next).

(** The assignments after the layer is known: layer_num, to_bottom, dzdt (-1) and next. *)
Definition h_fill_link (link : ptr) (layer : Z) (bottom : bool) (num : option Z) (next : ptr) (h : heap) : outcome heap :=
  n <- h_load h link ;;
  let f := n_val n in
  h_store h link (mkN (mkF (f_depth f) (f_theta f) (f_psi f) (f_K f) layer (match num with Some z => z | None => f_num f end) bottom (Fin (-1))) next).

(** The do-while loop :408-440 up to the comparison that succeeds: the pointers [previous] and [current] there; None when the end of the list
    is reached. *)
Fixpoint h_depth_search (k : nat) (depth : dbl) (h : heap) (previous current : ptr) : outcome (option (ptr * ptr)) :=
  match k with
  | O => Stop OutOfFuel
  | S k' =>
      p <- h_load h previous ;;
      here <- (if dgtb depth (f_depth (n_val p)) then c <- h_load h current ;; Ok (dleb depth (f_depth (n_val c))) else Ok false) ;;
      if here : bool then Ok (Some (previous, current))
      else
        c <- h_load h current ;;
        match n_next c with
        | None => Ok None
        | Some _ => h_depth_search k' depth h current (n_next c)
        end
  end.

(** listInsertFrontAtDepth, linked_list.cxx:339-455: the heap and the returned pointer.  The parameter [head] is a copy: the assignments to it
    (:376, :399) do not reach the caller.  front_num is set only in the third case. *)
Definition h_listInsertFrontAtDepth (k : nat) (g : front) (g_next : ptr) (nlayers : Z) (cum : list dbl) (depth theta : dbl) (h : heap) (head : ptr)
  : outcome (heap * ptr) :=
  match head with
  | None =>
      let '(h1, link) := h_new_link g g_next depth theta h in
      '(layer, bottom) <- listFindLayer nlayers cum depth false ;;
      if (layer =? 0)%Z then Ok (h1, None)
      else h2 <- h_fill_link link layer bottom None None h1 ;; Ok (h2, link)
  | Some _ =>
      c <- h_load h head ;;
      if dltb depth (f_depth (n_val c)) then
        let '(h1, link) := h_new_link g g_next depth theta h in
        '(layer, bottom) <- listFindLayer nlayers cum depth false ;;
        if (layer =? 0)%Z then Ok (h1, None)
        else h2 <- h_fill_link link layer bottom None head h1 ;; Ok (h2, link)
      else
        r <- h_depth_search k depth h head (n_next c) ;;
        match r with
        | None => Ok (h, None)      (* layer_found_flag is still FALSE, :442 *)
        | Some (previous, current) =>
            let '(h1, link) := h_new_link g g_next depth theta h in
            '(layer, bottom) <- listFindLayer nlayers cum depth false ;;
            if (layer =? 0)%Z then Ok (h1, None)
            else
              cn <- h_load h1 current ;;
              h2 <- h_fill_link link layer bottom (Some (f_num (n_val cn))) current h1 ;;
              pn <- h_load h2 previous ;;
              h3 <- h_store h2 previous (mkN (n_val pn) link) ;;
              ln <- h_load h3 link ;;
              match n_next ln with
              | None => Ok (h3, None)
              | Some _ => h4 <- h_renum k 1 h3 (n_next ln) ;; Ok (h4, link)
              end
        end
  end.

End Depth.
