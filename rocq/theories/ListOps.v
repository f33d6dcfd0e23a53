(** The list routines of src/linked_list.cxx on Coq lists.  HeapList.v relates them to the pointer code. *)

From Coq Require Import Reals ZArith List Bool.
From Verif Require Import Outcome Dbl Types.
Import ListNotations.

(** listLength, linked_list.cxx:157-167 *)
Definition listLength (l : list front) : Z := Z.of_nat (length l).

(** front_num++ / front_num-- on every element: the loops at linked_list.cxx:118-121 and :260-263. *)
Definition bump (d : Z) (l : list front) : list front := map (fun f => set_num f (f_num f + d)%Z) l.

(** listInsertFirst, linked_list.cxx:97-123.  psi_cm and K_cm_per_h of the malloc'ed node are indeterminate:
    [g_psi] and [g_K] stand for their content. *)
Definition listInsertFirst (g_psi g_K depth theta : dbl) (num layer : Z) (bottom : bool) (l : list front) : list front :=
  mkF depth theta g_psi g_K layer num bottom (Fin 0) :: bump 1 l.

(** Position of the first element with a given front number. *)
Fixpoint pos_of (key : Z) (l : list front) : option nat :=
  match l with
  | [] => None
  | f :: r => if (f_num f =? key)%Z then Some O else match pos_of key r with Some i => Some (S i) | None => None end
  end.

(** listFindFront(key, head, NULL), linked_list.cxx:173-202: position in [head]. *)
Definition findFront (key : Z) (l : list front) : option nat := pos_of key l.

(** listFindFront(key, head, head_old): position in [head_old] (in [head] when head_old is NULL); NULL whenever
    [head] is empty.  The result is paired with the list that it points into. *)
Definition findFrontOld (key : Z) (head old : list front) : list front * option nat :=
  match head with
  | [] => (old, None)
  | _ => match old with [] => (head, pos_of key head) | _ => (old, pos_of key old) end
  end.

(** listDeleteFront, linked_list.cxx:208-266: abort() when no element has the number, otherwise removes the first one
    that has it and decrements the numbers of all elements behind.  Returns the position of the successor (NULL when the last was
    removed). *)
Definition listDeleteFront (num : Z) (l : list front) : outcome (list front * option nat) :=
  match pos_of num l with
  | None => Stop Abort
  | Some i =>
      let l' := firstn i l ++ bump (-1) (skipn (S i) l) in
      Ok (l', if (i <? length l')%nat then Some i else None)
  end.

(** listInsertFront, linked_list.cxx:274-331.  [previous] is the element with number [new_front_num - 1]; the search walks off the
    end of the list (NULL dereference) when there is none.  After linking the new node, the loop at :318-323 tests
    [link->next] although it only advances [current]: it never ends unless the new node is the last one. *)
Definition listInsertFront (g_psi g_K depth theta : dbl) (num layer : Z) (bottom : bool) (l : list front)
  : outcome (list front * option nat) :=
  let nf := mkF depth theta g_psi g_K layer num bottom (Fin 0) in
  match l with
  | [] => if (num =? 1)%Z then Ok ([nf], Some O) else Ok ([], None)
  | _ =>
      match pos_of (num - 1)%Z l with
      | None => Stop (UB NullDeref)
      | Some i =>
          match skipn (S i) l with
          | [] => Ok (l ++ [nf], Some (S i))
          | _ => Stop Diverge
          end
      end
  end.

(** listCopy, linked_list.cxx:68-91: a copy of every node. *)
Definition listCopy (l : list front) : list front := l.

(** is_epsilon_less_than, util_funcs.cxx:27-33 *)
Definition is_epsilon_less_than (a eps : dbl) : bool := dltb (dabs a) eps.

(** listFindLayer, linked_list.cxx:461-482.  [k] layers starting from number [layer] remain to be tried.  Returns the layer (0 when
    none contains the depth) and the flag, starting from the value the caller's variable has. *)
Fixpoint findLayer_from {fp : Fp} (cum : list dbl) (depth : dbl) (flag : bool) (layer : Z) (k : nat) : outcome (Z * bool) :=
  match k with
  | O => Ok (0%Z, flag)
  | S k' =>
      hi <- aget cum layer ;;
      lo <- aget cum (layer - 1)%Z ;;
      if (dleb depth hi && dgtb depth lo)%bool
      then Ok (layer, if is_epsilon_less_than (dsub depth hi) (lit (1 / 100000)) then true else flag)
      else findLayer_from cum depth flag (layer + 1)%Z k'
  end.
Definition listFindLayer {fp : Fp} (nlayers : Z) (cum : list dbl) (depth : dbl) (flag : bool) : outcome (Z * bool) :=
  findLayer_from cum depth flag 1%Z (Z.to_nat nlayers).

(** listSortFrontsByDepth, linked_list.cxx:487-525: one step of the bubble sort exchanges depth, theta, layer and
    number of two neighbours but leaves psi, K, to_bottom and dz/dt where they are. *)
Definition sort_swap (c n : front) : front * front :=
  (mkF (f_depth n) (f_theta n) (f_psi c) (f_K c) (f_layer n) (f_num n) (f_bottom c) (f_dzdt c),
   mkF (f_depth c) (f_theta c) (f_psi n) (f_K n) (f_layer c) (f_num c) (f_bottom n) (f_dzdt n)).
(** The inner loop :502-523, [k] comparisons. *)
Fixpoint sort_pass (k : nat) (l : list front) : list front :=
  match k, l with
  | S k', c :: n :: r =>
      let '(c', n') := if dgtb (f_depth c) (f_depth n) then sort_swap c n else (c, n) in
      c' :: sort_pass k' (n' :: r)
  | _, _ => l
  end.
(** The outer loop :498-524: passes of size-1, size-2, ..., 1 comparisons. *)
Fixpoint sort_outer (k : nat) (l : list front) : list front :=
  match k with O => l | S k' => sort_outer k' (sort_pass k l) end.
Definition listSortFrontsByDepth (l : list front) : list front := sort_outer (length l - 1) l.

(** listReverseOrder, linked_list.cxx:533-548 *)
Definition listReverseOrder (l : list front) : list front := rev l.
