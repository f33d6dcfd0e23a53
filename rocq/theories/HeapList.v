(** src/linked_list.cxx at the level of heap cells and pointers.

    An address is a natural number and never used twice, so an access to a released cell is always noticed.  Loops carry a
    step budget [k]; running out of it is the distinct result [OutOfFuel]. *)

From Coq Require Import Reals ZArith List Bool Arith.
From Verif Require Import Outcome Dbl Types ListOps.
Import ListNotations.

(** A pointer to a [struct wetting_front]; None is NULL. *)
Definition ptr : Type := option nat.

(** [struct wetting_front], include/all.hxx:47-58: the data members and [next]. *)
Record hnode : Type := mkN { n_val : front; n_next : ptr }.

Inductive cell : Type := Unalloc | Freed | Live (n : hnode).

(** Cells from [h_top] on were never handed out by malloc. *)
Record heap : Type := mkH { h_top : nat; h_cell : nat -> cell }.

Definition h_put (h : heap) (a : nat) (c : cell) : heap :=
  mkH (h_top h) (fun b => if Nat.eqb b a then c else h_cell h b).

(** [*p] read. *)
Definition h_load (h : heap) (p : ptr) : outcome hnode :=
  match p with
  | None => Stop (UB NullDeref)
  | Some a => match h_cell h a with
              | Live n => Ok n
              | Freed => Stop (UB UseAfterFree)
              | Unalloc => Stop (UB OutOfBounds)
              end
  end.

(** [*p = n] *)
Definition h_store (h : heap) (p : ptr) (n : hnode) : outcome heap :=
  _ <- h_load h p ;; match p with Some a => Ok (h_put h a (Live n)) | None => Ok h end.

(** malloc(sizeof(struct wetting_front)) followed by the initialisation of the node. *)
Definition h_malloc (h : heap) (n : hnode) : heap * ptr :=
  (mkH (S (h_top h)) (fun b => if Nat.eqb b (h_top h) then Live n else h_cell h b), Some (h_top h)).

(** free(p); free(NULL) does nothing. *)
Definition h_free (h : heap) (p : ptr) : outcome heap :=
  match p with
  | None => Ok h
  | Some a => match h_cell h a with
              | Live _ => Ok (h_put h a Freed)
              | Freed => Stop (UB DoubleFree)
              | Unalloc => Stop (UB OutOfBounds)
              end
  end.

(** listDelete, linked_list.cxx:35-42 *)
Fixpoint h_listDelete (k : nat) (h : heap) (head : ptr) : outcome heap :=
  match k with
  | O => Stop OutOfFuel
  | S k' =>
      match head with
      | None => Ok h
      | Some _ =>
          n <- h_load h head ;;
          h' <- h_free h head ;;
          h_listDelete k' h' (n_next n)
      end
  end.

(** listCopy, linked_list.cxx:68-91.  The second argument has no effect and is left out. *)
Fixpoint h_listCopy (k : nat) (h : heap) (current : ptr) : outcome (heap * ptr) :=
  match k with
  | O => Stop OutOfFuel
  | S k' =>
      match current with
      | None => Ok (h, None)
      | Some _ =>
          n <- h_load h current ;;
          let '(h1, wf) := h_malloc h (mkN (n_val n) None) in
          n <- h_load h1 current ;;
          '(h2, rest) <- h_listCopy k' h1 (n_next n) ;;
          h3 <- h_store h2 wf (mkN (n_val n) rest) ;;
          Ok (h3, wf)
      end
  end.

(** The loops that add [d] to every front number from [p] on: :118-121, :260-263. *)
Fixpoint h_renum (k : nat) (d : Z) (h : heap) (p : ptr) : outcome heap :=
  match k with
  | O => Stop OutOfFuel
  | S k' =>
      match p with
      | None => Ok h
      | Some _ =>
          n <- h_load h p ;;
          h' <- h_store h p (mkN (set_num (n_val n) (f_num (n_val n) + d)) (n_next n)) ;;
          h_renum k' d h' (n_next n)
      end
  end.

(** listInsertFirst, linked_list.cxx:97-123: the heap and the new value of *head. *)
Definition h_listInsertFirst (k : nat) (g_psi g_K depth theta : dbl) (num layer : Z) (bottom : bool) (h : heap) (head : ptr)
  : outcome (heap * ptr) :=
  let '(h1, link) := h_malloc h (mkN (mkF depth theta g_psi g_K layer num bottom (Fin 0)) head) in
  n <- h_load h1 link ;;
  h2 <- h_renum k 1 h1 (n_next n) ;;
  Ok (h2, link).

(** listLength, linked_list.cxx:157-167 *)
Fixpoint h_listLength (k : nat) (h : heap) (current : ptr) (len : Z) : outcome Z :=
  match k with
  | O => Stop OutOfFuel
  | S k' =>
      match current with
      | None => Ok len
      | Some _ => n <- h_load h current ;; h_listLength k' h (n_next n) (len + 1)%Z
      end
  end.

(** The loop of listFindFront, linked_list.cxx:189-198 *)
Fixpoint h_find (k : nat) (key : Z) (h : heap) (current : ptr) : outcome ptr :=
  match k with
  | O => Stop OutOfFuel
  | S k' =>
      n <- h_load h current ;;
      if (f_num (n_val n) =? key)%Z then Ok current
      else match n_next n with None => Ok None | Some _ => h_find k' key h (n_next n) end
  end.
(** listFindFront, linked_list.cxx:173-202 *)
Definition h_listFindFront (k : nat) (key : Z) (h : heap) (head old : ptr) : outcome ptr :=
  let current := match old with None => head | Some _ => old end in
  match head with
  | None => Ok None
  | Some _ => h_find k key h current
  end.

(** listDeleteFront: the search for the number, :216-221. *)
Fixpoint h_present (k : nat) (num : Z) (h : heap) (current : ptr) (found : bool) : outcome bool :=
  match k with
  | O => Stop OutOfFuel
  | S k' =>
      match current with
      | None => Ok found
      | Some _ =>
          n <- h_load h current ;;
          h_present k' num h (n_next n) (if (f_num (n_val n) =? num)%Z then true else found)
      end
  end.
(** listDeleteFront: navigation, :231-242.  None: the function returns NULL. *)
Fixpoint h_navigate (k : nat) (num : Z) (h : heap) (current previous : ptr) : outcome (option (ptr * ptr)) :=
  match k with
  | O => Stop OutOfFuel
  | S k' =>
      n <- h_load h current ;;
      if (f_num (n_val n) =? num)%Z then Ok (Some (current, previous))
      else match n_next n with None => Ok None | Some _ => h_navigate k' num h (n_next n) current end
  end.
(** listDeleteFront, linked_list.cxx:208-266: heap, new *head, returned pointer. *)
Definition h_listDeleteFront (k : nat) (num : Z) (h : heap) (head : ptr) : outcome (heap * ptr * ptr) :=
  found <- h_present k num h head false ;;
  if negb found then Stop Abort
  else
    match head with
    | None => Ok (h, head, None)
    | Some _ =>
        nav <- h_navigate k num h head None ;;
        match nav with
        | None => Ok (h, head, None)
        | Some (current, previous) =>
            cn <- h_load h current ;;
            '(h1, head', next) <-
              (if match current, head with Some a, Some b => Nat.eqb a b | _, _ => false end
               then Ok (h, n_next cn, n_next cn)
               else
                 pn <- h_load h previous ;;
                 h1 <- h_store h previous (mkN (n_val pn) (n_next cn)) ;;
                 Ok (h1, head, n_next cn)) ;;
            h2 <- h_free h1 current ;;
            h3 <- h_renum k (-1) h2 next ;;
            Ok (h3, head', next)
        end
    end.

(** listInsertFront: the loop [while (link->next != NULL)] at :318-323.  [link] does not change inside the loop. *)
Fixpoint h_insert_renum (k : nat) (h : heap) (link : ptr) : outcome heap :=
  match k with
  | O => Stop OutOfFuel
  | S k' =>
      n <- h_load h link ;;
      match n_next n with
      | None => Ok h
      | Some _ =>
          cn <- h_load h (n_next n) ;;
          h' <- h_store h (n_next n) (mkN (set_num (n_val cn) (f_num (n_val cn) + 1)) (n_next cn)) ;;
          h_insert_renum k' h' link
      end
  end.
(** The do-while loop :303-328 *)
Fixpoint h_insert_search (k : nat) (new : front) (h : heap) (previous : ptr) : outcome (heap * ptr) :=
  match k with
  | O => Stop OutOfFuel
  | S k' =>
      pn <- h_load h previous ;;
      if (f_num (n_val pn) =? f_num new - 1)%Z then
        let '(h1, link) := h_malloc h (mkN new (n_next pn)) in
        h2 <- h_store h1 previous (mkN (n_val pn) link) ;;
        h3 <- h_insert_renum k' h2 link ;;
        Ok (h3, link)
      else h_insert_search k' new h (n_next pn)
  end.
(** listInsertFront, linked_list.cxx:274-331: heap, new *head, returned pointer. *)
Definition h_listInsertFront (k : nat) (g_psi g_K depth theta : dbl) (num layer : Z) (bottom : bool) (h : heap) (head : ptr)
  : outcome (heap * ptr * ptr) :=
  let new := mkF depth theta g_psi g_K layer num bottom (Fin 0) in
  match head with
  | None =>
      if (num =? 1)%Z then let '(h1, link) := h_malloc h (mkN new None) in Ok (h1, link, link)
      else Ok (h, None, None)
  | Some _ =>
      '(h', link) <- h_insert_search k new h head ;;
      Ok (h', head, link)
  end.

(** The loop of listReverseOrder, linked_list.cxx:540-545 *)
Fixpoint h_reverse (k : nat) (h : heap) (prev current : ptr) : outcome (heap * ptr) :=
  match k with
  | O => Stop OutOfFuel
  | S k' =>
      match current with
      | None => Ok (h, prev)
      | Some _ =>
          n <- h_load h current ;;
          h' <- h_store h current (mkN (n_val n) prev) ;;
          h_reverse k' h' current (n_next n)
      end
  end.
(** listReverseOrder, linked_list.cxx:533-548: heap and new *head_ref. *)
Definition h_listReverseOrder (k : nat) (h : heap) (head : ptr) : outcome (heap * ptr) := h_reverse k h None head.

(** listDeleteFirst, linked_list.cxx:129-140: the parameter [head] is a copy, so the caller's list is unchanged. *)
Definition h_listDeleteFirst (h : heap) (head : ptr) : outcome (heap * ptr) :=
  _ <- h_load h head ;; Ok (h, head).
