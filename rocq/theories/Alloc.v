(** src/mem_funcs.cxx: allocation of arrays that are counted from one.  The built programs contain these functions but do not call them. *)

From Coq Require Import ZArith List Bool.
From Verif Require Import Outcome.
Import ListNotations.
Open Scope Z_scope.

(** What a cell of an array holds: nothing defined, all bytes zero (which is the int 0, the double 0.0 and the null pointer), or the address of a block. *)
Inductive cell : Type := Junk | Zeros | Addr (a : nat).

(** A block from malloc: its length in bytes, the length of its elements, and what they hold.  The elements are those of the type that the pointer is cast to. *)
Record block : Type := mkBlk { bk_bytes : Z; bk_elem : Z; bk_cell : Z -> cell }.
(** Blocks by address, and the number of calls of malloc so far. *)
Record mem : Type := mkMem { me_blocks : list block; me_calls : nat }.

Section Alloc.
(** Which calls of malloc succeed, by the number of the call and the bytes asked for. *)
Variable grants : nat -> Z -> bool.

(** malloc(n * sizeof(T)) with [n] an int and sizeof(T) = [elem]: the product is taken in size_t. *)
Definition size_t (n elem : Z) : Z := (n * elem) mod 18446744073709551616.
Definition malloc (n elem : Z) (m : mem) : mem * option nat :=
  if grants (me_calls m) (size_t n elem)
  then (mkMem (me_blocks m ++ [mkBlk (size_t n elem) elem (fun _ => Junk)]) (S (me_calls m)), Some (length (me_blocks m)))
  else (mkMem (me_blocks m) (S (me_calls m)), None).

Definition block_at (p : option nat) (m : mem) : outcome (nat * block) :=
  match p with
  | None => Stop (UB NullDeref)
  | Some a => match nth_error (me_blocks m) a with Some b => Ok (a, b) | None => Stop (UB OutOfBounds) end
  end.
(** Element [i] lies inside the block. *)
Definition inside (b : block) (i : Z) : bool := (0 <=? i) && ((i + 1) * bk_elem b <=? bk_bytes b).

(** memset(p, 0, n * sizeof(T)) *)
Definition memset0 (p : option nat) (n elem : Z) (m : mem) : outcome mem :=
  '(a, b) <- block_at p m ;;
  if size_t n elem <=? bk_bytes b
  then Ok (mkMem (lset (me_blocks m) a (mkBlk (bk_bytes b) (bk_elem b) (fun i => if (i + 1) * elem <=? size_t n elem then Zeros else bk_cell b i))) (me_calls m))
  else Stop (UB OutOfBounds).
(** p[i] = x *)
Definition store (p : option nat) (i : Z) (x : cell) (m : mem) : outcome mem :=
  '(a, b) <- block_at p m ;;
  if inside b i then Ok (mkMem (lset (me_blocks m) a (mkBlk (bk_bytes b) (bk_elem b) (fun j => if j =? i then x else bk_cell b j))) (me_calls m)) else Stop (UB OutOfBounds).
(** p[i] *)
Definition load (p : option nat) (i : Z) (m : mem) : outcome cell :=
  '(_, b) <- block_at p m ;;
  if inside b i then match bk_cell b i with Junk => Stop (UB Uninit) | c => Ok c end else Stop (UB OutOfBounds).

(** d_alloc, mem_funcs.cxx:97-109, i_alloc, :114-126, and f_alloc, :131-143: the three differ in the length [elem] of the type, 8, 4 and 4 bytes.  Returns the memory and *var. *)
Definition vec_alloc (elem : Z) (size : Z) (m : mem) : outcome (mem * option nat) :=
  let size := size + 1 in
  let '(m, p) := malloc size elem m in
  match p with
  | None => Ok (m, None)
  | Some _ => m <- memset0 p size elem m ;; Ok (m, p)
  end.

(** The loop over the rows, :44-53 and :80-89; [k] rows from number [i] on.  A row that is not granted ends it. *)
Fixpoint rows_loop (k : nat) (i fcols elem : Z) (array : option nat) (m : mem) : outcome mem :=
  match k with
  | O => Ok m
  | S k =>
      let '(m, p) := malloc fcols elem m in
      m <- store array i (match p with Some a => Addr a | None => Zeros end) m ;;
      match p with
      | None => Ok m
      | Some _ => m <- memset0 p fcols elem m ;; rows_loop k (i + 1) fcols elem array m
      end
  end.

(** itwo_alloc, :26-56, elements of 4 bytes, and dtwo_alloc, :62-92, of 8 bytes; a pointer has 8 bytes.  Returns the memory and *array. *)
Definition mat_alloc (elem : Z) (rows cols : Z) (m : mem) : outcome (mem * option nat) :=
  if (rows =? 0) || (cols =? 0) then Stop (ExitCode 0)
  else
    let frows := rows + 1 in
    let fcols := cols + 1 in
    let '(m, p) := malloc frows 8 m in
    match p with
    | None => Ok (m, None)
    | Some _ => m <- memset0 p frows 8 m ;; m <- rows_loop (Z.to_nat frows) 0 fcols elem p m ;; Ok (m, p)
    end.
End Alloc.
