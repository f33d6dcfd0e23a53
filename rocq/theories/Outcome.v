(** Results of running a piece of the C++ program.

    A run either returns a value or stops for one of the reasons below.  Undefined behaviour is a result of
    its own and is never assumed away. *)

From Coq Require Import ZArith List.
Import ListNotations.

(** Kinds of undefined behaviour that the code can exhibit. *)
Inductive ub : Type :=
| NullDeref        (* dereference of a NULL pointer *)
| OutOfBounds      (* index outside an array *)
| UseAfterFree     (* access to a node after free() *)
| DoubleFree       (* free()/delete of memory already released *)
| Uninit           (* read of memory never written *)
| BadConversion.   (* double -> int conversion of a value that int cannot hold *)

(** Why a run stopped.
    [OutOfFuel] is not a behaviour of the program: it says that the step budget given to an unbounded loop of the
    model was too small.  [Diverge] is used only where the loop provably never ends. *)
Inductive reason : Type :=
| UB (u : ub)
| Abort            (* abort() *)
| AssertFail       (* assert(...) failed *)
| ExitCode (z : Z) (* exit(z) *)
| Throw            (* C++ exception *)
| Diverge
| OutOfFuel.

Inductive outcome (A : Type) : Type :=
| Ok (a : A)
| Stop (r : reason).
Arguments Ok {A} a.
Arguments Stop {A} r.

Definition bind {A B : Type} (m : outcome A) (k : A -> outcome B) : outcome B :=
  match m with Ok a => k a | Stop r => Stop r end.

Declare Scope outcome_scope.
Delimit Scope outcome_scope with outcome.
Notation "x <- e ;; k" := (bind e (fun x => k))
  (at level 61, e at next level, right associativity) : outcome_scope.
Notation "' p <- e ;; k" := (bind e (fun p => k))
  (at level 61, p pattern, e at next level, right associativity) : outcome_scope.
Open Scope outcome_scope.

Definition cassert (b : bool) : outcome unit := if b then Ok tt else Stop AssertFail.

(** Array read [a[i]]: defined only inside the array. *)
Definition aget {A : Type} (a : list A) (i : Z) : outcome A :=
  if (i <? 0)%Z then Stop (UB OutOfBounds)
  else match nth_error a (Z.to_nat i) with Some x => Ok x | None => Stop (UB OutOfBounds) end.

(** Write at a position of a list; no effect outside of it. *)
Fixpoint lset {A : Type} (l : list A) (i : nat) (x : A) : list A :=
  match l, i with
  | [], _ => []
  | _ :: r, O => x :: r
  | a :: r, S j => a :: lset r j x
  end.

(** Array write [a[i] = x]: defined only inside the array. *)
Definition aset {A : Type} (a : list A) (i : Z) (x : A) : outcome (list A) :=
  if (i <? 0)%Z then Stop (UB OutOfBounds)
  else if (Z.to_nat i <? length a)%nat then Ok (lset a (Z.to_nat i) x)
  else Stop (UB OutOfBounds).

(** [for (i = i0; i < i0 + k; i++) s = body i s] *)
Fixpoint zfor {S : Type} (i : Z) (k : nat) (body : Z -> S -> outcome S) (s : S) : outcome S :=
  match k with
  | O => Ok s
  | Datatypes.S k' => s' <- body i s ;; zfor (i + 1)%Z k' body s'
  end.
