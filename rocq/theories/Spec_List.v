(** Specification vocabulary for the list of wetting fronts. *)

From Coq Require Import Reals ZArith List.
From Verif Require Import Outcome Dbl Types.
Import ListNotations.

(** Fronts carry the numbers 1, 2, ..., n from top to bottom. *)
Definition numbered (l : list front) : Prop :=
  forall i f, nth_error l i = Some f -> f_num f = Z.of_nat (S i).

(** What a front holds besides its number. *)
Definition content (f : front) : dbl * dbl * dbl * dbl * Z * bool * dbl :=
  (f_depth f, f_theta f, f_psi f, f_K f, f_layer f, f_bottom f, f_dzdt f).
Definition contents (l : list front) := map content l.

(** Sequence [l] without its [i]-th element. *)
Definition without {A : Type} (i : nat) (l : list A) : list A := firstn i l ++ skipn (S i) l.

(** [i] is the first position that has a companion below in the same layer. *)
Definition first_companion (l : list front) (i : nat) : Prop :=
  (exists f g, nth_error l i = Some f /\ nth_error l (S i) = Some g /\ f_layer f = f_layer g) /\
  (forall j f g, (j < i)%nat -> nth_error l j = Some f -> nth_error l (S j) = Some g -> f_layer f <> f_layer g).

(** A history of operations on the list, as a caller performs them. *)
Inductive list_op : Type :=
| OpTop (depth theta : dbl) (layer : Z) (bottom : bool)      (* new first front *)
| OpEnd (depth theta : dbl) (layer : Z) (bottom : bool)      (* new last front *)
| OpDelete (num : Z).                                        (* delete by number *)

(** The effect a user expects on the sequence of contents ([g_psi], [g_K]: whatever the unset members hold). *)
Definition expected (g_psi g_K : dbl) (op : list_op) (c : list (dbl * dbl * dbl * dbl * Z * bool * dbl)) :=
  match op with
  | OpTop d t lay b => (d, t, g_psi, g_K, lay, b, Fin 0) :: c
  | OpEnd d t lay b => c ++ [(d, t, g_psi, g_K, lay, b, Fin 0)]
  | OpDelete k => without (Z.to_nat (k - 1)) c
  end.
