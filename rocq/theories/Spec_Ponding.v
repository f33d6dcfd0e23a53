(** The greatest depth of ponded water: what it may change. *)

From Coq Require Import Reals ZArith List.
From Verif Require Import Outcome Dbl Types.

(** Two fronts that may differ in their velocity only, and two lists of such fronts. *)
Definition but_dzdt (f g : front) : Prop :=
  f_depth f = f_depth g /\ f_theta f = f_theta g /\ f_psi f = f_psi g /\ f_K f = f_K g /\ f_layer f = f_layer g /\ f_num f = f_num g /\ f_bottom f = f_bottom g.
Definition same_but_dzdt : list front -> list front -> Prop := Forall2 but_dzdt.
