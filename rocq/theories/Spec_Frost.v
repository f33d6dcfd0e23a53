(** Frost: what the frozen factors may change. *)

From Coq Require Import Reals ZArith List.
From Verif Require Import Outcome Dbl Types.
Import ListNotations.
Open Scope R_scope.

(** Two fronts that may differ in their conductivity only, and two lists of such fronts. *)
Definition but_K (f g : front) : Prop :=
  f_depth f = f_depth g /\ f_theta f = f_theta g /\ f_psi f = f_psi g /\ f_layer f = f_layer g /\ f_num f = f_num g /\ f_bottom f = f_bottom g /\ f_dzdt f = f_dzdt g.
Definition same_but_K : list front -> list front -> Prop := Forall2 but_K.

(** The same column of soil with other frozen factors. *)
Definition other_frost (e e' : env) : Prop :=
  e_nlayers e = e_nlayers e' /\ e_cum e = e_cum e' /\ e_stype e = e_stype e' /\ e_soils e = e_soils e' /\ length (e_frozen e) = length (e_frozen e').

(** Two executions that both end, with related results, or stop for the same reason. *)
Definition alike {A B : Type} (R : A -> B -> Prop) (x : outcome A) (y : outcome B) : Prop :=
  match x, y with Ok a, Ok b => R a b | Stop r, Stop r' => r = r' | _, _ => False end.

(** Factors of a colder soil: each is positive and at most the other one. *)
Definition colder_factors (fr fr' : list dbl) : Prop := Forall2 (fun x y => exists a b, x = Fin a /\ y = Fin b /\ 0 < a <= b) fr fr'.
(** Temperatures, cell by cell not above the other ones. *)
Definition colder (T T' : list dbl) : Prop := Forall2 (fun x y => exists a b, x = Fin a /\ y = Fin b /\ a <= b) T T'.
(** A front that lies below the surface and below the top of its layer. *)
Definition lies (cum : list dbl) (f : front) : Prop :=
  exists z c, f_depth f = Fin z /\ 0 < z /\ aget cum (f_layer f - 1)%Z = Ok (Fin c) /\ c < z.

(** Cells (depth and temperature) of the layers: the same depths, no temperature above the other one. *)
Definition colder_cells : list (list (R * R)) -> list (list (R * R)) -> Prop :=
  Forall2 (Forall2 (fun c d : R * R => fst c = fst d /\ snd c <= snd d)).

(** At most: the same double, or two numbers in this order. *)
Definition less (x y : dbl) : Prop := x = y \/ exists a b, x = Fin a /\ y = Fin b /\ a <= b.
