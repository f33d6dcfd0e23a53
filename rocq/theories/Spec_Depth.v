(** Specification vocabulary for the list routines that work by depth. *)

From Coq Require Import Reals ZArith List.
From Verif Require Import Outcome Dbl Types.
Import ListNotations.

(** Depths increase from top to bottom. *)
Definition by_depth (l : list front) : Prop :=
  forall i j f g, (i < j)%nat -> nth_error l i = Some f -> nth_error l j = Some g -> dleb (f_depth f) (f_depth g) = true.

(** Every depth is a number or an infinity. *)
Definition depths_ordered (l : list front) : Prop := forall f, In f l -> f_depth f <> NaN.

(** What a front is, and what it carries along. *)
Definition place_of (f : front) : dbl * dbl * Z * Z := (f_depth f, f_theta f, f_layer f, f_num f).
Definition rest_of (f : front) : dbl * dbl * bool * dbl := (f_psi f, f_K f, f_bottom f, f_dzdt f).

(** Layer [lay] (1, 2, ...) contains the depth [d]: below its top and not below its bottom. *)
Definition layer_contains (cum : list dbl) (d : R) (lay : Z) : Prop :=
  exists lo hi, (1 <= lay)%Z /\ nth_error cum (Z.to_nat (lay - 1)) = Some (Fin lo) /\ nth_error cum (Z.to_nat lay) = Some (Fin hi) /\ (lo < d <= hi)%R.

(** Boundaries of [nl] layers, finite and strictly increasing. *)
Definition boundaries (cum : list dbl) (nl : Z) : Prop :=
  (0 <= nl)%Z /\ length cum = S (Z.to_nat nl) /\ (forall i d, nth_error cum i = Some d -> exists x, d = Fin x) /\
  (forall i x y, nth_error cum i = Some (Fin x) -> nth_error cum (S i) = Some (Fin y) -> (x < y)%R).
