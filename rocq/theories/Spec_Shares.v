(** Which wetting front accounts for which part of the water in a column of several layers, over the reals. *)

From Coq Require Import Reals ZArith List Bool.
From Verif Require Import Outcome Dbl Types Spec_Common Spec_Soil Spec_Update Spec_Column Spec_Balance.
Import ListNotations.
Open Scope R_scope.

(** The column consists of the layers [qs], from top to bottom: thickness and soil of each ([pt_t] is not used). *)
Definition strata (e : env) (qs : list part) : Prop :=
  qs <> [] /\ Forall (fun q => 0 < pt_z q) qs /\
  exists ss, column e (map pt_z qs) ss /\ Forall2 (fun s q => exists ks, vg_soil s (pt_r q) (pt_e q) (pt_a q) (pt_n q) (pt_m q) ks) ss qs.

(** Upper boundary of layer [lay], and the water of the layers above it when the head there is [psi]. *)
Definition top_of (qs : list part) (lay : Z) : R := Rsum (map pt_z (firstn (Z.to_nat (lay - 1)) qs)).
Definition water_above (qs : list part) (lay : Z) (psi : R) : R := Rsum (map (fun q => pt_z q * pt_theta q psi) (firstn (Z.to_nat (lay - 1)) qs)).

(** The front that lies below, if any: its water content, and the water of the layers above layer [lay] at its head. *)
Definition theta_under (o : option front) : R := match o with Some n => val (f_theta n) | None => 0 end.
Definition above_under (qs : list part) (lay : Z) (o : option front) : R := match o with Some n => water_above qs lay (val (f_psi n)) | None => 0 end.

(** The share of front [c] above the front [o] if [c] had depth [d], water content [th] and head [psi]: what the column holds more than it would
    hold without the front. *)
Definition share_at (qs : list part) (c : front) (d th psi : R) (o : option front) : R :=
  (d - top_of qs (f_layer c)) * (th - theta_under o) + (water_above qs (f_layer c) psi - above_under qs (f_layer c) o).
(** A front at a layer boundary continues the front below it and has no share; the deepest front has one. *)
Definition carries (c : front) (o : option front) : bool := negb (f_bottom c) || match o with Some _ => false | None => true end.
Definition share (qs : list part) (c : front) (o : option front) : R :=
  if carries c o then share_at qs c (val (f_depth c)) (val (f_theta c)) (val (f_psi c)) o else 0.
Fixpoint shares (qs : list part) (l : list front) : list R :=
  match l with [] => [] | c :: r => share qs c (hd_error r) :: shares qs r end.

(** A front whose water content lies on the curve of its layer.  In the first layer, above the boundary, any water content of the soil will do. *)
Definition on_curve (qs : list part) (f : front) : Prop :=
  (f_layer f = 1%Z /\ f_bottom f = false /\ exists q t, nth_error qs 0 = Some q /\ f_theta f = Fin t /\ pt_r q <= t <= pt_e q) \/
  exists q h, nth_error qs (Z.to_nat (f_layer f - 1)) = Some q /\ f_psi f = Fin h /\ 0 <= h /\ f_theta f = Fin (pt_theta q h).

(** A front that moves down from a place below the top of its layer; in the first layer, above the boundary, it really moves. *)
Definition moves_down (qs : list part) (f : front) : Prop :=
  exists d v, f_depth f = Fin d /\ f_dzdt f = Fin v /\ top_of qs (f_layer f) <= d /\ 0 <= v /\ (f_layer f = 1%Z -> f_bottom f = false -> 0 < d /\ 0 < v).

(** Result of the head iteration of a front which held the head [h] and is to hold [want]; [full psi] is what it holds at head [psi].  It holds [got], and the
    AET demand [a] has become the last argument. *)
Inductive settled (full : R -> R) (h want got a : R) : R -> Prop :=
| set_met : Rabs (got - want) <= tol -> settled full h want got a a
| set_booked : tol < Rabs (got - want) -> settled full h want got a (a - (Rabs (got - want) - tol))
| set_overfull : forall h1, 0 <= h1 < Rmax 10 (h / 10) -> full h1 <= want -> settled full h want got a a
| set_saturated : forall a', full 0 <= want -> got <= want -> a' = a \/ a' = 0 -> settled full h want got a a'.

(** What the loop does with a front [c] of a column of [nl] layers with [nf] fronts: it becomes [c'] above the front [o] and should hold [want]. *)
Inductive accounted (qs : list part) (nf : Z) (c c' : front) (o : option front) (want got a : R) : R -> Prop :=
| acc_idle : f_bottom c = true -> (o <> None \/ nf <> Z.of_nat (length qs)) -> got = want -> accounted qs nf c c' o want got a a
| acc_first : forall q, f_bottom c = false -> f_layer c = 1%Z -> nth_error qs 0 = Some q ->
    got = Rmin want (share_at qs c' (val (f_depth c')) (pt_e q) 0 o) -> accounted qs nf c c' o want got a a
| acc_iterated : forall q a', carries c o = true -> (f_layer c <> 1%Z \/ f_bottom c = true) -> nth_error qs (Z.to_nat (f_layer c - 1)) = Some q ->
    settled (fun psi => share_at qs c' (val (f_depth c')) (pt_theta q psi) psi o) (val (f_psi c)) want got a a' ->
    accounted qs nf c c' o want got a a'.

(** The books of one pass over the fronts: [d i] is the AET demand before front number [i] is treated, the deepest front coming first.  The
    front number [wfd] takes the water [precip] and gives up the demand. *)
Definition wanted (qs : list part) (wfd : Z) (precip : R) (head : list front) (d : nat -> R) (i : nat) : R :=
  nth i (shares qs head) 0 + (if (wfd =? Z.of_nat (S i))%Z then precip - d (S i) else 0).
Definition misfit (qs : list part) (wfd : Z) (precip : R) (head l' : list front) (d : nat -> R) (i : nat) : R :=
  nth i (shares qs l') 0 - wanted qs wfd precip head d i.
Definition books (qs : list part) (wfd : Z) (precip aet aet' : R) (head l' : list front) (d : nat -> R) : Prop :=
  d (length head) = aet /\ d O = aet' /\
  forall i c c', nth_error head i = Some c -> nth_error l' i = Some c' ->
    accounted qs (Z.of_nat (length head)) c c' (nth_error l' (S i)) (wanted qs wfd precip head d i) (nth i (shares qs l') 0) (d (S i)) (d i).
