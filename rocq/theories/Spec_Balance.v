(** The head iteration of a wetting front: what it has to solve, over the reals. *)

From Coq Require Import Reals ZArith List Bool.
From Verif Require Import Outcome Dbl Types Spec_Common Spec_Soil.
Import ListNotations.
Open Scope R_scope.

(** The part of one layer: thickness, water content to be subtracted, and the parameters of its soil. *)
Record part : Type := mkPart { pt_z : R; pt_t : R; pt_r : R; pt_e : R; pt_a : R; pt_n : R; pt_m : R }.
Definition pt_theta (p : part) (psi : R) : R := vg_theta (pt_r p) (pt_e p) (pt_a p) (pt_n p) (pt_m p) psi.

(** Water held above the front by the parts [ps] when the head is [psi]. *)
Definition held (ps : list part) (psi : R) : R := Rsum (map (fun p => pt_z p * (pt_theta p psi - pt_t p)) ps).

(** Layer [k] of the column has the soil of part [p], and the two arrays hold its thickness and water content. *)
Definition layer_part (e : env) (dth dz : list (option dbl)) (k : Z) (p : part) : Prop :=
  exists s ks, soil_of e k = Ok s /\ vg_soil s (pt_r p) (pt_e p) (pt_a p) (pt_n p) (pt_m p) ks /\ uget dz k = Ok (Fin (pt_z p)) /\ uget dth k = Ok (Fin (pt_t p)).
Definition layer_parts (e : env) (dth dz : list (option dbl)) (lay : Z) (ps : list part) (last : part) : Prop :=
  Z.of_nat (length ps) = (lay - 1)%Z /\ (forall j p, nth_error ps j = Some p -> layer_part e dth dz (Z.of_nat (S j)) p) /\ layer_part e dth dz lay last.

Definition tol : R := 1 / 1000000000000.

(** Above the residual water content of the part, or not a number. *)
Definition not_dry (p : part) (t : dbl) : Prop := match t with Fin x => pt_r p < x | NInf => False | _ => True end.

(** The possible results (water content, AET) of the iteration that starts from head [psi0] and mass [new] and is to reach the mass [prior].  [ps] are the layers
    above the front and [p] is its own. *)
Inductive balanced (ps : list part) (p : part) (psi0 new prior aet : R) : dbl -> dbl -> Prop :=
| bal_at_once : Rabs (new - prior) <= tol -> balanced ps p psi0 new prior aet (Fin (pt_theta p psi0)) (Fin aet)
| bal_matched : forall psi, 0 <= psi -> Rabs (held (p :: ps) psi - prior) <= tol -> balanced ps p psi0 new prior aet (Fin (pt_theta p psi)) (Fin aet)
| bal_booked : forall psi, 0 <= psi -> tol < Rabs (held (p :: ps) psi - prior) ->
    balanced ps p psi0 new prior aet (Fin (pt_theta p psi)) (Fin (aet - (Rabs (held (p :: ps) psi - prior) - tol)))
| bal_attempted : forall psi psi1, 0 <= psi -> tol < Rabs (held (p :: ps) psi - prior) ->
    0 <= psi1 < Rmax 10 (psi0 / 10) -> (held (p :: ps) psi1 <= prior \/ psi1 = psi0 /\ new <= prior) ->
    balanced ps p psi0 new prior aet (Fin (pt_theta p psi)) (Fin aet)
| bal_saturated : forall t a, not_dry p t -> (held (p :: ps) 0 <= prior \/ psi0 = 0 /\ new <= prior) -> a = Fin aet \/ a = Fin 0 -> balanced ps p psi0 new prior aet t a.
