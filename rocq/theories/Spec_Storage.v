(** Water stored in a profile, over the reals and independent of the model's bookkeeping. *)

From Coq Require Import Reals ZArith List Bool.
From Verif Require Import Outcome Dbl Types Fronts Soil Spec_Common Spec_Soil Spec_Update Spec_Profile.
Import ListNotations.
Open Scope R_scope.

(** Depths and water contents are numbers. *)
Definition measured (l : list front) : Prop := Forall (fun f => finite (f_depth f) /\ finite (f_theta f)) l.

(** Water content at depth [z]: that of the first front which reaches [z]. *)
Fixpoint theta_at (l : list front) (z : R) : R :=
  match l with
  | [] => 0
  | f :: r => if Rle_dec z (val (f_depth f)) then val (f_theta f) else theta_at r z
  end.

(** Fronts ordered by depth, the first below [top]. *)
Fixpoint ordered (top : R) (l : list front) : Prop :=
  match l with [] => True | f :: r => top <= val (f_depth f) /\ ordered (val (f_depth f)) r end.

(** Sum of the slabs between consecutive fronts, each filled to the water content of its lower front. *)
Fixpoint slabs (top : R) (l : list front) : R :=
  match l with [] => 0 | f :: r => val (f_theta f) * (val (f_depth f) - top) + slabs (val (f_depth f)) r end.
Definition storage (l : list front) : R := slabs 0 l.

(** The same fronts with other water contents. *)
Definition with_thetas (l : list front) (w : nat -> R) : list front :=
  map (fun p => set_theta (snd p) (Fin (w (fst p)))) (combine (seq 0 (length l)) l).

(** Water contents within the range of the soil of their layer. *)
Definition within_soil (e : env) (f : front) : Prop :=
  exists s r es t, soil_of e (f_layer f) = Ok s /\ s_theta_r s = Fin r /\ s_theta_e s = Fin es /\ f_theta f = Fin t /\ r <= t <= es.
Definition within_soils (e : env) (l : list front) : Prop := Forall (within_soil e) l.

(** Every layer has a van Genuchten soil. *)
Definition vg_column (e : env) : Prop :=
  forall k s, (1 <= k <= e_nlayers e)%Z -> soil_of e k = Ok s -> exists r es a n m ks, vg_soil s r es a n m ks.

(** Inside a layer every front is strictly drier than the one above it. *)
Fixpoint drier_downwards (l : list front) : Prop :=
  match l with
  | f :: ((g :: _) as r) => (f_layer f = f_layer g -> val (f_theta g) < val (f_theta f)) /\ drier_downwards r
  | _ => True
  end.
Definition below_surface (l : list front) : Prop := Forall (fun f => 0 < val (f_depth f)) l.

(** The fronts at the layer bottoms, apart from their position in the list. *)
Definition bottom_fronts (l : list front) : list front := map (fun f => set_num f 0) (filter f_bottom l).

(** No front lies below the bottom of its layer. *)
Definition in_layers (e : env) (l : list front) : Prop :=
  Forall (fun f => exists z, aget (e_cum e) (f_layer f) = Ok (Fin z) /\ val (f_depth f) <= z) l.

(** Water content at the surface. *)
Definition surface_theta (l : list front) : option dbl := option_map f_theta (hd_error l).

(** [l'] arises from [l] by removing fronts one at a time, and [x] sums up the absolute changes of storage. *)
Inductive repaired (e : env) (l : list front) : list front -> R -> Prop :=
| repaired_0 : repaired e l l 0
| repaired_S : forall l1 l2 x, repaired e l l1 x -> length l1 = S (length l2) -> profile (e_nlayers e) (e_cum e) l2 ->
    repaired e l l2 (x + Rabs (storage l2 - storage l1)).

(** A front is not wetter than the one below it in the same layer. *)
Definition inverted (l : list front) : Prop :=
  exists i f g, nth_error l i = Some f /\ nth_error l (S i) = Some g /\ f_layer f = f_layer g /\ dleb (f_theta f) (f_theta g) = true.

Section Crossing.
Context {fp : Fp} {cfg : Cfg}.
(** The front at position [p] is about to pass into the next layer, where it would take exactly the water content of the front below the boundary. *)
Definition blocked_at (e : env) (p : nat) (l : list front) : Prop :=
  exists c n nn ck s s2, nth_error l p = Some c /\ nth_error l (S p) = Some n /\ nth_error l (S (S p)) = Some nn /\
    aget (e_cum e) (f_layer c) = Ok ck /\ dgtb (f_depth c) ck = true /\ deqb (f_depth n) ck = true /\ f_layer c <> e_nlayers e /\
    soil_of e (f_layer c) = Ok s /\ soil_of e (f_layer c + 1)%Z = Ok s2 /\
    theta_of_h s2 (h_of_Se s (Se_of_theta s (f_theta c))) = f_theta nn.
(** One of the crossings of a call is blocked in this way. *)
Definition cross_blocked (e : env) (l : list front) : Prop :=
  exists p l', (S p < length l)%nat /\ cross_prefix e p l = Ok l' /\ blocked_at e p l'.
End Crossing.
