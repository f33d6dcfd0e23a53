(** Soil temperatures assigned to layers, independent of the model. *)

From Coq Require Import Reals List.
From Verif Require Import Outcome Dbl Spec_Common.
Import ListNotations.
Open Scope R_scope.

(** Cells are pairs of depth and temperature.  [layered lims groups rest]: every layer, with lower boundary in [lims], owns a non-empty group of
    consecutive cells, the cell after it (if any) lies below the boundary; [rest] are the cells below the column. *)
Fixpoint layered (lims : list R) (groups : list (list (R * R))) (rest : list (R * R)) : Prop :=
  match lims, groups with
  | [], [] => True
  | lim :: ls, g :: gs =>
      g <> [] /\ Forall (fun c => fst c <= lim) g /\
      match concat gs ++ rest with [] => True | c :: _ => lim < fst c end /\
      layered ls gs rest
  | _, _ => False
  end.

Definition mean (l : list R) : R := Rsum l / INR (length l).

(** Conductivity reduction at mean temperature [T] (K). *)
Definition reduction (T : R) : R := Rmax (Rmin (exp (-10 * (273.15 - T))) 1) 0.05.

(** The two arrays the model is given: depths and temperatures of the cells. *)
Definition zs (l : list (R * R)) : list dbl := map (fun c => Fin (fst c)) l.
Definition Ts (l : list (R * R)) : list dbl := map (fun c => Fin (snd c)) l.
