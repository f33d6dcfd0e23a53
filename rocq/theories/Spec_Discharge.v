(** The discharge column of the output. *)

From Coq Require Import Reals List.
From Verif Require Import Dbl Outcome Driver Spec_Common Spec_Driver.
Import ListNotations.
Open Scope R_scope.

(** Column [k] of the output consists of these numbers. *)
Definition shows (k : nat) (rs : list outrow) (xs : list R) : Prop := map (fun r => nth_error (w_vars r) k) rs = map (fun v => Some (Bmi.D (Fin v))) xs.

(** Ordinates per hour, for steps of which [k] fill an hour: each is shared out equally over the steps of its hour. *)
Definition per_step (k : nat) (gs : list R) : list R := flat_map (fun g => repeat (g / INR k) k) gs.

(** [k] whole steps of [fres] hours fit into an hour. *)
Definition steps_per_hour (fres : R) (k : nat) : Prop := INR k * fres <= 1 < (INR k + 1) * fres.
