(** The standalone program on a column of one soil layer. *)

From Coq Require Import String Reals ZArith List Bool.
From Verif Require Import Outcome Dbl Exact Types State Driver Spec_Common.
Import ListNotations.
Open Scope R_scope.
Local Existing Instance exact.

(** Rain and evaporative demand of every row are numbers that are not negative. *)
Definition plausible (f : forcing) : Prop := Forall (fun x => exists r, x = Fin r /\ 0 <= r) (fo_precip f) /\ Forall (fun x => exists r, x = Fin r /\ 0 <= r) (fo_pet f).
(** Reasons for which the program can end early: the use of a deleted front, an assertion, a balance that does not close, an iteration that does not end. *)
Definition program_stops (why : reason) : Prop := why = UB UseAfterFree \/ why = AssertFail \/ why = Abort \/ why = OutOfFuel.
