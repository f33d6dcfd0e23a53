(** Vocabulary for the number of wetting fronts: how often Update was called. *)

From Coq Require Import Reals ZArith List.
From Verif Require Import Outcome Dbl Types State Update Spec_Update.

Section Growth.
Context {fp : Fp} {cfg : Cfg}.

(** [s] is reached from [s0] with [m] completed Updates; between them the user may overwrite what SetValue reaches. *)
Inductive after (s0 : state) : nat -> state -> Prop :=
| after_start : after s0 0 s0
| after_edit : forall m s s', after s0 m s -> user_edit s s' -> after s0 m s'
| after_update : forall m s s', after s0 m s -> Update s = Ok s' -> after s0 (S m) s'.

End Growth.
