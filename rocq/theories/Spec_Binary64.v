(** Whole numbers of seconds in a configuration, and in hours as binary64 numbers. *)

From Coq Require Import String Reals ZArith List.
From Verif Require Import Outcome Dbl Binary64 Types Config Spec_Config.
Import ListNotations.
Open Scope string_scope.

(** The last line with key [k] gives a time of [S] seconds, in seconds, minutes, hours (or days), as a whole number below 2^53. *)
Definition seconds (k : string) (ls : list string) (S : Z) : Prop :=
  exists n u sec m, good_numeral n /\ value n = IZR m /\ (0 <= m < 2 ^ 53)%Z /\
    In (u, sec) ((if String.eqb k "endtime" then [("[d]", 86400%R); ("[day]", 86400%R)] else []) ++ unit_seconds)%list /\
    last_line k (k ++ "=" ++ text n ++ u) ls /\ IZR S = (IZR m * sec)%R.

(** [s] seconds in hours, rounded. *)
Definition hours64 (s : Z) : R := b64_near (IZR s / 3600).
