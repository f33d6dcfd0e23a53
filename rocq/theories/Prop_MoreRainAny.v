(** C90 for any rounding: more rain on the same soil in lgar_insert_water. *)

From Coq Require Import Reals ZArith List Bool.
From Verif Require Import Outcome Dbl Binary64 Types ListOps Soil Fronts Infil Spec_Common Spec_RoundMono Pf_MoreRainAny Ex_Clock64 Ex_MoreRainAny.
Import ListNotations.
Open Scope R_scope.

(** C90, any rounding: of two calls on the same soil, with [w] <= [w'] cm on the surface and rain [p] and [p'] such that the water which stood there before the rain is the same, the one with more water has at
    least as much runoff, leaves at least as much on the surface and lets at least as much in.  Excluded is the tie of finding 5, where the rest equals a positive maximum. *)
Theorem C90_more_water_any_rounding :
  forall (fp : Fp) (cfg : Cfg) e closed nint dt aet w w' p p' wfd pm head q r on i r' on' i', 0 < dt -> w <= w' ->
  dfmax (Fin w - p * Fin dt) (Fin 0) = dfmax (Fin w' - p' * Fin dt) (Fin 0) ->
  lgar_insert_water e closed nint (Fin dt) aet (Fin w) (Fin 0) p wfd (Fin pm) head = Ok (r, on, i) ->
  lgar_insert_water e closed nint (Fin dt) aet (Fin w') (Fin 0) p' wfd (Fin pm) head = Ok (r', on', i') ->
  infiltration_capacity e closed nint (Fin dt) aet (Fin w) p wfd head = Ok q ->
  deqb (dfmax (Fin w - q * Fin dt) (Fin 0)) (Fin pm) = false \/ pm <= 0 -> deqb (dfmax (Fin w' - q * Fin dt) (Fin 0)) (Fin pm) = false \/ pm <= 0 ->
  below r r' /\ below on on' /\ below i i'.
Proof. exact @insert_more. Qed.
Print Assumptions C90_more_water_any_rounding.

(** The saturated column in binary64, with at most 1 cm on it: 0.5 cm stay; of 3 cm, of which 2.5 are rain, 1 cm stays and 2 cm run off. *)
Example C90_saturated_binary64 : forall (cfg : Cfg) (pb hm : dbl),
  let cap w p := @infiltration_capacity binary64 cfg (c6_env pb hm) true 120 (Fin 1) (Fin 0) (Fin w) (Fin p) 1 [c6_front] in
  let ins w p := @lgar_insert_water binary64 cfg (c6_env pb hm) true 120 (Fin 1) (Fin 0) (Fin w) (Fin 0) (Fin p) 1 (Fin 1) [c6_front] in
  dfmax (@dsub binary64 (Fin (1 / 2)) (@dmul binary64 (Fin 0) (Fin 1))) (Fin 0) = dfmax (@dsub binary64 (Fin 3) (@dmul binary64 (Fin (5 / 2)) (Fin 1))) (Fin 0) /\ cap (1 / 2) 0 = Ok (Fin 0) /\
  deqb (dfmax (@dsub binary64 (Fin (1 / 2)) (@dmul binary64 (Fin 0) (Fin 1))) (Fin 0)) (Fin 1) = false /\ deqb (dfmax (@dsub binary64 (Fin 3) (@dmul binary64 (Fin 0) (Fin 1))) (Fin 0)) (Fin 1) = false /\
  ins (1 / 2) 0 = Ok (Fin 0, Fin (1 / 2), Fin 0) /\ ins 3 (5 / 2) = Ok (Fin 2, Fin 1, Fin 0).
Proof. exact @c6_more. Qed.
