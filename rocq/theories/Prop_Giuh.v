(** C06, C07: unit-hydrograph routing. *)

From Coq Require Import Reals Lra ZArith List Lia.
From Verif Require Import Outcome Dbl Exact Giuh Spec_Common Spec_Giuh Lib Pf_Giuh.
Import ListNotations.
Open Scope R_scope.

(** Whatever the numbers in the arrays and however the arithmetic rounds, a call with N >= 1 ordinates on a queue of N+1 entries
    touches only these arrays. *)
Theorem C06_giuh_call_is_safe :
  forall (fp : Fp) (r : dbl) (ord queue : list dbl),
    (1 <= length ord)%nat -> length queue = S (length ord) ->
    exists out queue',
      giuh_convolution_integral r (Z.of_nat (length ord)) ord queue = Ok (out, queue') /\ length queue' = length queue.
Proof. exact giuh_safe. Qed.
Print Assumptions C06_giuh_call_is_safe.

(** C06, any number of calls from any queue: water out + water still queued = water queued before + water in x sum of ordinates. *)
Theorem C06_giuh_conserves_water :
  forall ord queue runoffs : list R,
    (1 <= length ord)%nat -> length queue = S (length ord) ->
    exists outs queue',
      @giuh_calls exact (Z.of_nat (length ord)) (map Fin ord) (map Fin queue) (map Fin runoffs)
        = Ok (map Fin outs, map Fin queue')
      /\ length outs = length runoffs /\ length queue' = length queue
      /\ Rsum outs + Rsum (firstn (length ord) queue')
         = Rsum (firstn (length ord) queue) + Rsum runoffs * Rsum ord.
Proof. exact giuh_conserves. Qed.
Print Assumptions C06_giuh_conserves_water.

(** With ordinates that sum to one and an empty queue: cumulative discharge + queue = cumulative runoff. *)
Theorem C06_giuh_unit_hydrograph :
  forall ord runoffs : list R,
    (1 <= length ord)%nat -> Rsum ord = 1 ->
    exists outs queue',
      @giuh_calls exact (Z.of_nat (length ord)) (map Fin ord) (map Fin (repeat 0 (S (length ord)))) (map Fin runoffs)
        = Ok (map Fin outs, map Fin queue')
      /\ Rsum outs + Rsum (firstn (length ord) queue') = Rsum runoffs.
Proof. exact giuh_unit. Qed.
Print Assumptions C06_giuh_unit_hydrograph.

(** C07: from an empty queue the outputs are the discrete convolution. *)
Theorem C07_giuh_is_convolution :
  forall ord runoffs : list R,
    (1 <= length ord)%nat ->
    exists outs queue',
      @giuh_calls exact (Z.of_nat (length ord)) (map Fin ord) (map Fin (repeat 0 (S (length ord)))) (map Fin runoffs)
        = Ok (map Fin outs, map Fin queue')
      /\ length outs = length runoffs
      /\ forall t, (t < length runoffs)%nat -> nth t outs 0 = convolution ord runoffs t.
Proof. exact giuh_convolution. Qed.
Print Assumptions C07_giuh_is_convolution.

(** C07: after as many dry steps as there are ordinates nothing is left in the queue, and all water has left: the outputs of the
    wet and of the dry steps together carry runoff x sum of ordinates.  Every later dry step then yields zero. *)
Theorem C07_giuh_drains :
  forall (ord wet : list R) (dry : nat),
    (1 <= length ord)%nat -> (length ord <= dry)%nat ->
    exists outs queue',
      @giuh_calls exact (Z.of_nat (length ord)) (map Fin ord) (map Fin (repeat 0 (S (length ord)))) (map Fin (wet ++ repeat 0 dry))
        = Ok (map Fin outs, map Fin queue')
      /\ Rsum outs = Rsum wet * Rsum ord
      /\ (forall j, (j < length ord)%nat -> nth j queue' 0 = 0)
      /\ (forall t, (length wet + length ord <= S t)%nat -> nth t outs 0 = 0).
Proof. exact giuh_drains. Qed.
Print Assumptions C07_giuh_drains.

(** Non-vacuity: two ordinates 1/4 and 3/4, runoff 8 then 4, then two dry steps. *)
Example C07_concrete :
  exists queue',
  @giuh_calls exact 2 [Fin (1/4); Fin (3/4)] [Fin 0; Fin 0; Fin 0] [Fin 8; Fin 4; Fin 0; Fin 0]
  = Ok ([Fin 2; Fin 7; Fin 3; Fin 0], queue').
Proof. exact giuh_concrete. Qed.
