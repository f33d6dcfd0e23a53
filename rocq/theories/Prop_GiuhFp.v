(** C66: unit-hydrograph routing in floating point. *)

From Coq Require Import Reals Lra ZArith List.
From Flocq Require Import Core.
From Verif Require Import Outcome Dbl Binary64 Giuh Spec_Common Spec_Giuh Spec_LedgerFp Pf_GiuhFp.
Import ListNotations.
Open Scope R_scope.

(** C66: whatever the rounding, if results up to the size [L] are off by at most [eta], every discharge is within 2 N eta of the convolution of
    the runoff with the N ordinates, after any number of calls: errors do not build up. *)
Theorem C66_routing_rounded :
  forall (fp : Fp) (L eta M : R), accurate fp L eta -> 0 <= eta -> 0 <= M ->
  forall ord runoffs : list R,
    (1 <= length ord)%nat -> Forall (fun o => Rabs o <= 1) ord -> Forall (fun r => Rabs r <= M) runoffs ->
    INR (length ord) * (M + 2 * eta) <= L ->
    exists outs queue',
      giuh_calls (Z.of_nat (length ord)) (map Fin ord) (map Fin (repeat 0 (S (length ord)))) (map Fin runoffs) = Ok (map Fin outs, map Fin queue') /\
      length outs = length runoffs /\
      (forall t, (t < length runoffs)%nat -> Rabs (nth t outs 0 - convolution ord runoffs t) <= 2 * INR (length ord) * eta).
Proof. exact @giuh_rounded. Qed.
Print Assumptions C66_routing_rounded.

(** C66: the same in binary64 for sizes up to 2^k. *)
Theorem C66_routing_binary64 :
  forall (k : Z) (M : R) (ord runoffs : list R), (-1021 <= k <= 1023)%Z -> 0 <= M ->
    (1 <= length ord)%nat -> Forall (fun o => Rabs o <= 1) ord -> Forall (fun r => Rabs r <= M) runoffs ->
    INR (length ord) * (M + bpow radix2 (k - 52)) <= bpow radix2 k ->
    exists outs queue',
      @giuh_calls binary64 (Z.of_nat (length ord)) (map Fin ord) (map Fin (repeat 0 (S (length ord)))) (map Fin runoffs) = Ok (map Fin outs, map Fin queue') /\
      length outs = length runoffs /\
      (forall t, (t < length runoffs)%nat -> Rabs (nth t outs 0 - convolution ord runoffs t) <= INR (length ord) * bpow radix2 (k - 52)).
Proof. exact giuh_rounded64. Qed.
Print Assumptions C66_routing_binary64.

(** C66: after the N dry steps that empty the queue, the routed water is the runoff times the sum of the ordinates, up to 2 N eta per call. *)
Theorem C66_routing_rounded_drains :
  forall (fp : Fp) (L eta M : R), accurate fp L eta -> 0 <= eta -> 0 <= M ->
  forall (ord wet : list R) (dry : nat),
    (1 <= length ord)%nat -> (length ord <= dry)%nat -> Forall (fun o => Rabs o <= 1) ord -> Forall (fun r => Rabs r <= M) wet ->
    INR (length ord) * (M + 2 * eta) <= L ->
    exists outs queue',
      giuh_calls (Z.of_nat (length ord)) (map Fin ord) (map Fin (repeat 0 (S (length ord)))) (map Fin (wet ++ repeat 0 dry)) = Ok (map Fin outs, map Fin queue') /\
      Rabs (Rsum outs - Rsum wet * Rsum ord) <= INR (length wet + dry) * (2 * INR (length ord) * eta).
Proof. exact @giuh_rounded_drains. Qed.
Print Assumptions C66_routing_rounded_drains.

(** Example: the ordinates 0.06, 0.51 and 0.43, as binary64 numbers, and runoff of 100 cm and 1/3 cm; outputs are off by less than 1e-12 cm. *)
Example C66_concrete : exists o1 o2 o3 outs queue',
  @lit binary64 (6 / 100) = Fin o1 /\ @lit binary64 (51 / 100) = Fin o2 /\ @lit binary64 (43 / 100) = Fin o3 /\
  @giuh_calls binary64 3 [Fin o1; Fin o2; Fin o3] [Fin 0; Fin 0; Fin 0; Fin 0] [Fin 100; Fin (1 / 3); Fin 0] = Ok (map Fin outs, map Fin queue') /\
  length outs = 3%nat /\
  (forall t, (t < 3)%nat -> Rabs (nth t outs 0 - convolution [o1; o2; o3] [100; 1 / 3; 0] t) <= 3 * / 8796093022208).
Proof. exact giuh_rounded_example. Qed.
