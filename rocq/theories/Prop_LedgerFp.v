(** C65: the printed water balance in floating point. *)

From Coq Require Import Reals Lra ZArith List Bool.
From Flocq Require Import Core.
From Verif Require Import Outcome Dbl Binary64 Types Fronts State Update Spec_Common Spec_Update Spec_LedgerFp Pf_LedgerFp Ex_LedgerFp.
Import ListNotations.
Open Scope R_scope.

(** C65: binary64 results up to the size 2^k are numbers, and are off by at most 2^(k-53). *)
Theorem C65_binary64_accuracy :
  forall k : Z, (-1021 <= k <= 1023)%Z -> accurate binary64 (bpow radix2 k) (bpow radix2 (k - 53)).
Proof. exact accurate64. Qed.
Print Assumptions C65_binary64_accuracy.

(** C65: whatever the rounding, if results up to the size [L] are off by at most [eta], and no storage and no total exceeds [L / 32], the balance
    that Finalize prints after [m] Updates and [n] sub-steps is a number, at most [n * (1e-4 + 1e-12 + 13 eta) + (6 m + 7) eta] in absolute value. *)
Theorem C65_global_balance_rounded :
  forall (fp : Fp) (cfg : Cfg) (L eta M : R), accurate fp L eta -> 32 * M <= L -> 1 <= M -> eta <= M ->
  forall (s0 : state) (m n : nat) (s : state),
    fresh s0 -> signs s0 -> p_invalid (st_p s0) = false -> tracked M s0 m n s -> (0 < m)%nat ->
    exists g, global_error (st_mb s) = Fin g /\
      Rabs g <= INR n * (1 / 10000 + 1 / 1000000000000 + 13 * eta) + (6 * INR m + 7) * eta.
Proof. exact @tracked_global. Qed.
Print Assumptions C65_global_balance_rounded.

(** C65: in binary64, with up to 32768 cm of water in every storage and total, rounding adds at most 2e-9 cm per sub-step and 1e-9 cm per Update. *)
Theorem C65_global_balance_binary64 :
  forall (cfg : Cfg) (s0 : state) (m n : nat) (s : state),
    @fresh binary64 s0 -> signs s0 -> p_invalid (st_p s0) = false -> @tracked binary64 cfg 32768 s0 m n s -> (0 < m)%nat ->
    exists g, @global_error binary64 (st_mb s) = Fin g /\
      Rabs g <= INR n * (1 / 10000 + 2 / 1000000000) + INR (m + 2) * (1 / 1000000000).
Proof. exact tracked_global64. Qed.
Print Assumptions C65_global_balance_binary64.

(** Example: a rainy hour in binary64 on a saturated column. *)
Example C65_concrete : forall cfg : Cfg,
  @fresh binary64 rn_start /\ signs rn_start /\ p_invalid (st_p rn_start) = false /\
  exists s', @tracked binary64 cfg 32768 rn_start 1 1 s' /\ mb_precip (st_mb s') = Fin 2 /\ mb_runoff (st_mb s') = Fin (1 / 2) /\ mb_on (st_mb s') = Fin (3 / 2).
Proof. exact @rn_tracked. Qed.
