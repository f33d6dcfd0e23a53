(** C103: routing with any rounding keeps the order of runoffs and forgets what is older than the hydrograph. *)

From Coq Require Import Reals Lra ZArith List Bool Lia.
From Verif Require Import Outcome Dbl Binary64 Giuh Spec_Common Spec_Giuh Spec_RoundMono Pf_RoundMono Pf_GiuhAny Ex_GiuhAny.
Import ListNotations.
Open Scope R_scope.

(** C103: for any rounding, with ordinates and runoffs that are not negative, no discharge is negative or NaN, and more runoff at some of the calls
    (or more water in the queue) gives no less discharge at any call. *)
Theorem C103_routing_order :
  forall (fp : Fp) ord q q' rs rs' outs outs' z z', (1 <= length ord)%nat -> length q = S (length ord) -> Forall finite ord -> Forall (below (Fin 0)) ord ->
  Forall (below (Fin 0)) q -> Forall2 below q q' -> Forall2 (fun r r' => 0 <= r <= r') rs rs' ->
  giuh_calls (Z.of_nat (length ord)) ord q (map Fin rs) = Ok (outs, z) -> giuh_calls (Z.of_nat (length ord)) ord q' (map Fin rs') = Ok (outs', z') ->
  Forall (below (Fin 0)) outs /\ Forall2 below outs outs'.
Proof. exact @routing_order. Qed.
Print Assumptions C103_routing_order.

(** C103: for any rounding, whatever two queues hold, NaN and infinities too: from the N-th call on the same runoffs give the same discharges, to the last bit. *)
Theorem C103_routing_memory :
  forall (fp : Fp) ord q1 q2 rs o1 o2 z1 z2, (1 <= length ord)%nat -> length q1 = S (length ord) -> length q2 = S (length ord) ->
  giuh_calls (Z.of_nat (length ord)) ord q1 rs = Ok (o1, z1) -> giuh_calls (Z.of_nat (length ord)) ord q2 rs = Ok (o2, z2) ->
  length o1 = length rs /\ length o2 = length rs /\ forall t, (length ord <= t)%nat -> nth t o1 (Fin 0) = nth t o2 (Fin 0).
Proof. exact @routing_memory. Qed.
Print Assumptions C103_routing_memory.

(** C103: and N calls without runoff empty any queue: the discharge is exactly 0 from then on. *)
Theorem C103_routing_flushes :
  forall (fp : Fp) ord q n outs z, (1 <= length ord)%nat -> length q = S (length ord) -> Forall finite ord ->
  giuh_calls (Z.of_nat (length ord)) ord q (repeat (Fin 0) n) = Ok (outs, z) -> length outs = n /\ forall t, (length ord <= t)%nat -> nth t outs (Fin 0) = Fin 0.
Proof. exact @routing_flushes. Qed.
Print Assumptions C103_routing_flushes.

(** Before the N-th call the queue does show: a NaN is discharged. *)
Theorem C103_shorter_memory_refuted :
  exists ord q rs outs z, length ord = 2%nat /\ length q = 3%nat /\ Forall finite ord /\ @giuh_calls binary64 2 ord q rs = Ok (outs, z) /\
  nth 0 outs (Fin 0) = NaN /\ nth 1 outs (Fin 0) = PInf /\ nth 2 outs (Fin 0) = Fin 4.
Proof.
  do 5 eexists. split; [|split; [|split; [|split; [exact ga_nan|]]]]; try reflexivity; [repeat constructor; eexists; reflexivity|]. split; [reflexivity|]. split; reflexivity.
Qed.
Print Assumptions C103_shorter_memory_refuted.

(** Two histories with runoffs 0, 2, 0 and 0, 2, 6 in binary64, from empty queues. *)
Example C103_concrete : @giuh_calls binary64 2 [Fin (1 / 2); Fin (1 / 2)] [Fin 0; Fin 0; Fin 0] (map Fin [0; 2; 0]) = Ok ([Fin 0; Fin 1; Fin 1], [Fin 0; Fin 0; Fin 0]) /\
  @giuh_calls binary64 2 [Fin (1 / 2); Fin (1 / 2)] [Fin 0; Fin 0; Fin 0] (map Fin [0; 2; 6]) = Ok ([Fin 0; Fin 1; Fin 4], [Fin 3; Fin 0; Fin 0]) /\
  Forall finite [Fin (1 / 2); Fin (1 / 2)] /\ Forall (below (Fin 0)) [Fin (1 / 2); Fin (1 / 2)] /\ Forall (below (Fin 0)) [Fin 0; Fin 0; Fin 0] /\
  Forall2 below [Fin 0; Fin 0; Fin 0] [Fin 0; Fin 0; Fin 0] /\ Forall2 (fun r r' => 0 <= r <= r') [0; 2; 0] [0; 2; 6].
Proof.
  split; [exact ga_less|]. split; [exact ga_more|]. split; [repeat constructor; eexists; reflexivity|]. split; [repeat constructor; apply below_fin; lra|].
  split; [repeat constructor; apply below_fin; lra|]. split; repeat constructor; try (apply below_fin); lra.
Qed.

(** The queue with NaN and an infinity meets the conditions of the memory theorem. *)
Example C103_memory_concrete : @giuh_calls binary64 2 [Fin (1 / 2); Fin (1 / 2)] [NaN; PInf; NaN] [Fin 0; Fin 2; Fin 6; Fin 0; Fin 0] = Ok ([NaN; PInf; Fin 4; Fin 3; Fin 0], [Fin 0; Fin 0; Fin 0]).
Proof. exact ga_nan. Qed.
