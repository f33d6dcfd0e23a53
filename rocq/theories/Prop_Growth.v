(** C64: the number of wetting fronts. *)

From Coq Require Import Reals Lra ZArith List Lia Bool.
From Verif Require Import Outcome Dbl Exact Types ListOps State Update Lib Spec_Common Spec_List Spec_Update Spec_Growth Pf_Growth Ex_Growth.
Import ListNotations.

(** ** C64 *)

(** An Update adds at most one front, whatever the number of its sub-steps, and [m] Updates at most [m]. *)
Theorem C64_one_front_per_update :
  forall (fp : Fp) (cfg : Cfg) s0 m s, after s0 m s -> (length (st_head s) <= length (st_head s0) + m)%nat.
Proof. exact @after_length. Qed.
Print Assumptions C64_one_front_per_update.

(** A sub-step adds at most one, and none unless it rains and the sub-step before was without rain. *)
Theorem C64_front_needs_onset :
  forall (fp : Fp) (cfg : Cfg) u s a s' a', substep u s a = Ok (s', a') ->
    (length (st_head s') <= S (length (st_head s)))%nat /\
    (p_precip_prev (st_p s) <> Fin 0 \/ (exists p, st_precip s = Fin p /\ (p <= 0)%R) -> (length (st_head s') <= length (st_head s))%nat).
Proof. exact @substep_onset. Qed.
Print Assumptions C64_front_needs_onset.

(** Front numbers and counters stay inside a C int as long as the number of Updates and the initial number of fronts do. *)
Theorem C64_counters_fit :
  forall (fp : Fp) (cfg : Cfg) s0 m s, after s0 m s -> (listLength (st_head s0) + Z.of_nat m <= 2147483647)%Z ->
    (listLength (st_head s) <= 2147483647)%Z /\
    (numbered (st_head s) -> forall f, In f (st_head s) -> (1 <= f_num f <= 2147483647)%Z).
Proof. exact @counters_fit. Qed.
Print Assumptions C64_counters_fit.

(** Rain sets in on a column with one front: the Update returns with two. *)
Example C64_concrete : forall cfg : Cfg,
  exists s, @after exact cfg gw_start 1 s /\ length (st_head gw_start) = 1%nat /\ length (st_head s) = 2%nat.
Proof.
  intro cfg. destruct (@gw_update cfg) as (s & E & L1 & L2). exists s. split; [|auto]. eapply after_update; [apply after_start|exact E].
Qed.
