(** C61: the motion of the fronts in a column of one layer. *)

From Coq Require Import Reals Lra ZArith List Lia Bool.
From Verif Require Import Outcome Dbl Exact Types ListOps Soil Fronts Infil Move Lib Spec_Common Spec_List Spec_Soil Spec_Update Spec_Profile Spec_Storage Spec_Single
  Pf_Single Pf_SingleMerge Pf_SingleStop Ex_Saturated Ex_Single.
Import ListNotations.
Open Scope R_scope.
Local Existing Instance exact.

(** ** C61 *)

(** The motion accounts for the water up to 1e-7 cm and keeps the fronts in order.  1 is the number of the front that takes the infiltration:
    [C61_first_front_drains]. *)
Theorem C61_motion_balances :
  forall (cfg : Cfg) e s r te D dt vin a head l' a' q,
    single e s r te D -> settled e te D head -> (2 <= length head)%nat -> 0 < dt ->
    lgar_move_wetting_fronts e (Fin dt) (Fin vin) 1 (Fin (storage head)) (Fin a) head head = Ok (l', a', q) ->
    exists a2 q2, a' = Fin a2 /\ q = Fin q2 /\ graded e (te - 1 / 1000000000000000) D l' /\
      Rabs (storage l' - (storage head + vin - a2 - q2)) <= 1 / 10000000.
Proof. exact @motion_single. Qed.
Print Assumptions C61_motion_balances.

Theorem C61_first_front_drains :
  forall e s r te D head, single e s r te D -> settled e te D head -> (2 <= length head)%nat -> wetting_front_free_drainage head = 1%Z.
Proof.
  intros e s r te D head HS [G _ _] H2. destruct head as [|c [|n b]]; try (cbn in H2; lia).
  exact (drains_first e s r te D c n b HS (graded_str _ _ _ _ _ _ _ HS G)).
Qed.
Print Assumptions C61_first_front_drains.

(** The motion stops only in one way: the demand exceeds the infiltration and all that the first front holds above the second one.  Then
    the front dries out and is used after its deletion. *)
Theorem C61_motion_stops :
  forall (cfg : Cfg) e s r te D dt vin a c n h why,
    single e s r te D -> settled e te D (c :: n :: h) -> 0 < dt -> 0 <= r ->
    lgar_move_wetting_fronts e (Fin dt) (Fin vin) 1 (Fin (storage (c :: n :: h))) (Fin a) (c :: n :: h) (c :: n :: h) = Stop why ->
    why = UB UseAfterFree /\ val (f_depth c) * (val (f_theta c) - val (f_theta n)) + vin < a.
Proof. exact @motion_stop. Qed.
Print Assumptions C61_motion_stops.

(** A front at 10 cm in 100 cm of soil, 1 mm of infiltration and 1/2 mm of evapotranspiration. *)
Example C61_concrete : forall cfg : Cfg,
  single ex_env ex_soil (1 / 10) (2 / 5) 100 /\ settled ex_env (2 / 5) 100 sg1_head /\
  exists l' q, lgar_move_wetting_fronts ex_env (Fin 1) (Fin (1 / 10)) 1 (Fin (storage sg1_head)) (Fin (1 / 20)) sg1_head sg1_head = Ok (l', Fin (1 / 20), q).
Proof. intro cfg. exact (conj sg1_single (conj sg1_settled sg1_moves)). Qed.

(** The same front under a demand of 20 cm. *)
Example C61_dries_out : forall (cfg : Cfg),
  single ex_env ex_soil (1 / 10) (2 / 5) 100 /\ settled ex_env (2 / 5) 100 sg1_head /\
  lgar_move_wetting_fronts ex_env (Fin 1) (Fin 0) 1 (Fin (storage sg1_head)) (Fin 20) sg1_head sg1_head = Stop (UB UseAfterFree).
Proof. intro cfg. exact (conj sg1_single (conj sg1_settled sg1_dries)). Qed.
