(** C45 for any rounding. *)

From Coq Require Import Reals Lra ZArith List Bool Lia.
From Verif Require Import Outcome Dbl Exact Types Fronts Infil Spec_Common Spec_RoundMono Pf_RoundMono Pf_InfilAny Ex_Saturated Ex_Unsaturated Ex_Surface Ex_Clock64 Ex_LedgerFp.
Import ListNotations.
Open Scope R_scope.

(** C45, any rounding: water that infiltrates is at most the water on the surface, and at most the capacity. *)
Theorem C45_infiltration_any_rounding :
  forall (fp : Fp) (cfg : Cfg) e closed nint dt aet w precip wfd pm head r on i, 0 <= w -> 0 < dt ->
  lgar_insert_water e closed nint (Fin dt) aet (Fin w) (Fin 0) precip wfd pm head = Ok (r, on, i) ->
  below i (Fin w) /\ exists q, infiltration_capacity e closed nint (Fin dt) aet (Fin w) precip wfd head = Ok q /\ (i = Fin 0 \/ dltb (q * Fin dt)%d i = false).
Proof. exact @insert_any_bounds. Qed.
Print Assumptions C45_infiltration_any_rounding.

(** C45, any rounding: when the capacity is not exceeded all the water infiltrates, to the last bit. *)
Theorem C45_supply_limited_any_rounding :
  forall (fp : Fp) (cfg : Cfg) e closed nint dt aet w precip wfd pm head q, 0 <= w -> 0 < dt ->
  infiltration_capacity e closed nint (Fin dt) aet (Fin w) precip wfd head = Ok q -> below (Fin w) (q * Fin dt)%d ->
  lgar_insert_water e closed nint (Fin dt) aet (Fin w) (Fin 0) precip wfd pm head = Ok (Fin 0, Fin 0, Fin w).
Proof. exact @insert_any_all. Qed.
Print Assumptions C45_supply_limited_any_rounding.

(** Example: a saturated column in binary64 with 2 cm on it; its capacity is 0, 1.5 cm stay and 0.5 cm run off. *)
Example C45_concrete_binary64 : forall cfg : Cfg,
  @lgar_insert_water Binary64.binary64 cfg (c6_env (Fin 10) (Fin 0)) true 120 (Fin 1) (Fin 0) (Fin 2) (Fin 0) (Fin 2) 1 (Fin (3 / 2)) [c6_front] = Ok (Fin (1 / 2), Fin (3 / 2), Fin 0).
Proof. intro cfg. unfold lgar_insert_water. rewrite rn_capacity. cbn [bind]. rewrite rn_partition. reflexivity. Qed.

(** Example: the capacity of an unsaturated column is not exceeded by 1/2 cm. *)
Example C45_concrete_limited : forall cfg : Cfg, exists q, @infiltration_capacity exact cfg ex_env true 120 (Fin 1) (Fin 0) (Fin (1 / 2)) (Fin (1 / 2)) 1 [un_front] = Ok q /\ below (Fin (1 / 2)) (@dmul exact q (Fin 1)).
Proof.
  intro cfg. exists (Fin 1). split; [apply un_capacity_half|]. cbn. unfold below. cbn. unfold Rleb. destruct (Rle_dec _ _); [reflexivity|lra].
Qed.
