(** C62: the main loop of the motion. *)

From Coq Require Import Reals Lra ZArith List Lia Bool.
From Verif Require Import Outcome Dbl Exact Types ListOps Soil Fronts Infil Move Lib Spec_Common Spec_List Spec_Profile Spec_Advance
  Pf_Advance Ex_Saturated Ex_Unsaturated Ex_Safety Ex_Advance.
Import ListNotations.
Open Scope R_scope.

(** ** C62 *)

(** When the loop over the fronts ends, every front has gone down by its velocity times the length of the step, those at a layer boundary have stayed there, and
    the heads on both sides of a boundary are equal; for every rounding. *)
Theorem C62_fronts_advance :
  forall (fp : Fp) (cfg : Cfg) (e : env) (dt precip : dbl) (wfd : Z) (prev head : list front) (aet : dbl) (l' : list front) (aet' : dbl),
    sound_env e -> profile (e_nlayers e) (e_cum e) head -> deepest_rests head -> numbered prev -> length prev = length head -> finite dt ->
    move_loop (length head) e dt precip wfd prev (listLength head) head aet = Ok (l', aet') ->
    Forall2 (travelled e dt) head l' /\ heads_meet e l'.
Proof. exact @loop_advances. Qed.
Print Assumptions C62_fronts_advance.

Local Existing Instance exact.

(** A front in the second layer, at 1 cm/h for two hours. *)
Example C62_concrete :
  sound_env ti_env /\ profile (e_nlayers ti_env) (e_cum ti_env) ad_head /\ deepest_rests ad_head /\ numbered ad_head /\
  forall cfg : Cfg, move_loop (length ad_head) ti_env (Fin 2) (Fin 0) 1 ad_head (listLength ad_head) ad_head (Fin 0) = Ok (ad_after, Fin 0).
Proof.
  split; [exact ti_env_sound|]. split; [exact ad_profile|]. split; [intros f E; injection E as <-; reflexivity|].
  split; [exact (prof_num _ _ _ ad_profile)|]. exact ad_moves.
Qed.
