(** Proofs of the examples beside the surface-water theorems. *)

From Coq Require Import Reals Lra ZArith List Bool Lia.
From Verif Require Import Outcome Dbl Exact Types Fronts Infil State Update Lib Spec_Common Spec_Column Spec_Update
  Pf_Dbl Pf_Pow Pf_Surface Pf_Infil Pf_Column Ex_Saturated Ex_Unsaturated.
Import ListNotations.
Open Scope R_scope.

Section Run.
Local Existing Instance exact.

Lemma ex_surface : forall cfg : Cfg, exists o,
  p_invalid (st_p ex_start) = false /\ Update ex_start = Ok ex_end /\ mb_on_ts (st_mb ex_start) = Fin 0 /\
  st_out ex_end = Some o /\ o_precip o = Fin (2 / 100) /\ o_in o = Fin 0 /\ o_runoff o = Fin (1 / 200) /\ mb_on_ts (st_mb ex_end) = Fin (3 / 2).
Proof. intros cfg. eexists. split; [reflexivity|]. split; [apply ex_update|]. repeat split; reflexivity. Qed.

Lemma ex_ponding : forall cfg : Cfg,
  executed ex_start (ex_upar (1 / 2) (3 / 2)) ex_xs ex_end /\ length ex_xs = 2%nat /\
  not_negative (p_pmax (st_p ex_end)) /\ p_pmax (st_p ex_end) = Fin (3 / 2) /\ mb_on_ts (st_mb ex_end) = Fin (3 / 2).
Proof. intros cfg. split; [apply ex_executed|]. split; [reflexivity|]. split; [apply nn_Fin; lra|]. split; reflexivity. Qed.

Lemma un_refutes : forall cfg : Cfg, exists s s' : state,
    p_invalid (st_p s) = false /\ Update s = Ok s' /\
    mb_on_ts (st_mb s) = Fin 1 /\ p_pmax (st_p s') = Fin 2 /\ mb_on_ts (st_mb s') = Fin (301 / 100).
Proof.
  intros cfg. destruct un_update as (s' & HU & Hp & Hw). exists un_start, s'. split; [reflexivity|]. split; [assumption|]. split; [reflexivity|]. auto.
Qed.

Lemma ex_column : column ex_env [100] [ex_soil].
Proof.
  split; try reflexivity.
  - cbn. repeat f_equal. ring.
  - intros [|[|k]] s H; cbn in H; try discriminate. injection H as <-. reflexivity.
Qed.

Lemma un_insert : forall cfg : Cfg,
  column ex_env [100] [ex_soil] /\ Forall2 (fun s x => s_theta_e s = Fin x) [ex_soil] [2 / 5] /\
  lgar_calc_mass_bal (e_cum ex_env) [un_front] = Ok (Fin 34) /\ column_capacity [100] [2 / 5] = 40 /\
  lgar_insert_water ex_env true 120 (Fin 1) (Fin 0) (Fin (1 / 2)) (Fin 0) (Fin (1 / 2)) 1 (Fin 0) [un_front] = Ok (Fin 0, Fin 0, Fin (1 / 2)) /\
  lgar_insert_water ex_env true 120 (Fin 1) (Fin 0) (Fin (301 / 100)) (Fin 0) (Fin (201 / 100)) 1 (Fin 0) [un_front] = Ok (Fin 2, Fin 0, Fin (101 / 100)).
Proof.
  intros cfg. split; [apply ex_column|]. split; [repeat constructor|]. split; [apply un_mass|]. split; [cbn; lra|]. split.
  - apply (insert_all _ _ _ _ _ _ _ _ _ _ 1); try lra. apply un_capacity_half.
  - unfold lgar_insert_water. rewrite un_capacity. cbn [bind]. unfold surface_partition.
    unfold dgtb. rewrite (ltb_f 0 0) by lra. rewrite div_fin by lra.
    replace (Fin (101 / 100) * Fin 1 + Fin (0 / 1))%d with (Fin (101 / 100)) by (cbn; f_equal; lra).
    replace (dfmin (Fin (301 / 100)) (Fin (101 / 100))) with (Fin (101 / 100)) by (cbn; unfold Rltb; destruct (Rlt_dec _ _); [lra|reflexivity]).
    rewrite ltb_f by lra. cbn. repeat f_equal. lra.
Qed.
End Run.
