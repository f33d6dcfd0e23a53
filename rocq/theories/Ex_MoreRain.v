(** Examples beside the theorems on more rain. *)

From Coq Require Import Reals Lra ZArith List Bool Lia.
From RecordUpdate Require Import RecordSet.
From Verif Require Import Outcome Dbl Types ListOps Soil Giuh Fronts Infil Move State Update Exact Lib Spec_Common Pf_Dbl Pf_Pow Pf_Surface Pf_Infil Pf_Update Pf_Clock Spec_Split Ex_Saturated Ex_Unsaturated Pf_MoreRain.
Import ListNotations.
Import RecordSetNotations.
Open Scope R_scope.

Section Run.
Local Existing Instance exact.
Context {cfg : Cfg}.

(** The saturated column with half a centimetre on it, at most 1.5 cm of ponded water and hourly sub-steps and forcing. *)
Definition more_mb : massbal := ex_mb0 <| mb_on_ts := Fin (1 / 2) |>.
Definition more_start (r : R) : state :=
  ex_state (ex_params 1 1 (3 / 2) 7200 0 0 0 1 1 [Fin (2 / 5)] [Fin 1]) more_mb r None [ex_front] 0.

Lemma more_count : substeps_of (more_start 0) 1.
Proof.
  unfold substeps_of. match goal with |- d2i ?x = _ => change x with (Fin 1 / Fin 1 + lit (1 / 100000000))%d end.
  rewrite div_fin by lra. change (lit (1 / 100000000)) with (Fin (1 / 100000000)). cbn [dadd rnd exact d2i].
  replace (trunc (1 / 1 + 1 / 100000000)) with 1%Z; [reflexivity|]. symmetry. apply trunc_nat; [lia|]. lra.
Qed.

Lemma more_update : forall r, 0 <= r -> exists t b, Update ((more_start 0) <| st_precip := Fin r |>) = Ok t /\ st_out t = Some b /\
  o_in b = Fin 0 /\ o_runoff b = Fin (ex_off (3 / 2) (r / 10 + 1 / 2) / 100) /\ mb_on_ts (st_mb t) = Fin (ex_on (3 / 2) (r / 10 + 1 / 2)).
Proof.
  intros r Hr. change ((more_start 0) <| st_precip := Fin r |>) with (more_start r).
  unfold Update. change (p_invalid (st_p (more_start r))) with false. cbv iota.
  change (update_prologue (more_start r)) with (Ok (more_start r, Fin 0)). cbn [bind].
  change (lgar_calc_mass_bal (p_cum (st_p (more_start r))) (st_head (more_start r))) with (lgar_calc_mass_bal [Fin 0; Fin 100] [ex_front]).
  rewrite ex_mass. cbn [bind].
  change (st_precip (more_start r)) with (Fin r). change (st_pet (more_start r)) with (Fin 0). unfold dgeb. rewrite !leb_t by lra. cbn [cassert bind].
  assert (S : update_steps (more_start r) = Ok (more_start r, Fin 1, 1%Z)).
  { unfold update_steps. change (p_adaptive (st_p (more_start r))) with false. cbv iota zeta. pose proof more_count as C. unfold substeps_of in C.
    match goal with |- context [d2i ?x] => match type of C with d2i ?y = _ => change x with y end end. rewrite C. reflexivity. }
  rewrite S. cbn [bind]. change (Z.to_nat 1) with 1%nat. cbn [subcycle_loop].
  match goal with |- context [substep ?u ?s ?a] => change (substep u s a) with (substep (ex_upar 1 (3 / 2)) (more_start r) (mkAcc (Fin 0) (Fin 0) (Fin 0) (Fin 40) (Fin 0) (Fin (1 / 2)) (Fin 0) (Fin 0))) end.
  unfold more_start at 1. rewrite ex_substep by lra. cbn [bind].
  match goal with |- context [if ?c then Ok ?x else Ok ?x] => replace (if c then Ok x else Ok x) with (Ok x) by (destruct c; reflexivity) end.
  cbn [bind]. unfold finish_update.
  replace (r * (1 / 10) * 1 + 1 / 2) with (r / 10 + 1 / 2) by lra.
  set (w := r / 10 + 1 / 2).
  match goal with |- context [giuh_convolution_integral ?a ?b ?c ?dd] => replace (giuh_convolution_integral a b c dd) with (@Ok (dbl * list dbl) (Fin (ex_off (3 / 2) w), [Fin 0; Fin 0])) end.
  2: { symmetry. reval. feq. }
  cbn [bind].
  match goal with |- context [mb_local ?x] => change (mb_local x) with (Some (Fin 0)) end. cbv iota zeta.
  eexists. eexists. split; [reflexivity|]. split; [reflexivity|]. cbn. split; [f_equal; lra|]. split; [f_equal; lra|reflexivity].
Qed.

Lemma more_concrete : plain (more_start 0) /\ substeps_of (more_start 0) 1 /\ p_timestep (st_p (more_start 0)) = Fin 1 /\ p_pmax (st_p (more_start 0)) = Fin (3 / 2) /\ mb_on_ts (st_mb (more_start 0)) = Fin (1 / 2) /\
  (exists t b, Update ((more_start 0) <| st_precip := Fin 5 |>) = Ok t /\ st_out t = Some b /\ o_in b = Fin 0 /\ o_runoff b = Fin 0 /\ mb_on_ts (st_mb t) = Fin 1) /\
  (exists t b, Update ((more_start 0) <| st_precip := Fin 20 |>) = Ok t /\ st_out t = Some b /\ o_in b = Fin 0 /\ o_runoff b = Fin (1 / 100) /\ mb_on_ts (st_mb t) = Fin (3 / 2)).
Proof.
  split; [repeat split|]. split; [exact more_count|]. split; [reflexivity|]. split; [reflexivity|]. split; [reflexivity|]. split.
  - destruct (more_update 5) as (t & b & H1 & H2 & H3 & H4 & H5); [lra|]. exists t, b. rewrite H4, H5. repeat (split; [assumption|]). unfold ex_off, ex_on, Rmin. destruct (Rle_dec _ _); split; f_equal; lra.
  - destruct (more_update 20) as (t & b & H1 & H2 & H3 & H4 & H5); [lra|]. exists t, b. rewrite H4, H5. repeat (split; [assumption|]). unfold ex_off, ex_on, Rmin. destruct (Rle_dec _ _); split; f_equal; lra.
Qed.

(** At the tie more water lets less in. *)
Lemma more_tie : exists w1 w2 i1 i2 o1 o2, w1 < w2 /\ i2 < i1 /\ i1 = 101 / 100 /\ i2 = 0 /\
  lgar_insert_water ex_env true 120 (Fin 1) (Fin 0) (Fin w1) (Fin 0) (Fin (w1 - 1)) 1 (Fin 2) [un_front] = Ok (Fin 0, Fin o1, Fin i1) /\
  lgar_insert_water ex_env true 120 (Fin 1) (Fin 0) (Fin w2) (Fin 0) (Fin (w2 - 1)) 1 (Fin 2) [un_front] = Ok (Fin 0, Fin o2, Fin i2).
Proof.
  exists 3, (301 / 100), (101 / 100), 0, (199 / 100), (301 / 100). split; [lra|]. split; [lra|]. split; [reflexivity|]. split; [reflexivity|].
  pose proof un_capacity as C. split.
  - unfold lgar_insert_water. replace (Fin 3) with (Fin ((3 - 1) * 1 + 1)) by (f_equal; lra). rewrite capacity_same by lra.
    replace (Fin (301 / 100)) with (Fin (201 / 100 * 1 + 1)) in C by (f_equal; lra). rewrite capacity_same in C by lra. rewrite C. cbn [bind]. unfold surface_partition.
    replace (dfmax (Fin ((3 - 1) * 1 + 1) - Fin (101 / 100) * Fin 1 - Fin 0 * Fin 0)%d (Fin 0)) with (Fin (199 / 100)) by (cbn; unfold Rltb; destruct (Rlt_dec _ _); [lra|f_equal; lra]).
    unfold dgtb. rewrite (ltb_t 0 2), (ltb_t (199 / 100) 2) by lra. rewrite div_fin by lra.
    replace (Fin (101 / 100) * Fin 1 + Fin (0 / 1))%d with (Fin (101 / 100)) by (cbn; f_equal; lra).
    replace (dfmin (Fin ((3 - 1) * 1 + 1)) (Fin (101 / 100))) with (Fin (101 / 100)) by (cbn; unfold Rltb; destruct (Rlt_dec _ _); [lra|reflexivity]).
    cbn. do 3 f_equal. f_equal. lra.
  - unfold lgar_insert_water. replace (301 / 100 - 1) with (201 / 100) by lra. rewrite C. cbn [bind]. rewrite un_partition. reflexivity.
Qed.
End Run.
