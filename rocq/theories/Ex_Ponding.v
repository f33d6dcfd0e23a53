(** Examples beside the theorems on the greatest depth of ponded water. *)

From Coq Require Import Reals Lra ZArith List Bool Lia.
From RecordUpdate Require Import RecordSet.
From Verif Require Import Outcome Dbl Types ListOps Soil Giuh Fronts Infil Move State Update Exact Lib Spec_Common Pf_Dbl Pf_Pow Pf_Surface Pf_Infil Pf_Update Pf_Clock Spec_Split Ex_Saturated Ex_Unsaturated Pf_MoreRain.
Import ListNotations.
Import RecordSetNotations.
Open Scope R_scope.

Section Run.
Local Existing Instance exact.
Context {cfg : Cfg}.

(** The saturated column with half a centimetre on it, hourly sub-steps and forcing, 20 mm/h of rain. *)
Definition po_mb : massbal := mkMB (Fin (1 / 2)) (mb_start ex_mb0) (mb_end ex_mb0) (mb_precip ex_mb0) (mb_in ex_mb0) (mb_on ex_mb0) (mb_runoff ex_mb0) (mb_aet ex_mb0) (mb_pet ex_mb0) (mb_rech ex_mb0) (mb_giuh ex_mb0) (mb_Q ex_mb0) (mb_calib ex_mb0) (mb_local ex_mb0).
Definition po_start (pm : R) : state := ex_state (ex_params 1 1 pm 7200 0 0 0 1 1 [Fin (2 / 5)] [Fin 1]) po_mb 20 None [ex_front] 0.

Lemma po_count : forall pm, substeps_of (po_start pm) 1.
Proof.
  intro pm. unfold substeps_of. match goal with |- d2i ?x = _ => change x with (Fin 1 / Fin 1 + lit (1 / 100000000))%d end.
  rewrite div_fin by lra. change (lit (1 / 100000000)) with (Fin (1 / 100000000)). cbn [dadd rnd exact d2i].
  replace (trunc (1 / 1 + 1 / 100000000)) with 1%Z; [reflexivity|]. symmetry. apply trunc_nat; [lia|]. lra.
Qed.

Lemma po_update : forall pm, 0 <= pm -> exists t b, Update (po_start pm) = Ok t /\ st_out t = Some b /\
  o_in b = Fin 0 /\ o_runoff b = Fin (ex_off pm (5 / 2) / 100) /\ mb_on_ts (st_mb t) = Fin (ex_on pm (5 / 2)).
Proof.
  intros pm Hp.
  unfold Update. change (p_invalid (st_p (po_start pm))) with false. cbv iota.
  change (update_prologue (po_start pm)) with (Ok (po_start pm, Fin 0)). cbn [bind].
  change (lgar_calc_mass_bal (p_cum (st_p (po_start pm))) (st_head (po_start pm))) with (lgar_calc_mass_bal [Fin 0; Fin 100] [ex_front]).
  rewrite ex_mass. cbn [bind].
  change (st_precip (po_start pm)) with (Fin 20). change (st_pet (po_start pm)) with (Fin 0). unfold dgeb. rewrite !leb_t by lra. cbn [cassert bind].
  assert (S : update_steps (po_start pm) = Ok (po_start pm, Fin 1, 1%Z)).
  { unfold update_steps. change (p_adaptive (st_p (po_start pm))) with false. cbv iota zeta. pose proof (po_count pm) as C. unfold substeps_of in C.
    match goal with |- context [d2i ?x] => match type of C with d2i ?y = _ => change x with y end end. rewrite C. reflexivity. }
  rewrite S. cbn [bind]. change (Z.to_nat 1) with 1%nat. cbn [subcycle_loop].
  match goal with |- context [substep ?u ?s ?a] => change (substep u s a) with (substep (ex_upar 1 pm) (po_start pm) (mkAcc (Fin 0) (Fin 0) (Fin 0) (Fin 40) (Fin 0) (Fin (1 / 2)) (Fin 0) (Fin 0))) end.
  unfold po_start at 1. rewrite ex_substep by lra. cbn [bind].
  match goal with |- context [if ?c then Ok ?x else Ok ?x] => replace (if c then Ok x else Ok x) with (Ok x) by (destruct c; reflexivity) end.
  cbn [bind]. unfold finish_update.
  replace (20 * (1 / 10) * 1 + 1 / 2) with (5 / 2) by lra.
  match goal with |- context [giuh_convolution_integral ?a ?b ?c ?dd] => replace (giuh_convolution_integral a b c dd) with (@Ok (dbl * list dbl) (Fin (ex_off pm (5 / 2)), [Fin 0; Fin 0])) end.
  2: { symmetry. reval. feq. }
  cbn [bind].
  match goal with |- context [mb_local ?x] => change (mb_local x) with (Some (Fin 0)) end. cbv iota zeta.
  eexists. eexists. split; [reflexivity|]. split; [reflexivity|]. cbn. split; [f_equal; lra|]. split; [f_equal; lra|reflexivity].
Qed.

Lemma po_concrete : plain (po_start 1) /\ substeps_of (po_start 1) 1 /\ p_timestep (st_p (po_start 1)) = Fin 1 /\ mb_on_ts (st_mb (po_start 1)) = Fin (1 / 2) /\
  (exists t b, Update ((po_start 1) <| st_p := (st_p (po_start 1)) <| p_pmax := Fin 1 |> |>) = Ok t /\ st_out t = Some b /\ o_in b = Fin 0 /\ o_runoff b = Fin (3 / 200) /\ mb_on_ts (st_mb t) = Fin 1) /\
  (exists t b, Update ((po_start 1) <| st_p := (st_p (po_start 1)) <| p_pmax := Fin 2 |> |>) = Ok t /\ st_out t = Some b /\ o_in b = Fin 0 /\ o_runoff b = Fin (1 / 200) /\ mb_on_ts (st_mb t) = Fin 2).
Proof.
  split; [repeat split|]. split; [apply po_count|]. split; [reflexivity|]. split; [reflexivity|]. split.
  - change ((po_start 1) <| st_p := (st_p (po_start 1)) <| p_pmax := Fin 1 |> |>) with (po_start 1).
    destruct (po_update 1) as (t & b & H1 & H2 & H3 & H4 & H5); [lra|]. exists t, b. rewrite H4, H5. repeat (split; [assumption|]). unfold ex_off, ex_on, Rmin. destruct (Rle_dec _ _); split; f_equal; lra.
  - change ((po_start 1) <| st_p := (st_p (po_start 1)) <| p_pmax := Fin 2 |> |>) with (po_start 2).
    destruct (po_update 2) as (t & b & H1 & H2 & H3 & H4 & H5); [lra|]. exists t, b. rewrite H4, H5. repeat (split; [assumption|]). unfold ex_off, ex_on, Rmin. destruct (Rle_dec _ _); split; f_equal; lra.
Qed.

(** An unsaturated column with a capacity of 1.01 cm/h: of 3.01 cm, 1.01 cm go in unless the 2 cm that stay are exactly the greatest depth. *)
Lemma po_insert : forall pm, pm = 0 \/ pm = 1 \/ pm = 2 \/ pm = 3 -> exists q o i,
  lgar_insert_water ex_env true 120 (Fin 1) (Fin 0) (Fin (301 / 100)) (Fin 0) (Fin (201 / 100)) 1 (Fin pm) [un_front] = Ok (Fin q, Fin o, Fin i) /\
  (pm = 0 -> q = 2 /\ o = 0 /\ i = 101 / 100) /\ (pm = 1 -> q = 1 /\ o = 1 /\ i = 101 / 100) /\ (pm = 2 -> q = 0 /\ o = 301 / 100 /\ i = 0) /\ (pm = 3 -> q = 0 /\ o = 2 /\ i = 101 / 100).
Proof.
  intros pm H. unfold lgar_insert_water. rewrite un_capacity. cbn [bind]. unfold surface_partition. rewrite div_fin by lra.
  destruct H as [->|[->|[->| ->]]].
  - exists 2, 0, (101 / 100). split; [|repeat split; lra]. dcrush; try lra; do 2 f_equal; try f_equal; try lra; f_equal; lra.
  - exists 1, 1, (101 / 100). split; [|repeat split; lra]. dcrush; try lra; do 2 f_equal; try f_equal; try lra; f_equal; lra.
  - exists 0, (301 / 100), 0. split; [|repeat split; lra]. dcrush; try lra; do 2 f_equal; try f_equal; try lra; f_equal; lra.
  - exists 0, 2, (101 / 100). split; [|repeat split; lra]. dcrush; try lra; do 2 f_equal; try f_equal; try lra; f_equal; lra.
Qed.
End Run.
