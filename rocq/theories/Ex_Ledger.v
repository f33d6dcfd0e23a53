(** Proofs of the examples beside the ledger theorems. *)

From Coq Require Import Reals Lra ZArith List Bool Lia.
From Verif Require Import Outcome Dbl Exact Types Fronts State Update Lib Spec_Common Spec_Update
  Pf_Dbl Pf_Signs Ex_Saturated Ex_NaN.
Import ListNotations.
Open Scope R_scope.

Section Any.
Context {fp : Fp} {cfg : Cfg}.
Lemma outputs_not_negative : forall s0 xs s u ys s',
    signs s0 -> history (fun s => not_negative (c_pmax (st_cal s))) s0 xs s -> executed s u ys s' ->
    p_invalid (st_p s) = false \/ not_negative (st_precip s) ->
    outputs_nn s' /\ not_negative (mb_on_ts (st_mb s')).
Proof.
  intros s0 xs s u ys s' H0 H He Hc. destruct (history_signs _ _ _ H0 H) as [K _]. destruct (update_signs _ _ _ _ K He) as (_ & A & B & _). auto.
Qed.
End Any.

Section Run.
Local Existing Instance exact.

Lemma ex_fresh : fresh ex_start.
Proof. split; [exists 40; split; [apply ex_mass|reflexivity]|]. repeat split; reflexivity. Qed.

Lemma ex_signs : signs ex_start.
Proof. unfold signs, sane. repeat split; try (apply nn_Fin; cbn; lra); repeat constructor; apply nn_Fin; lra. Qed.

Lemma ex_ledger : forall cfg : Cfg,
  fresh ex_start /\ signs ex_start /\ p_invalid (st_p ex_start) = false /\
  history (fun s => not_negative (c_pmax (st_cal s))) ex_start [] ex_start /\
  executed ex_start (ex_upar (1 / 2) (3 / 2)) ex_xs ex_end /\
  Forall (fun x => finite (residual x)) ([] ++ ex_xs) /\ finite (mb_calib (st_mb ex_end)) /\ length ex_xs = 2%nat /\
  mb_precip (st_mb ex_end) = Fin 2 /\ mb_runoff (st_mb ex_end) = Fin (1 / 2) /\ global_error (st_mb ex_end) = Fin 0.
Proof.
  intros cfg. split; [apply ex_fresh|]. split; [apply ex_signs|]. split; [reflexivity|]. split; [constructor|]. split; [apply ex_executed|].
  split; [repeat constructor; exists 0; reflexivity|]. split; [exists 0; reflexivity|].
  split; [reflexivity|]. split; [reflexivity|]. split; [reflexivity|]. cbn. f_equal. lra.
Qed.

Lemma na_refutes : forall cfg : Cfg, (0 < fuel)%nat -> exists s s' o,
    p_invalid (st_p s) = false /\ fresh s /\ Update s = Ok s' /\ st_out s' = Some o /\ o_mb o = NaN /\
    mb_start (st_mb s') = Fin 40 /\ mb_end (st_mb s') = Fin 10.
Proof.
  intros cfg Hf. destruct (na_update Hf) as (s' & o & A & B & C & D & E & _). exists na_start, s', o.
  split; [reflexivity|]. split; [|auto].
  split; [exists 40; split; [apply ex_mass|reflexivity]|]. repeat split; reflexivity.
Qed.

Lemma ex_signs_run : forall cfg : Cfg,
  signs ex_start /\ executed ex_start (ex_upar (1 / 2) (3 / 2)) ex_xs ex_end /\ p_invalid (st_p ex_start) = false.
Proof. intros cfg. split; [apply ex_signs|]. split; [apply ex_executed|reflexivity]. Qed.
End Run.
