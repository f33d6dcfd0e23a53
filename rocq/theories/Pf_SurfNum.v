(** The surface water is shared out in finite parts, even when the capacity is NaN. *)

From Coq Require Import Reals Lra ZArith List Bool Lia.
From Verif Require Import Outcome Dbl Types ListOps Fronts Infil Lib Spec_Common Spec_RoundMono Pf_Dbl Pf_SoilAny Pf_RoundMono Pf_Ponding2.
Import ListNotations.
Open Scope R_scope.

Section Any.
Context {fp : Fp} {cfg : Cfg}.

(** A part of [w]: finite, not negative, at most [w]. *)
Let part (w : R) (d : dbl) : Prop := exists x, d = Fin x /\ 0 <= x <= w.

Lemma part_rest : forall w v, rnd w = Fin w -> 0 <= v <= w -> part w (Fin w - Fin v)%d.
Proof. intros w v R V. cbn [dsub]. destruct (rnd_between w (w - v) R ltac:(lra)) as (y & E & H). exists y. auto. Qed.

Lemma partition_parts : forall dt w pm q, rnd w = Fin w -> 0 <= w -> 0 < dt -> not_negative q ->
  let '(r, on, i) := surface_partition (Fin dt) (Fin w) (Fin 0) (Fin pm) q in part w r /\ part w on /\ part w i.
Proof.
  intros dt w pm q Rw Hw Hd Hq. unfold surface_partition.
  assert (Z : (Fin 0 / Fin dt)%d = Fin 0). { cbn. destruct (Req_EM_T dt 0); [lra|]. unfold Rdiv. rewrite Rmult_0_l. apply rnd_zero. }
  assert (M0 : (Fin 0 * Fin 0)%d = Fin 0) by (cbn; rewrite Rmult_0_l; apply rnd_zero). rewrite Z, M0, mul_stable.
  assert (P0 : part w (Fin 0)) by (exists 0; split; [reflexivity|lra]). assert (Pw : part w (Fin w)) by (exists w; split; [reflexivity|lra]).
  assert (Ww : (Fin w - Fin w)%d = Fin 0) by (cbn; unfold Rminus; rewrite Rplus_opp_r; apply rnd_zero).
  assert (X : (exists y, (q * Fin dt)%d = Fin y /\ 0 <= y /\ rnd y = Fin y) \/ (q * Fin dt)%d = PInf \/ (q * Fin dt)%d = NaN).
  { destruct q as [x| | |]; try discriminate Hq; [|right; left; cbn; unfold inf_sign; destruct (Rlt_dec 0 dt); [reflexivity|lra]|right; right; reflexivity].
    unfold not_negative in Hq. cbn in Hq. unfold Rltb in Hq. destruct (Rlt_dec x 0) as [|Hx]; [discriminate|]. cbn [dmul]. pose proof (nn_rnd (x * dt) ltac:(nra)) as N. destruct (nn_cases _ N) as [E|(y & E & Hy)]; [right; left; exact E|].
    left. exists y. split; [exact E|]. split; [exact Hy|exact (rnd_idem _ _ E)]. }
  set (x := (q * Fin dt)%d) in *. clearbody x. destruct X as [(y & -> & Hy & Ry)|[->| ->]].
  - assert (D : exists t, (Fin w - Fin y)%d = Fin t /\ t <= w /\ (0 < t -> y < w)).
    { cbn [dsub]. assert (B : below (rnd (w - y)) (Fin w)) by (rewrite <- Rw; apply below_rnd; lra).
      assert (A : below (Fin (- y)) (rnd (w - y))). { assert (E : rnd (- y) = Fin (- y)) by (rewrite rnd_opp, Ry; reflexivity). rewrite <- E. apply below_rnd. lra. }
      destruct (rnd (w - y)) as [t| | |] eqn:E; try discriminate. exists t. split; [reflexivity|]. split; [apply below_fin; exact B|]. intro T.
      destruct (Rlt_or_le y w) as [|C]; [assumption|]. pose proof (below_rnd (w - y) 0 ltac:(lra)) as F. rewrite rnd_zero, E in F. apply below_fin in F. lra. }
    destruct D as (t & Et & Ht & Hyw). assert (Rt : rnd t = Fin t) by (cbn [dsub] in Et; exact (rnd_idem _ _ Et)). rewrite Et.
    assert (T : (Fin t - Fin 0)%d = Fin t) by (cbn; rewrite Rminus_0_r; exact Rt). rewrite T.
    assert (U : exists u, dfmax (Fin t) (Fin 0) = Fin u /\ 0 <= u <= w /\ (0 < u -> y < w)).
    { cbn. unfold Rltb. destruct (Rlt_dec t 0); [exists 0; split; [reflexivity|]; split; lra|]. exists t. split; [reflexivity|]. split; [lra|exact Hyw]. }
    destruct U as (u & -> & Hu & Huw).
    assert (V : exists v, dfmin (Fin w) (Fin y) = Fin v /\ 0 <= v <= w) by (cbn; unfold Rltb; destruct (Rlt_dec w y); eexists; (split; [reflexivity|lra])).
    destruct V as (v & -> & Hv). destruct (Fin pm >? Fin 0)%d eqn:Hpm.
    + unfold dgtb in Hpm. cbn in Hpm. apply Rltb_true in Hpm. destruct (Fin u <? Fin pm)%d eqn:L1; [split; [exact P0|]; split; [apply part_rest; assumption|exists v; auto]|].
      destruct (Fin u >? Fin pm)%d eqn:L2; [|split; [exact P0|]; split; assumption]. unfold dgtb in L2. cbn in L2. apply Rltb_true in L2.
      split; [cbn [dsub]; destruct (rnd_between w (u - pm) Rw ltac:(lra)) as (z & E & H); exists z; auto|]. split; [exists pm; split; [reflexivity|lra]|]. exists y. split; [reflexivity|]. pose proof (Huw ltac:(lra)). lra.
    + split; [destruct (Fin w <? Fin y)%d; [exact P0|apply part_rest; assumption]|]. split; [exact P0|exists v; auto].
  - change (Fin w - PInf)%d with NInf. change (NInf - Fin 0)%d with NInf. change (dfmax NInf (Fin 0)) with (Fin 0). change (dfmin (Fin w) PInf) with (Fin w). rewrite Ww. change (Fin w <? PInf)%d with true.
    destruct (Fin pm >? Fin 0)%d eqn:Hp; [|auto]. unfold dgtb in Hp. rewrite Hp. auto.
  - change (Fin w - NaN)%d with NaN. change (NaN - Fin 0)%d with NaN. change (dfmax NaN (Fin 0)) with (Fin 0). change (dfmin (Fin w) NaN) with (Fin w). rewrite Ww. change (Fin w <? NaN)%d with false.
    destruct (Fin pm >? Fin 0)%d eqn:Hp; [|auto]. unfold dgtb in Hp. rewrite Hp. auto.
Qed.

Lemma insert_parts : forall e closed nint dt aet w precip wfd pm head q, rnd w = Fin w -> 0 <= w -> 0 < dt ->
  infiltration_capacity e closed nint (Fin dt) aet (Fin w) precip wfd head = Ok q -> not_negative q ->
  exists r on i, lgar_insert_water e closed nint (Fin dt) aet (Fin w) (Fin 0) precip wfd (Fin pm) head = Ok (Fin r, Fin on, Fin i) /\ 0 <= r <= w /\ 0 <= on <= w /\ 0 <= i <= w.
Proof.
  intros e closed nint dt aet w precip wfd pm head q Rw Hw Hd Q N. unfold lgar_insert_water. rewrite Q. cbn [bind]. pose proof (partition_parts dt w pm q Rw Hw Hd N) as P.
  destruct (surface_partition _ _ _ _ _) as ((r, on), i). destruct P as ((x & -> & Hx) & (y & -> & Hy) & (z & -> & Hz)). exists x, y, z. auto.
Qed.
Lemma nan_all : forall e closed nint dt aet w precip wfd pm head, 0 < dt ->
  infiltration_capacity e closed nint (Fin dt) aet (Fin w) precip wfd head = Ok NaN ->
  lgar_insert_water e closed nint (Fin dt) aet (Fin w) (Fin 0) precip wfd (Fin pm) head = Ok (Fin 0, Fin 0, Fin w).
Proof.
  intros e closed nint dt aet w precip wfd pm head Hd Q. unfold lgar_insert_water. rewrite Q. cbn [bind]. apply f_equal. unfold surface_partition.
  assert (Ww : (Fin w - Fin w)%d = Fin 0) by (cbn; unfold Rminus; rewrite Rplus_opp_r; apply rnd_zero).
  change (NaN * Fin dt)%d with NaN. change (NaN + Fin 0 / Fin dt)%d with NaN. change (Fin w - NaN)%d with NaN. change (NaN - Fin 0 * Fin 0)%d with NaN.
  change (dfmax NaN (Fin 0)) with (Fin 0). change (dfmin (Fin w) NaN) with (Fin w). rewrite Ww. change (Fin w <? NaN)%d with false.
  destruct (Fin pm >? Fin 0)%d eqn:Hp; [|reflexivity]. unfold dgtb in Hp. rewrite Hp. reflexivity.
Qed.
End Any.
