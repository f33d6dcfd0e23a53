(** Infiltration is limited by the supply and the capacity after every rounding. *)

From Coq Require Import Reals Lra ZArith List Bool Lia.
From Verif Require Import Outcome Dbl Types ListOps Fronts Infil Lib Spec_Common Spec_RoundMono Pf_Dbl Pf_RoundMono Pf_Ponding2.
Import ListNotations.
Open Scope R_scope.

Section Any.
Context {fp : Fp} {cfg : Cfg}.

Lemma min_supply : forall w x, below (dfmin (Fin w) x) (Fin w) /\ dltb x (dfmin (Fin w) x) = false.
Proof.
  intros w x. destruct x as [x| | |]; cbn; unfold Rltb; rcases; cbn; unfold Rltb; split; try (apply below_fin; lra); try reflexivity; rcases; try reflexivity; exfalso; lra.
Qed.

Lemma insert_any_bounds : forall e closed nint dt aet w precip wfd pm head r on i, 0 <= w -> 0 < dt ->
  lgar_insert_water e closed nint (Fin dt) aet (Fin w) (Fin 0) precip wfd pm head = Ok (r, on, i) ->
  below i (Fin w) /\ exists q, infiltration_capacity e closed nint (Fin dt) aet (Fin w) precip wfd head = Ok q /\ (i = Fin 0 \/ dltb (q * Fin dt)%d i = false).
Proof.
  intros e closed nint dt aet w precip wfd pm head r on i Hw Hd H. unfold lgar_insert_water in H. bind_inv H q EQ. apply Ok_inj in H.
  assert (I : i = snd (surface_partition (Fin dt) (Fin w) (Fin 0) pm q)) by (rewrite H; reflexivity).
  destruct (partition_any dt pm (Fin w) q (Fin 0) Hd) as [E|E]; rewrite <- I in E; rewrite E.
  - split; [apply below_fin; lra|]. exists q. split; [exact EQ|left; reflexivity].
  - destruct (min_supply w (q * Fin dt)%d) as (A & B). split; [exact A|]. exists q. split; [exact EQ|right; exact B].
Qed.

Lemma insert_any_all : forall e closed nint dt aet w precip wfd pm head q, 0 <= w -> 0 < dt ->
  infiltration_capacity e closed nint (Fin dt) aet (Fin w) precip wfd head = Ok q -> below (Fin w) (q * Fin dt)%d ->
  lgar_insert_water e closed nint (Fin dt) aet (Fin w) (Fin 0) precip wfd pm head = Ok (Fin 0, Fin 0, Fin w).
Proof.
  intros e closed nint dt aet w precip wfd pm head q Hw Hd Hq L. unfold lgar_insert_water. rewrite Hq. cbn [bind]. apply f_equal. unfold surface_partition.
  assert (Z : (Fin 0 / Fin dt)%d = Fin 0). { cbn. destruct (Req_EM_T dt 0); [lra|]. unfold Rdiv. rewrite Rmult_0_l. apply rnd_zero. }
  assert (M0 : (Fin 0 * Fin 0)%d = Fin 0) by (cbn; rewrite Rmult_0_l; apply rnd_zero). rewrite Z, M0, mul_stable.
  set (x := (q * Fin dt)%d) in *. clearbody x.
  assert (T : dfmax (Fin w - x - Fin 0)%d (Fin 0) = Fin 0).
  { destruct x as [x| | |]; try discriminate; [|reflexivity]. apply below_fin in L. cbn [dsub]. pose proof (below_rnd (w - x) 0 ltac:(lra)) as B. rewrite rnd_zero in B.
    destruct (rnd (w - x)) as [z| | |]; try discriminate; [|reflexivity]. apply below_fin in B. cbn [dsub]. rewrite Rminus_0_r. pose proof (below_rnd z 0 ltac:(lra)) as C. rewrite rnd_zero in C.
    destruct (rnd z) as [y| | |]; try discriminate; [|reflexivity]. apply below_fin in C. cbn. unfold Rltb. rcases; [reflexivity|]. apply f_equal. lra. }
  assert (V : dfmin (Fin w) x = Fin w).
  { destruct x as [x| | |]; try discriminate; [|reflexivity]. apply below_fin in L. cbn. unfold Rltb. rcases; [reflexivity|]. apply f_equal. lra. }
  assert (D : (Fin w - Fin w)%d = Fin 0) by (cbn; replace (w - w) with 0 by lra; apply rnd_zero).
  rewrite T, V, D. unfold dgtb. destruct (Fin 0 <? pm)%d; [reflexivity|]. destruct (Fin w <? x)%d; reflexivity.
Qed.
End Any.
