(** More rain on the same soil, for any rounding. *)

From Coq Require Import Reals Lra ZArith List Bool Lia.
From Verif Require Import Outcome Dbl Types ListOps Fronts Infil Lib Spec_Common Spec_RoundMono Pf_Dbl Pf_RoundMono Pf_Ponding2.
Import ListNotations.
Open Scope R_scope.

Section Any.
Context {fp : Fp} {cfg : Cfg}.

(** The water left over when as much as possible has gone in. *)
Definition rest (w : R) (x : dbl) : dbl := dfmax (Fin w - x)%d (Fin 0).

Lemma rnd_sub0 : forall x, (rnd x - Fin 0)%d = rnd x.
Proof. intro x. destruct (rnd x) as [z| | |] eqn:E; try reflexivity. cbn. rewrite Rminus_0_r. eapply rnd_idem. exact E. Qed.
Lemma rest_code : forall w x, dfmax (Fin w - x - Fin 0 * Fin 0)%d (Fin 0) = rest w x.
Proof.
  intros w x. unfold rest. assert (M0 : (Fin 0 * Fin 0)%d = Fin 0) by (cbn; rewrite Rmult_0_l; apply rnd_zero). rewrite M0.
  destruct x as [x| | |]; try reflexivity. cbn [dsub]. rewrite rnd_sub0. reflexivity.
Qed.
Lemma sub_min : forall w x, (Fin w - dfmin (Fin w) x)%d = rest w x.
Proof.
  intros w x. unfold rest. destruct x as [x| | |]; cbn; try reflexivity; try (replace (w - w) with 0 by lra; apply rnd_zero).
  unfold Rltb at 1. destruct (Rlt_dec w x) as [L|L].
  - cbn. replace (w - w) with 0 by lra. rewrite rnd_zero. pose proof (below_rnd (w - x) 0 ltac:(lra)) as B. rewrite rnd_zero in B. destruct (rnd (w - x)) as [z| | |]; try discriminate; [|reflexivity].
    apply below_fin in B. cbn. unfold Rltb. rcases; [reflexivity|]. apply f_equal. lra.
  - cbn. pose proof (below_rnd 0 (w - x) ltac:(lra)) as B. rewrite rnd_zero in B. destruct (rnd (w - x)) as [z| | |]; try discriminate; [|reflexivity].
    apply below_fin in B. cbn. unfold Rltb. rcases; [exfalso; lra|reflexivity].
Qed.
Lemma partition_rest : forall dt w pm q, 0 < dt -> surface_partition (Fin dt) (Fin w) (Fin 0) pm q =
  let x := (q * Fin dt)%d in let t := rest w x in let i := dfmin (Fin w) x in
  if (pm >? Fin 0)%d then if (t <? pm)%d then (Fin 0, t, i) else if (t >? pm)%d then (t - pm, pm, i)%d else (Fin 0, Fin w, Fin 0) else (t, Fin 0, i).
Proof.
  intros dt w pm q Hd. cbv zeta. unfold surface_partition. assert (Z : (Fin 0 / Fin dt)%d = Fin 0). { cbn. destruct (Req_EM_T dt 0); [lra|]. unfold Rdiv. rewrite Rmult_0_l. apply rnd_zero. }
  rewrite Z, mul_stable. pose proof (rest_min (Fin w) (q * Fin dt)%d pm) as RM. rewrite rest_code in *. rewrite sub_min. destruct (pm >? Fin 0)%d.
  - destruct (rest w (q * Fin dt)%d <? pm)%d; [reflexivity|]. destruct (rest w (q * Fin dt)%d >? pm)%d; [|reflexivity]. rewrite RM by reflexivity. reflexivity.
  - destruct (Fin w <? q * Fin dt)%d eqn:L; [|reflexivity]. rewrite <- sub_min. apply f_equal2; [|reflexivity]. apply f_equal2; [|reflexivity].
    destruct (q * Fin dt)%d as [x| | |]; try discriminate; cbn in *; [rewrite L|]; cbn; replace (w - w) with 0 by lra; symmetry; apply rnd_zero.
Qed.

Lemma max0_mono : forall a b, below a b -> below (dfmax a (Fin 0)) (dfmax b (Fin 0)).
Proof.
  intros a b H. destruct a as [a| | |], b as [b| | |]; try discriminate; cbn; try reflexivity; try apply below_fin in H; unfold Rltb; rcases; try apply below_fin; try reflexivity; lra.
Qed.
Lemma rest_mono : forall w w' x, w <= w' -> below (rest w x) (rest w' x).
Proof.
  intros w w' x H. unfold rest. destruct x as [x| | |]; try (apply below_refl; discriminate). apply max0_mono. cbn. apply below_rnd. lra.
Qed.
Lemma rest_nn : forall w x, below (Fin 0) (rest w x).
Proof.
  intros w x. unfold rest. destruct (Fin w - x)%d as [z| | |]; cbn; unfold Rltb; rcases; try reflexivity; apply below_fin; lra.
Qed.
Lemma min_mono : forall w w' x, w <= w' -> below (dfmin (Fin w) x) (dfmin (Fin w') x).
Proof. intros w w' x H. destruct x as [x| | |]; cbn; try reflexivity; unfold Rltb; rcases; try apply below_fin; lra. Qed.

Lemma sub_below : forall a b p, p <> NaN -> p <> PInf -> below p a -> below a b -> (exists z, p = Fin z) -> below (a - p)%d (b - p)%d.
Proof.
  intros a b p N N' A B (z & ->). destruct a as [a| | |], b as [b| | |]; try discriminate; cbn; try reflexivity; try (apply below_fin in B; apply below_rnd; lra).
  destruct (rnd (a - z)) eqn:E; try reflexivity. exfalso. exact (rnd_not_nan _ E).
Qed.

(** Neither of the two leaves exactly the maximum on the surface. *)
Lemma partition_more : forall dt w w' pm q r on i r' on' i', 0 < dt -> w <= w' ->
  surface_partition (Fin dt) (Fin w) (Fin 0) (Fin pm) q = (r, on, i) -> surface_partition (Fin dt) (Fin w') (Fin 0) (Fin pm) q = (r', on', i') ->
  deqb (dfmax (Fin w - q * Fin dt) (Fin 0)) (Fin pm) = false \/ pm <= 0 -> deqb (dfmax (Fin w' - q * Fin dt) (Fin 0)) (Fin pm) = false \/ pm <= 0 ->
  below r r' /\ below on on' /\ below i i'.
Proof.
  intros dt w w' pm q r on i r' on' i' Hd Hw. rewrite !partition_rest by exact Hd. cbv zeta. fold (rest w (q * Fin dt)%d) (rest w' (q * Fin dt)%d). generalize (q * Fin dt)%d. intro x.
  pose proof (rest_mono w w' x Hw) as TM. pose proof (min_mono w w' x Hw) as IM. pose proof (rest_nn w x) as N. pose proof (rest_nn w' x) as N'. intros H H' T T'.
  unfold dgtb in *. change (dltb (Fin 0) (Fin pm)) with (Rltb 0 pm) in *. destruct (Rltb 0 pm) eqn:EP.
  2: { injection H as <- <- <-. injection H' as <- <- <-. split; [exact TM|]. split; [apply below_fin; lra|exact IM]. }
  apply Rltb_true in EP. destruct T as [T|T]; [|lra]. destruct T' as [T'|T']; [|lra]. clear Hd Hw.
  revert TM N N' T T' H H'. generalize (rest w x) (rest w' x). intros t t' TM N N' T T' H H'.
  assert (O : forall d, below (Fin 0) d -> deqb d (Fin pm) = false -> (dltb d (Fin pm) = true /\ below d (Fin pm)) \/ (dltb d (Fin pm) = false /\ dltb (Fin pm) d = true /\ below (Fin pm) d)).
  { intros [d| | |] D E; try discriminate; cbn in *; [|right; auto]. unfold Reqb in E. unfold Rltb. destruct (Req_EM_T d pm); [discriminate E|]. destruct (Rlt_dec d pm); [left; split; [reflexivity|apply below_fin; lra]|].
    right. split; [reflexivity|]. destruct (Rlt_dec pm d); [split; [reflexivity|apply below_fin; lra]|lra]. }
  destruct (O t N T) as [(A & B)|(A & A2 & B)]; rewrite A in H; [|rewrite A2 in H]; apply pair_equal_spec in H as [H <-]; apply pair_equal_spec in H as [<- <-];
    (destruct (O t' N' T') as [(A' & B')|(A' & A2' & B')]; rewrite A' in H'; [|rewrite A2' in H']; apply pair_equal_spec in H' as [H' <-]; apply pair_equal_spec in H' as [<- <-]).
  - split; [apply below_fin; lra|]. split; [exact TM|exact IM].
  - split; [|split; [exact B|exact IM]]. destruct t' as [t'| | |]; try discriminate; [|reflexivity]. apply below_fin in B'. cbn. pose proof (below_rnd 0 (t' - pm) ltac:(lra)) as Q. rewrite rnd_zero in Q. exact Q.
  - exfalso. pose proof (below_trans _ _ _ TM B') as Q. destruct t as [t| | |]; try discriminate. apply below_fin in Q. cbn in A2. apply Rltb_true in A2. lra.
  - split; [|split; [apply below_fin; lra|exact IM]]. eapply sub_below; try discriminate; eauto.
Qed.

(** The capacity depends on the rain only by the water that stood on the surface before it. *)
Lemma insert_more : forall e closed nint dt aet w w' p p' wfd pm head q r on i r' on' i', 0 < dt -> w <= w' ->
  dfmax (Fin w - p * Fin dt) (Fin 0) = dfmax (Fin w' - p' * Fin dt) (Fin 0) ->
  lgar_insert_water e closed nint (Fin dt) aet (Fin w) (Fin 0) p wfd (Fin pm) head = Ok (r, on, i) -> lgar_insert_water e closed nint (Fin dt) aet (Fin w') (Fin 0) p' wfd (Fin pm) head = Ok (r', on', i') ->
  infiltration_capacity e closed nint (Fin dt) aet (Fin w) p wfd head = Ok q ->
  deqb (dfmax (Fin w - q * Fin dt) (Fin 0)) (Fin pm) = false \/ pm <= 0 -> deqb (dfmax (Fin w' - q * Fin dt) (Fin 0)) (Fin pm) = false \/ pm <= 0 ->
  below r r' /\ below on on' /\ below i i'.
Proof.
  intros e closed nint dt aet w w' p p' wfd pm head q r on i r' on' i' Hd Hw E H H' C T T'. unfold lgar_insert_water in H, H'.
  assert (C' : infiltration_capacity e closed nint (Fin dt) aet (Fin w') p' wfd head = Ok q). { rewrite <- C. unfold infiltration_capacity. cbv zeta. rewrite E. reflexivity. }
  rewrite C in H. rewrite C' in H'. cbn [bind] in H, H'. apply Ok_inj in H, H'. exact (partition_more dt w w' pm q r on i r' on' i' Hd Hw H H' T T').
Qed.
End Any.
