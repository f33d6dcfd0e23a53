(** Lemmas on the layers of the column. *)

From Coq Require Import Reals Lra ZArith List Bool Lia.
From Verif Require Import Outcome Dbl Exact Types Infil Lib Spec_Common Spec_Column Pf_Dbl.
Import ListNotations.
Open Scope R_scope.

Lemma boundaries_nth : forall ts z k, (k <= length ts)%nat -> nth_error (boundaries z ts) k = Some (z + Rsum (firstn k ts)).
Proof.
  induction ts as [|t r IH]; intros z [|k] H; cbn in *; try lia.
  - f_equal. ring.
  - f_equal. ring.
  - rewrite IH by lia. f_equal. ring.
Qed.

Lemma boundaries_length : forall ts z, length (boundaries z ts) = S (length ts).
Proof. induction ts; intros z; cbn; auto. Qed.

Lemma firstn_sum_S : forall ts k, (k < length ts)%nat -> Rsum (firstn (S k) ts) = Rsum (firstn k ts) + nth k ts 0.
Proof.
  induction ts as [|t r IH]; intros [|k] H; cbn [length] in *; try lia; [cbn; ring|].
  change (t + Rsum (firstn (S k) r) = t + Rsum (firstn k r) + nth k r 0). rewrite IH by lia. ring.
Qed.

Lemma column_cum : forall e ts ss k, column e ts ss -> (k <= length ts)%nat ->
  aget (e_cum e) (Z.of_nat k) = Ok (Fin (Rsum (firstn k ts))).
Proof.
  intros e ts ss k C H. rewrite (col_cum _ _ _ C). apply aget_Ok. split; [lia|]. rewrite Nat2Z.id.
  rewrite nth_error_map, boundaries_nth by assumption. cbn. do 2 f_equal. ring.
Qed.

Lemma Rsum_app : forall a b, Rsum (a ++ b) = Rsum a + Rsum b.
Proof. induction a as [|x a IH]; intros b; cbn; [ring|rewrite IH; ring]. Qed.

Lemma zfor_sum : forall n i (body : Z -> dbl -> outcome dbl) (f : nat -> R) a,
  (forall k x, (k < n)%nat -> body (i + Z.of_nat k)%Z (Fin x) = Ok (Fin (x + f k))) ->
  zfor i n body (Fin a) = Ok (Fin (a + Rsum (map f (seq 0 n)))).
Proof.
  induction n as [|n IH]; intros i body f a H.
  - cbn. do 2 f_equal. ring.
  - cbn [zfor]. rewrite <- (Z.add_0_r i) at 1. change 0%Z with (Z.of_nat 0). rewrite H by lia. cbn [bind].
    rewrite (IH _ _ (fun k => f (S k))).
    + cbn [seq map Rsum]. rewrite <- seq_shift, map_map. do 2 f_equal. ring.
    + intros k x Hk. replace (i + 1 + Z.of_nat k)%Z with (i + Z.of_nat (S k))%Z by lia. apply H. lia.
Qed.

Section Exactly.
Local Existing Instance exact.

Lemma max_storage_is : forall e ts ss tes, column e ts ss -> Forall2 (fun s x => s_theta_e s = Fin x) ss tes ->
  max_storage e = Ok (Fin (column_capacity ts tes)).
Proof.
  intros e ts ss tes C F. unfold max_storage, column_capacity. rewrite (col_n _ _ _ C), Nat2Z.id.
  rewrite (zfor_sum _ _ _ (fun k => nth k tes 0 * nth k ts 0)); [do 2 f_equal; ring|].
  intros k x Hk. destruct (nth_error ss k) as [s|] eqn:E.
  2: { apply nth_error_None in E. rewrite (col_ss _ _ _ C) in E. lia. }
  replace (1 + Z.of_nat k)%Z with (Z.of_nat (S k)) by lia. rewrite (col_soil _ _ _ C _ _ E). cbn [bind].
  rewrite (column_cum _ _ _ _ C) by lia. cbn [bind].
  replace (Z.of_nat (S k) - 1)%Z with (Z.of_nat k) by lia. rewrite (column_cum _ _ _ _ C) by lia. cbn [bind].
  assert (T : s_theta_e s = Fin (nth k tes 0)).
  { clear - F E. revert k E. induction F as [|s0 x0 ss tes H F IH]; intros [|k] E; cbn in *; try discriminate; [congruence|]. apply IH. assumption. }
  rewrite T, firstn_sum_S by lia. cbn. do 2 f_equal. ring.
Qed.
End Exactly.
