(** Proofs about the GIUH convolution. *)

From Coq Require Import Reals Lra ZArith List Bool Lia.
From Verif Require Import Outcome Dbl Exact Types ListOps Giuh Lib.
Import ListNotations.

Section Any.
Context {fp : Fp}.

(** One entry per ordinate: queue entry plus ordinate times runoff. *)
Fixpoint conv_add (r : dbl) (ord q : list dbl) : list dbl :=
  match ord, q with
  | o :: ord', x :: q' => dadd x (dmul o r) :: conv_add r ord' q'
  | _, _ => []
  end.

Lemma conv_add_length : forall r ord q, length ord = length q -> length (conv_add r ord q) = length q.
Proof. induction ord as [|o ord IH]; intros [|x q] H; simpl in *; try discriminate; auto. Qed.

Lemma add_loop : forall r ord q i done odone tail,
  length ord = length q -> i = Z.of_nat (length done) -> length odone = length done ->
  zfor i (length q) (fun i q => bind (aget q i) (fun x => bind (aget (odone ++ ord) i) (fun o => aset q i (dadd x (dmul o r)))))
    (done ++ q ++ tail)
  = Ok (done ++ conv_add r ord q ++ tail).
Proof.
  induction ord as [|o ord IH]; intros [|x q] i done odone tail Hl Hi Ho; simpl in Hl; try discriminate.
  - reflexivity.
  - cbn [length zfor app conv_add].
    rewrite (aget_app _ done (q ++ tail) x i Hi). cbn [bind].
    rewrite (aget_app _ odone ord o i) by lia. cbn [bind].
    rewrite (aset_app _ done (q ++ tail) x _ i Hi). cbn [bind].
    specialize (IH q (i + 1)%Z (done ++ [dadd x (dmul o r)]) (odone ++ [o]) tail).
    rewrite <- !app_assoc in IH. cbn [app] in IH.
    rewrite IH.
    + reflexivity.
    + lia.
    + rewrite app_length. simpl. lia.
    + rewrite !app_length. simpl. lia.
Qed.

Lemma shift_loop : forall (q : list dbl) i (done : list dbl) (x : dbl) (tail : list dbl),
  i = Z.of_nat (S (length done)) ->
  zfor i (length q) (fun i q => bind (aget q i) (fun y => aset q (i - 1)%Z y)) (done ++ x :: q ++ tail)
  = Ok (done ++ q ++ last (x :: q) x :: tail).
Proof.
  induction q as [|y q IH]; intros i done x tail Hi.
  - reflexivity.
  - cbn [length zfor app].
    assert (G : aget (done ++ x :: y :: q ++ tail) i = Ok y).
    { change (x :: y :: q ++ tail) with ([x] ++ y :: q ++ tail). rewrite app_assoc.
      apply aget_app. rewrite app_length. simpl. lia. }
    rewrite G. cbn [bind].
    rewrite (aset_app _ done (y :: q ++ tail) x y (i - 1)%Z) by lia. cbn [bind].
    specialize (IH (i + 1)%Z (done ++ [y]) y tail).
    rewrite <- !app_assoc in IH. cbn [app] in IH.
    rewrite IH by (rewrite app_length; simpl; lia).
    assert (D : forall (z : dbl) l a b, last (z :: l) a = last (z :: l) b).
    { clear. intros z l; revert z; induction l as [|w l IH]; intros; [reflexivity|]. exact (IH w a b). }
    change (last (x :: y :: q) x) with (last (y :: q) x). rewrite (D y q y x). reflexivity.
Qed.

(** The call in closed form: queue [q] of N entries (plus a spare one), as many ordinates. *)
Lemma giuh_closed : forall r o ord x q e,
  length ord = length q ->
  giuh_convolution_integral r (Z.of_nat (length (x :: q))) (o :: ord) (x :: q ++ [e])
  = Ok (dadd x (dmul o r), conv_add r ord q ++ [Fin 0; Fin 0]).
Proof.
  intros r o ord x q e Hl. unfold giuh_convolution_integral.
  assert (E : aset (x :: q ++ [e]) (Z.of_nat (length (x :: q))) (Fin 0) = Ok (x :: q ++ [Fin 0])).
  { change (x :: q ++ [e]) with ((x :: q) ++ [e]). rewrite (aset_app _ (x :: q) [] e); reflexivity. }
  rewrite E. cbn [bind]. rewrite Nat2Z.id.
  pose proof (add_loop r (o :: ord) (x :: q) 0%Z [] [] [Fin 0]) as A.
  cbn [app] in A. rewrite A by (simpl; lia). clear A. cbn [bind conv_add].
  replace (aget ((dadd x (dmul o r) :: conv_add r ord q) ++ [Fin 0]) 0%Z) with (Ok (dadd x (dmul o r)) : outcome dbl)
    by reflexivity.
  cbn [bind].
  replace (Z.to_nat (Z.of_nat (length (x :: q)) - 1)) with (length (conv_add r ord q))
    by (rewrite conv_add_length by assumption; simpl length; lia).
  pose proof (shift_loop (conv_add r ord q) 1%Z [] (dadd x (dmul o r)) [Fin 0]) as S. cbn [app] in S.
  cbn [app]. rewrite S by reflexivity. clear S. cbn [bind].
  rewrite (aset_app _ (conv_add r ord q) [Fin 0]) by (rewrite conv_add_length by assumption; simpl length; lia).
  reflexivity.
Qed.

(** With no ordinates the last write is out of bounds. *)
Lemma giuh_zero_UB : forall r ord q, giuh_convolution_integral r 0 ord q = Stop (UB OutOfBounds).
Proof.
  intros. unfold giuh_convolution_integral.
  destruct (aset q 0 (Fin 0)) as [q'|u] eqn:E; cbn [bind Z.to_nat zfor].
  - apply aset_Ok in E. destruct E as [E ->].
    destruct q as [|x q]; [simpl in E; lia|]. reflexivity.
  - destruct q; simpl in E; [|discriminate]. unfold aset in E. simpl in E. injection E as <-. reflexivity.
Qed.

End Any.

From Verif Require Import Spec_Common Spec_Giuh.
Open Scope R_scope.

Fixpoint conv_addR (r : R) (ord q : list R) : list R :=
  match ord, q with
  | o :: ord', x :: q' => x + o * r :: conv_addR r ord' q'
  | _, _ => []
  end.

Lemma conv_add_Fin : forall r ord q,
  @conv_add exact (Fin r) (map Fin ord) (map Fin q) = map Fin (conv_addR r ord q).
Proof. induction ord as [|o ord IH]; intros [|x q]; simpl; try reflexivity. rewrite IH. reflexivity. Qed.

Lemma conv_addR_length : forall r ord q, length ord = length q -> length (conv_addR r ord q) = length q.
Proof. induction ord as [|o ord IH]; intros [|x q] H; simpl in *; try discriminate; auto. Qed.

Lemma conv_addR_sum : forall r ord q, length ord = length q -> Rsum (conv_addR r ord q) = Rsum q + r * Rsum ord.
Proof.
  induction ord as [|o ord IH]; intros [|x q] H; simpl in *; try discriminate; [lra|].
  rewrite IH by lia. lra.
Qed.

Lemma Rsum_app : forall a b, Rsum (a ++ b) = Rsum a + Rsum b.
Proof. induction a; intros; simpl; [lra|rewrite IHa; lra]. Qed.

Lemma nth_conv_addR : forall r ord q j, length ord = length q ->
  nth j (conv_addR r ord q) 0 = nth j q 0 + nth j ord 0 * r.
Proof.
  induction ord as [|o ord IH]; intros [|x q] j H; simpl in *; try discriminate.
  - destruct j; lra.
  - destruct j; [reflexivity|]. apply IH. lia.
Qed.

(** A queue of N+1 entries, seen as first entry, N-1 further ones and the spare one. *)
Lemma queue_split : forall (ord q : list R), (1 <= length ord)%nat -> length q = S (length ord) ->
  exists o ord' x q' e, ord = o :: ord' /\ q = x :: q' ++ [e] /\ length ord' = length q'.
Proof.
  intros [|o ord] q H1 H2; simpl in H1; [lia|].
  destruct q as [|x q]; simpl in H2; [lia|].
  destruct (exists_last (l := q)) as [q' [e ->]]; [intro; subst; simpl in H2; lia|].
  exists o, ord, x, q', e. rewrite app_length in H2. simpl in H2. repeat split; lia.
Qed.

(** One call on a finite queue. *)
Lemma giuh_exact_step : forall r ord q,
  (1 <= length ord)%nat -> length q = S (length ord) ->
  exists out q',
    @giuh_convolution_integral exact (Fin r) (Z.of_nat (length ord)) (map Fin ord) (map Fin q) = Ok (Fin out, map Fin q')
    /\ length q' = length q
    /\ out = nth 0 q 0 + nth 0 ord 0 * r
    /\ (forall j, (j < length ord)%nat ->
          nth j q' 0 = (if (S j <? length ord)%nat then nth (S j) q 0 + nth (S j) ord 0 * r else 0))
    /\ nth (length ord) q' 0 = 0
    /\ out + Rsum q' = Rsum (firstn (length ord) q) + r * Rsum ord.
Proof.
  intros r ord q H1 H2.
  destruct (queue_split ord q H1 H2) as (o & ord' & x & q' & e & -> & -> & Hl).
  exists (x + o * r), (conv_addR r ord' q' ++ [0; 0]).
  repeat split.
  - pose proof (@giuh_closed exact (Fin r) (Fin o) (map Fin ord') (Fin x) (map Fin q') (Fin e)) as G.
    rewrite !map_length in G. specialize (G Hl).
    rewrite conv_add_Fin in G.
    cbn [map length] in *. rewrite map_length in G. rewrite map_app. cbn [map].
    rewrite Hl. rewrite G. cbn. rewrite map_app. reflexivity.
  - rewrite app_length, conv_addR_length by assumption. simpl. rewrite app_length. simpl. lia.
  - intros j Hj. simpl in Hj. cbn [length].
    change (S j <? S (length ord'))%nat with (j <? length ord')%nat.
    destruct (Nat.ltb_spec j (length ord')).
    + rewrite app_nth1 by (rewrite conv_addR_length; lia).
      rewrite nth_conv_addR by assumption. cbn [nth app]. rewrite app_nth1 by lia. reflexivity.
    + rewrite app_nth2 by (rewrite conv_addR_length; lia). rewrite conv_addR_length by assumption.
      replace (j - length q')%nat with 0%nat by lia. reflexivity.
  - rewrite app_nth2 by (rewrite conv_addR_length; simpl; lia).
    rewrite conv_addR_length by assumption. cbn [length].
    replace (S (length ord') - length q')%nat with 1%nat by lia. reflexivity.
  - rewrite Rsum_app, conv_addR_sum by assumption.
    cbn [length firstn Rsum]. rewrite Hl. rewrite firstn_app, firstn_all, Nat.sub_diag. cbn [firstn].
    rewrite app_nil_r. lra.
Qed.

Lemma convolution_S : forall ord r rs t,
  convolution ord (r :: rs) (S t) = nth (S t) ord 0 * r + convolution ord rs t.
Proof.
  intros. unfold convolution. rewrite tech5.
  rewrite Nat.sub_diag. cbn [nth].
  rewrite (sum_eq (fun i => nth i ord 0 * nth (S t - i) (r :: rs) 0) (fun i => nth i ord 0 * nth (t - i) rs 0)).
  - rewrite Rplus_comm. reflexivity.
  - intros i Hi. rewrite Nat.sub_succ_l by lia. reflexivity.
Qed.

(** Successive calls: outputs are the initial queue shifted plus the convolution. *)
Lemma giuh_calls_exact : forall ord, (1 <= length ord)%nat -> forall rs q, length q = S (length ord) ->
  exists outs q',
    @giuh_calls exact (Z.of_nat (length ord)) (map Fin ord) (map Fin q) (map Fin rs) = Ok (map Fin outs, map Fin q')
    /\ length outs = length rs
    /\ length q' = S (length ord)
    /\ (forall t, (t < length rs)%nat ->
          nth t outs 0 = nth t (firstn (length ord) q) 0 + convolution ord rs t)
    /\ Rsum outs + Rsum (firstn (length ord) q') = Rsum (firstn (length ord) q) + Rsum rs * Rsum ord
    /\ (forall j, (j < length ord)%nat -> (length ord <= j + length rs)%nat -> Forall (fun r => r = 0) rs -> nth j q' 0 = 0).
Proof.
  intros ord Hord. induction rs as [|r rs IH]; intros q Hq.
  - exists [], q. simpl. repeat split; auto; try lia; try lra.
  - destruct (giuh_exact_step r ord q Hord Hq) as (out & q1 & E & Hl1 & Hout & Hnth & Hlast & Hsum).
    destruct (IH q1) as (outs & q' & E' & Hlo & Hlq & Hconv & Hs & Hz); [lia|].
    exists (out :: outs), q'.
    split.
    { cbn [map giuh_calls]. rewrite E. cbn [bind]. rewrite E'. reflexivity. }
    split; [simpl; lia|]. split; [assumption|].
    assert (F1 : forall j, nth j (firstn (length ord) q1) 0 = nth (S j) (firstn (length ord) q) 0 + nth (S j) ord 0 * r).
    { intro j.
      assert (N : forall (l : list R) n k, nth k (firstn n l) 0 = if (k <? n)%nat then nth k l 0 else 0).
      { clear. induction l as [|a l IHl]; intros [|n] [|k]; simpl; auto.
        - destruct (S k <? S n)%nat; auto.
        - rewrite IHl. reflexivity. }
      rewrite !N.
      destruct (Nat.ltb_spec j (length ord)).
      - rewrite Hnth by assumption. destruct (Nat.ltb_spec (S j) (length ord)); [reflexivity|].
        rewrite (nth_overflow ord) by lia. lra.
      - destruct (Nat.ltb_spec (S j) (length ord)); [lia|]. rewrite (nth_overflow ord) by lia. lra. }
    split; [|split].
    + intros [|t] Ht; cbn [nth].
      * rewrite Hout. unfold convolution. cbn [sum_f_R0 Nat.sub nth].
        destruct ord; simpl in Hord; [lia|]. destruct q; simpl in Hq; [lia|]. cbn. lra.
      * rewrite Hconv by (simpl in Ht; lia). rewrite F1. rewrite convolution_S. lra.
    + assert (S1 : Rsum (firstn (length ord) q1) = Rsum q1).
      { rewrite <- (firstn_skipn (length ord) q1) at 2. rewrite Rsum_app.
        assert (L : length (skipn (length ord) q1) = 1%nat) by (rewrite skipn_length; lia).
        destruct (skipn (length ord) q1) as [|z [|]] eqn:Sk; simpl in L; try lia.
        assert (z = 0).
        { rewrite <- Hlast. rewrite <- (firstn_skipn (length ord) q1), Sk.
          rewrite app_nth2; rewrite firstn_length_le by lia; [|lia]. rewrite Nat.sub_diag. reflexivity. }
        subst. simpl. lra. }
      cbn [Rsum]. rewrite S1 in Hs. lra.
    + intros j Hj Hlen Hall. inversion Hall as [|r' rs' -> Hall']; subst.
      destruct (le_lt_dec (length ord) (j + length rs)).
      * apply Hz; assumption.
      * simpl in Hlen. 
        (* exactly one call too few: follow the entry *)
        clear Hz.
        assert (K : forall rs q q' outs, length q = S (length ord) -> Forall (fun r => r = 0) rs ->
           @giuh_calls exact (Z.of_nat (length ord)) (map Fin ord) (map Fin q) (map Fin rs) = Ok (map Fin outs, map Fin q') ->
           forall j, (j < length ord)%nat -> nth j q' 0 = if (j + length rs <? length ord)%nat then nth (j + length rs) q 0 else 0).
        { clear - Hord. induction rs as [|r rs IHr]; intros q q' outs Hq Hall E j Hj.
          - simpl in E. injection E as _ E.
            assert (q = q'). { revert q' E. clear. induction q; intros [|b q'] E; simpl in E; try discriminate; auto.
              injection E as -> E. f_equal. auto. } subst.
            simpl. rewrite Nat.add_0_r. destruct (Nat.ltb_spec j (length ord)); [reflexivity|lia].
          - inversion Hall as [|r' rs' -> Hall']; subst.
            destruct (giuh_exact_step 0 ord q Hord Hq) as (out & q1 & E1 & Hl1 & Hout & Hnth & Hlast & Hsum).
            cbn [map giuh_calls] in E. rewrite E1 in E. cbn [bind] in E.
            destruct (giuh_calls (Z.of_nat (length ord)) (map Fin ord) (map Fin q1) (map Fin rs)) as [[os qq]|] eqn:E2; [|discriminate].
            cbn [bind] in E. injection E as Eo Eq. subst qq.
            destruct outs as [|o' outs]; [discriminate|]. simpl in Eo. injection Eo as _ ->.
            rewrite (IHr q1 q' outs) by (assumption || lia).
            simpl length. rewrite Nat.add_succ_r.
            destruct (Nat.ltb_spec (j + length rs) (length ord)).
            + rewrite Hnth by lia. destruct (Nat.ltb_spec (S (j + length rs)) (length ord)); [lra|reflexivity].
            + destruct (Nat.ltb_spec (S (j + length rs)) (length ord)); [lia|reflexivity]. }
        rewrite (K rs q1 q' outs ltac:(lia) Hall' E' j Hj).
        destruct (Nat.ltb_spec (j + length rs) (length ord)); [|reflexivity].
        rewrite Hnth by lia. destruct (Nat.ltb_spec (S (j + length rs)) (length ord)); [lia|reflexivity].
Qed.

Lemma giuh_safe : forall (fp : Fp) (r : dbl) (ord queue : list dbl),
    (1 <= length ord)%nat -> length queue = S (length ord) ->
    exists out queue',
      giuh_convolution_integral r (Z.of_nat (length ord)) ord queue = Ok (out, queue') /\ length queue' = length queue.
Proof.
  intros fp r [|o ord] q H1 H2; simpl in H1; [lia|].
  destruct q as [|x q]; simpl in H2; [lia|].
  destruct (exists_last (l := q)) as [q' [e ->]]; [intro; subst; simpl in H2; lia|].
  rewrite app_length in H2. simpl in H2.
  assert (Hl : length ord = length q') by lia.
  exists (dadd x (dmul o r)), (conv_add r ord q' ++ [Fin 0; Fin 0]). split.
  - rewrite <- (giuh_closed r o ord x q' e Hl). simpl length. rewrite Hl. reflexivity.
  - rewrite app_length, conv_add_length by assumption. simpl. rewrite app_length. simpl. lia.
Qed.

Lemma giuh_conserves : forall ord queue runoffs : list R,
    (1 <= length ord)%nat -> length queue = S (length ord) ->
    exists outs queue',
      @giuh_calls exact (Z.of_nat (length ord)) (map Fin ord) (map Fin queue) (map Fin runoffs)
        = Ok (map Fin outs, map Fin queue')
      /\ length outs = length runoffs /\ length queue' = length queue
      /\ Rsum outs + Rsum (firstn (length ord) queue')
         = Rsum (firstn (length ord) queue) + Rsum runoffs * Rsum ord.
Proof.
  intros ord q rs H1 H2. destruct (giuh_calls_exact ord H1 rs q H2) as (outs & q' & E & L1 & L2 & _ & S & _).
  exists outs, q'. rewrite H2. auto.
Qed.

Lemma Rsum_repeat0 : forall n, Rsum (repeat 0 n) = 0.
Proof. induction n; simpl; lra. Qed.

Lemma firstn_repeat : forall n m, (n <= m)%nat -> firstn n (repeat 0 m) = repeat 0 n.
Proof. induction n; intros [|m] H; simpl; auto; try lia. f_equal. apply IHn. lia. Qed.

Lemma nth_repeat0 : forall n k, nth k (repeat 0 n) 0 = 0.
Proof. induction n; intros [|k]; simpl; auto. Qed.

Lemma giuh_unit : forall ord runoffs : list R,
    (1 <= length ord)%nat -> Rsum ord = 1 ->
    exists outs queue',
      @giuh_calls exact (Z.of_nat (length ord)) (map Fin ord) (map Fin (repeat 0 (S (length ord)))) (map Fin runoffs)
        = Ok (map Fin outs, map Fin queue')
      /\ Rsum outs + Rsum (firstn (length ord) queue') = Rsum runoffs.
Proof.
  intros ord rs H1 H2.
  destruct (giuh_calls_exact ord H1 rs (repeat 0 (S (length ord)))) as (outs & q' & E & L1 & L2 & _ & S & _).
  - apply repeat_length.
  - exists outs, q'. split; [assumption|]. rewrite firstn_repeat, Rsum_repeat0, H2 in S by lia. lra.
Qed.

Lemma giuh_convolution : forall ord runoffs : list R,
    (1 <= length ord)%nat ->
    exists outs queue',
      @giuh_calls exact (Z.of_nat (length ord)) (map Fin ord) (map Fin (repeat 0 (S (length ord)))) (map Fin runoffs)
        = Ok (map Fin outs, map Fin queue')
      /\ length outs = length runoffs
      /\ forall t, (t < length runoffs)%nat -> nth t outs 0 = convolution ord runoffs t.
Proof.
  intros ord rs H1.
  destruct (giuh_calls_exact ord H1 rs (repeat 0 (S (length ord)))) as (outs & q' & E & L1 & L2 & C & S & _).
  - apply repeat_length.
  - exists outs, q'. split; [assumption|]. split; [assumption|]. intros t Ht.
    rewrite C by assumption. rewrite firstn_repeat, nth_repeat0 by lia. lra.
Qed.

Lemma giuh_calls_app : forall (fp : Fp) N ord rs1 rs2 q,
  giuh_calls N ord q (rs1 ++ rs2)
  = bind (giuh_calls N ord q rs1) (fun '(o1, q1) => bind (giuh_calls N ord q1 rs2) (fun '(o2, q2) => Ok (o1 ++ o2, q2))).
Proof.
  induction rs1 as [|r rs1 IH]; intros rs2 q.
  - cbn. destruct (giuh_calls N ord q rs2) as [[a b]|]; reflexivity.
  - cbn [app giuh_calls]. destruct (giuh_convolution_integral r N ord q) as [[o q1]|]; [|reflexivity].
    cbn [bind]. rewrite IH. destruct (giuh_calls N ord q1 rs1) as [[o1 q2]|]; [|reflexivity].
    cbn [bind]. destruct (giuh_calls N ord q2 rs2) as [[o2 q3]|]; reflexivity.
Qed.

Lemma giuh_drains : forall (ord wet : list R) (dry : nat),
    (1 <= length ord)%nat -> (length ord <= dry)%nat ->
    exists outs queue',
      @giuh_calls exact (Z.of_nat (length ord)) (map Fin ord) (map Fin (repeat 0 (S (length ord)))) (map Fin (wet ++ repeat 0 dry))
        = Ok (map Fin outs, map Fin queue')
      /\ Rsum outs = Rsum wet * Rsum ord
      /\ (forall j, (j < length ord)%nat -> nth j queue' 0 = 0)
      /\ (forall t, (length wet + length ord <= S t)%nat -> nth t outs 0 = 0).
Proof.
  intros ord wet dry H1 H2.
  assert (Hr : length (repeat 0 (S (length ord))) = S (length ord)) by apply repeat_length.
  destruct (giuh_calls_exact ord H1 wet _ Hr) as (o1 & q1 & E1 & L1 & L2 & C1 & S1 & _).
  destruct (giuh_calls_exact ord H1 (repeat 0 dry) q1 L2) as (o2 & q2 & E2 & L3 & L4 & C2 & S2 & Z).
  destruct (giuh_calls_exact ord H1 (wet ++ repeat 0 dry) _ Hr) as (o3 & q3 & E3 & L5 & L6 & C3 & S3 & _).
  assert (E : @giuh_calls exact (Z.of_nat (length ord)) (map Fin ord) (map Fin (repeat 0 (S (length ord)))) (map Fin (wet ++ repeat 0 dry))
              = Ok (map Fin (o1 ++ o2), map Fin q2)).
  { rewrite map_app, giuh_calls_app, E1. cbn [bind]. rewrite E2. cbn [bind]. rewrite map_app. reflexivity. }
  assert (Q : Rsum (firstn (length ord) q2) = 0).
  { assert (A : forall j, nth j (firstn (length ord) q2) 0 = 0).
    { intro j. destruct (le_lt_dec (length ord) j).
      - apply nth_overflow. rewrite firstn_length_le; lia.
      - rewrite <- (firstn_skipn (length ord) q2) in Z.
        specialize (Z j l). rewrite app_nth1 in Z by (rewrite firstn_length_le; lia).
        apply Z; rewrite ?repeat_length; try lia. apply Forall_forall. intros x Hx. apply repeat_spec in Hx. assumption. }
    revert A. generalize (firstn (length ord) q2). induction l as [|x l IHl]; intro A; simpl; [reflexivity|].
    rewrite IHl; [|intro j; apply (A (S j))]. pose proof (A 0%nat) as A0. simpl in A0. lra. }
  exists (o1 ++ o2), q2. split; [assumption|]. split; [|split].
  - rewrite Rsum_app. rewrite Q, Rsum_repeat0 in S2. rewrite firstn_repeat, Rsum_repeat0 in S1 by lia. lra.
  - intros j Hj. apply Z; rewrite ?repeat_length; try lia. apply Forall_forall. intros x Hx. apply repeat_spec in Hx. assumption.
  - intros t Ht. destruct (le_lt_dec (length (o1 ++ o2)) t); [apply nth_overflow; assumption|].
    assert (E4 : map Fin (o1 ++ o2) = map Fin o3) by congruence.
    assert (EQ : forall a b : list R, map Fin a = map Fin b -> a = b).
    { induction a; intros [|y b] Hab; simpl in Hab; try discriminate; auto. injection Hab as -> Hab. f_equal; auto. }
    apply EQ in E4. rewrite E4.
    rewrite app_length, L1, L3 in l.
    rewrite C3 by (rewrite app_length, repeat_length in *; lia).
    rewrite firstn_repeat, nth_repeat0 by lia. unfold convolution.
    rewrite (sum_eq _ (fun _ => 0)).
    + rewrite sum_eq_R0; [lra|reflexivity].
    + intros i Hi. destruct (le_lt_dec (length ord) i).
      * rewrite (nth_overflow ord) by assumption. lra.
      * rewrite (app_nth2 wet) by lia. rewrite nth_repeat0. lra.
Qed.

Lemma giuh_concrete : exists queue',
  @giuh_calls exact 2 [Fin (1/4); Fin (3/4)] [Fin 0; Fin 0; Fin 0] [Fin 8; Fin 4; Fin 0; Fin 0]
  = Ok ([Fin 2; Fin 7; Fin 3; Fin 0], queue').
Proof. eexists. reval. feq. Qed.
