(** Routing with any rounding: it keeps the order of runoffs, and it forgets. *)

From Coq Require Import Reals Lra ZArith List Bool Lia.
From Verif Require Import Outcome Dbl Types ListOps Giuh Lib Spec_Common Spec_Giuh Spec_RoundMono Pf_Dbl Pf_Giuh Pf_RoundMono.
Import ListNotations.
Open Scope R_scope.

Section Any.
Context {fp : Fp}.
Notation at_ j l := (nth j l (Fin 0)).

Lemma conv_at : forall r ord q j, length ord = length q -> (j < length q)%nat -> at_ j (conv_add r ord q) = (at_ j q + at_ j ord * r)%d.
Proof.
  induction ord as [|o ord IH]; intros [|x q] j L J; cbn [length] in *; try lia. destruct j as [|j]; [reflexivity|]. cbn [conv_add nth]. apply IH; lia.
Qed.

(** One call, entry by entry. *)
Lemma call_at : forall r ord q, (1 <= length ord)%nat -> length q = S (length ord) ->
  exists q', giuh_convolution_integral r (Z.of_nat (length ord)) ord q = Ok ((at_ 0 q + at_ 0 ord * r)%d, q') /\ length q' = length q /\
    (forall j, (S j < length ord)%nat -> at_ j q' = (at_ (S j) q + at_ (S j) ord * r)%d) /\ (forall j, (length ord <= S j)%nat -> at_ j q' = Fin 0).
Proof.
  intros r [|o ord] q L Q; [cbn in L; lia|]. destruct q as [|x q]; [discriminate|]. cbn [length] in *.
  destruct (exists_last (l := q) ltac:(destruct q; [discriminate|congruence])) as (z & e & ->). rewrite app_length in Q. cbn in Q. assert (Z : length ord = length z) by lia.
  pose proof (giuh_closed r o ord x z e Z) as G. cbn [length] in G. rewrite <- Z in G. rewrite G. eexists. split; [reflexivity|]. pose proof (conv_add_length r ord z Z) as C.
  split; [rewrite !app_length, C; cbn; lia|]. split.
  - intros j J. cbn [nth]. rewrite !app_nth1 by lia. apply conv_at; lia.
  - intros j J. rewrite app_nth2 by lia. destruct (j - length (conv_add r ord z))%nat as [|[|[|k]]]; reflexivity.
Qed.

Lemma calls_len : forall ord rs q outs q', (1 <= length ord)%nat -> length q = S (length ord) -> giuh_calls (Z.of_nat (length ord)) ord q rs = Ok (outs, q') ->
  length outs = length rs /\ length q' = length q.
Proof.
  intros ord rs. induction rs as [|r rs IH]; intros q outs q' L Q H; cbn [giuh_calls] in H.
  - injection H as <- <-. auto.
  - destruct (call_at r ord q L Q) as (z & E & Lz & _). rewrite E in H. cbn [bind] in H. destruct (giuh_calls _ ord z rs) as [(os, w)|] eqn:F; [|discriminate]. cbn [bind] in H.
    injection H as <- <-. destruct (IH z os w L ltac:(lia) F) as (A & B). cbn [length]. split; lia.
Qed.

(** Entries from [p] on agree: so do the discharges from the [p]-th call on. *)
Lemma calls_agree : forall ord rs p q1 q2 o1 o2 z1 z2, (1 <= length ord)%nat -> length q1 = S (length ord) -> length q2 = S (length ord) ->
  (forall j, (p <= j < length ord)%nat -> at_ j q1 = at_ j q2) ->
  giuh_calls (Z.of_nat (length ord)) ord q1 rs = Ok (o1, z1) -> giuh_calls (Z.of_nat (length ord)) ord q2 rs = Ok (o2, z2) ->
  forall t, (p <= t)%nat -> at_ t o1 = at_ t o2.
Proof.
  intros ord rs. induction rs as [|r rs IH]; intros p q1 q2 o1 o2 z1 z2 L Q1 Q2 A H1 H2 t T; cbn [giuh_calls] in H1, H2.
  - injection H1 as <- _. injection H2 as <- _. reflexivity.
  - destruct (call_at r ord q1 L Q1) as (w1 & E1 & L1 & S1 & R1). destruct (call_at r ord q2 L Q2) as (w2 & E2 & L2 & S2 & R2). rewrite E1 in H1. rewrite E2 in H2. cbn [bind] in H1, H2.
    destruct (giuh_calls _ ord w1 rs) as [(os1, y1)|] eqn:F1; [|discriminate]. destruct (giuh_calls _ ord w2 rs) as [(os2, y2)|] eqn:F2; [|discriminate]. cbn [bind] in H1, H2.
    injection H1 as <- _. injection H2 as <- _. destruct t as [|t]; cbn [nth].
    + rewrite (A 0%nat ltac:(lia)). reflexivity.
    + apply (IH (pred p) w1 w2 os1 os2 y1 y2 L ltac:(lia) ltac:(lia)); [|assumption|assumption|lia]. intros j J.
      destruct (Nat.lt_ge_cases (S j) (length ord)) as [K|K]; [rewrite S1, S2, (A (S j)) by lia; reflexivity|rewrite R1, R2 by lia; reflexivity].
Qed.

Lemma routing_memory : forall ord q1 q2 rs o1 o2 z1 z2, (1 <= length ord)%nat -> length q1 = S (length ord) -> length q2 = S (length ord) ->
  giuh_calls (Z.of_nat (length ord)) ord q1 rs = Ok (o1, z1) -> giuh_calls (Z.of_nat (length ord)) ord q2 rs = Ok (o2, z2) ->
  length o1 = length rs /\ length o2 = length rs /\ forall t, (length ord <= t)%nat -> at_ t o1 = at_ t o2.
Proof.
  intros ord q1 q2 rs o1 o2 z1 z2 L Q1 Q2 H1 H2. split; [exact (proj1 (calls_len ord rs q1 o1 z1 L Q1 H1))|]. split; [exact (proj1 (calls_len ord rs q2 o2 z2 L Q2 H2))|].
  apply (calls_agree ord rs (length ord) q1 q2 o1 o2 z1 z2 L Q1 Q2); [intros; lia|assumption|assumption].
Qed.

Lemma dry_step : forall o, finite o -> (Fin 0 + o * Fin 0)%d = Fin 0.
Proof. intros o (x & ->). cbn [dmul]. rewrite Rmult_0_r, rnd_zero. cbn [dadd]. rewrite Rplus_0_r. apply rnd_zero. Qed.
Lemma at_finite : forall l j, Forall finite l -> (j < length l)%nat -> finite (at_ j l).
Proof. intros l j H J. apply (proj1 (Forall_forall _ _) H). apply nth_In. assumption. Qed.

Lemma dry_calls : forall ord n p q outs z, (1 <= length ord)%nat -> length q = S (length ord) -> Forall finite ord -> (forall j, (p <= j < length ord)%nat -> at_ j q = Fin 0) ->
  giuh_calls (Z.of_nat (length ord)) ord q (repeat (Fin 0) n) = Ok (outs, z) -> forall t, (p <= t)%nat -> at_ t outs = Fin 0.
Proof.
  intros ord n. induction n as [|n IH]; intros p q outs z L Q F A H t T; cbn [repeat giuh_calls] in H.
  - injection H as <- _. destruct t; reflexivity.
  - destruct (call_at (Fin 0) ord q L Q) as (w & E & Lw & S & R). rewrite E in H. cbn [bind] in H. destruct (giuh_calls _ ord w _) as [(os, y)|] eqn:G; [|discriminate]. cbn [bind] in H.
    injection H as <- _. destruct t as [|t]; cbn [nth].
    + rewrite (A 0%nat ltac:(lia)). apply dry_step, at_finite; [assumption|lia].
    + apply (IH (pred p) w os y L ltac:(lia) F); [|assumption|lia]. intros j J.
      destruct (Nat.lt_ge_cases (Datatypes.S j) (length ord)) as [K|K]; [rewrite S, A by lia; apply dry_step, at_finite; [assumption|lia]|apply R; lia].
Qed.

Lemma routing_flushes : forall ord q n outs z, (1 <= length ord)%nat -> length q = S (length ord) -> Forall finite ord ->
  giuh_calls (Z.of_nat (length ord)) ord q (repeat (Fin 0) n) = Ok (outs, z) -> length outs = n /\ forall t, (length ord <= t)%nat -> at_ t outs = Fin 0.
Proof.
  intros ord q n outs z L Q F H. split; [rewrite (proj1 (calls_len ord _ q outs z L Q H)); apply repeat_length|].
  apply (dry_calls ord n (length ord) q outs z L Q F); [intros; lia|assumption].
Qed.

(** Order. *)
Lemma add_both : forall x x' y y', below (Fin 0) x -> below (Fin 0) y -> below x x' -> below y y' -> below (Fin 0) (x + y)%d /\ below (x + y)%d (x' + y')%d.
Proof.
  intros x x' y y' X Y HX HY. assert (X' : below (Fin 0) x') by (apply below_trans with x; assumption). assert (Y' : below (Fin 0) y') by (apply below_trans with y; assumption).
  destruct (nn_cases _ X) as [->|(a & -> & Ha)], (nn_cases _ Y) as [->|(b & -> & Hb)], (nn_cases _ X') as [->|(a' & -> & Ha')], (nn_cases _ Y') as [->|(b' & -> & Hb')];
    try discriminate HX; try discriminate HY; cbn [dadd]; try (split; reflexivity);
    (split; [first [reflexivity|apply nn_rnd; lra]|]).
  - pose proof (rnd_not_nan (a + b)) as N. destruct (rnd (a + b)); try reflexivity. congruence.
  - pose proof (rnd_not_nan (a + b)) as N. destruct (rnd (a + b)); try reflexivity. congruence.
  - pose proof (rnd_not_nan (a + b)) as N. destruct (rnd (a + b)); try reflexivity. congruence.
  - apply below_fin in HX. apply below_fin in HY. apply below_rnd. lra.
Qed.
Lemma share : forall o r r', finite o -> below (Fin 0) o -> 0 <= r <= r' -> below (Fin 0) (o * Fin r)%d /\ below (o * Fin r)%d (o * Fin r')%d.
Proof. intros o r r' (x & ->) H R. apply below_fin in H. cbn [dmul]. split; [apply nn_rnd; nra|apply below_rnd; nra]. Qed.

Lemma calls_order : forall ord, (1 <= length ord)%nat -> Forall finite ord -> Forall (below (Fin 0)) ord ->
  forall rs rs', Forall2 (fun r r' => 0 <= r <= r') rs rs' -> forall q q' outs outs' z z', length q = S (length ord) -> length q' = S (length ord) ->
  (forall j, (j < length ord)%nat -> below (Fin 0) (at_ j q) /\ below (at_ j q) (at_ j q')) ->
  giuh_calls (Z.of_nat (length ord)) ord q (map Fin rs) = Ok (outs, z) -> giuh_calls (Z.of_nat (length ord)) ord q' (map Fin rs') = Ok (outs', z') ->
  Forall (below (Fin 0)) outs /\ Forall2 below outs outs'.
Proof.
  intros ord L F N rs rs' Rs. induction Rs as [|r r' rs rs' Hr Rs IH]; intros q q' outs outs' z z' Q Q' A H H'; cbn [map giuh_calls] in H, H'.
  - injection H as <- _. injection H' as <- _. split; constructor.
  - destruct (call_at (Fin r) ord q L Q) as (w & E & Lw & S & R). destruct (call_at (Fin r') ord q' L Q') as (w' & E' & Lw' & S' & R'). rewrite E in H. rewrite E' in H'. cbn [bind] in H, H'.
    destruct (giuh_calls _ ord w _) as [(os, y)|] eqn:G; [|discriminate]. destruct (giuh_calls _ ord w' _) as [(os', y')|] eqn:G'; [|discriminate]. cbn [bind] in H, H'.
    injection H as <- _. injection H' as <- _.
    assert (One : forall j, (j < length ord)%nat -> below (Fin 0) (at_ j q + at_ j ord * Fin r)%d /\ below (at_ j q + at_ j ord * Fin r)%d (at_ j q' + at_ j ord * Fin r')%d).
    { intros j J. destruct (A j J) as (A0 & A1). destruct (share (at_ j ord) r r' (at_finite _ _ F J) (proj1 (Forall_forall _ _) N _ (nth_In ord (Fin 0) J)) Hr) as (B0 & B1). apply add_both; assumption. }
    assert (A' : forall j, (j < length ord)%nat -> below (Fin 0) (at_ j w) /\ below (at_ j w) (at_ j w')).
    { intros j J. destruct (Nat.lt_ge_cases (Datatypes.S j) (length ord)) as [K|K]; [rewrite S, S' by lia; apply One; lia|rewrite R, R' by lia; split; apply below_fin; lra]. }
    destruct (IH w w' os os' y y' ltac:(lia) ltac:(lia) A' G G') as (B & C). destruct (One 0%nat ltac:(lia)) as (D0 & D1). split; constructor; assumption.
Qed.

Lemma Forall2_at : forall q q', Forall2 below q q' -> forall j, (j < length q)%nat -> below (at_ j q) (at_ j q').
Proof. intros q q' H. induction H as [|x y q q' E H IH]; intros j J; [cbn in J; lia|]. destruct j as [|j]; cbn [nth]; [assumption|apply IH; cbn in J; lia]. Qed.

Lemma routing_order : forall ord q q' rs rs' outs outs' z z', (1 <= length ord)%nat -> length q = S (length ord) -> Forall finite ord -> Forall (below (Fin 0)) ord ->
  Forall (below (Fin 0)) q -> Forall2 below q q' -> Forall2 (fun r r' => 0 <= r <= r') rs rs' ->
  giuh_calls (Z.of_nat (length ord)) ord q (map Fin rs) = Ok (outs, z) -> giuh_calls (Z.of_nat (length ord)) ord q' (map Fin rs') = Ok (outs', z') ->
  Forall (below (Fin 0)) outs /\ Forall2 below outs outs'.
Proof.
  intros ord q q' rs rs' outs outs' z z' L Q F N Nq Bq Rs H H'. assert (Q' : length q' = S (length ord)) by (rewrite <- Q; clear - Bq; induction Bq; cbn; congruence).
  apply (calls_order ord L F N rs rs' Rs q q' outs outs' z z' Q Q'); [|assumption|assumption]. intros j J.
  split; [apply (proj1 (Forall_forall _ _) Nq), nth_In; lia|apply Forall2_at; [assumption|lia]].
Qed.
End Any.
