(** The unit hydrograph in rounded arithmetic. *)

From Coq Require Import Reals Lra ZArith List Bool Lia.
From Flocq Require Import Core.
From Verif Require Import Outcome Dbl Exact Binary64 Giuh Spec_Common Spec_Giuh Spec_LedgerFp Lib Pf_Giuh Pf_LedgerFp.
Import ListNotations.
Open Scope R_scope.

Section Any.
Context {fp : Fp} (L eta M : R).
Hypothesis acc : accurate fp L eta.
Hypothesis eta0 : 0 <= eta.
Hypothesis M0 : 0 <= M.

(** Queue [q] beside the exact queue [e]: an entry with [n] entries behind it has seen at most [n + k] calls. *)
Fixpoint close (k : nat) (q e : list R) : Prop :=
  match q, e with
  | [], [] => True
  | x :: q', y :: e' => Rabs y <= INR (length q' + k) * M /\ Rabs (x - y) <= INR (length q' + k) * (2 * eta) /\ close k q' e'
  | _, _ => False
  end.

Lemma close_length : forall k q e, close k q e -> length q = length e.
Proof. intros k q. induction q as [|x q IH]; intros [|y e] H; cbn in *; try contradiction; [reflexivity|]. f_equal. apply IH. tauto. Qed.

Lemma close_snoc : forall q e, close 1 q e -> close 0 (q ++ [0]) (e ++ [0]).
Proof.
  induction q as [|x q IH]; intros [|y e] H; cbn [close app] in *; try contradiction.
  - cbn. rewrite Rminus_0_r, Rabs_R0. lra.
  - destruct H as (H1 & H2 & H3). rewrite app_length. cbn [length]. rewrite Nat.add_0_r. split; [exact H1|]. split; [exact H2|]. apply IH. exact H3.
Qed.

(** One addition: a product and a sum. *)
Lemma add_one : forall n o r x y, Rabs o <= 1 -> Rabs r <= M -> Rabs y <= INR n * M -> Rabs (x - y) <= INR n * (2 * eta) ->
  INR (S n) * (M + 2 * eta) <= L ->
  exists z, (Fin x + Fin o * Fin r)%d = Fin z /\ Rabs (z - (y + o * r)) <= INR (S n) * (2 * eta) /\ Rabs (y + o * r) <= INR (S n) * M.
Proof.
  intros n o r x y Ho Hr Hy Hx B. rewrite S_INR in *. pose proof (pos_INR n) as N. destruct acc as [A _].
  assert (P : Rabs (o * r) <= M). { rewrite Rabs_mult. pose proof (Rabs_pos o). pose proof (Rabs_pos r). replace M with (1 * M) by ring. apply Rmult_le_compat; lra. }
  assert (NM : 0 <= INR n * M) by (apply Rmult_le_pos; lra). assert (Ne : 0 <= INR n * (2 * eta)) by (apply Rmult_le_pos; lra).
  destruct (A (o * r)) as (p & Ep & Bp); [lra|]. cbn [dmul]. rewrite Ep. cbn [dadd].
  apply abs_le in P, Hy, Hx, Bp.
  destruct (A (x + p)) as (z & Ez & Bz). { apply le_abs. lra. }
  exists z. split; [exact Ez|]. apply abs_le in Bz. split; apply le_abs; lra.
Qed.

Lemma add_close : forall r ord q e, Forall (fun o => Rabs o <= 1) ord -> Rabs r <= M -> length ord = length q -> close 0 q e ->
  INR (length q) * (M + 2 * eta) <= L ->
  exists z, conv_add (Fin r) (map Fin ord) (map Fin q) = map Fin z /\ close 1 z (conv_addR r ord e).
Proof.
  intros r ord. induction ord as [|o ord IH]; intros [|x q] [|y e] Fo Hr Hl Hc B; cbn [length close] in *; try discriminate; try contradiction.
  - exists []. split; [reflexivity|exact I].
  - inversion Fo as [|? ? Fo1 Fo2]; subst. destruct Hc as (C1 & C2 & C3). rewrite Nat.add_0_r in *.
    assert (N : INR (length q) * (M + 2 * eta) <= INR (S (length q)) * (M + 2 * eta)). { apply Rmult_le_compat_r; [lra|]. apply le_INR. lia. }
    destruct (add_one (length q) o r x y Fo1 Hr C1 C2 B) as (z & Ez & Z1 & Z2).
    destruct (IH q e Fo2 Hr ltac:(lia) C3 ltac:(lra)) as (zs & Es & Zs).
    exists (z :: zs). split; [cbn [map conv_add]; rewrite Ez, Es; reflexivity|]. cbn [conv_addR close].
    assert (Lz : length zs = length q).
    { apply close_length in Zs. rewrite Zs, conv_addR_length; [apply close_length in C3; lia|apply close_length in C3; lia]. }
    rewrite Lz, Nat.add_1_r. split; [exact Z2|]. split; [exact Z1|exact Zs].
Qed.

(** One call beside the exact one. *)
Lemma call_close : forall r ord q e a b, (1 <= length ord)%nat -> Forall (fun o => Rabs o <= 1) ord -> Rabs r <= M -> length q = length ord -> close 0 q e ->
  INR (length ord) * (M + 2 * eta) <= L ->
  exists out oute q' e',
    giuh_convolution_integral (Fin r) (Z.of_nat (length ord)) (map Fin ord) (map Fin (q ++ [a])) = Ok (Fin out, map Fin (q' ++ [0])) /\
    @giuh_convolution_integral exact (Fin r) (Z.of_nat (length ord)) (map Fin ord) (map Fin (e ++ [b])) = Ok (Fin oute, map Fin (e' ++ [0])) /\
    length q' = length ord /\ close 0 q' e' /\ Rabs (out - oute) <= 2 * INR (length ord) * eta.
Proof.
  intros r [|o ord] [|x q] [|y e] a b H1 Fo Hr Hl Hc B; cbn [length close] in *; try discriminate; try contradiction; try lia.
  inversion Fo as [|? ? Fo1 Fo2]; subst. destruct Hc as (C1 & C2 & C3). rewrite Nat.add_0_r in *.
  assert (Hle : length ord = length e) by (apply close_length in C3; lia). assert (Hlq : length ord = length q) by lia. rewrite Hlq in B.
  assert (N : INR (length q) * (M + 2 * eta) <= INR (S (length q)) * (M + 2 * eta)). { apply Rmult_le_compat_r; [lra|]. apply le_INR. lia. }
  destruct (add_one (length q) o r x y Fo1 Hr C1 C2 B) as (z & Ez & Z1 & Z2).
  destruct (add_close r ord q e Fo2 Hr Hlq C3 ltac:(lra)) as (zs & Es & Zs).
  assert (Lz : length zs = length q). { apply close_length in Zs. rewrite Zs, conv_addR_length; lia. }
  exists z, (y + o * r), (zs ++ [0]), (conv_addR r ord e ++ [0]).
  split; [|split; [|split; [|split]]].
  - pose proof (@giuh_closed fp (Fin r) (Fin o) (map Fin ord) (Fin x) (map Fin q) (Fin a)) as G. rewrite !map_length in G. specialize (G Hlq).
    rewrite Ez, Es in G. cbn [length] in G. rewrite map_length in G. cbn [map app]. rewrite map_app. cbn [map]. rewrite Hlq, G.
    rewrite <- app_assoc, map_app. reflexivity.
  - pose proof (@giuh_closed exact (Fin r) (Fin o) (map Fin ord) (Fin y) (map Fin e) (Fin b)) as G. rewrite !map_length in G. specialize (G Hle).
    rewrite conv_add_Fin in G. cbn [length] in G. rewrite map_length in G. cbn [map app]. rewrite map_app. cbn [map]. rewrite Hle, G.
    rewrite <- app_assoc, map_app. reflexivity.
  - rewrite app_length. cbn [length]. lia.
  - apply close_snoc. exact Zs.
  - rewrite Hlq. lra.
Qed.

Lemma calls_close : forall ord, (1 <= length ord)%nat -> Forall (fun o => Rabs o <= 1) ord -> INR (length ord) * (M + 2 * eta) <= L ->
  forall rs q e a b, Forall (fun r => Rabs r <= M) rs -> length q = length ord -> close 0 q e ->
  exists outs oute q' e',
    giuh_calls (Z.of_nat (length ord)) (map Fin ord) (map Fin (q ++ [a])) (map Fin rs) = Ok (map Fin outs, map Fin q') /\
    @giuh_calls exact (Z.of_nat (length ord)) (map Fin ord) (map Fin (e ++ [b])) (map Fin rs) = Ok (map Fin oute, map Fin e') /\
    Forall2 (fun x y => Rabs (x - y) <= 2 * INR (length ord) * eta) outs oute /\ length outs = length rs.
Proof.
  intros ord H1 Fo B rs. induction rs as [|r rs IH]; intros q e a b Fr Hl Hc.
  - exists [], [], (q ++ [a]), (e ++ [b]). cbn. auto.
  - inversion Fr as [|? ? Fr1 Fr2]; subst. destruct (call_close r ord q e a b H1 Fo Fr1 Hl Hc B) as (out & oute & q1 & e1 & E1 & E2 & L1 & C1 & D1).
    destruct (IH q1 e1 0 0 Fr2 L1 C1) as (outs & outes & q' & e' & G1 & G2 & G3 & G4).
    exists (out :: outs), (oute :: outes), q', e'. cbn [map giuh_calls]. rewrite E1, E2. cbn [bind]. rewrite G1, G2. cbn [bind].
    split; [reflexivity|]. split; [reflexivity|]. split; [constructor; assumption|]. cbn [length]. lia.
Qed.

Lemma close_zero : forall n, close 0 (repeat 0 n) (repeat 0 n).
Proof.
  induction n as [|n IH]; cbn [repeat close]; [exact I|]. rewrite repeat_length, Nat.add_0_r, Rminus_0_r, Rabs_R0. pose proof (pos_INR n).
  split; [apply Rmult_le_pos; lra|]. split; [apply Rmult_le_pos; lra|exact IH].
Qed.
Lemma map_Fin_inj : forall a b, map Fin a = map Fin b -> a = b.
Proof. induction a as [|x a IH]; intros [|y b] H; cbn in H; try discriminate; [reflexivity|]. injection H as -> H. f_equal. apply IH. exact H. Qed.
Lemma Forall2_near : forall d a b, Forall2 (fun x y => Rabs (x - y) <= d) a b -> forall t, (t < length a)%nat -> Rabs (nth t a 0 - nth t b 0) <= d.
Proof. intros d a b H. induction H as [|x y a b H1 H2 IH]; intros [|t] Ht; cbn in *; try lia; [exact H1|]. apply IH. lia. Qed.
Lemma Forall2_sum : forall d a b, Forall2 (fun x y => Rabs (x - y) <= d) a b -> Rabs (Rsum a - Rsum b) <= INR (length a) * d.
Proof.
  intros d a b H. induction H as [|x y a b H1 H2 IH]; cbn [Rsum length].
  - rewrite Rminus_0_r, Rabs_R0. cbn. lra.
  - rewrite S_INR. apply abs_le in H1, IH. apply le_abs. lra.
Qed.

Lemma empty_queue : forall n, map Fin (repeat 0 (S n)) = map Fin (repeat 0 n ++ [0]).
Proof. intro n. f_equal. cbn [repeat]. induction n as [|n IH]; cbn; [reflexivity|]. f_equal. exact IH. Qed.

(** Distance of the outputs from the convolution. *)
Lemma giuh_rounded : forall ord runoffs, (1 <= length ord)%nat -> Forall (fun o => Rabs o <= 1) ord -> Forall (fun r => Rabs r <= M) runoffs ->
  INR (length ord) * (M + 2 * eta) <= L ->
  exists outs queue',
    giuh_calls (Z.of_nat (length ord)) (map Fin ord) (map Fin (repeat 0 (S (length ord)))) (map Fin runoffs) = Ok (map Fin outs, map Fin queue') /\
    length outs = length runoffs /\
    (forall t, (t < length runoffs)%nat -> Rabs (nth t outs 0 - convolution ord runoffs t) <= 2 * INR (length ord) * eta).
Proof.
  intros ord rs H1 Fo Fr B.
  destruct (calls_close ord H1 Fo B rs (repeat 0 (length ord)) (repeat 0 (length ord)) 0 0 Fr (repeat_length _ _) (close_zero _)) as (outs & oute & q' & e' & G1 & G2 & G3 & G4).
  exists outs, q'. rewrite empty_queue. split; [exact G1|]. split; [exact G4|]. intros t Ht.
  destruct (giuh_convolution ord rs H1) as (oe & qe & E & _ & C). rewrite empty_queue, G2 in E. apply Ok_inj in E. apply pair_equal_spec in E as [E _]. apply map_Fin_inj in E. subst oe.
  rewrite <- C by exact Ht. apply Forall2_near; [exact G3|lia].
Qed.

(** Water that leaves in the end. *)
Lemma giuh_rounded_drains : forall ord wet dry, (1 <= length ord)%nat -> (length ord <= dry)%nat -> Forall (fun o => Rabs o <= 1) ord -> Forall (fun r => Rabs r <= M) wet ->
  INR (length ord) * (M + 2 * eta) <= L ->
  exists outs queue',
    giuh_calls (Z.of_nat (length ord)) (map Fin ord) (map Fin (repeat 0 (S (length ord)))) (map Fin (wet ++ repeat 0 dry)) = Ok (map Fin outs, map Fin queue') /\
    Rabs (Rsum outs - Rsum wet * Rsum ord) <= INR (length wet + dry) * (2 * INR (length ord) * eta).
Proof.
  intros ord wet dry H1 Hd Fo Fr B.
  assert (Fr' : Forall (fun r => Rabs r <= M) (wet ++ repeat 0 dry)).
  { apply Forall_app. split; [exact Fr|]. apply Forall_forall. intros x Hx. apply repeat_spec in Hx. subst. rewrite Rabs_R0. exact M0. }
  destruct (calls_close ord H1 Fo B _ (repeat 0 (length ord)) (repeat 0 (length ord)) 0 0 Fr' (repeat_length _ _) (close_zero _)) as (outs & oute & q' & e' & G1 & G2 & G3 & G4).
  exists outs, q'. rewrite empty_queue. split; [exact G1|].
  destruct (giuh_drains ord wet dry H1 Hd) as (oe & qe & E & C & _). rewrite empty_queue, G2 in E. apply Ok_inj in E. apply pair_equal_spec in E as [E _]. apply map_Fin_inj in E. subst oe.
  rewrite <- C. pose proof (Forall2_sum _ _ _ G3) as Q. rewrite G4, app_length, repeat_length in Q. exact Q.
Qed.
End Any.

Lemma giuh_rounded64 : forall (k : Z) (M : R) ord runoffs, (-1021 <= k <= 1023)%Z -> 0 <= M -> (1 <= length ord)%nat ->
  Forall (fun o => Rabs o <= 1) ord -> Forall (fun r => Rabs r <= M) runoffs ->
  INR (length ord) * (M + bpow radix2 (k - 52)) <= bpow radix2 k ->
  exists outs queue',
    @giuh_calls binary64 (Z.of_nat (length ord)) (map Fin ord) (map Fin (repeat 0 (S (length ord)))) (map Fin runoffs) = Ok (map Fin outs, map Fin queue') /\
    length outs = length runoffs /\
    (forall t, (t < length runoffs)%nat -> Rabs (nth t outs 0 - convolution ord runoffs t) <= INR (length ord) * bpow radix2 (k - 52)).
Proof.
  intros k M ord rs K M0 H1 Fo Fr B. assert (E : bpow radix2 (k - 52) = 2 * bpow radix2 (k - 53)).
  { replace (k - 52)%Z with (1 + (k - 53))%Z by lia. rewrite bpow_plus. reflexivity. }
  rewrite E in *. destruct (@giuh_rounded binary64 _ _ M (accurate64 k K) (bpow_ge_0 _ _) M0 ord rs H1 Fo Fr B) as (outs & q & G1 & G2 & G3).
  exists outs, q. split; [exact G1|]. split; [exact G2|]. intros t Ht. specialize (G3 t Ht). lra.
Qed.

(** Example: three ordinates 0.06, 0.51 and 0.43 as binary64 numbers are at most one; runoff up to 100 cm. *)
Lemma giuh_rounded_example : exists o1 o2 o3 outs queue',
  @lit binary64 (6 / 100) = Fin o1 /\ @lit binary64 (51 / 100) = Fin o2 /\ @lit binary64 (43 / 100) = Fin o3 /\
  @giuh_calls binary64 3 [Fin o1; Fin o2; Fin o3] [Fin 0; Fin 0; Fin 0; Fin 0] [Fin 100; Fin (1 / 3); Fin 0] = Ok (map Fin outs, map Fin queue') /\
  length outs = 3%nat /\
  (forall t, (t < 3)%nat -> Rabs (nth t outs 0 - convolution [o1; o2; o3] [100; 1 / 3; 0] t) <= 3 * / 8796093022208).
Proof.
  assert (A : forall x, 0 <= x <= 1 -> exists o, @lit binary64 x = Fin o /\ Rabs o <= 1).
  { intros x H. unfold lit. rewrite Pf_Binary64.rnd_small. 2: { rewrite Rabs_pos_eq by lra. change (2 ^ 53)%Z with 9007199254740992%Z. lra. }
    exists (b64_near x). split; [reflexivity|]. apply le_abs. rewrite <- near_one, <- near_opp. split; apply near_mono; lra. }
  destruct (A (6 / 100) ltac:(lra)) as (o1 & E1 & B1). destruct (A (51 / 100) ltac:(lra)) as (o2 & E2 & B2). destruct (A (43 / 100) ltac:(lra)) as (o3 & E3 & B3).
  assert (P1 : bpow radix2 9 = 512) by reflexivity. assert (P2 : bpow radix2 (9 - 52) = / 8796093022208) by reflexivity.
  destruct (giuh_rounded64 9 100 [o1; o2; o3] [100; 1 / 3; 0]) as (outs & q & G1 & G2 & G3); [lia|lra|cbn; lia|repeat (apply Forall_cons; [assumption|]); apply Forall_nil| | |].
  - repeat (apply Forall_cons; [apply le_abs; lra|]); apply Forall_nil.
  - rewrite P1, P2. cbn [length INR]. lra.
  - exists o1, o2, o3, outs, q. repeat (split; [assumption|]). intros t Ht. specialize (G3 t Ht). rewrite P2 in G3. cbn [length INR] in G3. lra.
Qed.
