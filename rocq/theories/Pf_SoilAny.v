(** Bounds on the soil functions that survive every rounding. *)

From Coq Require Import Reals Lra ZArith Bool List Lia.
From Verif Require Import Outcome Dbl Exact Types ListOps Soil Infil Lib Spec_Common Spec_Soil Pf_Dbl Pf_Soil.
Import ListNotations.
Open Scope R_scope.

Section Any.
Context {fp : Fp} {cfg : Cfg}.


Lemma rnd_between : forall k x, rnd k = Fin k -> 0 <= x <= k -> exists y, rnd x = Fin y /\ 0 <= y <= k.
Proof.
  intros k x Hk Hx. pose proof (rnd_mono 0 x (proj1 Hx)) as L. pose proof (rnd_mono x k (proj2 Hx)) as H. rewrite rnd_zero in L. rewrite Hk in H.
  destruct (rnd x) as [y| | |]; cbn in L, H; try discriminate. apply Rleb_true in L. apply Rleb_true in H. eauto.
Qed.
Lemma rnd_unit : forall x, 0 <= x <= 1 -> unit_range (rnd x).
Proof. intros x Hx. apply rnd_between; [apply rnd_one|assumption]. Qed.

Lemma unit_pow : forall a b, unit_range a -> (b = PInf \/ exists y, b = Fin y /\ 0 < y) -> unit_range (dpow a b).
Proof.
  intros a b (x & -> & Hx) Hb. unfold dpow.
  destruct (deqb b (Fin 0)); [exists 1; split; [reflexivity|lra]|]. destruct (deqb (Fin x) (Fin 1)); [exists 1; split; [reflexivity|lra]|].
  destruct Hb as [->|(y & -> & Hy)].
  - rewrite Rabs_right by lra. rcases; try (eexists; split; [reflexivity|lra]). exfalso; lra.
  - destruct (Rlt_dec 0 x) as [P|P].
    + apply rnd_unit. split; [left; apply Rpower_gt0|]. rewrite <- pw_pos by assumption. apply pw_le_1; lra.
    + destruct (Req_EM_T x 0); [|lra]. destruct (Rlt_dec 0 y); [|lra]. exists 0. split; [reflexivity|lra].
Qed.

Lemma unit_sub : forall a, unit_range a -> unit_range (lit 1 - a)%d.
Proof. intros a (x & -> & Hx). unfold lit. rewrite rnd_one. cbn. apply rnd_unit. lra. Qed.

Lemma unit_sqrt : forall a, unit_range a -> unit_range (dsqrt a).
Proof.
  intros a (x & -> & Hx). unfold dsqrt. destruct (Rlt_dec x 0); [lra|]. apply rnd_unit. split; [apply sqrt_pos|].
  rewrite <- sqrt_1. apply sqrt_le_1; lra.
Qed.

Lemma unit_scale : forall k x a, rnd k = Fin k -> 0 <= x <= k -> unit_range a -> exists y, (Fin x * a)%d = Fin y /\ 0 <= y <= k.
Proof. intros k x a Hk Hx (z & -> & Hz). cbn. apply rnd_between; [assumption|]. nra. Qed.

Lemma lit_ge_1 : forall x, 1 <= x -> lit x = PInf \/ exists y, lit x = Fin y /\ 0 < y.
Proof.
  intros x Hx. pose proof (rnd_mono 1 x Hx) as M. rewrite rnd_one in M. unfold lit. destruct (rnd x) as [y| | |]; cbn in M; try discriminate; [|auto].
  apply Rleb_true in M. right. exists y. split; [reflexivity|lra].
Qed.

(** Conductivity. *)
Lemma K_bounds_any : forall S k m, unit_range S -> rnd k = Fin k -> 0 <= k -> 0 < m <= 1 ->
  exists K, calc_K_from_Se S (Fin k) (Fin m) = Fin K /\ 0 <= K <= k.
Proof.
  intros S k m HS Hk H0 Hm. unfold calc_K_from_Se.
  assert (E1 : (lit 1 / Fin m)%d = PInf \/ exists y, (lit 1 / Fin m)%d = Fin y /\ 0 < y).
  { unfold lit. rewrite rnd_one. cbn. destruct (Req_EM_T m 0); [lra|]. apply lit_ge_1.
    apply Rmult_le_reg_r with m; [lra|]. unfold Rdiv. rewrite Rmult_assoc, Rinv_l by lra. lra. }
  pose proof (unit_pow _ _ HS E1) as U1. pose proof (unit_sub _ U1) as U2.
  assert (U3 : unit_range (dpow (lit 1 - dpow S (lit 1 / Fin m)) (Fin m))) by (apply unit_pow; [assumption|right; exists m; split; [reflexivity|lra]]).
  pose proof (unit_sub _ U3) as U4. pose proof (unit_pow _ _ U4 (lit_ge_1 2 ltac:(lra))) as U5.
  pose proof (unit_sqrt _ HS) as U6.
  destruct (unit_scale k k _ Hk ltac:(lra) U6) as (y & -> & Hy). apply unit_scale; assumption.
Qed.

(** Actual evapotranspiration demand. *)
Lemma aet_bounds : forall e pet dt wp fc head a, not_negative pet -> not_negative dt ->
  calc_aet e pet dt wp fc head = Ok a -> dltb a (Fin 0) = false /\ dltb (pet * dt)%d a = false.
Proof.
  intros e pet dt wp fc head a Hp Hd H. unfold calc_aet in H. bind_inv H c Ec. bind_inv H s Es. cbv zeta in H. apply Ok_inj in H.
  pose proof (nn_mul _ _ Hp Hd) as N. subst a. match goal with |- context [if dltb ?x (Fin 0) then _ else _] => set (v := x) end.
  destruct (dltb v (Fin 0)) eqn:E1; [split; [apply dltb_irrefl|exact N]|].
  destruct (dgtb v (pet * dt)%d) eqn:E2; [split; [exact N|apply dltb_irrefl]|]. split; [assumption|exact E2].
Qed.

(** Frozen factor. *)
Lemma frozen_range : forall T, dleb (lit (5 / 100)) (frozen_of_temp T) = true /\ dleb (frozen_of_temp T) (Fin 1) = true.
Proof.
  intro T. unfold frozen_of_temp. set (f := dexp _).
  assert (L : exists y, lit (5 / 100) = Fin y /\ 0 <= y <= 1) by (apply rnd_unit; lra). destruct L as (y & -> & Hy).
  unfold lit at 1 2. rewrite rnd_one.
  destruct f as [x| | |]; cbn; unfold Rltb, Rleb; rcases; cbn; unfold Rltb, Rleb; rcases; cbn; unfold Rleb; rcases; auto; exfalso; lra.
Qed.

Lemma frozen_factor_range : forall nl cum z T nc fr fr', frozen_factor nl cum z T nc fr = Ok fr' ->
  length fr' = length fr /\
  (forall k, (1 <= k <= nl)%Z -> exists x, aget fr' k = Ok x /\ dleb (lit (5 / 100)) x = true /\ dleb x (Fin 1) = true) /\
  (forall k, (k < 1 \/ nl < k)%Z -> aget fr' k = aget fr k).
Proof.
  intros nl cum z T nc fr fr' H. unfold frozen_factor in H. bind_inv H p Ep. destruct p as [c fr2]. apply Ok_inj in H. subst fr2.
  assert (G : forall n i c0 f0 c1 f1, (1 <= i)%Z ->
    zfor i n (fun layer '(c, fr) => limit <- aget cum layer ;; '(c', count, sum) <- frozen_scan (S (length z)) z T nc limit c 0 (Fin 0) ;;
      _ <- cassert (count >? 0)%Z ;; fr' <- aset fr layer (frozen_of_temp (sum / dofZ count)) ;; Ok (c', fr')) (c0, f0) = Ok (c1, f1) ->
    length f1 = length f0 /\
    (forall k, (i <= k < i + Z.of_nat n)%Z -> exists x, aget f1 k = Ok x /\ dleb (lit (5 / 100)) x = true /\ dleb x (Fin 1) = true) /\
    (forall k, (k < i \/ i + Z.of_nat n <= k)%Z -> aget f1 k = aget f0 k)).
  { induction n as [|n IH]; intros i c0 f0 c1 f1 Hi Hz; cbn [zfor] in Hz.
    - apply Ok_inj in Hz. injection Hz as <- <-. split; [reflexivity|]. split; [intros; lia|reflexivity].
    - bind_inv Hz q Hq. destruct q as [c2 f2]. bind_inv Hq lim El. bind_inv Hq t Et. destruct t as [[c' cnt] sum]. bind_inv Hq u Eu. bind_inv Hq f3 Ef.
      apply Ok_inj in Hq. injection Hq as <- <-. apply aset_Ok in Ef as [Hr ->].
      destruct (IH (i + 1)%Z c' _ c1 f1 ltac:(lia) Hz) as (L & A & B). rewrite lset_length in L. split; [assumption|].
      assert (K : aget f1 i = Ok (frozen_of_temp (sum / dofZ cnt))).
      { rewrite B by lia. apply aget_Ok. split; [lia|]. apply nth_error_lset_eq. lia. }
      split.
      + intros k Hk. destruct (Z.eq_dec k i) as [->|]; [|apply A; lia]. eexists. split; [exact K|]. apply frozen_range.
      + intros k Hk. rewrite B by lia. unfold aget. destruct (k <? 0)%Z eqn:Ek; [reflexivity|]. rewrite nth_error_lset_neq; [reflexivity|]. lia. }
  destruct (G _ _ _ _ _ _ (Z.le_refl 1) Ep) as (L & A & B). split; [assumption|]. split.
  - intros k Hk. apply A. lia.
  - intros k Hk. apply B. lia.
Qed.

End Any.

Section Exactly.
Local Existing Instance exact.

(** Monotone in the temperature. *)
Lemma frozen_mono : forall T T', T <= T' -> dleb (frozen_of_temp (Fin T)) (frozen_of_temp (Fin T')) = true.
Proof.
  intros T T' H. unfold frozen_of_temp.
  assert (E : exp (-10 * (27315 / 100 - T)) <= exp (-10 * (27315 / 100 - T'))).
  { destruct (Rle_lt_or_eq_dec _ _ H) as [M| ->]; [left; apply exp_increasing; lra|right; reflexivity]. }
  change (dexp (lit (-10) * (lit (27315 / 100) - Fin T))%d) with (Fin (exp (-10 * (27315 / 100 - T)))).
  change (dexp (lit (-10) * (lit (27315 / 100) - Fin T'))%d) with (Fin (exp (-10 * (27315 / 100 - T')))).
  dcrush; try reflexivity; exfalso; lra.
Qed.
End Exactly.
