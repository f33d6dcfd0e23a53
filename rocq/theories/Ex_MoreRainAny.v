(** More rain on a saturated column in binary64: nothing goes in, the surface fills up to the maximum and the rest runs off. *)

From Coq Require Import Reals Lra ZArith List Bool Lia.
From Verif Require Import Outcome Dbl Binary64 Types ListOps Soil Fronts Infil Lib Spec_Common Pf_Dbl Pf_Binary64 Pf_Counts Pf_RoundMono Spec_RoundMono Pf_MoreRainAny Ex_Clock64.
Import ListNotations.
Open Scope R_scope.

Section B64.
Local Existing Instance binary64.
Context {cfg : Cfg}.
Variables pb hm : dbl.

Lemma c6_capacity : forall w p, dfmax (w - p * Fin 1)%d (Fin 0) = Fin (1 / 2) -> infiltration_capacity (c6_env pb hm) true 120 (Fin 1) (Fin 0) w p 1 [c6_front] = Ok (Fin 0).
Proof.
  intros w p E. unfold infiltration_capacity. cbv zeta. rewrite E. clear E. change (pget [c6_front] (findFront 1 [c6_front])) with (Ok c6_front). cbn [bind lget nth_error].
  change (soil_of (c6_env pb hm) (f_layer c6_front)) with (Ok (c6_soil pb hm)). change (aget (e_frozen (c6_env pb hm)) (f_layer c6_front)) with (Ok (Fin 1)). cbn [bind].
  change (e_nlayers (c6_env pb hm)) with 1%Z. change (listLength [c6_front]) with 1%Z. change (f_layer c6_front) with 1%Z. cbn [Z.eqb Pos.eqb bind andb].
  change (e_cum (c6_env pb hm)) with [Fin 0; Fin 64]. rewrite c6_mass. cbn [bind].
  assert (S : max_storage (c6_env pb hm) = Ok (Fin 32)).
  { unfold max_storage. change (Z.to_nat (e_nlayers (c6_env pb hm))) with 1%nat. cbn [zfor]. change (soil_of (c6_env pb hm) 1) with (Ok (c6_soil pb hm)). cbn [bind].
    change (aget (e_cum (c6_env pb hm)) 1) with (Ok (Fin 64)). change (aget (e_cum (c6_env pb hm)) (1 - 1)) with (Ok (Fin 0)). cbn [bind s_theta_e c6_soil]. apply f_equal.
    rewrite (sub_is 64 0 64); [|lra|apply (rnd_IZR 64); lia]. rewrite (mul_is _ _ 32); [|lra|apply (rnd_IZR 32); lia]. apply add_is; [lra|apply (rnd_IZR 32); lia]. }
  rewrite S. cbn [bind]. rewrite (sub_is 32 32 0); [|lra|apply rnd_zero]. rewrite !(div_is 0 1 0); [|lra|lra|apply rnd_zero].
  change (f_theta c6_front) with (Fin (1 / 2)). change (s_theta_e (c6_soil pb hm)) with (Fin (1 / 2)). change (s_Ksat (c6_soil pb hm)) with (Fin 1). change (f_depth c6_front) with (Fin 64).
  replace (Fin (1 / 2) =? Fin (1 / 2))%d with true by (cbn; unfold Reqb; destruct (Req_EM_T _ _); [reflexivity|lra]). cbn [andb].
  rewrite (mul_is 1 1 1); [|lra|apply rnd_one]. rewrite (add_is 0 (1 / 2) (1 / 2)); [|lra|apply r_half]. rewrite (div_is (1 / 2) 64 (1 / 128)); [|lra|lra|exact (dyadic 1 7 ltac:(lia) ltac:(lia))].
  unfold lit. rewrite rnd_one. rewrite (add_is 1 (1 / 128) (129 / 128)); [|lra|exact (dyadic 129 7 ltac:(lia) ltac:(lia))]. rewrite (mul_is 1 (129 / 128) (129 / 128)); [|lra|exact (dyadic 129 7 ltac:(lia) ltac:(lia))].
  replace (dfmin (Fin (129 / 128)) (Fin 0)) with (Fin 0) by (cbn; unfold Rltb; destruct (Rlt_dec _ _); [lra|reflexivity]).
  destruct (Fin 0 >? Fin 0)%d; reflexivity.
Qed.

Lemma rest_0 : forall w x, 0 <= w -> rnd w = Fin w -> x = Fin 0 -> rest w x = Fin w /\ dfmin (Fin w) x = Fin 0.
Proof.
  intros w x W R ->. unfold rest. cbn [dsub]. rewrite Rminus_0_r, R. cbn. unfold Rltb. split; destruct (Rlt_dec w 0); try lra; reflexivity.
Qed.
Lemma c6_more : let cap w p := infiltration_capacity (c6_env pb hm) true 120 (Fin 1) (Fin 0) (Fin w) (Fin p) 1 [c6_front] in
  let ins w p := lgar_insert_water (c6_env pb hm) true 120 (Fin 1) (Fin 0) (Fin w) (Fin 0) (Fin p) 1 (Fin 1) [c6_front] in
  dfmax (Fin (1 / 2) - Fin 0 * Fin 1)%d (Fin 0) = dfmax (Fin 3 - Fin (5 / 2) * Fin 1)%d (Fin 0) /\ cap (1 / 2) 0 = Ok (Fin 0) /\
  deqb (dfmax (Fin (1 / 2) - Fin 0 * Fin 1)%d (Fin 0)) (Fin 1) = false /\ deqb (dfmax (Fin 3 - Fin 0 * Fin 1)%d (Fin 0)) (Fin 1) = false /\
  ins (1 / 2) 0 = Ok (Fin 0, Fin (1 / 2), Fin 0) /\ ins 3 (5 / 2) = Ok (Fin 2, Fin 1, Fin 0).
Proof.
  cbv zeta. assert (R3 : rnd 3 = Fin 3) by (apply (rnd_IZR 3); lia). assert (R25 : rnd (5 / 2) = Fin (5 / 2)) by exact (dyadic 5 1 ltac:(lia) ltac:(lia)).
  assert (Z : (Fin 0 * Fin 1)%d = Fin 0) by (apply mul_is; [lra|apply rnd_zero]).
  destruct (rest_0 (1 / 2) _ ltac:(lra) r_half Z) as (P1 & P2). destruct (rest_0 3 _ ltac:(lra) R3 Z) as (Q1 & Q2).
  assert (A : dfmax (Fin (1 / 2) - Fin 0 * Fin 1)%d (Fin 0) = Fin (1 / 2)) by exact P1.
  assert (B : dfmax (Fin 3 - Fin (5 / 2) * Fin 1)%d (Fin 0) = Fin (1 / 2)).
  { rewrite (mul_is (5 / 2) 1 (5 / 2)); [|lra|exact R25]. rewrite (sub_is 3 (5 / 2) (1 / 2)); [|lra|apply r_half]. cbn. unfold Rltb. destruct (Rlt_dec _ _); [lra|reflexivity]. }
  split; [rewrite A, B; reflexivity|]. split; [exact (c6_capacity _ _ A)|]. rewrite A. fold (rest 3 (Fin 0 * Fin 1)%d). rewrite Q1.
  split; [cbn; unfold Reqb; destruct (Req_EM_T _ _); [lra|reflexivity]|]. split; [cbn; unfold Reqb; destruct (Req_EM_T _ _); [lra|reflexivity]|].
  unfold lgar_insert_water. rewrite (c6_capacity _ _ A), (c6_capacity _ _ B). cbn [bind]. rewrite !partition_rest by lra. cbv zeta. rewrite P1, P2, Q1, Q2. unfold dgtb.
  rewrite (ltb_64t 0 1), (ltb_64t (1 / 2) 1), (ltb_64f 3 1), (ltb_64t 1 3) by lra. split; [reflexivity|]. rewrite (sub_is 3 1 2); [reflexivity|lra|apply (rnd_IZR 2); lia].
Qed.
End B64.
