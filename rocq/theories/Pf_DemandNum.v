(** The demand for evapotranspiration is a number, for any rounding; and a case in which it is not. *)

From Coq Require Import Reals Lra ZArith List Bool Lia.
From Verif Require Import Outcome Dbl Binary64 Types ListOps Soil Lib Spec_Common Spec_RoundMono Pf_Dbl Pf_Soil Pf_SoilAny Pf_Binary64 Pf_Counts Pf_RoundMono Ex_Clock64.
Import ListNotations.
Open Scope R_scope.

Section Any.
Context {fp : Fp}.
Notation nn a := (below (Fin 0) a).

Lemma nn_nan : forall x a, below (Fin x) a -> a <> NaN.
Proof. intros x a H C. rewrite C in H. discriminate H. Qed.

Lemma aet_number : forall e pet dt wp fc c r s, soil_of e (f_layer c) = Ok s -> below (Fin 0) (f_psi c) -> dltb (Fin 0) (half_point s wp fc) = true ->
  finite (f_psi c) \/ finite (half_point s wp fc) -> rnd pet = Fin pet -> 0 <= pet -> 0 <= dt ->
  exists a, calc_aet e (Fin pet) (Fin dt) wp fc (c :: r) = Ok a /\ below (Fin 0) a /\ below a (Fin pet * Fin dt)%d.
Proof.
  intros e pet dt wp fc c r s Es Hp Hw Hf Rp P D. unfold calc_aet. change (lget (c :: r) 0) with (Ok c). cbn [bind]. rewrite Es. cbn [bind]. cbv zeta. fold (half_point s wp fc).
  assert (P3 : nn (lit 3)) by (apply nn_rnd; lra). assert (R : nn (f_psi c / half_point s wp fc)%d).
  { destruct (nn_cases _ Hp) as [E|(x & E & Hx)]; rewrite E in *; [|exact (proj2 (div_pos_mono x x _ ltac:(lra) Hw))].
    destruct Hf as [(z & C)|(h & C)]; [discriminate|]. rewrite C in *. cbn in Hw. apply Rltb_true in Hw. cbn. destruct (Rlt_dec h 0); [lra|reflexivity]. }
  destruct (pow_mono _ _ _ R (below_refl _ (nn_nan _ _ R)) P3) as (_ & Q). set (w := dpow _ _) in *.
  assert (Q' : below (Fin 1) (Fin 1 + w)%d).
  { apply below_trans with (Fin 1 + Fin 0)%d; [cbn; rewrite Rplus_0_r, rnd_one; apply below_fin; lra|]. apply add_mono; [assumption|discriminate]. }
  destruct (div_anti _ _ Q' (below_refl _ (nn_nan _ _ Q'))) as (_ & (q & Eq & Hq) & _). change (lit 1) with (rnd 1). rewrite rnd_one, Eq. cbn [dmul].
  destruct (rnd_between pet (pet * q) Rp ltac:(nra)) as (g & Eg & Hg). rewrite Eg. cbn [dmul].
  pose proof (nn_rnd (g * dt) ltac:(nra)) as N. pose proof (nn_rnd (pet * dt) ltac:(nra)) as Z. pose proof (below_rnd (g * dt) (pet * dt) ltac:(nra)) as Y.
  destruct (rnd (g * dt) <? Fin 0)%d; [exists (Fin 0); split; [reflexivity|]; split; [apply below_fin; lra|exact Z]|].
  destruct (rnd (g * dt) >? rnd (pet * dt))%d; [exists (rnd (pet * dt)); split; [reflexivity|]; split; [exact Z|apply below_refl, rnd_not_nan]|].
  exists (rnd (g * dt)). auto.
Qed.
End Any.

Section B64.
Local Existing Instance binary64.

Lemma aet_nan : forall pb hm pet dt, calc_aet (c6_env pb hm) (Fin pet) (Fin dt) (Fin 0) (Fin 0) [c6_front] = Ok NaN.
Proof.
  intros pb hm pet dt. unfold calc_aet. cbn [lget nth_error bind]. change (soil_of (c6_env pb hm) (f_layer c6_front)) with (Ok (c6_soil pb hm)). cbn [bind]. cbv zeta. rewrite c6_theta.
  rewrite (sub_is (1 / 2) (1 / 2) 0); [|lra|apply rnd_zero]. replace (lit 1) with (Fin 1) by (symmetry; apply rnd_one). rewrite (mul_is 0 1 0); [|lra|apply rnd_zero].
  replace (lit 2) with (Fin 2) by (symmetry; apply (rnd_IZR 2); lia). rewrite (div_is 0 2 0); [|lra|lra|apply rnd_zero]. rewrite (add_is 0 (1 / 2) (1 / 2)); [|lra|apply r_half]. rewrite c6_psi.
  change (f_psi c6_front) with (Fin 0). assert (Z : (Fin 0 / Fin 0)%d = NaN).
  { unfold ddiv. destruct (Req_EM_T 0 0) as [_|X]; [|destruct (X eq_refl)]. unfold inf_sign. repeat match goal with |- context [if ?d then _ else _] => destruct d end; try reflexivity; exfalso; lra. }
  rewrite Z. replace (lit 3) with (Fin 3) by (symmetry; apply (rnd_IZR 3); lia). assert (W : dpow NaN (Fin 3) = NaN).
  { assert (D3 : deqb (Fin 3) (Fin 0) = false) by (cbn; unfold Reqb; destruct (Req_EM_T 3 0); [lra|reflexivity]). unfold dpow. rewrite D3. reflexivity. }
  rewrite W. cbn [dadd ddiv dmul]. unfold dgtb. cbn [dltb]. destruct (rnd (pet * dt)); reflexivity.
Qed.
End B64.
