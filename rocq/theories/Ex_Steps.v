(** Worked example: dry Updates of the saturated column for every sub-step length and forcing resolution. *)

From Coq Require Import Reals Lra ZArith List Bool Lia.
From RecordUpdate Require Import RecordSet.
From Verif Require Import Outcome Dbl Exact Types ListOps Soil Giuh Fronts Infil Move State Update Lib Spec_Common Spec_Update
  Pf_Dbl Pf_Pow Pf_Update Pf_Clock Ex_Saturated.
Import ListNotations.
Import RecordSetNotations.
Open Scope R_scope.

(** Saturated column, no rain, sub-step [d], forcing resolution [f]; a residual of 0 has been recorded before. *)
Definition dry_state (d f : R) : state :=
  ex_state (ex_params d f 0 1000000 0 0 0 1 1 [Fin (2 / 5)] [Fin 1]) ex_mb1 0 None [ex_front] 0.

Section Run.
Local Existing Instance exact.
Context {cfg : Cfg}.

Definition dry_acc : acc := mkAcc (Fin 0) (Fin 0) (Fin 0) (Fin 40) (Fin 0) (Fin 0) (Fin 0) (Fin 0).

Lemma dry_loop : forall d f fi, 0 < d -> forall k t kk mb prev, mb_local mb = Some (Fin 0) ->
  exists t' kk' mb' prev', mb_local mb' = Some (Fin 0) /\
    subcycle_loop k (ex_upar d 0) (ex_state (ex_params d f 0 1000000 t kk 0 fi 1 [Fin (2 / 5)] [Fin 1]) mb 0 None prev 0) dry_acc
    = Ok (ex_state (ex_params d f 0 1000000 t' kk' 0 fi 1 [Fin (2 / 5)] [Fin 1]) mb' 0 None prev' 0, dry_acc).
Proof.
  intros d f fi Hd. induction k as [|k IH]; intros t kk mb prev Hm.
  - do 4 eexists. split; [exact Hm|reflexivity].
  - cbn [subcycle_loop]. unfold dry_acc at 1. rewrite ex_substep by lra. cbn [bind].
    replace (0 * (1 / 10) * d) with 0 by ring. replace (ex_on 0 (0 + 0)) with 0 by (unfold ex_on, Rmin; destruct (Rle_dec _ _); lra).
    replace (ex_off 0 (0 + 0)) with 0 by (unfold ex_off, Rmin; destruct (Rle_dec _ _); lra). rewrite !Rplus_0_r.
    destruct (_ && _)%bool.
    + do 4 eexists. split; [|reflexivity]. reflexivity.
    + apply IH. reflexivity.
Qed.

Lemma dry_update : forall d f n, 0 < d -> d2i (Fin f / Fin d + lit (1 / 100000000))%d = Ok n -> exists s', Update (dry_state d f) = Ok s'.
Proof.
  intros d f n Hd Hn. unfold Update. change (p_invalid (st_p (dry_state d f))) with false. cbv iota.
  change (update_prologue (dry_state d f)) with (Ok (dry_state d f, Fin 0)). cbn [bind].
  change (lgar_calc_mass_bal (p_cum (st_p (dry_state d f))) (st_head (dry_state d f))) with (lgar_calc_mass_bal [Fin 0; Fin 100] [ex_front]).
  rewrite ex_mass. cbn [bind].
  change (st_precip (dry_state d f)) with (Fin 0). change (st_pet (dry_state d f)) with (Fin 0). unfold dgeb. rewrite !leb_t by lra. cbn [cassert bind].
  assert (S : update_steps (dry_state d f) = Ok (ex_state (ex_params d f 0 1000000 0 0 0 n 1 [Fin (2 / 5)] [Fin 1]) ex_mb1 0 None [ex_front] 0, Fin d, n)).
  { unfold update_steps. change (p_adaptive (st_p (dry_state d f))) with false. cbv iota zeta.
    match goal with |- context [d2i ?x] => change x with (Fin f / Fin d + lit (1 / 100000000))%d end. rewrite Hn. reflexivity. }
  rewrite S. cbn [bind].
  destruct (dry_loop d f n Hd (Z.to_nat n) 0 0%Z ex_mb1 [ex_front] eq_refl) as (t' & kk' & mb' & prev' & Hm & HL).
  match goal with |- context [subcycle_loop ?k ?u ?s ?a] => change (subcycle_loop k u s a) with
    (subcycle_loop k (ex_upar d 0) (ex_state (ex_params d f 0 1000000 0 0 0 n 1 [Fin (2 / 5)] [Fin 1]) ex_mb1 0 None [ex_front] 0) dry_acc) end.
  rewrite HL. cbn [bind]. unfold finish_update.
  match goal with |- context [giuh_convolution_integral ?a ?b ?c ?dd] => replace (giuh_convolution_integral a b c dd) with (@Ok (dbl * list dbl) (Fin 0, [Fin 0; Fin 0])) end.
  2: { symmetry. reval. feq. }
  cbn [bind]. change (st_mb (ex_state ?a ?b ?c ?dd ?ee ?g)) with mb'. rewrite Hm. eexists. reflexivity.
Qed.

Lemma dry_d2i : forall d f k, 0 < d -> (0 <= k <= 2147483647)%Z -> IZR k <= f / d + 1 / 100000000 < IZR k + 1 ->
  d2i (Fin f / Fin d + lit (1 / 100000000))%d = Ok k.
Proof.
  intros d f k Hd Hk H. rewrite div_fin by lra. change (lit (1 / 100000000)) with (Fin (1 / 100000000)). cbn [dadd rnd exact d2i].
  replace (trunc (f / d + 1 / 100000000)) with k by (symmetry; apply trunc_nat; [lia|assumption]).
  destruct (Z.leb_spec (-2147483648) k); [|lia]. destruct (Z.leb_spec k 2147483647); [|lia]. reflexivity.
Qed.

(** A sub-step of 0.4 h with hourly forcing: 0.8 h are simulated.  A sub-step of 2 h: nothing is simulated. *)
Lemma dry_time : forall d k, 0 < d -> (0 <= k <= 2147483647)%Z -> IZR k <= 1 / d + 1 / 100000000 < IZR k + 1 ->
  IZR k * (d * 3600) < 1000000 ->
  exists s', Update (dry_state d 1) = Ok s' /\ p_time (st_p s') = Fin (IZR k * (d * 3600)).
Proof.
  intros d k Hd Hk H Ht. destruct (dry_update d 1 k Hd (dry_d2i _ _ _ Hd Hk H)) as (s' & HU).
  exists s'. split; [assumption|]. destruct (executed_exists _ _ HU) as (u & xs & He).
  assert (V : p_invalid (st_p (dry_state d 1)) = false) by reflexivity.
  assert (D : u_dt u = Fin d) by (rewrite (update_dt _ _ _ _ V He); reflexivity).
  assert (T : trunc (1 / d + 1 / 100000000) = k) by (apply trunc_nat; [lia|assumption]).
  destruct (update_count _ _ _ _ d 1 V He D eq_refl Hd) as [_ C]. rewrite T in C.
  assert (L : length xs = Z.to_nat k).
  { apply (C 0 1000000); [reflexivity|reflexivity|]. right. rewrite INR_IZR_INZ, Z2Nat.id by lia. lra. }
  destruct (update_time _ _ _ _ 0 d V He eq_refl D) as [E _]. rewrite E, L, INR_IZR_INZ, Z2Nat.id by lia. f_equal. ring.
Qed.
End Run.
