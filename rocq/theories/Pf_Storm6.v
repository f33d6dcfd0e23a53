(** The balance check and the global balance of columns whose wetting fronts lie in the first layer (exact arithmetic). *)

From Coq Require Import Reals Lra ZArith List Bool Lia.
From Verif Require Import Outcome Dbl Exact Types ListOps Soil Fronts Infil Move State Update Lib Spec_Common Spec_Soil Spec_List Spec_Update Spec_Profile Spec_Storage Spec_Velocity Spec_Advance Spec_Balance Spec_Shares
  Spec_Physical Spec_Motion Spec_Upright Spec_Layered Spec_Rest Spec_Storm Pf_Structure Pf_Layered Pf_Layered2 Pf_Storm4.
Import ListNotations.
Open Scope R_scope.
Local Existing Instance exact.

Section Balance.
Context {cfg : Cfg}.

Lemma storm_checked : forall (M : R) (qs : list part) (u : upar) (s : state) (a : acc) (b : sub) (f : front) (r : list front),
  set_out M qs u s a -> shallow (u_env u) (st_head s) -> supplied u s a -> ~ step_tie u s a -> st_head s = f :: r -> f_bottom f = false -> INR (length (st_head s)) <= 10000000 ->
  at_step sub_hydro u s a = Ok b -> exists x, substep u s a = x /\ match x with Ok _ => True | Stop why => why = AssertFail end.
Proof.
  intros M qs u s a b f r (HL & EE & HO & HC & (dt & Ed & Hd) & (pm & Em & Hm) & (p & Ep) & (on & Eo & Ho) & Ee) SH SU NT El Bf LE E.
  assert (P : placed (u_env u) M u s a p on dt pm) by (split; [reflexivity|]; auto 20).
  destruct (storm_hydro (u_env u) M qs HL u s a p on dt pm P SH SU NT b E) as (B & UP & OB & vin & D & a1 & _ & _ & HB & _).
  assert (X : B + 1 / 1000000000000 <= 1 / 10000).
  { unfold storm_bound in HB. rewrite El, Bf in HB. rewrite <- El in HB.
    assert (B <= 1 / 100000). { eapply Rle_trans; [exact HB|]. apply Rmax_lub; unfold tol; lra. } lra. }
  pose proof (placed_checked (u_env u) M qs HL u s a p on dt pm B b P NT UP OB X E) as Y. eexists. split; [reflexivity|]. destruct (substep u s a); exact Y.
Qed.

Lemma storm_global : forall (M : R) (qs : list part) (s0 : state) (xs : list step) (s : state) (u : upar) (zs : list step) (s' : state),
  layered M qs s0 -> fresh s0 -> storm s0 xs s -> executed s u zs s' -> Forall (stormy u) zs ->
  Forall (fun x => (exists f r, st_head (x_s x) = f :: r /\ f_bottom f = false) /\ (length (st_head (x_s x)) <= 200)%nat) (xs ++ zs) ->
  exists g, global_error (st_mb s') = Fin g /\ Rabs g <= INR (length (xs ++ zs)) * (202 / 1000000000000).
Proof.
  intros M qs s0 xs s u zs s' H0 HF H E HY HW. destruct (storm_journey M qs s0 xs s H0 H) as (ys & I1 & I2 & I3 & I4). destruct (executed_storm M qs s u zs s' I4 E HY) as (ws & J1 & J2 & J3 & _).
  rewrite <- J1 in E. destruct (layered_balance M qs s0 ys s u ws s' H0 HF I2 E J2) as (g & Eg & Hg). exists g. split; [exact Eg|]. eapply Rle_trans; [exact Hg|].
  rewrite <- I1, <- J1, <- map_app in *. rewrite map_length.
  assert (A : Forall (fun y => exists u, storm_step u (fst y) (snd y)) (ys ++ ws)). { apply Forall_app. split; [exact I3|]. eapply Forall_impl; [|exact J3]. intros y Hy. exists u. exact Hy. }
  rewrite Forall_map in HW. clear - A HW. revert A HW. generalize (ys ++ ws) as l. induction l as [|[x B] l IH]; intros A HW; [cbn; lra|].
  apply Forall_cons_iff in A as [(u & vin & D & a1 & _ & _ & HB & _) A]. apply Forall_cons_iff in HW as [[(f & r & El & Bf) LE] HW]. cbn [fst snd] in *. specialize (IH A HW).
  cbn [map Rsum]. replace (length ((x, B) :: l)) with (S (length l)) by reflexivity. rewrite S_INR. cbn [snd].
  assert (B <= 200 / 1000000000000). { unfold storm_bound in HB. rewrite El, Bf in HB. rewrite <- El in HB. eapply Rle_trans; [exact HB|]. apply le_INR in LE. change (INR 200) with (INR 200) in LE.
    assert (INR 200 = 200) as I200 by (rewrite INR_IZR_INZ; reflexivity). rewrite I200 in LE. apply Rmax_lub; unfold tol; lra. }
  lra.
Qed.
End Balance.
