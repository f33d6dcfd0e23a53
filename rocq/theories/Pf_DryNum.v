(** The depth of a new front is a finite number within its layer, for any rounding. *)

From Coq Require Import Reals Lra ZArith List Bool Lia.
From Verif Require Import Outcome Dbl Types ListOps Soil Infil Lib Spec_Common Pf_Dbl Pf_Soil Pf_SoilAny Pf_Geff.
Import ListNotations.
Open Scope R_scope.

Section Any.
Context {fp : Fp} {cfg : Cfg}.

Lemma nn_sqrt : forall a, not_negative a -> not_negative (dsqrt a).
Proof.
  intros [x| | |] H; try reflexivity. cbn [dsqrt]. destruct (Rlt_dec x 0); [reflexivity|]. exact (nn_lit (sqrt x) (sqrt_pos x)).
Qed.
Lemma min_cap : forall ck d, 0 <= ck -> not_negative d -> exists z, dfmin (Fin ck) d = Fin z /\ 0 <= z <= ck.
Proof.
  intros ck [x| | |] C H; try discriminate H; try (exists ck; split; [reflexivity|lra]). apply nn_Fin_inv in H. cbn. unfold Rltb. destruct (Rlt_dec ck x); eexists; (split; [reflexivity|lra]).
Qed.

Lemma dry_number : forall e closed nint dt c l s ff ck d y, soil_of e (f_layer c) = Ok s -> aget (e_frozen e) (f_layer c) = Ok ff -> aget (e_cum e) (f_layer c) = Ok (Fin ck) ->
  0 <= ck -> not_negative dt -> not_negative (s_Ksat s) -> not_negative ff -> dltb (s_theta_e s) (f_theta c) = false ->
  (closed = false \/ exists r te t lam pb, s_theta_r s = Fin r /\ s_theta_e s = Fin te /\ s_lambda s = Fin lam /\ s_psib s = pb /\ f_theta c = Fin t /\
     0 < lam /\ not_negative pb /\ r < te /\ dltb (Fin 0) (rnd (te - r)) = true /\ finite (rnd (te - r)) /\ r <= t <= te) ->
  lgar_calc_dry_depth e closed nint dt (c :: l) = Ok (d, y) -> (exists z, d = Fin z /\ 0 <= z <= ck) /\ not_negative y.
Proof.
  intros e closed nint dt c l s ff ck d y Es Ef Ec C Hdt Hk Hff Ht Hc H. unfold lgar_calc_dry_depth in H. change (lget (c :: l) 0) with (Ok c) in H. cbn [bind] in H. rewrite Es, Ef, Ec in H. cbn [bind] in H. cbv zeta in H.
  bind_inv H g EG. injection H as <- <-. pose proof (nn_sub _ _ Ht) as Y. split; [|exact Y].
  assert (G : not_negative g).
  { destruct Hc as [->|(r & te & t & lam & pb & Er & Ee & El & Ep & Et & Hl & Hp & Hre & P & F & Hrt)]; [exact (geff_integral_nn _ _ _ _ _ _ EG)|].
    destruct closed; [|exact (geff_integral_nn _ _ _ _ _ _ EG)]. rewrite Et, Ee in EG. apply (geff_closed_nn t te s (s_Ksat s * ff)%d nint r te lam pb g); try assumption; lra. }
  apply min_cap; [assumption|]. set (tau := (dt * _ / _)%d). assert (T : not_negative tau) by (apply nn_div; [apply nn_mul; [assumption|apply nn_mul; assumption]|exact Y]).
  apply nn_mul; [apply nn_lit; lra|]. apply nn_add; [exact T|]. apply nn_sqrt, nn_add; [apply nn_mul; exact T|]. apply nn_mul; [apply nn_mul; [apply nn_lit; lra|exact T]|exact G].
Qed.
End Any.
