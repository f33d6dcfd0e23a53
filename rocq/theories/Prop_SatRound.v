(** C101: saturation in double precision. *)

From Coq Require Import Reals Lra ZArith List Bool Lia.
From Verif Require Import Outcome Dbl Binary64 Types Soil Spec_Soil Spec_RoundMono Spec_SatRound Pf_RoundMono Pf_SatRound Ex_RoundMono Ex_SatRound.
Import ListNotations.
Open Scope R_scope.

Local Existing Instance binary64.

(** C101: no water content gives a saturation above 1. So the conductivity is a number between 0 and Ksat, never NaN. *)
Theorem C101_saturation_at_most_one :
  forall s r e t, rounded_soil s r e -> rnd e = Fin e -> holds s r e t ->
  unit_range (Se_of_theta s (Fin t)) /\
  forall k, rnd k = Fin k -> 0 <= k -> exists K, K_of_Se s (Se_of_theta s (Fin t)) (Fin k) = Fin K /\ 0 <= K <= k.
Proof.
  intros s r e t RS He (L & H). pose proof (saturation_unit s r e t RS He L H) as U. split; [exact U|]. intros k Hk H0. destruct RS as (_ & _ & _ & _ & _ & _ & _ & m & Em & Hm).
  unfold K_of_Se. rewrite Em. apply K_range; try assumption. lra.
Qed.
Print Assumptions C101_saturation_at_most_one.

(** C101: a double above theta_r has a positive saturation, and a head that is not negative and not NaN. *)
Theorem C101_head_of_content :
  forall s r e t ia, rounded_soil s r e -> rnd e = Fin e -> holds s r e t -> r < t -> rnd t = Fin t -> (lit 1 / s_alpha s)%d = Fin ia -> 0 < ia ->
  (exists x, Se_of_theta s (Fin t) = Fin x /\ 0 < x <= 1) /\ below (Fin 0) (h_of_Se s (Se_of_theta s (Fin t))).
Proof.
  intros s r e t ia RS He (L & H) Lt Ht Ei Hi. assert (Nt : b64_near t = t).
  { destruct (content_bound s r e t RS He L H) as (_ & T2). pose proof RS as (_ & _ & R & _). rewrite Pf_Binary64.rnd_small in Ht by (apply Pf_Counts.fits; lra). injection Ht as Ht. exact Ht. }
  destruct (saturation_pos s r e t RS He Lt Nt H) as (x & E & Hx). split; [eauto|]. rewrite E. apply (h_mono s r e x x ia RS Ei Hi); lra.
Qed.
Print Assumptions C101_head_of_content.

(** C101: a content from theta_e on, also one that exceeds it, is saturated exactly: saturation 1, conductivity Ksat, head 0. *)
Theorem C101_saturated_exactly :
  forall s r e t, rounded_soil s r e -> rnd e = Fin e -> holds s r e t -> e <= t ->
  Se_of_theta s (Fin t) = Fin 1 /\ (forall k, rnd k = Fin k -> K_of_Se s (Se_of_theta s (Fin t)) (Fin k) = Fin k) /\
  (forall ia, (lit 1 / s_alpha s)%d = Fin ia -> (lit 1 / s_n s)%d <> Fin 0 -> h_of_Se s (Se_of_theta s (Fin t)) = Fin 0).
Proof.
  intros s r e t RS He (L & H) G. pose proof (saturation_one s r e t RS He G H) as E. rewrite E. destruct RS as (_ & _ & _ & _ & _ & _ & N & m & Em & Hm). split; [reflexivity|].
  split; [intros k Hk; unfold K_of_Se; rewrite Em; apply K_one; [exact Hk|lra]|intros ia Ei Nn; exact (h_zero s ia Ei N Nn)].
Qed.
Print Assumptions C101_saturated_exactly.

(** A soil with zero head need not be saturated: with theta_r = 0.09 and theta_e = 0.34 the content of head 0 is below theta_e, its saturation is 1 - 2^-53 and its head 2^-20 cm. *)
Theorem C101_zero_head_saturated_refuted :
  exists s r e t, lit (9 / 100) = Fin r /\ lit (34 / 100) = Fin e /\ rounded_soil s r e /\ theta_of_h s (Fin 0) = Fin t /\ t < e /\
  Se_of_theta s (Fin t) = Fin (9007199254740991 / 9007199254740992) /\ h_of_Se s (Se_of_theta s (Fin t)) = Fin (/ 1048576).
Proof.
  exists qr_soil, qr_r, qr_e, qr_t. split; [exact qr_lit_r|]. split; [exact qr_lit_e|]. split; [exact qr_rounded|]. split; [exact qr_saturated|]. split; [unfold qr_t, qr_e; lra|]. rewrite qr_Se. split; [reflexivity|exact qr_head].
Qed.
Print Assumptions C101_zero_head_saturated_refuted.

(** The silt of C99: its content at head 0 exceeds theta_e and meets the conditions of the three theorems. *)
Example C101_concrete : let s := sl_soil (1 / 64) 2 (1 / 2) in rounded_soil s sl_r sl_e /\ rnd sl_e = Fin sl_e /\ holds s sl_r sl_e sl_t /\ sl_e < sl_t /\ rnd sl_t = Fin sl_t /\
  (lit 1 / s_alpha s)%d = Fin 64 /\ (lit 1 / s_n s)%d <> Fin 0.
Proof.
  assert (L1 : lit 1 = Fin 1) by (unfold lit; apply rnd_one).
  cbv zeta. split; [apply sl_rounded; lra|]. split; [eapply rnd_idem; exact sl_lit_e|]. split.
  - split; [unfold sl_r, sl_t; lra|]. right. exists (Fin 0). split; [apply below_fin; lra|]. rewrite sl_saturated by lra. apply below_fin. lra.
  - split; [unfold sl_e, sl_t; lra|]. split; [eapply rnd_idem; exact sl_sum|]. cbn [sl_soil s_alpha s_n]. rewrite L1. cbn [ddiv]. destruct (Req_EM_T (1 / 64) 0); [lra|]. destruct (Req_EM_T 2 0); [lra|].
    split; [replace (1 / (1 / 64)) with (IZR 64) by lra; apply Pf_Counts.rnd_IZR; lia|]. rewrite (exact_is (1 / 2) 1 1); [injection; lra|lia|lia|]. change (Flocq.Core.Raux.bpow Flocq.Core.Zaux.radix2 (- (1))) with (/ 2). lra.
Qed.
