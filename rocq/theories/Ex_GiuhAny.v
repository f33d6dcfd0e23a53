(** A queue holding NaN and an infinity, in binary64: two calls later they are gone. *)

From Coq Require Import Reals Lra ZArith List Bool Lia.
From Verif Require Import Outcome Dbl Binary64 Types ListOps Giuh Lib Spec_Giuh Pf_Dbl Pf_Giuh Pf_Binary64 Pf_Counts Ex_Clock64.
Import ListNotations.
Open Scope R_scope.
Local Existing Instance binary64.

Lemma ga_call : forall r p x y e, rnd (1 / 2 * r) = Fin p ->
  giuh_convolution_integral (Fin r) 2 [Fin (1 / 2); Fin (1 / 2)] [x; y; e] = Ok ((x + Fin p)%d, [(y + Fin p)%d; Fin 0; Fin 0]).
Proof.
  intros r p x y e E. pose proof (giuh_closed (Fin r) (Fin (1 / 2)) [Fin (1 / 2)] x [y] e eq_refl) as G. cbn [length app conv_add] in G. change (Z.of_nat 2) with 2%Z in G. rewrite G.
  cbn [dmul]. rewrite E. reflexivity.
Qed.
Lemma ga_two : rnd (1 / 2 * 2) = Fin 1. Proof. replace (1 / 2 * 2) with 1 by lra. apply rnd_one. Qed.
Lemma ga_six : rnd (1 / 2 * 6) = Fin 3. Proof. replace (1 / 2 * 6) with 3 by lra. apply (rnd_IZR 3). lia. Qed.
Lemma ga_zero : rnd (1 / 2 * 0) = Fin 0. Proof. rewrite Rmult_0_r. apply rnd_zero. Qed.
Lemma ga_01 : (Fin 0 + Fin 1)%d = Fin 1. Proof. apply add_is; [lra|apply rnd_one]. Qed.
Lemma ga_03 : (Fin 0 + Fin 3)%d = Fin 3. Proof. apply add_is; [lra|apply (rnd_IZR 3); lia]. Qed.
Lemma ga_00 : (Fin 0 + Fin 0)%d = Fin 0. Proof. apply add_is; [lra|apply rnd_zero]. Qed.
Lemma ga_13 : (Fin 1 + Fin 3)%d = Fin 4. Proof. apply add_is; [lra|apply (rnd_IZR 4); lia]. Qed.
Lemma ga_10 : (Fin 1 + Fin 0)%d = Fin 1. Proof. apply add_is; [lra|apply rnd_one]. Qed.
Lemma ga_30 : (Fin 3 + Fin 0)%d = Fin 3. Proof. apply add_is; [lra|apply (rnd_IZR 3); lia]. Qed.

Lemma ga_nan : giuh_calls 2 [Fin (1 / 2); Fin (1 / 2)] [NaN; PInf; NaN] [Fin 0; Fin 2; Fin 6; Fin 0; Fin 0] = Ok ([NaN; PInf; Fin 4; Fin 3; Fin 0], [Fin 0; Fin 0; Fin 0]).
Proof.
  cbn [giuh_calls]. rewrite (ga_call 0 0) by apply ga_zero. cbn [bind]. change (PInf + Fin 0)%d with PInf. rewrite (ga_call 2 1) by apply ga_two. cbn [bind]. change (PInf + Fin 1)%d with PInf. rewrite ga_01.
  rewrite (ga_call 6 3) by apply ga_six. cbn [bind]. rewrite ga_13, ga_03. rewrite (ga_call 0 0) by apply ga_zero. cbn [bind]. rewrite ga_30, ga_00. rewrite (ga_call 0 0) by apply ga_zero. cbn [bind]. rewrite ga_00.
  reflexivity.
Qed.
Lemma ga_less : giuh_calls 2 [Fin (1 / 2); Fin (1 / 2)] [Fin 0; Fin 0; Fin 0] [Fin 0; Fin 2; Fin 0] = Ok ([Fin 0; Fin 1; Fin 1], [Fin 0; Fin 0; Fin 0]).
Proof.
  cbn [giuh_calls]. rewrite (ga_call 0 0) by apply ga_zero. cbn [bind]. rewrite ga_00. rewrite (ga_call 2 1) by apply ga_two. cbn [bind]. rewrite ga_01. rewrite (ga_call 0 0) by apply ga_zero. cbn [bind].
  rewrite ga_10, ga_00. reflexivity.
Qed.
Lemma ga_more : giuh_calls 2 [Fin (1 / 2); Fin (1 / 2)] [Fin 0; Fin 0; Fin 0] [Fin 0; Fin 2; Fin 6] = Ok ([Fin 0; Fin 1; Fin 4], [Fin 3; Fin 0; Fin 0]).
Proof.
  cbn [giuh_calls]. rewrite (ga_call 0 0) by apply ga_zero. cbn [bind]. rewrite ga_00. rewrite (ga_call 2 1) by apply ga_two. cbn [bind]. rewrite ga_01. rewrite (ga_call 6 3) by apply ga_six. cbn [bind].
  rewrite ga_13, ga_03. reflexivity.
Qed.
