(** Silt of data/vG_default_params_HYDRUS.dat, saturated, in binary64: it holds more than its saturated water content (C99), and rain on it infiltrates backwards. *)

From Coq Require Import Reals Lra ZArith List Bool Lia.
From Verif Require Import Outcome Dbl Binary64 Types ListOps Soil Fronts Infil Spec_RoundMono Pf_Binary64 Pf_Counts Ex_Clock64 Ex_LedgerFp Ex_RoundMono.
Import ListNotations.
Open Scope R_scope.
Local Existing Instance binary64.

Section Run.
Context {cfg : Cfg}.
Variables a n m : R.
Variable K : dbl.

Definition ng_env : env := mkEnv 1 [Fin 0; Fin 64] [None; Some 1%Z] [None; Some (sl_soil a n m)] [Fin 1; Fin 1].
Definition ng_front : front := mkF (Fin 64) (Fin sl_t) (Fin 0) K 1 1 true (Fin 0).
Let ms : R := 8286623314361713 / 281474976710656.
Let cm : R := 4143311657180857 / 140737488355328.
Definition ng_cap : R := - 1 / 281474976710656.

Lemma ng_rms : rnd ms = Fin ms. Proof. exact (dyadic 8286623314361713 48 ltac:(lia) ltac:(lia)). Qed.
Lemma ng_rcm : rnd cm = Fin cm. Proof. exact (dyadic 4143311657180857 47 ltac:(lia) ltac:(lia)). Qed.
Lemma ng_rcap : rnd ng_cap = Fin ng_cap. Proof. exact (dyadic (-1) 48 ltac:(lia) ltac:(lia)). Qed.
Lemma ng_rrun : rnd (2 - ng_cap) = Fin (2 - ng_cap).
Proof. replace (2 - ng_cap) with (562949953421313 / 281474976710656) by (unfold ng_cap; lra). exact (dyadic 562949953421313 48 ltac:(lia) ltac:(lia)). Qed.
Lemma ng_r64 : rnd 64 = Fin 64. Proof. apply (rnd_IZR 64). lia. Qed.

Lemma ng_mass : lgar_calc_mass_bal [Fin 0; Fin 64] [ng_front] = Ok (Fin cm).
Proof.
  unfold lgar_calc_mass_bal. cbn [mass_loop f_layer ng_front]. change (aget [Fin 0; Fin 64] (1 - 1)) with (Ok (Fin 0)). cbn [bind].
  change (f_theta ng_front) with (Fin sl_t). change (f_depth ng_front) with (Fin 64).
  rewrite (sub_is 64 0 64); [|lra|apply ng_r64]. rewrite (mul_is sl_t 64 cm); [|unfold sl_t, cm; lra|apply ng_rcm]. rewrite (add_is 0 cm cm); [|lra|apply ng_rcm]. reflexivity.
Qed.
Lemma ng_storage : max_storage ng_env = Ok (Fin ms).
Proof.
  unfold max_storage. change (Z.to_nat (e_nlayers ng_env)) with 1%nat. cbn [zfor]. change (soil_of ng_env 1) with (Ok (sl_soil a n m)). cbn [bind].
  change (aget (e_cum ng_env) 1) with (Ok (Fin 64)). change (aget (e_cum ng_env) (1 - 1)) with (Ok (Fin 0)). cbn [bind s_theta_e sl_soil].
  rewrite (sub_is 64 0 64); [|lra|apply ng_r64]. rewrite (mul_is sl_e 64 ms); [|unfold sl_e, ms; lra|apply ng_rms]. rewrite (add_is 0 ms ms); [|lra|apply ng_rms]. reflexivity.
Qed.
Lemma ng_r4 : rnd (1 / 4) = Fin (1 / 4). Proof. exact (dyadic 1 2 ltac:(lia) ltac:(lia)). Qed.

Lemma ng_capacity : infiltration_capacity ng_env true 120 (Fin 1) (Fin 0) (Fin 2) (Fin 2) 1 [ng_front] = Ok (Fin ng_cap).
Proof.
  unfold infiltration_capacity. change (listLength [ng_front]) with 1%Z. change (pget [ng_front] (findFront 1 [ng_front])) with (Ok ng_front). cbn [bind]. change (f_layer ng_front) with 1%Z.
  change (soil_of ng_env 1) with (Ok (sl_soil a n m)). cbn [bind lget nth_error]. change (f_layer ng_front) with 1%Z. change (aget (e_frozen ng_env) 1) with (Ok (Fin 1)). cbn [bind].
  change (e_nlayers ng_env) with 1%Z. cbn [Z.eqb Pos.eqb bind]. change (soil_of ng_env 1) with (Ok (sl_soil a n m)). cbn [bind].
  change (f_theta ng_front) with (Fin sl_t). change (s_theta_e (sl_soil a n m)) with (Fin sl_e).
  replace (Fin sl_t =? Fin sl_e)%d with false by (cbn; unfold Reqb; destruct (Req_EM_T sl_t sl_e) as [X|]; [unfold sl_t, sl_e in X; lra|reflexivity]). cbn [andb].
  change (e_cum ng_env) with [Fin 0; Fin 64]. rewrite ng_mass. cbn [bind]. rewrite ng_storage. cbn [bind].
  change (s_Ksat (sl_soil a n m)) with (Fin (1 / 4)). change (f_depth ng_front) with (Fin 64).
  rewrite (mul_is 2 1 2); [|lra|apply r_2]. rewrite (sub_is 2 2 0); [|lra|apply r_0]. rewrite dfmax_00. rewrite (add_is 0 0 0); [|lra|apply r_0].
  rewrite (div_is 0 64 0); [|lra|lra|apply r_0]. replace (lit 1) with (Fin 1) by (symmetry; apply r_1). rewrite (add_is 1 0 1); [|lra|apply r_1]. rewrite !(mul_is (1 / 4) 1 (1 / 4)); try lra; try apply ng_r4.
  rewrite (sub_is ms cm ng_cap); [|unfold ms, cm, ng_cap; lra|apply ng_rcap]. rewrite (div_is ng_cap 1 ng_cap); [|lra|lra|apply ng_rcap].
  unfold dgtb. rewrite ltb_64t by (unfold ng_cap; lra). reflexivity.
Qed.

Lemma ng_insert : lgar_insert_water ng_env true 120 (Fin 1) (Fin 0) (Fin 2) (Fin 0) (Fin 2) 1 (Fin 0) [ng_front] = Ok (Fin (2 - ng_cap), Fin 0, Fin ng_cap).
Proof.
  unfold lgar_insert_water. rewrite ng_capacity. cbn [bind]. unfold surface_partition. rewrite mul_0l. rewrite (div_is 0 1 0); [|lra|lra|apply r_0].
  rewrite (mul_is ng_cap 1 ng_cap); [|lra|apply ng_rcap]. rewrite (add_is ng_cap 0 ng_cap); [|lra|apply ng_rcap].
  unfold dgtb. rewrite (ltb_64f 0 0) by lra. rewrite ltb_64f by (unfold ng_cap; lra).
  replace (dfmin (Fin 2) (Fin ng_cap)) with (Fin ng_cap) by (cbn; unfold Rltb; destruct (Rlt_dec 2 ng_cap) as [X|]; [unfold ng_cap in X; lra|reflexivity]).
  rewrite (sub_is 2 ng_cap (2 - ng_cap)); [|lra|apply ng_rrun]. reflexivity.
Qed.
End Run.
