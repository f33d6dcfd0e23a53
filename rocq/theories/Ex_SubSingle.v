(** Worked example for a sub-step in a column of one layer: the fronts of Ex_Single, one hour without rain and 5 mm/h of demand. *)

From Coq Require Import Reals Lra ZArith List Bool Lia.
From Verif Require Import Outcome Dbl Exact Types ListOps Soil Fronts Infil Move State Update Lib Spec_Common Spec_Soil Spec_Update Spec_Profile Spec_Storage Spec_Velocity Spec_Single Spec_SubSingle
  Pf_Dbl Pf_SafeMove Pf_SubSingle Ex_Saturated Ex_Single.
Import ListNotations.
Open Scope R_scope.

Definition ss_u : upar := ex_upar 1 2.
Definition ss_start : state :=
  mkState sg1_head sg1_head [None; Some ex_soil] (ex_params 1 1 2 7200 0 0 0 1 2 [Fin (3 / 10); Fin (1 / 5)] [Fin (1 / 10); Fin 1])
    ex_mb0 (Fin 0) (Fin 5) ex_cal None 1 [Fin 1] [Fin 0; Fin 0].
Definition ss_acc : acc := mkAcc (Fin 0) (Fin 0) (Fin 0) (Fin 21) (Fin 0) (Fin 0) (Fin 0) (Fin 0).

Section Run.
Local Existing Instance exact.
Context {cfg : Cfg}.

Lemma ss_plain : plain ss_u ex_soil (1 / 10) (2 / 5) 100 1.
Proof.
  constructor; [exact sg1_single|reflexivity|lra| | |].
  - intros k s Hk E. change (e_nlayers (u_env ss_u)) with 1%Z in Hk. assert (k = 1%Z) as -> by lia. apply Ok_inj in E. subst s. exists 1, 10. repeat split; lra.
  - exists 2. split; [reflexivity|lra].
  - exists 15495, 341. repeat split; lra.
Qed.

Lemma ss_placed : placed ss_u (2 / 5) 100 ss_start ss_acc.
Proof.
  constructor; [reflexivity|exact sg1_settled| |exists 0; split; [reflexivity|lra]|eexists; reflexivity|eexists; reflexivity].
  cbn [ss_acc a_end]. f_equal. cbn. lra.
Qed.

Lemma ss_runs : exists st' a', substep ss_u ss_start ss_acc = Ok (st', a').
Proof.
  assert (Hr : 0 <= 1 / 10) by lra.
  assert (S : ends (slow (u_closed ss_u)) (fun _ => True) (substep ss_u ss_start ss_acc)).
  { eapply (substep_dry ss_u ex_soil (1 / 10) (2 / 5) 100 1 ss_start ss_acc sg1_top sg1_deep [] 0 5); try exact ss_plain; try exact ss_placed; try reflexivity; try lra; cbn [sg1_top sg1_deep f_theta f_depth val]; [lra|].
    rewrite Rmax_left by lra. lra. }
  destruct (substep ss_u ss_start ss_acc) as [[st' a']|w]; [eauto|]. destruct S as [_ S]. discriminate S.
Qed.
End Run.
