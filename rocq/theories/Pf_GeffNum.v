(** The closed form of the capillary drive is a finite number, whatever it is called with. *)

From Coq Require Import Reals Lra ZArith List Bool Lia.
From Verif Require Import Outcome Dbl Binary64 Types Soil Lib Spec_Common Spec_GeffNum Pf_Dbl Pf_Soil Pf_SoilAny Pf_Binary64 Pf_Counts.
Open Scope R_scope.

Lemma geff_finite : forall (fp : Fp) (cfg : Cfg) t1 t2 s ks nint, finite (dry_drive s) -> exists g, calc_Geff true t1 t2 s ks nint = Ok g /\ finite g.
Proof.
  intros fp cfg t1 t2 s ks nint (h & H). unfold calc_Geff. cbn [negb]. cbv zeta. fold (dry_drive s). rewrite H. eexists. split; [reflexivity|].
  set (g := (_ / _)%d). destruct g as [x| | |]; cbn; eexists; reflexivity.
Qed.

Section B64.
Local Existing Instance binary64.

Lemma drive_finite : forall s l p, s_lambda s = Fin l -> s_psib s = Fin p -> 0 <= l <= 1048576 -> 0 <= p <= 1048576 -> finite (dry_drive s).
Proof.
  intros s l p El Ep Hl Hp. unfold dry_drive. rewrite El, Ep.
  replace (lit 1) with (Fin 1) by (symmetry; apply (rnd_IZR 1); lia). replace (lit 2) with (Fin 2) by (symmetry; apply (rnd_IZR 2); lia). replace (lit 3) with (Fin 3) by (symmetry; apply (rnd_IZR 3); lia).
  cbn [dmul]. destruct (rnd_between 4194304 (3 * l) (rnd_IZR 4194304 ltac:(lia)) ltac:(lra)) as (a & -> & Ha). cbn [dadd].
  destruct (rnd_between 8388608 (2 + a) (rnd_IZR 8388608 ltac:(lia)) ltac:(lra)) as (b & -> & Hb).
  destruct (rnd_between 8388608 (1 + a) (rnd_IZR 8388608 ltac:(lia)) ltac:(lra)) as (d & Ed & Hd).
  assert (D : 1 <= d). { pose proof (rnd_mono 1 (1 + a) ltac:(lra)) as M. rewrite rnd_one, Ed in M. cbn in M. first [apply Rleb_true in M; lra|exact M|lra]. }
  rewrite Ed. cbn [ddiv]. destruct (Req_EM_T d 0); [lra|].
  assert (Q : 0 <= b / d <= 8388608). { split; [apply Rmult_le_pos; [lra|apply Rlt_le, Rinv_0_lt_compat; lra]|]. apply Rmult_le_reg_r with d; [lra|]. unfold Rdiv. rewrite Rmult_assoc, Rinv_l; [nra|lra]. }
  destruct (rnd_between 8388608 (b / d) (rnd_IZR 8388608 ltac:(lia)) Q) as (q & -> & Hq). cbn [dmul].
  destruct (rnd_between 8796093022208 (p * q) (rnd_IZR 8796093022208 ltac:(lia)) ltac:(nra)) as (z & -> & _). exists z. reflexivity.
Qed.
End B64.
