(** C34: the closed form of the capillary drive is a finite number. *)

From Coq Require Import Reals Lra ZArith List Bool.
From Verif Require Import Outcome Dbl Exact Binary64 Types Soil Spec_Common Spec_GeffNum Pf_GeffNum Ex_Clock64.
Open Scope R_scope.

(** C34: for any rounding, whatever the water contents (infinite or NaN too): the drive is finite if that of the dry soil is. *)
Theorem C34_closed_form_is_finite :
  forall (fp : Fp) (cfg : Cfg) t1 t2 s ks nint, finite (dry_drive s) -> exists g, calc_Geff true t1 t2 s ks nint = Ok g /\ finite g.
Proof. exact @geff_finite. Qed.
Print Assumptions C34_closed_form_is_finite.

(** C34: in binary64 it is for every soil with lambda and psi_b from 0 to 2^20. *)
Theorem C34_closed_form_finite_binary64 :
  forall (cfg : Cfg) t1 t2 s ks nint l p, s_lambda s = Fin l -> s_psib s = Fin p -> 0 <= l <= 1048576 -> 0 <= p <= 1048576 ->
  exists g, @calc_Geff binary64 cfg true t1 t2 s ks nint = Ok g /\ finite g.
Proof. intros cfg t1 t2 s ks nint l p El Ep Hl Hp. exact (@geff_finite binary64 cfg t1 t2 s ks nint (drive_finite s l p El Ep Hl Hp)). Qed.
Print Assumptions C34_closed_form_finite_binary64.

(** Water contents that are NaN give the drive of the dry soil. *)
Example C34_finite_concrete : forall cfg : Cfg, s_lambda (c6_soil (Fin 4) (Fin 1)) = Fin 1 /\ s_psib (c6_soil (Fin 4) (Fin 1)) = Fin 4 /\
  exists g, @calc_Geff binary64 cfg true NaN NaN (c6_soil (Fin 4) (Fin 1)) (Fin 1) 120 = Ok g /\ finite g.
Proof.
  intro cfg. split; [reflexivity|]. split; [reflexivity|]. apply (C34_closed_form_finite_binary64 cfg NaN NaN (c6_soil (Fin 4) (Fin 1)) (Fin 1) 120 1 4); try reflexivity; lra.
Qed.
