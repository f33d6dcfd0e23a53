(** C72: the bound of the two unbounded loops has no influence on a run that it does not cut off, under every rounding. *)

From Coq Require Import String Reals Lra ZArith List Lia Bool.
From Verif Require Import Outcome Dbl Exact Types ListOps Soil Fronts Infil Move State Update Bmi Config Driver Lib Spec_Fuel Spec_Soil Pf_Geff Pf_Fuel Ex_Saturated Ex_Soil Ex_Dry.
Import ListNotations.
Open Scope R_scope.

(** ** C72 *)

(** The capillary integral and the head iteration, the two loops without a counter. *)
Theorem C72_loops :
  forall (fp : Fp) b closed t1 t2 s ks nint e lay s' psi nm pm aet dth dz,
    kept_by_more (fun n => @calc_Geff fp (bounded b n) closed t1 t2 s ks nint) /\
    kept_by_more (fun n => @lgar_theta_mass_balance fp (bounded b n) e lay s' psi nm pm aet dth dz).
Proof.
  intros. split; intros n m H E.
  - destruct (calc_Geff_more (bounded b n) (bounded b m) H closed t1 t2 s ks nint) as [X|X]; [contradiction|exact X].
  - destruct (tmb_more (bounded b n) (bounded b m) H e lay s' psi nm pm aet dth dz) as [X|X]; [contradiction|exact X].
Qed.
Print Assumptions C72_loops.

(** One Update from any state. *)
Theorem C72_update : forall (fp : Fp) b s, kept_by_more (fun n => @Update fp (bounded b n) s) /\ one_answer (fun n => @Update fp (bounded b n) s).
Proof.
  intros fp b s. assert (K : kept_by_more (fun n => @Update fp (bounded b n) s)).
  { intros n m H E. destruct (Update_more (bounded b n) (bounded b m) H eq_refl s) as [X|X]; [contradiction|exact X]. }
  split; [exact K|]. intros n m E E'. destruct (Nat.le_ge_cases n m); [symmetry|]; apply K; assumption.
Qed.
Print Assumptions C72_update.

(** The standalone program on any files, with any content of the uninitialised memory. *)
Theorem C72_program :
  forall (fp : Fp) b files texts junk ls,
    kept_by_more (fun n => @simulate fp (bounded b n) files texts junk ls) /\ one_answer (fun n => @simulate fp (bounded b n) files texts junk ls).
Proof.
  intros fp b files texts junk ls. assert (K : kept_by_more (fun n => @simulate fp (bounded b n) files texts junk ls)).
  { intros n m H E. destruct (simulate_more (bounded b n) (bounded b m) H eq_refl files texts junk ls) as [X|X]; [contradiction|exact X]. }
  split; [exact K|]. intros n m E E'. destruct (Nat.le_ge_cases n m); [symmetry|]; apply K; assumption.
Qed.
Print Assumptions C72_program.

(** The capillary integral is cut off with no pass at all; light rain on a dry column is computed with one pass, so with any number of passes. *)
Example C72_concrete :
  (forall t1 t2 s ks nint, @calc_Geff exact (bounded true 0) false t1 t2 s ks nint = Stop OutOfFuel) /\
  exists s', forall n, (1 <= n)%nat -> @Update exact (bounded true n) dr_start = Ok s'.
Proof.
  split; [reflexivity|]. destruct (dr_refutes (bounded true 1) ltac:(cbn; lia)) as (s' & o & a & _ & E & _). exists s'. intros n Hn.
  destruct (C72_update exact true dr_start) as [K _]. rewrite (K 1%nat n Hn); [exact E|]. rewrite E. discriminate.
Qed.
