(** When the loops without a counter end. *)

From Coq Require Import Reals ZArith List.
From Verif Require Import Outcome Dbl Types Fronts State Update Driver Spec_Common Spec_Soil Spec_Profile Spec_Storage Spec_Balance Spec_Velocity.
Import ListNotations.
Open Scope R_scope.

(** Not an infinity; it may still be NaN. *)
Definition tame (x : dbl) : Prop := x <> PInf /\ x <> NInf.

(** A front whose layer exists, below the surface, with a head that is not negative; water content and speed are not infinite. *)
Record at_ease (e : env) (f : front) : Prop := {
  ae_layer : (1 <= f_layer f <= e_nlayers e)%Z;
  ae_depth : exists d, f_depth f = Fin d /\ 0 < d;
  ae_theta : tame (f_theta f);
  ae_dzdt : tame (f_dzdt f);
  ae_psi : not_negative (f_psi f)
}.

(** Rain and evaporative demand of every row are numbers. *)
Definition numeric (f : forcing) : Prop := Forall finite (fo_precip f) /\ Forall finite (fo_pet f).

(** What the sub-steps of an Update share: a described column of conducting van Genuchten soils and a positive step length. *)
Definition workable {fp : Fp} (u : upar) : Prop :=
  sound_env (u_env u) /\ vg_column (u_env u) /\ conducting (u_env u) /\ capillary (u_closed u) (u_nint u) (u_env u) /\ exists dt, u_dt u = Fin dt /\ 0 < dt.
(** A sub-step can start: fronts at ease, numbers as forcing and on the surface. *)
Definition unhurried (u : upar) (st : state) (a : acc) : Prop :=
  Forall (at_ease (u_env u)) (st_head st) /\ finite (st_precip st) /\ finite (st_pet st) /\ finite (a_on a).

(** What the sub-steps of this Update share, where they start and how many there are at most. *)
Definition launched {fp : Fp} (s : state) (u : upar) (s2 : state) (a : acc) (n : Z) : Prop :=
  exists s1 vcal volend dt, update_prologue s = Ok (s1, vcal) /\ lgar_calc_mass_bal (p_cum (st_p s1)) (st_head s1) = Ok volend /\ update_steps s1 = Ok (s2, dt, n) /\ u = mkU (env_of s2) dt (p_nint (st_p s2)) (p_closed (st_p s2)) (p_wilting (st_p s2)) (p_fc (st_p s2)) (p_pmax (st_p s2)) /\ a = acc0 volend (mb_on_ts (st_mb s2)).
