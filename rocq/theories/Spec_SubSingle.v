(** A sub-step in a column of one soil layer, over the reals. *)

From Coq Require Import Reals ZArith List Bool.
From RecordUpdate Require Import RecordSet.
From Verif Require Import Outcome Dbl Exact Types ListOps Soil Fronts Infil Move State Update Spec_Common Spec_Soil Spec_Update Spec_Profile Spec_Storage Spec_Velocity Spec_Single.
Import ListNotations.
Open Scope R_scope.
Local Existing Instance exact.

(** Parameters of an Update with sub-steps of [dt] hours: one layer, numbers where numbers are expected, heads of wilting point and field capacity
    that are not both zero. *)
Record plain (u : upar) (s : soil) (r te D dt : R) : Prop := {
  pl_single : single (u_env u) s r te D;
  pl_dt : u_dt u = Fin dt;
  pl_pos : 0 < dt;
  pl_capillary : capillary (u_closed u) (u_nint u) (u_env u);
  pl_pond : exists pm, u_pmax u = Fin pm /\ 0 <= pm;
  pl_demand : exists wp fc, u_wilting u = Fin wp /\ u_fc u = Fin fc /\ 0 <= wp /\ 0 <= fc /\ 0 < fc + wp
}.

(** The state before a sub-step: fronts in order, the water of the last sub-step is what they hold, the water on the surface and the
    forcing are numbers. *)
Record placed (u : upar) (te D : R) (st : state) (a : acc) : Prop := {
  pc_cum : p_cum (st_p st) = e_cum (u_env u);
  pc_fronts : settled (u_env u) te D (st_head st);
  pc_end : a_end a = Fin (storage (st_head st));
  pc_on : exists on, a_on a = Fin on /\ 0 <= on;
  pc_precip : exists p, st_precip st = Fin p;
  pc_pet : exists p, st_pet st = Fin p
}.

(** A profile of one front: its water content belongs to its head, and the residual content is not negative. *)
Definition footing (s : soil) (r : R) (l : list front) : Prop := length l = 1%nat -> rooted s l /\ 0 <= r.

(** How far the water balance of a sub-step may be off, in cm: the bound that the code itself checks, if it starts with one front. *)
Definition slack (l : list front) : R := match l with [_] => 1 / 10000 | _ => 1 / 10000000 + 1 / 1000000000000 end.

(** The water of a sub-step of [dt] hours, up to [tol] cm: what the fronts and the surface hold afterwards, with what left as runoff,
    evapotranspiration and recharge, is what they held before and the rain of [p] mm/h. *)
Definition water_kept (dt : R) (st : state) (a : acc) (st' : state) (a' : acc) (tol : R) : Prop :=
  exists p on on' et ro q,
    st_precip st = Fin p /\ a_on a = Fin on /\ a_on a' = Fin on' /\
    a_aet a' = (a_aet a + Fin et)%d /\ a_runoff a' = (a_runoff a + Fin ro)%d /\ a_rech a' = (a_rech a + Fin q)%d /\
    Rabs (storage (st_head st') + on' + ro + et + q - (storage (st_head st) + on + Rmax p 0 / 10 * dt)) <= tol.

(** The water on the surface: the rain and what was there infiltrates, runs off or stays; rain and demand are those of the forcing. *)
Definition surface_kept (dt : R) (st : state) (a a' : acc) : Prop :=
  exists p pet on on' i ro,
    st_precip st = Fin p /\ st_pet st = Fin pet /\ a_on a = Fin on /\ a_on a' = Fin on' /\
    a_in a' = (a_in a + Fin i)%d /\ a_runoff a' = (a_runoff a + Fin ro)%d /\
    a_precip a' = (a_precip a + Fin (Rmax p 0 / 10 * dt))%d /\ a_pet a' = (a_pet a + Fin (Rmax pet 0 / 10 * dt))%d /\
    i + ro + on' = on + Rmax p 0 / 10 * dt.
