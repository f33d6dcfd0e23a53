(** Columns of several layers whose wetting fronts lie in the first layer. *)

From Coq Require Import Reals ZArith List Bool.
From Verif Require Import Outcome Dbl Exact Types State Update Spec_Common Spec_Soil Spec_Update Spec_Storage Spec_Balance Spec_Shares Spec_Motion Spec_Upright Spec_Profile Spec_Layered Spec_Rest.
Import ListNotations.
Open Scope R_scope.

(** Every front lies at rest on the lower boundary of its layer, or in the first layer and not below it. *)
Definition shallow (e : env) (l : list front) : Prop :=
  Forall (fun f => if f_bottom f then f_dzdt f = Fin 0 else f_layer f = 1%Z /\ exists z, aget (e_cum e) 1 = Ok (Fin z) /\ val (f_depth f) <= z) l.

(** The water [v] put in and what the first front holds above the second exceed the demand [D]; without a wetting front no more water is put in than the demand asks for. *)
Definition covered (l : list front) (v D : R) : Prop :=
  match l with
  | f :: r => if f_bottom f then v <= D else match r with n :: _ => D < v + val (f_depth f) * (val (f_theta f) - val (f_theta n)) | [] => False end
  | [] => False
  end.

(** The tolerance of the iteration for each front, when the first front lies inside the first layer; otherwise once, and twice the part of the demand [D] of which the pass leaves [a1]. *)
Definition storm_bound (l : list front) (D a1 : R) : R :=
  Rmax (match l with f :: _ => if f_bottom f then tol + 2 * (D - a1) else INR (length l) * tol | [] => 0 end) (2 / 10000000000).

Section Steps.
Local Existing Instance exact.
Context {cfg : Cfg}.

(** The motion of the sub-step starts with water that covers its demand. *)
Definition hydro_supplied (u : upar) (precip_prev precip_rate pet_rate precip volon ponded volend : dbl) (head prev : list front) : Prop :=
  forall vin aet, hydro_motion u precip_prev precip_rate pet_rate precip volon ponded head prev vin aet -> exists v D, vin = Fin v /\ aet = Fin D /\ 0 <= D /\ covered head v D.
Definition supplied (u : upar) (s : state) (a : acc) : Prop := at_step hydro_supplied u s a.

(** A sub-step of a storm: the wetting fronts lie in the first layer and are supplied; no ties; afterwards all fronts have a finite head and lie below the upper end of their layer. *)
Definition stormy (u : upar) (x : step) : Prop :=
  shallow (u_env u) (st_head (x_s x)) /\ supplied u (x_s x) (x_a x) /\ ~ step_tie u (x_s x) (x_a x) /\ Forall (seated (u_env u)) (st_head (x_s' x)).

(** A sub-step that may be off its balance by [B], which is no more than the bound above; when the first front lies inside the first layer, its pass meets the whole demand. *)
Definition storm_step (u : upar) (x : step) (B : R) : Prop :=
  exists vin D a1, step_met u (x_s x) (x_a x) vin D a1 /\ a1 <= D /\ B <= storm_bound (st_head (x_s x)) D a1 /\
    match st_head (x_s x) with f :: _ => f_bottom f = false -> a1 = D | [] => True end.

(** Updates and user edits in any order, all sub-steps of which belong to a storm. *)
Inductive storm (s0 : state) : list step -> state -> Prop :=
| sm_start : storm s0 [] s0
| sm_edit : forall xs s s', storm s0 xs s -> user_edit s s' -> finite (st_precip s') -> storm s0 xs s'
| sm_update : forall xs s u zs s', storm s0 xs s -> executed s u zs s' -> Forall (stormy u) zs -> storm s0 (xs ++ zs) s'.

(** The water of the atmosphere: the evaporative demand is a number, and what the first front holds above the second exceeds the demand of the sub-step.  Without a wetting front the surface is
    dry, or a front is created. *)
Definition met (u : upar) (s : state) (a : acc) : Prop :=
  exists pet dt, st_pet s = Fin pet /\ u_dt u = Fin dt /\
  match st_head s with
  | f :: r =>
      if f_bottom f then
        (exists p, st_precip s = Fin p /\ p <= 0 /\ a_on a = Fin 0) \/
        at_step (fun u pp _ _ precip vo _ _ head _ => create_decision (u_env u) head pp precip vo = Ok true) u s a
      else match r with n :: _ => Rmax pet 0 / 10 * dt < val (f_depth f) * (val (f_theta f) - val (f_theta n)) | [] => False end
  | [] => False
  end.
End Steps.
