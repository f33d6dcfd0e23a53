(** Columns of several layers in dry weather: hydrostatic fronts. *)

From Coq Require Import String Reals ZArith List Bool.
From Verif Require Import Outcome Dbl Exact Types State Update Spec_Common Spec_Soil Spec_Update Spec_Column Spec_Storage Spec_Balance Spec_Shares Spec_Motion Spec_Config Spec_Layered.
Import ListNotations.
Open Scope R_scope.

(** The layers [qs] with one front each, at the lower boundary of its layer and at rest; all fronts have the head [h]. *)
Record hydrostatic (qs : list part) (h : R) (l : list front) : Prop := {
  hs_head : 0 <= h;
  hs_one : List.length l = List.length qs;
  hs_at : forall i f q, nth_error l i = Some f -> nth_error qs i = Some q ->
    f_layer f = Z.of_nat (S i) /\ f_bottom f = true /\ f_dzdt f = Fin 0 /\ f_depth f = Fin (top_of qs (Z.of_nat (S i)) + pt_z q) /\ f_psi f = Fin h /\ f_theta f = Fin (pt_theta q h)
}.

(** What the layers hold at the head [h]. *)
Definition column_water (qs : list part) (h : R) : R := Rsum (map (fun q => pt_z q * pt_theta q h) qs).

(** No rain falls; the evaporative demand is a number. *)
Definition dry (s : state) : Prop := (exists p, st_precip s = Fin p /\ p <= 0) /\ finite (st_pet s).

(** The heads between which the demand is reduced. *)
Definition rooting (wilting fc : dbl) : Prop := exists wp fh, wilting = Fin wp /\ fc = Fin fh /\ 0 <= wp /\ 0 <= fh /\ 0 < fh + wp.

(** No evaporative demand. *)
Definition no_demand (s : state) : Prop := exists pet, st_pet s = Fin pet /\ pet <= 0.

(** A column in which no water is ponded, with hydrostatic fronts. *)
Definition resting (qs : list part) (h : R) (s : state) : Prop :=
  hydrostatic qs h (st_head s) /\ mb_on_ts (st_mb s) = Fin 0 /\ rooting (p_wilting (st_p s)) (p_fc (st_p s)).

Section Step.
Local Existing Instance exact.
Context {cfg : Cfg}.

(** A sub-step without rain: the fronts stay hydrostatic, at a head that is no lower; nothing infiltrates, runs off or stays on the surface.  Of the demand [D], at most what the
    atmosphere asks for, the pass leaves [a1]; it misses its balance by [r], by no more than its tolerance and twice the demand that it drops. *)
Record rest_step (qs : list part) (h h' : R) (u : upar) (x : step) (B : R) : Prop := {
  rs_from : hydrostatic qs h (st_head (x_s x));
  rs_to : hydrostatic qs h' (st_head (x_s' x));
  rs_dries : h <= h';
  rs_in : a_in (x_a' x) = (a_in (x_a x) + Fin 0)%d;
  rs_runoff : a_runoff (x_a' x) = (a_runoff (x_a x) + Fin 0)%d;
  rs_on : a_on (x_a' x) = Fin 0;
  rs_off : exists pet dt D a1 r, st_pet (x_s x) = Fin pet /\ u_dt u = Fin dt /\ step_met u (x_s x) (x_a x) 0 D a1 /\ step_gap u (x_s x) (x_a x) r /\ B = Rmax (Rabs r) (2 / 10000000000) /\
    0 <= D <= Rmax pet 0 / 10 * dt /\ a1 <= D /\ Rabs r <= tol + 2 * (D - a1)
}.
End Step.

(** The lines of a configuration that state the wilting point and the field capacity. *)
Definition rooting_lines (ls : list string) : Prop :=
  exists wp fc lw lc, last_line "wilting_point_psi"%string lw ls /\ assigns "wilting_point_psi"%string (text wp) lw /\ good_numeral wp /\ 0 <= value wp /\
    last_line "field_capacity_psi"%string lc ls /\ assigns "field_capacity_psi"%string (text fc) lc /\ good_numeral fc /\ 0 <= value fc /\ 0 < value wp + value fc.
