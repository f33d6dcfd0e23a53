(** Specification of the van Genuchten soil, over the reals and independent of the model's functions. *)

From Coq Require Import Reals.
From Verif Require Import Outcome Dbl Types Spec_Common.
Open Scope R_scope.

(** A soil record with residual and saturated water content [r] < [e], alpha [a], exponents [n], [m] and conductivity [k]. *)
Record vg_soil (s : soil) (r e a n m k : R) : Prop := mkVG {
  vg_r : s_theta_r s = Fin r; vg_e : s_theta_e s = Fin e; vg_a : s_alpha s = Fin a; vg_n : s_n s = Fin n; vg_m : s_m s = Fin m;
  vg_k : s_Ksat s = Fin k;
  vg_re : r < e; vg_a0 : 0 < a; vg_n1 : 1 < n; vg_m01 : 0 < m < 1; vg_k0 : 0 < k }.

(** x^y for x >= 0, y > 0. *)
Definition pw (x y : R) : R := if Rlt_dec 0 x then Rpower x y else 0.

(** Effective saturation at head [h] and water content. *)
Definition vg_Se (a n m h : R) : R := Rpower (1 + pw (a * h) n) (- m).
Definition vg_theta (r e a n m h : R) : R := r + (e - r) * vg_Se a n m h.
(** Mualem conductivity at saturation [S]. *)
Definition vg_K (k m S : R) : R := k * sqrt S * (1 - pw (1 - pw S (/ m)) m) ^ 2.

(** A number in [0,1]. *)
Definition unit_range (d : dbl) : Prop := exists x, d = Fin x /\ 0 <= x <= 1.
