(** src/soil_funcs.cxx and src/aet.cxx *)

From Coq Require Import Reals ZArith List Bool.
From Verif Require Import Outcome Dbl Types ListOps.
Import ListNotations.
Open Scope dbl_scope.

Section Soil.
Context {fp : Fp} {cfg : Cfg}.

(** calc_Se_from_h, soil_funcs.cxx:155-159 *)
Definition calc_Se_from_h (h alpha m n : dbl) : dbl :=
  if is_epsilon_less_than h (lit (1 / 10000000000)) then lit 1
  else lit 1 / dpow (lit 1 + dpow (alpha * h) n) m.

(** calc_theta_from_h, soil_funcs.cxx:147-150 *)
Definition calc_theta_from_h (h alpha m n theta_e theta_r : dbl) : dbl :=
  lit 1 / dpow (lit 1 + dpow (alpha * h) n) m * (theta_e - theta_r) + theta_r.

(** calc_K_from_Se, soil_funcs.cxx:164-167 *)
Definition calc_K_from_Se (Se Ksat m : dbl) : dbl :=
  Ksat * dsqrt Se * dpow (lit 1 - dpow (lit 1 - dpow Se (lit 1 / m)) m) (lit 2).

(** calc_h_from_Se, soil_funcs.cxx:172-175 *)
Definition calc_h_from_Se (Se alpha m n : dbl) : dbl :=
  lit 1 / alpha * dpow (dpow Se (lit (-1) / m) - lit 1) (lit 1 / n).

(** calc_Se_from_theta, soil_funcs.cxx:180-183 *)
Definition calc_Se_from_theta (theta e r : dbl) : dbl := (theta - r) / (e - r).

(** Shorthands for the argument lists that the callers always build from one row of the soil table. *)
Definition theta_of_h (s : soil) (h : dbl) : dbl :=
  calc_theta_from_h h (s_alpha s) (s_m s) (s_n s) (s_theta_e s) (s_theta_r s).
Definition Se_of_theta (s : soil) (th : dbl) : dbl := calc_Se_from_theta th (s_theta_e s) (s_theta_r s).
Definition h_of_Se (s : soil) (Se : dbl) : dbl := calc_h_from_Se Se (s_alpha s) (s_m s) (s_n s).
Definition K_of_Se (s : soil) (Se Ksat : dbl) : dbl := calc_K_from_Se Se Ksat (s_m s).

(** The adaptive integration loop of calc_Geff, soil_funcs.cxx:83-119.  The inner test [h2 < h_i] at :101 repeats the
    loop condition, so its else branch (:104-109) is dead code and is not modelled. *)
Fixpoint geff_loop (k : nat) (s : soil) (Ksat h_i h2 dh K1 G : dbl) : outcome dbl :=
  match k with
  | O => Stop OutOfFuel
  | S k' =>
      if h2 <? h_i then
        let Se2 := calc_Se_from_h h2 (s_alpha s) (s_m s) (s_n s) in
        let K2 := calc_K_from_Se Se2 Ksat (s_m s) in
        let dh' := if (K1 - K2) / K2 >? lit (2 / 100) then dh * lit (1 / 2) else dh * lit 10 in
        geff_loop k' s Ksat h_i (h2 + dh') dh' K2 (G + (K1 + K2) * dh' / lit 2)
      else Ok G
  end.

(** calc_Geff, soil_funcs.cxx:34-140.  [nint] is the int parameter nint. *)
Definition calc_Geff (closed : bool) (theta1 theta2 : dbl) (s : soil) (Ksat : dbl) (nint : Z) : outcome dbl :=
  if negb closed then
    let Se_i := Se_of_theta s theta1 in
    let Se_f := Se_of_theta s theta2 in
    let h_i := h_of_Se s Se_i in
    let h_f := h_of_Se s Se_f in
    let dh := (h_i - h_f) / dofZ nint * lit (1 / 100) in
    let K1 := calc_K_from_Se Se_i Ksat (s_m s) in
    G <- geff_loop fuel s Ksat h_i (h_f + dh) dh K1 (Fin 0) ;;
    Ok (dabs (G / Ksat))
  else
    let Se_f := Se_of_theta s theta1 in
    let Se_i := Se_of_theta s theta2 in
    let lam := s_lambda s in
    let H_c := s_psib s * ((lit 2 + lit 3 * lam) / (lit 1 + lit 3 * lam)) in
    let ex := lit 3 + lit 1 / lam in
    let G := H_c * (dpow Se_i ex - dpow Se_f ex) / (lit 1 - dpow Se_f ex) in
    let G := if disinf G then H_c else G in
    Ok (if disnan G then H_c else G).

(** calc_aet, aet.cxx:17-74; the parameters AET_thresh_Theta and AET_expon are unused by the code. *)
Definition calc_aet (e : env) (pet dt wilting_psi fc_psi : dbl) (head : list front) : outcome dbl :=
  c <- lget head 0 ;;
  s <- soil_of e (f_layer c) ;;
  let theta_fc := theta_of_h s fc_psi in
  let wp_head_theta := theta_of_h s wilting_psi in
  let theta_wp := (theta_fc - wp_head_theta) * lit 1 / lit 2 + wp_head_theta in
  let psi_wp := h_of_Se s (Se_of_theta s theta_wp) in
  let h_ratio := lit 1 + dpow (f_psi c / psi_wp) (lit 3) in
  let aet := pet * (lit 1 / h_ratio) * dt in
  Ok (if aet <? Fin 0 then Fin 0
      else if aet >? pet * dt then pet * dt
      else aet).

End Soil.
