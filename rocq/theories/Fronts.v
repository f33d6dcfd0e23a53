(** The routines of src/lgar.cxx that restructure the list of wetting fronts. *)

From Coq Require Import Reals ZArith List Bool.
From Verif Require Import Outcome Dbl Types ListOps Soil.
Import ListNotations.
Open Scope dbl_scope.

Section Fronts.
Context {fp : Fp} {cfg : Cfg}.

(** lgar_calc_mass_bal, lgar.cxx:2235-2271 *)
Fixpoint mass_loop (cum : list dbl) (l : list front) (sum : dbl) : outcome dbl :=
  match l with
  | [] => Ok sum
  | c :: rest =>
      base <- aget cum (f_layer c - 1)%Z ;;
      match rest with
      | [] => Ok (sum + f_theta c * (f_depth c - base))
      | n :: _ =>
          let t := if (f_layer n =? f_layer c)%Z
                   then (f_depth c - base) * (f_theta c - f_theta n)
                   else (f_depth c - base) * f_theta c in
          mass_loop cum rest (sum + t)
      end
  end.
Definition lgar_calc_mass_bal (cum : list dbl) (l : list front) : outcome dbl := mass_loop cum l (Fin 0).

(** wetting_front_free_drainage, lgar.cxx:922-949.  The counter starts at 1 and stops at the first front whose successor lies in
    the same layer. *)
Fixpoint free_drainage_loop (l : list front) (w : Z) : Z :=
  match l with
  | c :: ((n :: _) as rest) => if (f_layer c =? f_layer n)%Z then w else free_drainage_loop rest (w + 1)%Z
  | _ => w
  end.
Definition wetting_front_free_drainage (l : list front) : Z :=
  let w := free_drainage_loop l 1%Z in
  if (w >? listLength l)%Z then (w - 1)%Z else w.

(** One iteration of the loop of lgar_merge_wetting_fronts, lgar.cxx:1584-1622, for the front at position [p]. *)
Definition merge_step (e : env) (p : nat) (l : list front) : outcome (list front) :=
  c <- lget l p ;;
  n <- lget l (S p) ;;
  if (f_depth c >? f_depth n) && (f_layer c =? f_layer n)%Z && negb (f_bottom n) then
    nn <- lget l (S (S p)) ;;
    let mass := f_depth c * (f_theta c - f_theta n) + f_depth n * (f_theta n - f_theta nn) in
    let depth' := mass / (f_theta c - f_theta nn) in
    _ <- cassert (depth' >? Fin 0) ;;
    s <- soil_of e (f_layer c) ;;
    let Se := Se_of_theta s (f_theta c) in
    ff <- aget (e_frozen e) (f_layer c) ;;
    let Ksat := s_Ksat s * ff in
    let c' := set_K (set_psi (set_depth c depth') (h_of_Se s Se)) (K_of_Se s Se Ksat) in
    '(l', _) <- listDeleteFront (f_num n) (lset l p c') ;;
    Ok l'
  else Ok l.

(** lgar_merge_wetting_fronts, lgar.cxx:1553-1631.  The loop runs while wf != listLength(head), starting from wf = 1; the pointer [current]
    advances with wf, so it points to position wf - 1.  On an empty list (length 0) the condition holds and
    [current->next] dereferences NULL. *)
Fixpoint merge_loop (k : nat) (e : env) (p : nat) (l : list front) : outcome (list front) :=
  match k with
  | O => Stop OutOfFuel
  | S k' =>
      if (Z.of_nat (S p) =? listLength l)%Z then Ok l
      else l' <- merge_step e p l ;; merge_loop k' e (S p) l'
  end.
Definition lgar_merge_wetting_fronts (e : env) (l : list front) : outcome (list front) :=
  merge_loop (S (length l)) e 0 l.

(** One iteration of the loop of lgar_wetting_fronts_cross_layer_boundary, lgar.cxx:1655-1727. *)
Definition cross_step (e : env) (p : nat) (l : list front) : outcome (list front) :=
  c <- lget l p ;;
  s <- soil_of e (f_layer c) ;;
  ff <- aget (e_frozen e) (f_layer c) ;;
  let Ksat := s_Ksat s * ff in
  n <- lget l (S p) ;;
  ck <- aget (e_cum e) (f_layer c) ;;
  if (f_depth c >? ck) && (f_depth n =? ck) && negb (f_layer c =? e_nlayers e)%Z then
    let current_theta := dfmin (s_theta_e s) (f_theta c) in
    let overshot := f_depth c - f_depth n in
    s2 <- soil_of e (f_layer c + 1)%Z ;;
    let Se := Se_of_theta s (f_theta c) in
    let psi := h_of_Se s Se in
    let K := K_of_Se s Se Ksat in
    let theta_new := theta_of_h s2 psi in
    nn <- lget l (S (S p)) ;;
    let corr := overshot * (current_theta - f_theta n) in
    let zcorr := corr / (theta_new - f_theta nn) in
    ck1 <- aget (e_cum e) (f_layer c + 1)%Z ;;
    let zcorr := if disinf zcorr then ck1 / lit 1000 else zcorr in
    let c' := mkF ck (f_theta c) psi K (f_layer c) (f_num c) true (Fin 0) in
    let n' := mkF (ck + zcorr) theta_new psi (f_K n) (f_layer c + 1)%Z (f_num n) false (f_dzdt c) in
    Ok (lset (lset l p c') (S p) n')
  else Ok l.

(** lgar_wetting_fronts_cross_layer_boundary, lgar.cxx:1641-1729; loop control as in the merge.
    Simplification: cum_layer_thickness_cm[layer+1] is read before it is known whether it is needed; the cell exists whenever
    soil_type[layer+1], which is always read, does (both arrays have num_layers+1 entries). *)
Fixpoint cross_loop (k : nat) (e : env) (p : nat) (l : list front) : outcome (list front) :=
  match k with
  | O => Stop OutOfFuel
  | S k' =>
      if (Z.of_nat (S p) =? listLength l)%Z then Ok l
      else l' <- cross_step e p l ;; cross_loop k' e (S p) l'
  end.
Definition lgar_wetting_fronts_cross_layer_boundary (e : env) (l : list front) : outcome (list front) :=
  cross_loop (S (length l)) e 0 l.

(** lgar_wetting_front_cross_domain_boundary, lgar.cxx:1738-1813.  Returns the bottom flux and the list.
    The test [bottom_flux_cm_temp != 0] at :1800 is never true (the only assignment is followed by a break) and is not modelled. *)
Fixpoint domain_loop (k : nat) (e : env) (domain : dbl) (p : nat) (l : list front) : outcome (dbl * list front) :=
  match k with
  | O => Ok (Fin 0, l)
  | S k' =>
      if (Z.of_nat (S p) >=? listLength l)%Z then Ok (Fin 0, l)
      else
        c <- lget l p ;;
        t <- uget (e_stype e) (f_layer c) ;;
        n <- lget l (S p) ;;
        match nth_error l (S (S p)) with
        | None =>
            if f_depth c >=? domain then
              let flux := (f_theta c - f_theta n) * (f_depth c - f_depth n) in
              s <- uget (e_soils e) t ;;
              ff <- aget (e_frozen e) (f_layer c) ;;
              let Ksat := s_Ksat s * ff in
              let Se := Se_of_theta s (f_theta c) in
              let n' := set_K (set_psi (set_theta n (f_theta c)) (h_of_Se s Se)) (K_of_Se s Se Ksat) in
              '(l', _) <- listDeleteFront (f_num c) (lset l (S p) n') ;;
              Ok (Fin 0 + flux, l')
            else domain_loop k' e domain (S p) l
        | Some _ => domain_loop k' e domain (S p) l
        end
  end.
Definition lgar_wetting_front_cross_domain_boundary (e : env) (domain : dbl) (l : list front) : outcome (dbl * list front) :=
  match l with
  | [] => Ok (Fin 0, [])        (* wf = 1 >= listLength = 0: break at once *)
  | _ => domain_loop (length l - 1) e domain 0 l
  end.

(** The loop lgar.cxx:1861-1876: psi (and theta through the retention curve) of all leading fronts in layers above [k]. *)
Fixpoint fix_above (e : env) (k : Z) (psi : dbl) (l : list front) : outcome (list front) :=
  match l with
  | [] => Stop (UB NullDeref)
  | c :: r =>
      if (f_layer c <? k)%Z then
        s <- soil_of e (f_layer c) ;;
        r' <- fix_above e k psi r ;;
        Ok (set_theta (set_psi c psi) (theta_of_h s psi) :: r')
      else Ok l
  end.

(** The test shared by the repair and by its guard: lgar.cxx:1839 and :1916. *)
Definition dry_over_wet (c n : front) : bool := (f_theta c <=? f_theta n) && (f_layer c =? f_layer n)%Z.

(** The body of lgar_fix_dry_over_wet_wetting_fronts for an inverted pair, lgar.cxx:1840-1887: [c] is at position [p].
    Returns the list, the position [current] points to and the mass that the deletion changed. *)
Definition fix_pair (e : env) (c : front) (l : list front) : outcome (list front * nat * dbl) :=
  let k := f_layer c in
  before <- lgar_calc_mass_bal (e_cum e) l ;;
  '(l1, succ) <- listDeleteFront (f_num c) l ;;
  match succ with
  | None => Stop (UB NullDeref)   (* current->layer_num (:1850) or current->next (:1889) *)
  | Some q =>
      l2 <- (if (k >? 1)%Z then
               cur <- lget l1 q ;;
               s <- soil_of e (f_layer cur) ;;
               let psi := h_of_Se s (Se_of_theta s (f_theta cur)) in
               fix_above e k psi (lset l1 q (set_psi cur psi))
             else Ok l1) ;;
      after <- lgar_calc_mass_bal (e_cum e) l2 ;;
      Ok (l2, q, dabs (after - before))
  end.

(** lgar_fix_dry_over_wet_wetting_fronts, lgar.cxx:1821-1900.  [next] is always the successor of [current]; once it is NULL the
    remaining iterations do nothing.  The number of iterations bounded by the list length never cuts the walk short because
    [current] moves one position per iteration. *)
Fixpoint fix_loop (k : nat) (e : env) (i : Z) (p : nat) (l : list front) (mc : dbl) : outcome (list front * dbl) :=
  match k with
  | O => Stop OutOfFuel
  | S k' =>
      if (i <=? listLength l)%Z then
        match nth_error l p, nth_error l (S p) with
        | Some c, Some n =>
            if dry_over_wet c n then
              '(l', q, dm) <- fix_pair e c l ;;
              fix_loop k' e (i + 1)%Z (S q) l' (mc + dm)
            else fix_loop k' e (i + 1)%Z (S p) l mc
        | _, _ => Ok (l, mc)
        end
      else Ok (l, mc)
  end.
Definition lgar_fix_dry_over_wet_wetting_fronts (e : env) (mc : dbl) (l : list front) : outcome (list front * dbl) :=
  match l with
  | [] => Stop (UB NullDeref)     (* current->next with head == NULL, :1830 *)
  | _ => fix_loop (S (length l)) e 1%Z 0 l mc
  end.

(** lgar_check_dry_over_wet_wetting_fronts, lgar.cxx:1907-1931 *)
Fixpoint check_dry (l : list front) : bool :=
  match l with
  | c :: ((n :: _) as r) => if dry_over_wet c n then true else check_dry r
  | _ => false
  end.
Definition lgar_check_dry_over_wet_wetting_fronts (l : list front) : outcome bool :=
  match l with [] => Stop (UB NullDeref) | _ => Ok (check_dry l) end.

End Fronts.
