(** The text of output files. *)

From Coq Require Import String Ascii Reals ZArith List.
From Verif Require Import Outcome Dbl Types Bmi Driver Spec_Common Spec_Config Spec_Driver.
Import ListNotations.
Open Scope string_scope.
Open Scope list_scope.

(** A numeral with [p] digits after the point, with a minus sign for the negative numbers only and no exponent, that differs from [x] by at most half a unit of the
    last digit. *)
Definition shows (p : nat) (x : R) (n : numeral) : Prop :=
  good_numeral n /\ nu_int n <> [] /\ nu_exp n = None /\ (exists l, nu_frac n = Some l /\ List.length l = p) /\
  match nu_sign n with Some true => (x < 0)%R | Some false => False | None => (0 <= x)%R end /\ (Rabs (value n - x) <= / 2 * / 10 ^ p)%R.
(** The text of a number, infinity or NaN; blanks can stand before the last two. *)
Definition written (p : nat) (d : dbl) (s : string) : Prop :=
  match d with
  | Fin x => exists n, shows p x n /\ s = text n
  | PInf => exists b, blanks b /\ s = (b ++ "inf")%string | NInf => exists b, blanks b /\ s = (b ++ "-inf")%string | NaN => exists b, blanks b /\ s = (b ++ "nan")%string
  end.
(** The text of an integer. *)
Definition integer (z : Z) (s : string) : Prop := exists n, good_numeral n /\ nu_frac n = None /\ nu_exp n = None /\ s = text n /\ value n = IZR z.

(** The characters before the first NUL. *)
Fixpoint before_nul (s : string) : string :=
  match s with EmptyString => EmptyString | String c r => if Ascii.eqb c (ascii_of_nat 0) then EmptyString else String c (before_nul r) end.

(** The cells of a line of data_variables.csv: the time and the values with 15 digits after the point. *)
Definition data_cells (r : outrow) (cs : list string) : Prop :=
  exists fs, cs = before_nul (w_time r) :: fs /\ good_cells cs /\ Forall2 (fun v f => exists d, v = D d /\ written 15 d f) (w_vars r) fs.

(** The sum of the numerals in the column of values [k] (the time is not counted), and the storage on the last line. *)
Definition text_sums_to (k : nat) (cs : list (list string)) (x : R) : Prop :=
  exists ns, map (fun c => nth_error c (S k)) cs = map (fun n => Some (text n)) ns /\ Forall good_numeral ns /\ Rsum (map value ns) = x.
Definition text_storage (cs : list (list string)) (x : R) : Prop := exists c0 c n, cs = c0 ++ [c] /\ nth_error c 6 = Some (text n) /\ good_numeral n /\ value n = x.

(** A front of data_layers.csv in parentheses: depth (mm), water content, layer, number, head (mm). *)
Definition front_text {fp : Fp} (f : front) (t : string) : Prop :=
  exists fs, t = ("(" ++ csv fs ++ ")")%string /\ Forall (fun c => free_of "," c /\ free_of newline c /\ free_of "|" c /\ free_of ")" c) fs /\
    match fs with
    | [d; th; la; nu; h] => written 6 (f_depth f * lit 10)%d d /\ written 6 (f_theta f) th /\ integer (f_layer f) la /\ integer (f_num f) nu /\ written 6 (f_psi f * lit 10)%d h
    | _ => False
    end.
(** The two lines of step [i]. *)
Definition layer_lines {fp : Fp} (i : Z) (r : outrow) (l1 l2 : string) : Prop :=
  (exists t, integer i t /\ l1 = ("# Timestep = " ++ t ++ ", " ++ before_nul (w_time r) ++ " ")%string) /\
  exists ts, Forall2 front_text (w_fronts r) ts /\ l2 = ("[" ++ String.concat "|" ts ++ "]")%string.
