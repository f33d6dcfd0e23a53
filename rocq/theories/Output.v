(** The text of the two output files of the standalone program: bmi_main_lgar.cxx:92-157 and write_state, :265-280.  [Driver.v] keeps the same output as values. *)

From Coq Require Import String Ascii Reals ZArith List Bool.
From Verif Require Import Outcome Dbl Types ListOps State Bmi Config Driver TableFile.
Import ListNotations.
Open Scope string_scope.
Open Scope Z_scope.

(** ** printf *)

Definition digit_text (d : Z) : string := String (ascii_of_nat (48 + Z.to_nat d)) "".
(** The last [k] decimal digits of a natural number. *)
Fixpoint last_digits (k : nat) (n : Z) : string := match k with O => "" | S k' => last_digits k' (n / 10) ++ digit_text (n mod 10) end.
(** A natural number without leading zeros.  Its binary logarithm is more than the number of divisions by ten. *)
Fixpoint leading (k : nat) (n : Z) : string :=
  if n <? 10 then digit_text n else match k with O => digit_text (n mod 10) | S k' => leading k' (n / 10) ++ digit_text (n mod 10) end.
Definition print_nat (n : Z) : string := leading (Z.to_nat (Z.log2 n)) n.
(** "%d" *)
Definition print_int (z : Z) : string := if z <? 0 then "-" ++ print_nat (- z) else print_nat z.

(** The nearest integer, the even one of two: the default rounding of printf. *)
Definition nearest (x : R) : Z :=
  let d := Int_part x in
  match total_order_T (x - IZR d) (1 / 2) with
  | inleft (left _) => d
  | inleft (right _) => if Z.even d then d else d + 1
  | inright _ => d + 1
  end.

(** Blanks on the left up to the minimum width. *)
Fixpoint blank (k : nat) : string := match k with O => "" | S k' => String " " (blank k') end.
Definition pad (w : nat) (s : string) : string := blank (w - String.length s) ++ s.

(** "%w.pf" with [p] > 0; "%lf" is w = 0 and p = 6.  Simplifications: a zero has no sign and a NaN is printed without one. *)
Definition print_fixed (w p : nat) (d : dbl) : string :=
  pad w (match d with
         | Fin x =>
             let n := nearest (Rabs x * IZR (10 ^ Z.of_nat p)) in
             (if Rlt_dec x 0 then "-" else "") ++ print_nat (n / 10 ^ Z.of_nat p) ++ "." ++ last_digits p (n mod 10 ^ Z.of_nat p)
         | PInf => "inf" | NInf => "-inf" | NaN => "nan"
         end).

Definition feed : string := String newline "".

(** ** data_variables.csv *)

(** One value, "%6.15f" at :147.  The buffer of :145 holds a double; what a variable of type int would leave in it is not modelled, none of the eleven is one. *)
Definition print_item (i : item) : outcome string := match i with D d => Ok (print_fixed 6 15 d) | I _ => Stop (UB Uninit) end.
(** The loop :143-152 over the values of a line, with a comma between them and a line feed at the end; the header loop :104-110 likewise. *)
Fixpoint print_items (l : list item) : outcome string :=
  match l with
  | [] => Ok ""
  | i :: r => a <- print_item i ;; match r with [] => Ok (a ++ feed) | _ :: _ => b <- print_items r ;; Ok (a ++ "," ++ b) end
  end.
Fixpoint print_names (l : list string) : string :=
  match l with [] => "" | a :: r => cstring a ++ match r with [] => feed | _ :: _ => "," ++ print_names r end end.
(** :141-152 *)
Definition print_row (r : outrow) : outcome string := b <- print_items (w_vars r) ;; Ok (cstring (w_time r) ++ "," ++ b).
Fixpoint print_rows (rs : list outrow) : outcome string :=
  match rs with [] => Ok "" | r :: q => a <- print_row r ;; b <- print_rows q ;; Ok (a ++ b) end.
(** The whole file, from :103 on. *)
Definition data_variables (rs : list outrow) : outcome string := b <- print_rows rs ;; Ok ("Time," ++ print_names column_names ++ b).

(** ** data_layers.csv *)

Section Layers.
Context {fp : Fp}.

(** One front, :272-275. *)
Definition print_front (f : front) : string :=
  "(" ++ print_fixed 0 6 (f_depth f * lit 10)%d ++ "," ++ print_fixed 0 6 (f_theta f) ++ "," ++ print_int (f_layer f) ++ "," ++ print_int (f_num f) ++ "," ++
  print_fixed 0 6 (f_psi f * lit 10)%d ++ ")".
(** The loop :270-277; [first] is current == head. *)
Fixpoint print_fronts (first : bool) (l : list front) : string :=
  match l with [] => "" | f :: r => (if first then "" else "|") ++ print_front f ++ print_fronts false r end.
Definition write_state (l : list front) : string := "[" ++ print_fronts true l ++ "]" ++ feed.
(** The lines of step [i] and of the following ones, :156-157. *)
Fixpoint print_layers (i : Z) (rs : list outrow) : string :=
  match rs with
  | [] => ""
  | r :: q => "# Timestep = " ++ print_int i ++ ", " ++ cstring (w_time r) ++ " " ++ feed ++ write_state (w_fronts r) ++ print_layers (i + 1) q
  end.
Definition data_layers (rs : list outrow) : string := print_layers 0 rs.
End Layers.
