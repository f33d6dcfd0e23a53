(** The C type [double]: finite reals, infinities and NaN, with IEEE-754 rules on the special values.

    Every operation on finite values rounds the exact real result with [rnd], a parameter of the model.
    Simplifications: there is one zero only (a division by zero gives the infinity of the sign of the numerator);
    pow, exp and sqrt are taken to be the rounding of the exact function (the C library promises a little less). *)

From Coq Require Import Reals Lra ZArith Bool.
From Verif Require Import Outcome.
Open Scope R_scope.

Inductive dbl : Type :=
| Fin (r : R)
| PInf
| NInf
| NaN.

(** Decidable comparisons of reals as booleans. *)
Definition Rltb (x y : R) : bool := if Rlt_dec x y then true else false.
Definition Rleb (x y : R) : bool := if Rle_dec x y then true else false.
Definition Reqb (x y : R) : bool := if Req_EM_T x y then true else false.

(** [a < b]; false as soon as one side is NaN. *)
Definition dltb (a b : dbl) : bool :=
  match a, b with
  | NaN, _ | _, NaN => false
  | Fin x, Fin y => Rltb x y
  | PInf, _ => false
  | _, PInf => true
  | _, NInf => false
  | NInf, Fin _ => true
  end.

(** [a <= b] *)
Definition dleb (a b : dbl) : bool :=
  match a, b with
  | NaN, _ | _, NaN => false
  | Fin x, Fin y => Rleb x y
  | _, PInf => true
  | PInf, _ => false
  | NInf, _ => true
  | _, NInf => false
  end.

(** [a == b] *)
Definition deqb (a b : dbl) : bool :=
  match a, b with
  | Fin x, Fin y => Reqb x y
  | PInf, PInf | NInf, NInf => true
  | _, _ => false
  end.

Definition dgtb (a b : dbl) : bool := dltb b a.
Definition dgeb (a b : dbl) : bool := dleb b a.
Definition dneb (a b : dbl) : bool := negb (deqb a b).

(** A rounding mode: exact on 0 and 1, symmetric, monotone, never NaN, and leaves its own results unchanged. *)
Class Fp : Type := {
  rnd : R -> dbl;
  rnd_zero : rnd 0 = Fin 0;
  rnd_one : rnd 1 = Fin 1;
  rnd_opp : forall x, rnd (- x) = match rnd x with Fin y => Fin (- y) | PInf => NInf | NInf => PInf | NaN => NaN end;
  rnd_not_nan : forall x, rnd x <> NaN;
  rnd_mono : forall x y, x <= y -> dleb (rnd x) (rnd y) = true;
  rnd_idem : forall x r, rnd x = Fin r -> rnd r = Fin r
}.

Section Ops.
Context {fp : Fp}.

(** A literal of the source, or an int converted to double. *)
Definition lit (r : R) : dbl := rnd r.
Definition dofZ (z : Z) : dbl := rnd (IZR z).

Definition dopp (a : dbl) : dbl :=
  match a with Fin x => Fin (- x) | PInf => NInf | NInf => PInf | NaN => NaN end.

Definition dadd (a b : dbl) : dbl :=
  match a, b with
  | NaN, _ | _, NaN => NaN
  | Fin x, Fin y => rnd (x + y)
  | PInf, NInf | NInf, PInf => NaN
  | PInf, _ | _, PInf => PInf
  | NInf, _ | _, NInf => NInf
  end.

Definition dsub (a b : dbl) : dbl :=
  match a, b with
  | NaN, _ | _, NaN => NaN
  | Fin x, Fin y => rnd (x - y)
  | PInf, PInf | NInf, NInf => NaN
  | PInf, _ | _, NInf => PInf
  | NInf, _ | _, PInf => NInf
  end.

(** Infinity with the sign of [x]; NaN for 0. *)
Definition inf_sign (x : R) : dbl := if Rlt_dec 0 x then PInf else if Rlt_dec x 0 then NInf else NaN.

Definition dmul (a b : dbl) : dbl :=
  match a, b with
  | NaN, _ | _, NaN => NaN
  | Fin x, Fin y => rnd (x * y)
  | PInf, Fin x | Fin x, PInf => inf_sign x
  | NInf, Fin x | Fin x, NInf => dopp (inf_sign x)
  | PInf, PInf | NInf, NInf => PInf
  | PInf, NInf | NInf, PInf => NInf
  end.

Definition ddiv (a b : dbl) : dbl :=
  match a, b with
  | NaN, _ | _, NaN => NaN
  | Fin x, Fin y => if Req_EM_T y 0 then inf_sign x else rnd (x / y)
  | Fin _, _ => Fin 0
  | PInf, Fin y => if Rlt_dec y 0 then NInf else PInf
  | NInf, Fin y => if Rlt_dec y 0 then PInf else NInf
  | _, _ => NaN
  end.

Definition dabs (a : dbl) : dbl :=
  match a with Fin x => Fin (Rabs x) | PInf | NInf => PInf | NaN => NaN end.

(** fmin and fmax ignore a NaN argument. *)
Definition dfmin (a b : dbl) : dbl :=
  match a, b with NaN, _ => b | _, NaN => a | _, _ => if dltb a b then a else b end.
Definition dfmax (a b : dbl) : dbl :=
  match a, b with NaN, _ => b | _, NaN => a | _, _ => if dltb a b then b else a end.

Definition disinf (a : dbl) : bool := match a with PInf | NInf => true | _ => false end.
Definition disnan (a : dbl) : bool := match a with NaN => true | _ => false end.

(** Integer value of a real, if it is one. *)
Definition as_int (x : R) : option Z := if Req_EM_T (IZR (Int_part x)) x then Some (Int_part x) else None.

(** pow, with the special cases of C99 Annex F. *)
Definition dpow (a b : dbl) : dbl :=
  if deqb b (Fin 0) then Fin 1
  else if deqb a (Fin 1) then Fin 1
  else match a, b with
  | NaN, _ | _, NaN => NaN
  | Fin x, Fin y =>
      if Rlt_dec 0 x then rnd (Rpower x y)
      else if Req_EM_T x 0 then (if Rlt_dec 0 y then Fin 0 else PInf)
      else match as_int y with Some k => rnd (powerRZ x k) | None => NaN end
  | Fin x, PInf => if Rlt_dec (Rabs x) 1 then Fin 0 else if Req_EM_T (Rabs x) 1 then Fin 1 else PInf
  | Fin x, NInf => if Rlt_dec (Rabs x) 1 then PInf else if Req_EM_T (Rabs x) 1 then Fin 1 else Fin 0
  | PInf, Fin y => if Rlt_dec 0 y then PInf else Fin 0
  | NInf, Fin y =>
      if Rlt_dec 0 y then match as_int y with Some k => if Z.odd k then NInf else PInf | None => PInf end
      else Fin 0
  | _, PInf => PInf
  | _, NInf => Fin 0
  end.

Definition dexp (a : dbl) : dbl :=
  match a with Fin x => rnd (exp x) | PInf => PInf | NInf => Fin 0 | NaN => NaN end.

Definition dsqrt (a : dbl) : dbl :=
  match a with
  | Fin x => if Rlt_dec x 0 then NaN else rnd (sqrt x)
  | PInf => PInf
  | _ => NaN
  end.

(** Truncation towards zero. *)
Definition trunc (x : R) : Z := if Rlt_dec x 0 then (- Int_part (- x))%Z else Int_part x.

(** Conversion to a 32-bit int; undefined when the truncated value is not an int. *)
Definition d2i (a : dbl) : outcome Z :=
  match a with
  | Fin x =>
      if ((-2147483648 <=? trunc x) && (trunc x <=? 2147483647))%Z%bool then Ok (trunc x)
      else Stop (UB BadConversion)
  | _ => Stop (UB BadConversion)
  end.
End Ops.

Declare Scope dbl_scope.
Delimit Scope dbl_scope with d.
Bind Scope dbl_scope with dbl.
Notation "a + b" := (dadd a b) : dbl_scope.
Notation "a - b" := (dsub a b) : dbl_scope.
Notation "a * b" := (dmul a b) : dbl_scope.
Notation "a / b" := (ddiv a b) : dbl_scope.
Notation "a <? b" := (dltb a b) : dbl_scope.
Notation "a <=? b" := (dleb a b) : dbl_scope.
Notation "a >? b" := (dgtb a b) : dbl_scope.
Notation "a >=? b" := (dgeb a b) : dbl_scope.
Notation "a =? b" := (deqb a b) : dbl_scope.
Notation "a <>? b" := (dneb a b) (at level 70) : dbl_scope.
Global Arguments IZR : simpl never.
