(** Vocabulary for statements about the calibration parameters. *)

From Coq Require Import String Reals ZArith List Bool.
From RecordUpdate Require Import RecordSet.
From Verif Require Import Outcome Dbl Types State Bmi Spec_Bmi.
Import ListNotations.
Import RecordSetNotations.
Open Scope Z_scope.
Open Scope list_scope.

(** The soil has the parameters that the user set for layer [k] (counted from 1). *)
Definition has_values {fp : Fp} (cal : calib) (k : Z) (sl : soil) : Prop :=
  aget (c_theta_e cal) (k - 1) = Ok (s_theta_e sl) /\ aget (c_theta_r cal) (k - 1) = Ok (s_theta_r sl) /\ aget (c_n cal) (k - 1) = Ok (s_n sl) /\
  aget (c_alpha cal) (k - 1) = Ok (s_alpha sl) /\ aget (c_Ksat cal) (k - 1) = Ok (s_Ksat sl) /\ s_m sl = (lit 1 - lit 1 / s_n sl)%d.
(** The parameters that the user cannot set. *)
Definition same_rest (sl sl' : soil) : Prop := s_lambda sl' = s_lambda sl /\ s_psib sl' = s_psib sl /\ s_hmin sl' = s_hmin sl.

(** The last front of the list that lies in a layer of soil type [t]. *)
Fixpoint last_of_type (stype : list (option Z)) (t : Z) (l : list front) : option front :=
  match l with
  | [] => None
  | f :: r => match last_of_type stype t r with
              | Some g => Some g
              | None => match uget stype (f_layer f) with Ok t' => if t' =? t then Some f else None | Stop _ => None end
              end
  end.

(** No two layers have the same soil type. *)
Definition distinct_types (stype : list (option Z)) (nl : Z) : Prop :=
  forall j k t, 1 <= j <= nl -> 1 <= k <= nl -> uget stype j = Ok t -> uget stype k = Ok t -> j = k.

(** The same state with other calibration values. *)
Definition recal (c : calib) (s : state) : state := s <| st_cal := c |>.
Definition omap {A B : Type} (f : A -> B) (m : outcome A) : outcome B := match m with Ok x => Ok (f x) | Stop r => Stop r end.

(** The name that a call is about. *)
Definition target (c : call) : option string :=
  match c with CGet n | CGetAt n _ | CSet n _ | CSetAt n _ _ => Some n | _ => None end.
Definition about_calib (c : call) : bool :=
  match target c with Some n => existsb (String.eqb n) calib_var_names | None => false end.
