(** The grid queries of the Basic Model Interface that Bmi.v leaves out: src/bmi_lgar.cxx:830-845, and the component's name, :1012-1016. *)

From Coq Require Import String Reals ZArith List Bool.
From Verif Require Import Outcome Dbl Types State Bmi.
Import ListNotations.
Open Scope string_scope.
Open Scope Z_scope.

(** The members spacing and origin of struct lgar_bmi_parameters, include/all.hxx:105-106, as [new model_state] (bmi_lgar.cxx:36) leaves them: without values.  No
    other line of the source writes to them. *)
Record layout : Type := mkLayout { ly_spacing : list (option dbl); ly_origin : list (option dbl) }.
Definition layout0 : layout := mkLayout (repeat None 8) (repeat None 3).

(** GetGridSpacing, bmi_lgar.cxx:830-836, with the caller's array [spacing] *)
Definition GetGridSpacing (g : Z) (y : layout) (spacing : list dbl) : outcome (list dbl) :=
  if g =? 0 then x <- uget (ly_spacing y) 0 ;; aset spacing 0 x else Ok spacing.

(** GetGridOrigin, bmi_lgar.cxx:839-845 *)
Definition GetGridOrigin (g : Z) (y : layout) (origin : list dbl) : outcome (list dbl) :=
  if g =? 0 then x <- uget (ly_origin y) 0 ;; aset origin 0 x else Ok origin.

(** GetComponentName, bmi_lgar.cxx:1012-1016 *)
Definition GetComponentName : string := "LASAM (Lumped Arid/Semi-arid Model)".
