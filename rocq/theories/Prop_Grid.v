(** C78: the grids of the Basic Model Interface. *)

From Coq Require Import String Reals ZArith List Bool Lia.
From Verif Require Import Outcome Dbl Exact Types State Update Bmi Grid Spec_Common Spec_Bmi Pf_Grid Ex_Saturated Ex_TwoLayers Ex_Bmi.
Import ListNotations.
Open Scope string_scope.
Open Scope Z_scope.
Open Scope list_scope.

(** ** C78 *)

(** The identifiers 0 to 4 are the grids: these and no others have rank 1 and a size that is not negative; any other integer gives -1 for both. *)
Theorem C78_grids :
  forall (o : obj) (g : Z), arrays_ok o -> 0 <= p_ncells (st_p (ob_s o)) ->
    (0 <= g <= 4 <-> GetGridRank g = 1) /\ (0 <= g <= 4 <-> 0 <= GetGridSize g o) /\ (GetGridRank g = 1 \/ GetGridRank g = -1).
Proof. intros o g A C. destruct (grid_rank_iff g) as [H1 H2]. exact (conj H1 (conj (grid_size_count o g A C) H2)). Qed.
Print Assumptions C78_grids.

(** The shape of the grid of the layers is its size.  For the grids 0, 1 and 4 no shape is reported: the caller's array keeps its contents. *)
Theorem C78_shape_of_layers :
  forall (o : obj), (forall x r, GetGridShape 2 o (x :: r) = Ok (GetGridSize 2 o :: r)) /\ (forall g a, g <> 2 -> g <> 3 -> GetGridShape g o a = Ok a).
Proof. intro o. exact (conj (shape_layers o) (shape_untouched o)). Qed.
Print Assumptions C78_shape_of_layers.

(** The grid of the fronts has rank 1, but its size is written to the second entry: an array with as many entries as the rank is overrun, in a longer one
    the first entry is not set. *)
Theorem C78_shape_of_fronts_refuted :
  forall (o : obj) (a : list Z),
    (Z.of_nat (length a) = GetGridRank 3 -> GetGridShape 3 o a = Stop (UB OutOfBounds)) /\
    (forall x y r, a = x :: y :: r -> GetGridShape 3 o a = Ok (x :: GetGridSize 3 o :: r)).
Proof. exact shape_fronts. Qed.
Print Assumptions C78_shape_of_fronts_refuted.

(** Spacing and origin of grid 0 are read from memory that is never written; for every other grid the caller's array keeps its contents. Were that memory
    written, its first value would go into the first entry of the caller's array and nothing else would change. *)
Theorem C78_spacing_and_origin_refuted :
  forall (a : list dbl),
    GetGridSpacing 0 layout0 a = Stop (UB Uninit) /\ GetGridOrigin 0 layout0 a = Stop (UB Uninit) /\
    (forall g y, g <> 0 -> GetGridSpacing g y a = Ok a /\ GetGridOrigin g y a = Ok a) /\
    (forall x z p q v r, a = v :: r -> GetGridSpacing 0 (mkLayout (Some x :: p) (Some z :: q)) a = Ok (x :: r) /\ GetGridOrigin 0 (mkLayout (Some x :: p) (Some z :: q)) a = Ok (z :: r)).
Proof. exact no_layout. Qed.
Print Assumptions C78_spacing_and_origin_refuted.

(** A column of one layer with one front. *)
Example C78_concrete : arrays_ok bm_obj /\ 0 <= p_ncells (st_p (ob_s bm_obj)) /\ GetGridShape 2 bm_obj [7] = Ok [1] /\
  GetGridShape 3 bm_obj [7] = Stop (UB OutOfBounds) /\ GetGridShape 3 bm_obj [7; 8] = Ok [7; 1] /\ Z.of_nat (length [7]) = GetGridRank 3.
Proof. split; [exact bm_arrays|]. repeat split. discriminate. Qed.
