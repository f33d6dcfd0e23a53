(** Proofs for C78. *)

From Coq Require Import String Reals ZArith List Bool Lia.
From Verif Require Import Outcome Dbl Types State Update Bmi Grid Spec_Common Spec_Bmi.
Import ListNotations.
Open Scope string_scope.
Open Scope Z_scope.
Open Scope list_scope.

Lemma grid_size_count : forall (o : obj) (g : Z), arrays_ok o -> 0 <= p_ncells (st_p (ob_s o)) -> (0 <= g <= 4 <-> 0 <= GetGridSize g o).
Proof.
  intros o g A C. assert (N : 0 <= p_nfronts (st_p (ob_s o))) by (rewrite <- (ar_theta o A); lia). pose proof (ar_layers o A) as L.
  unfold GetGridSize. destruct (g =? 0) eqn:E0; cbn [orb]; [lia|]. destruct (g =? 1) eqn:E1; [lia|].
  destruct (g =? 2) eqn:E2; [lia|]. destruct (g =? 3) eqn:E3; [lia|]. destruct (g =? 4) eqn:E4; lia.
Qed.

Lemma grid_rank_iff : forall g, (0 <= g <= 4 <-> GetGridRank g = 1) /\ (GetGridRank g = 1 \/ GetGridRank g = -1).
Proof.
  intro g. unfold GetGridRank. destruct (g =? 0) eqn:E0, (g =? 1) eqn:E1, (g =? 2) eqn:E2, (g =? 3) eqn:E3, (g =? 4) eqn:E4; cbn [orb]; split; lia.
Qed.

Lemma shape_layers : forall (o : obj) (x : Z) (r : list Z), GetGridShape 2 o (x :: r) = Ok (GetGridSize 2 o :: r).
Proof. reflexivity. Qed.

Lemma shape_untouched : forall (o : obj) (g : Z) (a : list Z), g <> 2 -> g <> 3 -> GetGridShape g o a = Ok a.
Proof. intros o g a H2 H3. unfold GetGridShape. destruct (g =? 2) eqn:E2; [lia|]. destruct (g =? 3) eqn:E3; [lia|reflexivity]. Qed.

Lemma shape_fronts : forall (o : obj) (a : list Z),
  (Z.of_nat (length a) = GetGridRank 3 -> GetGridShape 3 o a = Stop (UB OutOfBounds)) /\
  (forall x y r, a = x :: y :: r -> GetGridShape 3 o a = Ok (x :: GetGridSize 3 o :: r)).
Proof.
  intros o a. split.
  - intro H. change (GetGridRank 3) with 1 in H. destruct a as [|x [|y r]]; [discriminate H|reflexivity|cbn [length] in H; lia].
  - intros x y r ->. reflexivity.
Qed.

Lemma no_layout : forall (a : list dbl),
  GetGridSpacing 0 layout0 a = Stop (UB Uninit) /\ GetGridOrigin 0 layout0 a = Stop (UB Uninit) /\
  (forall g y, g <> 0 -> GetGridSpacing g y a = Ok a /\ GetGridOrigin g y a = Ok a) /\
  (forall x z p q v r, a = v :: r -> GetGridSpacing 0 (mkLayout (Some x :: p) (Some z :: q)) a = Ok (x :: r) /\ GetGridOrigin 0 (mkLayout (Some x :: p) (Some z :: q)) a = Ok (z :: r)).
Proof.
  intro a. split; [reflexivity|]. split; [reflexivity|]. split; [|intros x z p q v r ->; split; reflexivity]. intros g y H. unfold GetGridSpacing, GetGridOrigin.
  destruct (g =? 0) eqn:E; [lia|auto].
Qed.
