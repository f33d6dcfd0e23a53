(** C45: the sign of the infiltration capacity for any rounding. *)

From Coq Require Import Reals Lra ZArith List Bool Lia.
From Verif Require Import Outcome Dbl Binary64 Types ListOps Soil Fronts Infil Lib Spec_Common Spec_CapNum Pf_Dbl Pf_Counts Pf_CapNum Ex_Clock64 Ex_LedgerFp.
Import ListNotations.
Open Scope R_scope.

(** C45, any rounding: unless the column holds more than its largest storage, the infiltration capacity is not negative (it may be NaN).  With the closed form of the drive every front's content
    has to be in the range of every soil (as in a column of one layer), or there are as many fronts as layers. *)
Theorem C45_capacity_not_negative :
  forall (fp : Fp) (cfg : Cfg) e closed nint dt aet w precip wfd head q cm ms, sound_column e -> Forall (sound_front e) head -> not_negative dt -> not_negative aet ->
  (closed = false \/ listLength head = e_nlayers e \/ forall k s c, soil_of e k = Ok s -> In c head -> closed_range s (f_theta c)) ->
  lgar_calc_mass_bal (e_cum e) head = Ok cm -> max_storage e = Ok ms -> dltb ms cm = false ->
  infiltration_capacity e closed nint dt aet w precip wfd head = Ok q -> not_negative q.
Proof. exact @capacity_nn. Qed.
Print Assumptions C45_capacity_not_negative.

(** C45, any rounding: then runoff, ponding and infiltration are finite numbers between 0 and the water on the surface. *)
Theorem C45_insertion_is_finite :
  forall (fp : Fp) (cfg : Cfg) e closed nint dt aet w precip wfd pm head q cm ms, sound_column e -> Forall (sound_front e) head -> 0 < dt -> not_negative aet -> rnd w = Fin w -> 0 <= w ->
  (closed = false \/ listLength head = e_nlayers e \/ forall k s c, soil_of e k = Ok s -> In c head -> closed_range s (f_theta c)) ->
  lgar_calc_mass_bal (e_cum e) head = Ok cm -> max_storage e = Ok ms -> dltb ms cm = false ->
  lgar_insert_water e closed nint (Fin dt) aet (Fin w) (Fin 0) precip wfd (Fin pm) head = Ok q ->
  exists r on i, q = (Fin r, Fin on, Fin i) /\ 0 <= r <= w /\ 0 <= on <= w /\ 0 <= i <= w.
Proof. exact @insert_whole. Qed.
Print Assumptions C45_insertion_is_finite.

(** Example: the saturated column of 64 cm in binary64; it holds exactly its largest storage of 32 cm. *)
Local Existing Instance binary64.
Example C45_capacity_concrete : sound_column (c6_env (Fin 10) (Fin 0)) /\ Forall (sound_front (c6_env (Fin 10) (Fin 0))) [c6_front] /\ listLength [c6_front] = e_nlayers (c6_env (Fin 10) (Fin 0)) /\
  lgar_calc_mass_bal (e_cum (c6_env (Fin 10) (Fin 0))) [c6_front] = Ok (Fin 32) /\ max_storage (c6_env (Fin 10) (Fin 0)) = Ok (Fin 32) /\ dltb (Fin 32) (Fin 32) = false.
Proof.
  assert (A2 : forall (x y z : dbl) k, aget [x; y] k = Ok z -> (k = 0%Z /\ z = x) \/ (k = 1%Z /\ z = y)).
  { intros x y z k H. unfold aget in H. destruct (k <? 0)%Z eqn:N; [discriminate H|]. apply Z.ltb_ge in N. destruct (Z.to_nat k) as [|[|j]] eqn:E; cbn in H.
    - injection H as <-. left. split; [lia|reflexivity].
    - injection H as <-. right. split; [lia|reflexivity].
    - destruct j; discriminate H. }
  assert (L : forall x y, y <= x -> dltb (Fin x) (Fin y) = false) by (intros; apply ltb_64f; assumption).
  split; [split; [|split]|].
  - intros k s H. unfold soil_of in H. bind_inv H t Et. clear Et. unfold uget, aget in H. destruct (t <? 0)%Z; [discriminate H|]. cbn [c6_env e_soils] in H.
    destruct (Z.to_nat t) as [|[|j]]; cbn [nth_error bind] in H; [discriminate H|injection H as <-; apply nn_Fin; lra|destruct j; discriminate H].
  - intros k x H. destruct (A2 _ _ _ _ H) as [(_ & ->)|(_ & ->)]; apply nn_Fin; lra.
  - intros k c1 c0 H H0. destruct (A2 _ _ _ _ H) as [(-> & ->)|(-> & ->)], (A2 _ _ _ _ H0) as [(K & ->)|(K & ->)]; try discriminate K; apply L; lra.
  - split; [constructor; [|constructor]; split; [apply nn_Fin; lra|]; intros c0 H; destruct (A2 _ _ _ _ H) as [(_ & ->)|(K & _)]; [apply L; lra|discriminate K]|].
    split; [reflexivity|]. split; [exact c6_mass|]. split; [apply rn_storage|apply L; lra].
Qed.
