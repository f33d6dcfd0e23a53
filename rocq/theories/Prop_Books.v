(** C76: where the water is in a column of several layers, and what one pass of the motion does with it. *)

From Coq Require Import Reals Lra ZArith List Lia Bool.
From Verif Require Import Outcome Dbl Exact Types ListOps Soil Fronts Infil Move State Lib Spec_Common Spec_Soil Spec_List Spec_Profile Spec_Storage Spec_Update Spec_Column
  Spec_Advance Spec_Balance Spec_Shares Pf_Profile Pf_Shares Pf_Books Ex_Saturated Ex_Unsaturated Ex_Safety Ex_Advance Ex_Books.
Import ListNotations.
Open Scope R_scope.
Local Existing Instance exact.

(** ** C76 *)

(** The water in the column is the sum of the shares of the fronts: what each holds more than the column would hold without it, in its own layer and in the
    layers above. *)
Theorem C76_storage_is_the_shares :
  forall (e : env) (qs : list part) (l : list front),
    strata e qs -> profile (e_nlayers e) (e_cum e) l -> Forall (fun f => finite (f_depth f)) l -> Forall (on_curve qs) l -> heads_meet e l ->
    storage l = Rsum (shares qs l).
Proof. intros e qs l H. exact (attribution e qs H l). Qed.
Print Assumptions C76_storage_is_the_shares.

(** The books of one pass.  Each front ends with its share from before, plus the rain and less the demand at the front that supplies it, or its
    entry says which of the four exits of the iteration left the rest; the new storage is the sum of these entries. *)
Theorem C76_books_of_a_pass :
  forall (cfg : Cfg) (e : env) (qs : list part) (dt precip aet : R) (head l' : list front) (a' : dbl),
    strata e qs -> profile (e_nlayers e) (e_cum e) head -> deepest_rests head -> heads_meet e head ->
    Forall (on_curve qs) head -> Forall (moves_down qs) head -> 0 <= dt ->
    let wfd := wetting_front_free_drainage head in
    move_loop (length head) e (Fin dt) (Fin precip) wfd head (listLength head) head (Fin aet) = Ok (l', a') ->
    exists (d : nat -> R) (aet' : R),
      a' = Fin aet' /\ books qs wfd precip aet aet' head l' d /\ Forall (on_curve qs) l' /\ heads_meet e l' /\
      storage l' = storage head + (precip - d (Z.to_nat wfd)) + Rsum (map (misfit qs wfd precip head l' d) (seq 0 (length head))).
Proof. exact @pass_books. Qed.
Print Assumptions C76_books_of_a_pass.

(** When the demand that is met exceeds the rain, no front becomes wetter, the demand only becomes smaller, and the storage changes by the rain less the demand up
    to the tolerance of the iteration for each front and twice the part of the demand that is not met. *)
Theorem C76_dry_pass :
  forall (cfg : Cfg) (e : env) (qs : list part) (dt precip aet : R) (head l' : list front) (aet' : R),
    strata e qs -> profile (e_nlayers e) (e_cum e) head -> deepest_rests head -> heads_meet e head ->
    Forall (on_curve qs) head -> Forall (moves_down qs) head -> drier_downwards head ->
    Forall (fun f => val (f_depth f) <= top_of qs (e_nlayers e + 1)) head -> 0 <= dt -> 0 <= precip -> precip < aet' ->
    let wfd := wetting_front_free_drainage head in
    move_loop (length head) e (Fin dt) (Fin precip) wfd head (listLength head) head (Fin aet) = Ok (l', Fin aet') ->
    Forall2 (fun c c' => val (f_theta c') <= val (f_theta c)) head l' /\ aet' <= aet /\
    Rabs (storage l' - (storage head + precip - aet)) <= INR (length head) * tol + 2 * (aet - aet').
Proof. exact @dry_pass. Qed.
Print Assumptions C76_dry_pass.

(** A front in the second of two layers, at 1 cm/h for two hours: it is the one that supplies the demand, and its share is spread over both layers. *)
Example C76_concrete_second_layer :
  strata ti_env bk_column /\ profile (e_nlayers ti_env) (e_cum ti_env) ad_head /\ deepest_rests ad_head /\ heads_meet ti_env ad_head /\
  Forall (on_curve bk_column) ad_head /\ Forall (moves_down bk_column) ad_head /\ wetting_front_free_drainage ad_head = 2%Z /\
  forall cfg : Cfg, move_loop (length ad_head) ti_env (Fin 2) (Fin 0) 2 ad_head (listLength ad_head) ad_head (Fin 0) = Ok (ad_after, Fin 0).
Proof.
  split; [exact bk_strata|]. split; [exact ad_profile|]. split; [intros f E; injection E as <-; reflexivity|]. split; [exact ad_meet|].
  split; [exact ad_on_curve|]. split; [exact ad_moves_down|]. split; [reflexivity|]. exact bk_moves.
Qed.

(** A front in the first of two layers: 1 mm of rain, 1 cm of evapotranspiration, and a loss of 0.9 cm. *)
Example C76_concrete_dry :
  strata ti_env bk_column /\ profile (e_nlayers ti_env) (e_cum ti_env) bk_head /\ deepest_rests bk_head /\ heads_meet ti_env bk_head /\
  Forall (on_curve bk_column) bk_head /\ Forall (moves_down bk_column) bk_head /\ drier_downwards bk_head /\
  Forall (fun f => val (f_depth f) <= top_of bk_column (e_nlayers ti_env + 1)) bk_head /\ wetting_front_free_drainage bk_head = 1%Z /\
  (forall cfg : Cfg, move_loop (length bk_head) ti_env (Fin 4) (Fin (1 / 10)) 1 bk_head (listLength bk_head) bk_head (Fin 1) = Ok (bk_after, Fin 1)) /\
  storage bk_after = storage bk_head - 9 / 10.
Proof.
  split; [exact bk_strata|]. split; [exact bk_profile|]. split; [intros f E; injection E as <-; reflexivity|]. split; [exact bk_meet|].
  split; [exact bk_on_curve|]. split; [exact bk_moves_down|]. split; [exact bk_drier|]. split; [exact bk_inside|]. split; [reflexivity|]. split; [exact bk_dries|].
  cbn. lra.
Qed.
