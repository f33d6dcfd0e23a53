(** Data structures of include/all.hxx. *)

From Coq Require Import Reals ZArith List Bool.
From Verif Require Import Outcome Dbl.
Import ListNotations.

(** [struct wetting_front], include/all.hxx:47-58.
    The [next] pointer is represented by the position in a Coq list (file HeapList.v models the pointers). *)
Record front : Type := mkF {
  f_depth : dbl;     (* depth_cm *)
  f_theta : dbl;     (* theta *)
  f_psi : dbl;       (* psi_cm *)
  f_K : dbl;         (* K_cm_per_h *)
  f_layer : Z;       (* layer_num *)
  f_num : Z;         (* front_num *)
  f_bottom : bool;   (* to_bottom *)
  f_dzdt : dbl       (* dzdt_cm_per_h *)
}.

Definition set_depth (f : front) x := mkF x (f_theta f) (f_psi f) (f_K f) (f_layer f) (f_num f) (f_bottom f) (f_dzdt f).
Definition set_theta (f : front) x := mkF (f_depth f) x (f_psi f) (f_K f) (f_layer f) (f_num f) (f_bottom f) (f_dzdt f).
Definition set_psi (f : front) x := mkF (f_depth f) (f_theta f) x (f_K f) (f_layer f) (f_num f) (f_bottom f) (f_dzdt f).
Definition set_K (f : front) x := mkF (f_depth f) (f_theta f) (f_psi f) x (f_layer f) (f_num f) (f_bottom f) (f_dzdt f).
Definition set_layer (f : front) x := mkF (f_depth f) (f_theta f) (f_psi f) (f_K f) x (f_num f) (f_bottom f) (f_dzdt f).
Definition set_num (f : front) x := mkF (f_depth f) (f_theta f) (f_psi f) (f_K f) (f_layer f) x (f_bottom f) (f_dzdt f).
Definition set_bottom (f : front) x := mkF (f_depth f) (f_theta f) (f_psi f) (f_K f) (f_layer f) (f_num f) x (f_dzdt f).
Definition set_dzdt (f : front) x := mkF (f_depth f) (f_theta f) (f_psi f) (f_K f) (f_layer f) (f_num f) (f_bottom f) x.

(** [struct soil_properties_], include/all.hxx:61-80; the soil name and the unused Smax/theta_wp fields that no
    computation reads are left out. *)
Record soil : Type := mkSoil {
  s_theta_r : dbl;   (* theta_r *)
  s_theta_e : dbl;   (* theta_e *)
  s_alpha : dbl;     (* vg_alpha_per_cm *)
  s_n : dbl;         (* vg_n *)
  s_m : dbl;         (* vg_m *)
  s_lambda : dbl;    (* bc_lambda *)
  s_psib : dbl;      (* bc_psib_cm *)
  s_hmin : dbl;      (* h_min_cm *)
  s_Ksat : dbl       (* Ksat_cm_per_h *)
}.

(** The arrays every hydraulic routine receives.  Index 0 of [e_stype] and of [e_soils] is never written by the code
    (layers and soil types start at 1), and neither are table rows that were not read from the file: such a cell
    is [None]. *)
Record env : Type := mkEnv {
  e_nlayers : Z;                  (* num_layers *)
  e_cum : list dbl;               (* cum_layer_thickness_cm[0..num_layers] *)
  e_stype : list (option Z);      (* layer_soil_type[0..num_layers] *)
  e_soils : list (option soil);   (* soil_properties[] *)
  e_frozen : list dbl             (* frozen_factor[0..num_layers] *)
}.

(** Read of a cell that may never have been written. *)
Definition uget {A : Type} (a : list (option A)) (i : Z) : outcome A :=
  x <- aget a i ;; match x with Some v => Ok v | None => Stop (UB Uninit) end.

(** [soil_properties[soil_type[layer]]], the access pattern of all routines. *)
Definition soil_of (e : env) (layer : Z) : outcome soil :=
  t <- uget (e_stype e) layer ;; uget (e_soils e) t.

(** Dereference of the pointer to position [i] of the list. *)
Definition lget (l : list front) (i : nat) : outcome front :=
  match nth_error l i with Some f => Ok f | None => Stop (UB NullDeref) end.

(** Step budget of the unbounded numerical loops, and whether the build is the standalone one (no NGEN macro).
    Theorems hold for every value. *)
Class Cfg : Type := {
  fuel : nat;
  ngen : bool
}.
