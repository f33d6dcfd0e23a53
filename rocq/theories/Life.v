(** The dynamic memory of a BmiLGAR object: what the constructor, Initialize, Update, Finalize and the destructor allocate and release.

    Wetting fronts live in the heap of HeapList.v.  The other blocks have no contents here, only a status; an address is never
    used twice.  Left out: containers of the standard library, and the two work arrays of lgar.cxx:1110-1111 and 1249-1250, which are released
    in the same block of the code (:1164-1165, :1307-1308). *)

From Coq Require Import String Reals ZArith List Bool Arith.
From RecordUpdate Require Import RecordSet.
From Verif Require Import Outcome Dbl Types HeapList Config.
Import ListNotations.
Import RecordSetNotations.

(** The pointers that own a block: [BmiLGAR::state] (bmi_lgar.hxx), the pointer members of struct model_state (all.hxx:103-227), and the two arrays
    of the BmiLGAR object itself. *)
Inductive slot : Type :=
  | Pstate
  | Psoils | Pdepth | Ptheta | PsoilT | PsoilTz | Ptype | Pcal_e | Pcal_r | Pcal_n | Pcal_alpha | Pcal_K
  | Pthick | Pcum | Pgiuh | Pfrozen | Pinput
  | Pord | Pqueue.

Scheme Equality for slot.

(** A pointer variable: indeterminate, NULL, or an address. *)
Inductive place : Type := Unset | Null | At (a : nat).

Inductive block : Type := BUnalloc | BFreed | BLive.

Record arena : Type := mkAr { ar_top : nat; ar_cell : nat -> block }.

(** [lf_head] and [lf_prev] are state->head and state->state_previous. *)
Record life : Type := mkLife { lf_nodes : heap; lf_head : ptr; lf_prev : ptr; lf_ar : arena; lf_slot : slot -> place }.
#[export] Instance eta_life : Settable _ := settable! mkLife <lf_nodes; lf_head; lf_prev; lf_ar; lf_slot>.

Definition set_slot (x : slot) (p : place) (f : slot -> place) : slot -> place := fun y => if slot_beq y x then p else f y.

(** [x = new T[n]] *)
Definition b_new (x : slot) (o : life) : life :=
  let a := ar_top (lf_ar o) in
  o <| lf_ar := mkAr (S a) (fun b => if Nat.eqb b a then BLive else ar_cell (lf_ar o) b) |> <| lf_slot := set_slot x (At a) (lf_slot o) |>.

(** A read or write through [x]. *)
Definition b_use (x : slot) (o : life) : outcome unit :=
  match lf_slot o x with
  | Unset => Stop (UB Uninit)
  | Null => Stop (UB NullDeref)
  | At a => match ar_cell (lf_ar o) a with BLive => Ok tt | BFreed => Stop (UB UseAfterFree) | BUnalloc => Stop (UB OutOfBounds) end
  end.

(** [delete [] x] *)
Definition b_delete (x : slot) (o : life) : outcome life :=
  match lf_slot o x with
  | Unset => Stop (UB Uninit)
  | Null => Ok o
  | At a =>
      match ar_cell (lf_ar o) a with
      | BLive => Ok (o <| lf_ar := mkAr (ar_top (lf_ar o)) (fun b => if Nat.eqb b a then BFreed else ar_cell (lf_ar o) b) |>)
      | BFreed => Stop (UB DoubleFree)
      | BUnalloc => Stop (UB OutOfBounds)
      end
  end.
Fixpoint b_deletes (xs : list slot) (o : life) : outcome life :=
  match xs with [] => Ok o | x :: r => o' <- b_delete x o ;; b_deletes r o' end.

(** The constructor, bmi_lgar.hxx:33: the two arrays are NULL, [state] is not set. *)
Definition l_construct : life :=
  mkLife (mkH 0 (fun _ => Unalloc)) None None (mkAr 0 (fun _ => BUnalloc)) (fun x => match x with Pord | Pqueue => Null | _ => Unset end).

(** The allocations of the loop over the lines: lgar.cxx:263-264, :293, :324. *)
Definition l_line (l : string) (o : life) : life :=
  if String.eqb (line_key l) "layer_thickness" then b_new Pcum (b_new Pthick o)
  else if String.eqb (line_key l) "layer_soil_type" then b_new Ptype o
  else if String.eqb (line_key l) "soil_z" then b_new PsoilTz o
  else o.
Fixpoint l_lines (ls : list string) (o : life) : life :=
  match ls with [] => o | l :: r => l_lines r (l_line l o) end.

(** InitializeWettingFronts, lgar.cxx:733-771: one listInsertFront (:761) per layer; the assignments of psi and K that follow are part of it here. *)
Fixpoint l_fronts (k : nat) (fs : list front) (o : life) : outcome life :=
  match fs with
  | [] => Ok o
  | f :: r =>
      '(h, p, _) <- h_listInsertFront k (f_psi f) (f_K f) (f_depth f) (f_theta f) (f_num f) (f_layer f) (f_bottom f) (lf_nodes o) (lf_head o) ;;
      l_fronts k r (o <| lf_nodes := h |> <| lf_head := p |>)
  end.

(** Initialize, bmi_lgar.cxx:32-58, for a configuration file with the lines [ls]: state (:36-38), the loop over the lines, soil_properties (lgar.cxx:558),
    giuh_ordinates (:642), soil_temperature (:667 or :676-677), frozen_factor (:688), the wetting fronts, lgar_bmi_input_params (:716),
    the arrays of lgar_initialize (:83-91), the arrays of the object (bmi_lgar.cxx:47-48). *)
Definition l_Initialize (k : nat) (ls : list string) (sft : bool) (fs : list front) (o : life) : outcome life :=
  let fresh := fun x => match x with Pord => lf_slot o Pord | Pqueue => lf_slot o Pqueue | _ => Unset end in
  let o := b_new Pstate (o <| lf_slot := fresh |> <| lf_head := None |> <| lf_prev := None |>) in
  let o := l_lines ls o in
  let o := b_new Pgiuh (b_new Psoils o) in
  let o := b_new PsoilT o in
  let o := if sft then o else b_new PsoilTz o in
  let o := b_new Pfrozen o in
  o <- l_fronts k fs o ;;
  let o := b_new Pinput o in
  let o := b_new Ptheta (b_new Pdepth o) in
  let o := b_new Pcal_K (b_new Pcal_alpha (b_new Pcal_n (b_new Pcal_r (b_new Pcal_e o)))) in
  Ok (b_new Pqueue (b_new Pord o)).

(** What Update does to memory, as single actions in any order and number:
    - assignments to the data members of a node of the list;
    - listInsertFirst (lgar.cxx:2129, 2139, 2142) with the assignments that follow;
    - listDeleteFront (lgar.cxx:1216, 1615, 1793, 1844);
    - the previous profile is released and copied again (bmi_lgar.cxx:221-225, 351-355);
    - realloc_soil (bmi_lgar.cxx:64-71). *)
Inductive action : Type :=
  | AEdit (i : nat) (f : front)
  | AInsert (f : front)
  | ADelete (num : Z)
  | ACopy
  | ARealloc.

(** The [i]-th node from [p] on. *)
Fixpoint h_walk (i : nat) (h : heap) (p : ptr) : outcome ptr :=
  match i with O => Ok p | S i' => n <- h_load h p ;; h_walk i' h (n_next n) end.

Definition l_action (k : nat) (a : action) (o : life) : outcome life :=
  _ <- b_use Pstate o ;;
  match a with
  | AEdit i f =>
      p <- h_walk i (lf_nodes o) (lf_head o) ;;
      n <- h_load (lf_nodes o) p ;;
      h <- h_store (lf_nodes o) p (mkN f (n_next n)) ;;
      Ok (o <| lf_nodes := h |>)
  | AInsert f =>
      '(h, p) <- h_listInsertFirst k (f_psi f) (f_K f) (f_depth f) (f_theta f) (f_num f) (f_layer f) (f_bottom f) (lf_nodes o) (lf_head o) ;;
      Ok (o <| lf_nodes := h |> <| lf_head := p |>)
  | ADelete num =>
      '(h, p, _) <- h_listDeleteFront k num (lf_nodes o) (lf_head o) ;;
      Ok (o <| lf_nodes := h |> <| lf_head := p |>)
  | ACopy =>
      h <- (match lf_prev o with None => Ok (lf_nodes o) | Some _ => h_listDelete k (lf_nodes o) (lf_prev o) end) ;;
      '(h', p) <- h_listCopy k h (lf_head o) ;;
      Ok (o <| lf_nodes := h' |> <| lf_prev := p |>)
  | ARealloc =>
      o <- b_deletes [Pdepth; Ptheta] o ;;
      Ok (b_new Ptheta (b_new Pdepth o))
  end.
Fixpoint l_actions (k : nat) (xs : list action) (o : life) : outcome life :=
  match xs with [] => Ok o | a :: r => o' <- l_action k a o ;; l_actions k r o' end.

(** Finalize, bmi_lgar.cxx:662-690; the printed summary reads the state and the runoff queue. *)
Definition l_Finalize (k : nat) (o : life) : outcome life :=
  _ <- b_use Pstate o ;;
  _ <- b_use Pqueue o ;;
  h <- h_listDelete k (lf_nodes o) (lf_head o) ;;
  h <- h_listDelete k h (lf_prev o) ;;
  b_deletes [Psoils; Pdepth; Ptheta; PsoilT; PsoilTz; Ptype; Pcal_e; Pcal_r; Pcal_n; Pcal_alpha; Pcal_K;
             Pthick; Pcum; Pgiuh; Pfrozen; Pinput; Pstate] (o <| lf_nodes := h |>).

(** The destructor, bmi_lgar.cxx:24-27. *)
Definition l_destroy (o : life) : outcome life := b_deletes [Pord; Pqueue] o.
