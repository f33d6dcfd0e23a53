(** Cutting the forcing interval into parts: what must be the same and what must add up. *)

From Coq Require Import String Reals ZArith List.
From RecordUpdate Require Import RecordSet.
From Verif Require Import Outcome Dbl Types State Update Bmi Config Driver.
Import ListNotations.
Import RecordSetNotations.

(** States of the same column of soil: they may differ in the length of the forcing interval, in the hydrograph and the water on its way through it, in what was published last and in the ledger, with the
    exception of the water ponded on the surface and of the balance of the last sub-step. *)
Definition recut (s s' : state) : Prop :=
  exists f i nf tw dw out n o q mb,
    s' = s <| st_p := (st_p s) <| p_fres := f |> <| p_finterval := i |> <| p_nfronts := nf |> <| p_theta_wf := tw |> <| p_depth_wf := dw |> |>
           <| st_out := out |> <| g_N := n |> <| g_ord := o |> <| g_queue := q |> <| st_mb := mb <| mb_local := mb_local (st_mb s) |> |> /\
    mb_on_ts mb = mb_on_ts (st_mb s).
(** The same fronts are published. *)
Definition same_fronts (s s' : state) : Prop :=
  p_nfronts (st_p s) = p_nfronts (st_p s') /\ p_theta_wf (st_p s) = p_theta_wf (st_p s') /\ p_depth_wf (st_p s) = p_depth_wf (st_p s').

Section Split.
Context {fp : Fp} {cfg : Cfg}.

(** The number of sub-steps in a forcing interval, when they are of fixed length. *)
Definition substeps_of (s : state) (n : Z) : Prop := d2i (p_fres (st_p s) / p_timestep (st_p s) + lit (1 / 100000000))%d = Ok n.
(** [k] calls of Update with the same forcing: the states after them. *)
Fixpoint updates (k : nat) (s : state) : outcome (list state) :=
  match k with
  | O => Ok []
  | S k' => t <- Update s ;; ts <- updates k' t ;; Ok (t :: ts)
  end.
(** The sum of a flux over several states; a state without outputs does not count. *)
Definition total (g : bout -> dbl) (ts : list state) : dbl := fold_right (fun t x => match st_out t with Some b => (g b + x)%d | None => x end) (Fin 0) ts.
(** A state that an Update computes with, without pending calibration, soil temperatures and adaptive steps. *)
Definition plain (s : state) : Prop := p_invalid (st_p s) = false /\ p_calib (st_p s) = false /\ p_sft (st_p s) = false /\ p_adaptive (st_p s) = false.
End Split.

(** ** The standalone program *)

(** A forcing in which every step is cut into [k] steps with the same rates. *)
Definition cut_steps (k : nat) (p : string * dbl * dbl) (qs : list (string * dbl * dbl)) : Prop :=
  List.length qs = k /\ forall q, In q qs -> snd (fst q) = snd (fst p) /\ snd q = snd p.
(** A line of output and the lines of the [k] parts of its step.  After the last part there are the same fronts, the same storage (cell 5) and the same balance of the last sub-step (cell 10). *)
Definition same_column (k : nat) (r : outrow) (qs : list outrow) : Prop :=
  List.length qs = k /\ exists q, last (map Some qs) None = Some q /\ w_fronts q = w_fronts r /\ nth_error (w_vars q) 5 = nth_error (w_vars r) 5 /\ nth_error (w_vars q) 10 = nth_error (w_vars r) 10.
(** The sum of the cells [j] of some lines. *)
Inductive adds {fp : Fp} (j : nat) : list outrow -> dbl -> Prop :=
| ad_nil : adds j [] (Fin 0)
| ad_cons : forall r rs x y, nth_error (w_vars r) j = Some (D x) -> adds j rs y -> adds j (r :: rs) (x + y)%d.
(** Precipitation, potential and actual evapotranspiration, runoff, infiltration and recharge of the step are the sums over its parts. *)
Definition same_fluxes {fp : Fp} (r : outrow) (qs : list outrow) : Prop :=
  forall j, In j [0; 1; 2; 3; 7; 8]%nat -> exists x, nth_error (w_vars r) j = Some (D x) /\ adds j qs x.

(** Configurations that differ in lines with the key forcing_resolution only. *)
Definition other_resolution (l l' : string) : Prop := l = l' \/ line_key l = "forcing_resolution"%string /\ line_key l' = "forcing_resolution"%string.
