(** What may influence what: states, calls and files that must not make a difference. *)

From Coq Require Import String Reals ZArith List Bool.
From RecordUpdate Require Import RecordSet.
From Verif Require Import Outcome Dbl Types State Update Bmi Config Driver Spec_Update.
Import ListNotations.
Import RecordSetNotations.

(** What an Update publishes: the eleven fluxes, and number, water contents and depths of the fronts; and the fronts themselves. *)
Definition published (s : state) : option bout * Z * list dbl * list dbl * list front :=
  (st_out s, p_nfronts (st_p s), p_theta_wf (st_p s), p_depth_wf (st_p s), st_head s).

(** A session: before each Update the client writes what it likes through the interface.  Recorded are the forcing and the soil temperatures at the time of the Update, and what is published after it. *)
Inductive session {fp : Fp} {cfg : Cfg} : state -> list ((dbl * dbl * list dbl) * (option bout * Z * list dbl * list dbl * list front)) -> state -> Prop :=
| ss_end : forall s, session s [] s
| ss_step : forall s s1 s2 rs s3, user_edit s s1 -> Update s1 = Ok s2 -> session s2 rs s3 ->
    session s (((st_precip s1, st_pet s1, p_soilT (st_p s1)), published s2) :: rs) s3.

(** States that differ in the unit hydrograph, in the water on its way through it, in its totals and in the published fluxes. *)
Definition rerouted (s s' : state) : Prop :=
  exists n o q a b out, s' = s <| g_N := n |> <| g_ord := o |> <| g_queue := q |> <| st_mb := (st_mb s) <| mb_giuh := a |> <| mb_Q := b |> |> <| st_out := out |>.
(** The published fluxes without the routed runoff and the discharge. *)
Definition unrouted (b : bout) : list dbl := [o_precip b; o_in b; o_end b; o_aet b; o_rech b; o_runoff b; o_Qgw b; o_pet b; o_mb b].

(** The arrays of the unit hydrograph have room for its ordinates, of which there is at least one. *)
Definition routes (s : state) : Prop := (1 <= g_N s <= Z.of_nat (List.length (g_ord s)))%Z /\ (g_N s < Z.of_nat (List.length (g_queue s)))%Z.
(** Two executions that both end, with related results, or stop for the same reason. *)
Definition both {A B} (R : A -> B -> Prop) (m : outcome A) (m' : outcome B) : Prop :=
  match m, m' with Ok a, Ok b => R a b | Stop w, Stop w' => w = w' | _, _ => False end.

(** Configurations that differ in lines with the key giuh_ordinates only. *)
Definition other_hydrograph (l l' : string) : Prop := l = l' \/ line_key l = "giuh_ordinates"%string /\ line_key l' = "giuh_ordinates"%string.
(** Lines of the output that agree in everything but giuh_runoff and total_discharge (cells 4 and 6). *)
Definition same_but_routing (r r' : outrow) : Prop :=
  w_time r = w_time r' /\ w_fronts r = w_fronts r' /\ List.length (w_vars r) = List.length (w_vars r') /\
  forall k, k <> 4%nat -> k <> 6%nat -> nth_error (w_vars r) k = nth_error (w_vars r') k.

(** Forcings that agree in their first [k] rows. *)
Definition same_until (k : nat) (f f' : forcing) : Prop :=
  firstn k (fo_time f) = firstn k (fo_time f') /\ firstn k (fo_precip f) = firstn k (fo_precip f') /\ firstn k (fo_pet f) = firstn k (fo_pet f').
