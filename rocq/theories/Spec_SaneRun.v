(** Fronts without NaN in double precision, in columns of any number of layers. *)

From Coq Require Import Reals ZArith List.
From Verif Require Import Outcome Dbl Types Soil State Spec_Common Spec_Soil Spec_Calib Spec_Physical Spec_RoundMono Spec_SatRound Spec_StartRound.
Import ListNotations.
Open Scope R_scope.

Section Spec.
Context {fp : Fp}.

(** Every layer has a soil with doubles as parameters and with a finite positive 1/alpha, that conducts no better than [M]. *)
Definition double_column (M : R) (e : env) : Prop :=
  forall k s, (1 <= k <= e_nlayers e)%Z -> soil_of e k = Ok s ->
    double_soil s /\ (exists ks, s_Ksat s = Fin ks /\ ks <= M) /\ exists ia, (lit 1 / s_alpha s)%d = Fin ia /\ 0 < ia.

(** A water content that a front in this soil may have: it is not NaN, not below theta_r, and not above theta_e unless the retention curve is. *)
Definition wet (s : soil) (th : dbl) : Prop :=
  exists r te t, s_theta_r s = Fin r /\ s_theta_e s = Fin te /\ th = Fin t /\ holds s r te t /\ (te < t -> rnd t = Fin t).

(** The front lies in a layer of the column, its water content is one of that soil, its head is not negative and may be infinite, its conductivity lies
    between 0 and [M]. *)
Record whole_front (M : R) (e : env) (f : front) : Prop := {
  wh_layer : (1 <= f_layer f <= e_nlayers e)%Z;
  wh_water : exists s, soil_of e (f_layer f) = Ok s /\ wet s (f_theta f);
  wh_head : below (Fin 0) (f_psi f);
  wh_K : exists K, f_K f = Fin K /\ 0 <= K <= M
}.

(** A model instance with such fronts; as in [physical_state], no time step, ponding limit or amount of ponded water is negative. *)
Record whole_state (M : R) (s : state) : Prop := {
  ws_fronts : Forall (whole_front M (env_of s)) (st_head s);
  ws_frozen : frozen_in_range (env_of s);
  ws_column : double_column M (env_of s);
  ws_signs : not_negative (p_timestep (st_p s)) /\ not_negative (p_mints (st_p s)) /\ not_negative (p_fres (st_p s)) /\
    not_negative (p_pmax (st_p s)) /\ not_negative (mb_on_ts (st_mb s))
}.

(** Calibration values that keep a column double: no two layers share a soil type, the number of fronts is the one last published, and a soil with the values for
    layer [k] has doubles as parameters. *)
Record calibration_whole (M : R) (s : state) : Prop := {
  cw_fronts : p_nfronts (st_p s) = Z.of_nat (length (st_head s));
  cw_types : distinct_types (p_stype (st_p s)) (p_nlayers (st_p s));
  cw_values : forall k sl, (1 <= k <= p_nlayers (st_p s))%Z -> has_values (st_cal s) k sl ->
    double_soil sl /\ (exists ks, s_Ksat sl = Fin ks /\ ks <= M) /\ exists ia, (lit 1 / s_alpha sl)%d = Fin ia /\ 0 < ia;
  cw_pmax : not_negative (c_pmax (st_cal s))
}.

(** The boundaries of the layers are finite and increase with the depth. *)
Definition increasing_depths (s : state) : Prop :=
  forall k, (0 <= k < p_nlayers (st_p s))%Z -> exists z z', aget (p_cum (st_p s)) k = Ok (Fin z) /\ aget (p_cum (st_p s)) (k + 1)%Z = Ok (Fin z') /\ z < z'.

(** What is printed of a front: a finite, not negative water content, a head that is not NaN, a conductivity between 0 and [M]. *)
Definition printable (M : R) (f : front) : Prop :=
  (exists t, f_theta f = Fin t /\ 0 <= t) /\ f_psi f <> NaN /\ exists K, f_K f = Fin K /\ 0 <= K <= M.
End Spec.
