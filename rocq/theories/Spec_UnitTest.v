(** What the unit test of the interface establishes when it passes. *)

From Coq Require Import String Reals ZArith List Bool.
From RecordUpdate Require Import RecordSet.
From Verif Require Import Outcome Dbl Types State Update.
Import ListNotations.
Import RecordSetNotations.
Open Scope R_scope.

Section Spec.
Context {fp : Fp}.

(** The two states that are updated: the first one with rain of 1.896 mm/h and PET of 0.104 mm/h, the second one with other soil parameters, rain of 1.2 mm/h and PET of 3 mm/h. *)
Definition test_rain (s : state) : state := s <| st_precip := rnd (1896 / 1000) |> <| st_pet := rnd (104 / 1000) |>.
Definition test_parameters (s : state) : state :=
  s <| st_cal := mkCal [rnd (3513 / 10000); rnd (3773 / 10000); rnd (3617 / 10000)] (c_theta_r (st_cal s))
                   [rnd (144260592334 / 100000000000); rnd (114965918354 / 100000000000); rnd (139051695249 / 100000000000)]
                   [rnd (21297 / 10000000); rnd (73272 / 10000000); rnd (27454 / 10000000)] [rnd (446 / 1000); rnd (743 / 10000); rnd (415 / 1000)] (rnd (1033 / 10)) (rnd 1) |>
    <| st_precip := rnd (12 / 10) |> <| st_pet := rnd 3 |>.

(** [x] lies within 1.E-5 of [y]; or the difference is not a number. *)
Definition within (x y : dbl) : Prop := dltb (dabs (x - y)%d) (rnd (1 / 100000)) = true.
Definition not_off (x y : dbl) : Prop := dltb (rnd (1 / 100000)) (dabs (x - y)%d) = false.

(** Four fronts are published, with the depths (in m) and moistures of the benchmark (in cm), and infiltration, PET and AET (in m) agree with the benchmark (in mm). *)
Record benchmark (t : state) : Prop := {
  bm_depth : exists d1 d2 d3 d4, p_depth_wf (st_p t) = [d1; d2; d3; d4] /\ within (rnd (455355239489608365 / 100000000000000000)) (d1 * rnd 100)%d /\ within (rnd 44) (d2 * rnd 100)%d /\
    within (rnd 175) (d3 * rnd 100)%d /\ within (rnd 200) (d4 * rnd 100)%d;
  bm_theta : exists m1 m2 m3 m4, p_theta_wf (st_p t) = [m1; m2; m3; m4] /\ within (rnd (21371581122514613 / 100000000000000000)) m1 /\ within (rnd (17270389607163267 / 100000000000000000)) m2 /\
    within (rnd (25211383152603861 / 100000000000000000)) m3 /\ within (rnd (17959348005962811 / 100000000000000000)) m4;
  bm_fluxes : exists b, st_out t = Some b /\ not_off (rnd (1896 / 1000)) (o_in b * rnd 1000)%d /\ not_off (rnd (104 / 1000)) (o_pet b * rnd 1000)%d /\
    not_off (rnd (2980092620558239 / 100000000000000000)) (o_aet b * rnd 1000)%d
}.
End Spec.

(** In exact arithmetic: the published depths (in m) and moistures of four fronts lie within 1.E-5 (cm, or a fraction) of the benchmark; infiltration, PET and AET (in m) lie within 1.E-5 mm of theirs unless
    they are no numbers. *)
Definition published_benchmark (t : state) : Prop :=
  exists d1 d2 d3 d4 m1 m2 m3 m4 b, p_depth_wf (st_p t) = [Fin d1; Fin d2; Fin d3; Fin d4] /\ p_theta_wf (st_p t) = [Fin m1; Fin m2; Fin m3; Fin m4] /\ st_out t = Some b /\
    Rabs (100 * d1 - 455355239489608365 / 100000000000000000) < 1 / 100000 /\ Rabs (100 * d2 - 44) < 1 / 100000 /\ Rabs (100 * d3 - 175) < 1 / 100000 /\ Rabs (100 * d4 - 200) < 1 / 100000 /\
    Rabs (m1 - 21371581122514613 / 100000000000000000) < 1 / 100000 /\ Rabs (m2 - 17270389607163267 / 100000000000000000) < 1 / 100000 /\
    Rabs (m3 - 25211383152603861 / 100000000000000000) < 1 / 100000 /\ Rabs (m4 - 17959348005962811 / 100000000000000000) < 1 / 100000 /\
    (o_in b = NaN \/ exists r, o_in b = Fin r /\ Rabs (1000 * r - 1896 / 1000) <= 1 / 100000) /\ (o_pet b = NaN \/ exists r, o_pet b = Fin r /\ Rabs (1000 * r - 104 / 1000) <= 1 / 100000) /\
    (o_aet b = NaN \/ exists r, o_aet b = Fin r /\ Rabs (1000 * r - 2980092620558239 / 100000000000000000) <= 1 / 100000).
