(** C98: what water on the surface does to the velocities of the fronts. *)

From Coq Require Import Reals Lra ZArith List Bool Lia.
From Verif Require Import Outcome Dbl Exact Types Soil Fronts Infil Move State Update Lib Spec_Common Spec_Column Spec_Velocity Spec_Ponding Spec_Speed Pf_Speed Pf_Speed2 Pf_Ponding2 Pf_Velocity Pf_Layers Ex_Saturated Ex_Unsaturated Ex_Soil Ex_Safety Ex_Storage Ex_Dry Ex_Velocity Ex_Speed.
Import ListNotations.
Open Scope R_scope.
Local Existing Instance exact.

(** C98: with more water on the surface the fronts are the same but for their velocities, and each front that is free to move is faster by [k (h' - h) / (z (t - t'))], up to 10^4 cm/h. *)
Theorem C98_ponded_water_speeds_fronts :
  forall (cfg : Cfg) e closed nint h h' l l1 l2, h <= h' -> lgar_dzdt_calc e closed nint (Fin h) l = Ok l1 -> lgar_dzdt_calc e closed nint (Fin h') l = Ok l2 ->
  same_but_dzdt l1 l2 /\ speeded e h h' l l1 l2.
Proof. exact @calc_speed. Qed.
Print Assumptions C98_ponded_water_speeds_fronts.

(** A front at 60 cm in the second layer, with a step of 0.06 in the water content below it: 6 cm of water make it faster by 5/3 cm/h. *)
Example C98_concrete : forall cfg : Cfg, exists x l1 l2, 0 < x /\ x <> 1 / 1000000000 /\
  lgar_dzdt_calc ti_env true 120 (Fin 0) ve_two = Ok l1 /\ lgar_dzdt_calc ti_env true 120 (Fin 6) ve_two = Ok l2 /\
  map f_dzdt l1 = [Fin 0; Fin x; Fin 0] /\ map f_dzdt l2 = [Fin 0; Fin (x + 5 / 3); Fin 0] /\ conducts ti_env (ve_front 60 (2 / 5) 0 1 2 2 false) 1.
Proof.
  intro cfg. destruct (ve_geff cfg) as (G & EG & HG0 & HG1). exists (50 / 3 * (1 + G / 60)).
  assert (V : forall h, 0 <= h <= 6 -> dzdt_front ti_env true 120 (Fin h) (ve_front 60 (2 / 5) 0 1 2 2 false) (ve_front 100 (17 / 50) 75 (1 / 10) 2 3 true) = Ok (Fin (50 / 3 * (1 + (G + h) / 60)))).
  { intros h Hh. rewrite (velocity_two_layers cfg ti_env [25; 75] [ex_soil; ex_soil] (ve_front 60 (2 / 5) 0 1 2 2 false) (ve_front 100 (17 / 50) 75 (1 / 10) 2 3 true) true 120 ex_soil 2 0 [1] 60 25 1 1 1 G h (2 / 5) (17 / 50) so_column);
      try first [reflexivity|lra|exact EG|apply ve_two_conductivities|cbn; lia|repeat constructor; lra|left; lia].
    do 2 f_equal. assert (Q : resistance [25; 75] [1] = 25) by (unfold resistance; cbn; field). rewrite Q. unfold layered_velocity. rewrite Rmin_right; field_simplify; try lra. }
  assert (L : forall h, 0 <= h <= 6 -> lgar_dzdt_calc ti_env true 120 (Fin h) ve_two = Ok [ve_front 25 (2 / 5) 0 1 1 1 true; set_dzdt (ve_front 60 (2 / 5) 0 1 2 2 false) (Fin (50 / 3 * (1 + (G + h) / 60))); ve_front 100 (17 / 50) 75 (1 / 10) 2 3 true]).
  { intros h Hh. unfold lgar_dzdt_calc, ve_two. cbn [dzdt_loop]. change (f_K (ve_front 25 (2 / 5) 0 1 1 1 true)) with (Fin 1). change (f_K (ve_front 60 (2 / 5) 0 1 2 2 false)) with (Fin 1). change (f_K (ve_front 100 (17 / 50) 75 (1 / 10) 2 3 true)) with (Fin (1 / 10)).
    assert (K1 : (Fin 1 <? Fin 0)%d = false) by (cbn; unfold Rltb; destruct (Rlt_dec _ _); [lra|reflexivity]). assert (K2 : (Fin (1 / 10) <? Fin 0)%d = false) by (cbn; unfold Rltb; destruct (Rlt_dec _ _); [lra|reflexivity]).
    rewrite K1, K2. change (f_layer (ve_front 25 (2 / 5) 0 1 1 1 true)) with 1%Z. change (f_layer (ve_front 60 (2 / 5) 0 1 2 2 false)) with 2%Z. change (f_layer (ve_front 100 (17 / 50) 75 (1 / 10) 2 3 true)) with 2%Z. change (f_bottom (ve_front 25 (2 / 5) 0 1 1 1 true)) with true. change (f_bottom (ve_front 60 (2 / 5) 0 1 2 2 false)) with false. change (soil_of ti_env 1) with (Ok ex_soil). change (soil_of ti_env 2) with (Ok ex_soil). change (aget (e_frozen ti_env) 1) with (Ok (Fin 1)). change (aget (e_frozen ti_env) 2) with (Ok (Fin 1)). cbn [bind].
    rewrite (V h Hh). reflexivity. }
  eexists _, _. split; [lra|]. split; [lra|]. split; [apply L; lra|]. split; [apply L; lra|].
  split; [cbn [map]; apply f_equal; apply f_equal2; [cbn; apply f_equal; field|reflexivity]|]. split; [cbn [map]; apply f_equal; apply f_equal2; [cbn; apply f_equal; field|reflexivity]|]. exists ex_soil, 1, 1. repeat split. ring.
Qed.

(** C98, any rounding: at the end of a sub-step the velocities are those for the water left on the surface, or those for no water; after rain in the sub-step before, if water is left, they are the former. *)
Theorem C98_velocities_of_a_substep :
  forall (fp : Fp) (cfg : Cfg) u s a t a', substep u s a = Ok (t, a') ->
  (lgar_dzdt_calc (u_env u) (u_closed u) (u_nint u) (a_on a') (st_head t) = Ok (st_head t) \/ lgar_dzdt_calc (u_env u) (u_closed u) (u_nint u) (Fin 0) (st_head t) = Ok (st_head t)) /\
  ((p_precip_prev (st_p s) =? Fin 0)%d = false -> (a_on a' >? Fin 0)%d = true -> lgar_dzdt_calc (u_env u) (u_closed u) (u_nint u) (a_on a') (st_head t) = Ok (st_head t)).
Proof. exact @substep_speed. Qed.
Print Assumptions C98_velocities_of_a_substep.

(** C98 is false for the sub-step that makes a new front: 0.5 cm of water are left on the surface and the velocities are those for no water. *)
Theorem C98_new_front_ignores_water_refuted : forall cfg : Cfg, exists u s a t a',
  substep u s a = Ok (t, a') /\ a_on a' = Fin (1 / 2) /\ lgar_dzdt_calc (u_env u) (u_closed u) (u_nint u) (Fin 0) (st_head t) = Ok (st_head t) /\
  lgar_dzdt_calc (u_env u) (u_closed u) (u_nint u) (a_on a') (st_head t) <> Ok (st_head t).
Proof.
  intro cfg. destruct (sp_substep 2) as (psi & k & t & a' & Hk & E & O & _ & HH); [lra|]. exists (ex_upar 1 2), (sp_start 2), (acc0 (Fin 34) (Fin 0)), t, a'.
  destruct (Rlt_dec (1 / 2) 2); [|lra]. split; [exact E|]. split; [exact O|]. rewrite O, HH. change (u_env (ex_upar 1 2)) with ex_env. change (u_closed (ex_upar 1 2)) with true. change (u_nint (ex_upar 1 2)) with 120%Z.
  rewrite !sp_dzdt by lra. split; [reflexivity|]. intro X. apply Ok_inj in X. apply (f_equal (map f_dzdt)) in X. cbn [map f_dzdt sp_new] in X. injection X as X. unfold sp_v in X. lra.
Qed.
Print Assumptions C98_new_front_ignores_water_refuted.

(** Hence a larger limit for ponded water, which leaves more of it, can make the new front slower. *)
Theorem C98_larger_limit_is_faster_refuted : forall cfg : Cfg, exists pm pm' t t' a1 a2 f g r r' x y, 0 < pm < pm' /\
  substep (ex_upar 1 pm) (sp_start pm) (acc0 (Fin 34) (Fin 0)) = Ok (t, a1) /\ substep (ex_upar 1 pm') (sp_start pm') (acc0 (Fin 34) (Fin 0)) = Ok (t', a2) /\
  a_on a1 = Fin (1 / 4) /\ a_on a2 = Fin (1 / 2) /\ st_head t = f :: r /\ st_head t' = g :: r' /\ f_dzdt f = Fin x /\ f_dzdt g = Fin y /\ y < x.
Proof.
  intro cfg. destruct (sp_substep (1 / 4)) as (psi & k & t & a1 & Hk & EE1 & O1 & J1 & HH1); [lra|]. destruct (sp_substep 2) as (psi' & k' & t' & a2 & Hk' & EE2 & O2 & J2 & HH2); [lra|].
  assert (S : same_but_dzdt (st_head t) (st_head t')).
  { eapply (substep_any ex_env 1 120 true (Fin 15495) (Fin 341) (Fin (1 / 4)) (Fin 2) (sp_start (1 / 4)) (sp_start 2) (acc0 (Fin 34) (Fin 0)) t t' a1 a2); try reflexivity; [lra|exact EE1|exact EE2|]. rewrite J1, J2. tauto. }
  rewrite HH1, HH2 in S. inversion S as [|p1 p2 p3 p4 (_ & _ & _ & KK & _) _]; subst. cbn [f_K sp_new] in KK. injection KK as ->.
  exists (1 / 4), 2, t, t', a1, a2. destruct (Rlt_dec (1 / 2) (1 / 4)); [lra|]. destruct (Rlt_dec (1 / 2) 2); [|lra].
  do 6 eexists. split; [lra|]. split; [exact EE1|]. split; [exact EE2|]. split; [exact O1|]. split; [exact O2|]. split; [exact HH1|]. split; [exact HH2|]. split; [reflexivity|]. split; [reflexivity|]. unfold sp_v. lra.
Qed.
Print Assumptions C98_larger_limit_is_faster_refuted.
